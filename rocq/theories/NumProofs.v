(** Decimal digits of a number and the number read from them. *)
From Coq Require Import String QArith Qabs Qpower Lqa Floats.SpecFloat.
From Verif Require Import Base TextModel TextProofs FloatProofs SFloatProofs ScaleModel ScaleNum NumModel.
Open Scope Z_scope.

(** * Powers of ten *)
Definition t10 (e : Z) : Q := Qpower 10 e.
Lemma t10_pos e : (0 < t10 e)%Q.
Proof. apply Qpower_0_lt. reflexivity. Qed.
Lemma t10_plus a b : (t10 (a + b) == t10 a * t10 b)%Q.
Proof. apply Qpower_plus. discriminate. Qed.
Lemma t10_Z n : 0 <= n -> (t10 n == inject_Z (10 ^ n))%Q.
Proof. intros H. unfold t10. rewrite Zpower_Qpower by exact H. reflexivity. Qed.
Lemma t10_le a b : a <= b -> (t10 a <= t10 b)%Q.
Proof. intros H. unfold t10. apply Qpower_le_compat_l; [exact H|discriminate]. Qed.
Lemma t10_lt_inv a b : (t10 a < t10 b)%Q -> a < b.
Proof. intros H. destruct (Z_lt_dec a b) as [L|L]; [exact L|exfalso]. apply (Qlt_not_le _ _ H). apply t10_le. lia. Qed.
Lemma t10_inv e : (t10 (- e) * t10 e == 1)%Q.
Proof. rewrite <- t10_plus. replace (- e + e) with 0 by lia. reflexivity. Qed.
Lemma t10_succ e : (t10 (e + 1) == 10 * t10 e)%Q.
Proof. rewrite t10_plus. change (t10 1) with 10%Q. ring. Qed.

Definition rat (n d : Z) : Q := inject_Z n / inject_Z d.
Lemma injZ_pos d : 0 < d -> (0 < inject_Z d)%Q.
Proof. intros H. change 0%Q with (inject_Z 0). now apply injZ_lt. Qed.
Lemma rat_mul n d : 0 < d -> (rat n d * inject_Z d == inject_Z n)%Q.
Proof. intros H. unfold rat. pose proof (injZ_pos d H). field. intros E. rewrite E in H0. now apply Qlt_irrefl in H0. Qed.
Lemma rat_unique n d x : 0 < d -> (x * inject_Z d == inject_Z n)%Q -> (x == rat n d)%Q.
Proof.
  intros H E. pose proof (injZ_pos d H) as P. apply (Qmult_inj_r _ _ (inject_Z d)); [intros F; rewrite F in P; now apply Qlt_irrefl in P|].
  rewrite E. symmetry. now apply rat_mul.
Qed.
Lemma rat_pos n d : 0 < n -> 0 < d -> (0 < rat n d)%Q.
Proof. intros H1 H2. unfold rat. apply Qlt_shift_div_l; [now apply injZ_pos|]. rewrite Qmult_0_l. now apply injZ_pos. Qed.

Lemma scaled_ok n d k : 0 < d -> let '(a, b) := scaled n d k in 0 < b /\ (rat a b == rat n d * t10 k)%Q.
Proof.
  intros H. unfold scaled. destruct (Z.leb_spec 0 k) as [K|K].
  - split; [exact H|]. symmetry. apply rat_unique; [exact H|]. rewrite inject_Z_mult, <- t10_Z by exact K.
    transitivity (rat n d * inject_Z d * t10 k)%Q; [ring|]. rewrite rat_mul by exact H. reflexivity.
  - assert (0 < d * 10 ^ (- k)) by (apply Z.mul_pos_pos; [exact H|apply Z.pow_pos_nonneg; lia]). split; [assumption|].
    symmetry. apply rat_unique; [assumption|]. rewrite inject_Z_mult, <- t10_Z by lia.
    transitivity (rat n d * inject_Z d * (t10 (- k) * t10 k))%Q; [ring|]. rewrite rat_mul, t10_inv by exact H. ring.
Qed.

(** * Rounding to an integer *)
Lemma rhe_ok n d : 0 < d -> (Qabs (inject_Z (rhe n d) - rat n d) <= 1 # 2)%Q.
Proof.
  intros H. pose proof (injZ_pos d H) as P. pose proof (rat_mul n d H) as M.
  pose proof (Z.div_mod n d ltac:(lia)) as E. pose proof (Z.mod_pos_bound n d H) as B.
  assert (R : (inject_Z n == inject_Z d * inject_Z (n / d) + inject_Z (n mod d))%Q) by (rewrite <- inject_Z_mult, <- inject_Z_plus, <- E; reflexivity).
  assert (K : forall k, (Qabs (inject_Z k - rat n d) <= 1 # 2 <-> Qabs (inject_Z k * inject_Z d - inject_Z n) <= (1 # 2) * inject_Z d)%Q).
  { intros k. rewrite <- M. setoid_replace (inject_Z k * inject_Z d - rat n d * inject_Z d)%Q with ((inject_Z k - rat n d) * inject_Z d)%Q by ring.
    rewrite Qabs_Qmult, (Qabs_pos (inject_Z d)) by (now apply Qlt_le_weak). symmetry. apply Qmult_le_r. exact P. }
  apply K. rewrite R. unfold rhe. cbv zeta.
  assert (H2 : forall a b : Z, a <= b -> (inject_Z a <= inject_Z b)%Q) by (intros; now apply injZ_le).
  assert (D2 : (inject_Z (2 * (n mod d)) == 2 * inject_Z (n mod d))%Q) by (rewrite inject_Z_mult; reflexivity).
  assert (S : (inject_Z (n / d + 1) == inject_Z (n / d) + 1)%Q) by (rewrite inject_Z_plus; reflexivity).
  assert (M0 : (0 <= inject_Z (n mod d))%Q) by (apply (H2 0); lia).
  assert (M1 : (inject_Z (n mod d) <= inject_Z d)%Q) by (apply H2; lia).
  destruct (Z.compare_spec (2 * (n mod d)) d) as [C|C|C].
  - assert (C' : (2 * inject_Z (n mod d) == inject_Z d)%Q) by (rewrite <- D2, C; reflexivity).
    destruct (Z.even (n / d)); apply Qabs_Qle_condition; [split; nra|rewrite S; split; nra].
  - assert (C' : (2 * inject_Z (n mod d) < inject_Z d)%Q) by (rewrite <- D2; now apply injZ_lt).
    apply Qabs_Qle_condition; split; nra.
  - assert (C' : (inject_Z d < 2 * inject_Z (n mod d))%Q) by (rewrite <- D2; now apply injZ_lt).
    rewrite S. apply Qabs_Qle_condition; split; nra.
Qed.
Lemma rhe_unique n d k : 0 < d -> (Qabs (rat n d - inject_Z k) < 1 # 2)%Q -> rhe n d = k.
Proof.
  intros H A. pose proof (rhe_ok n d H) as B. set (q := rhe n d) in *. clearbody q. apply Qabs_Qle_condition in B. apply Qabs_Qlt_condition in A.
  assert (inject_Z q < inject_Z (k + 1))%Q by (rewrite inject_Z_plus; change (inject_Z 1) with 1%Q; lra).
  assert (inject_Z k < inject_Z (q + 1))%Q by (rewrite inject_Z_plus; change (inject_Z 1) with 1%Q; lra).
  rewrite injZ_lt in *. lia.
Qed.

(** * Digits *)
Lemma dval_cons c r : dval (c :: r) = (c - 48) * 10 ^ Z.of_nat (length r) + dval r.
Proof. unfold dval at 1. cbn [fold_left]. rewrite dval_from. lia. Qed.
Lemma dval_nil : dval [] = 0.
Proof. reflexivity. Qed.
Lemma dval_bound s : all is_digit s -> 0 <= dval s < 10 ^ Z.of_nat (length s).
Proof.
  induction 1 as [|c r C R IH]; [cbn; lia|]. rewrite dval_cons. cbn [length]. rewrite Nat2Z.inj_succ, Z.pow_succ_r by lia.
  unfold is_digit in C. nia.
Qed.
Lemma dval_lead s : all is_digit s -> s <> [] -> stops (Z.eqb 48) s -> 10 ^ (Z.of_nat (length s) - 1) <= dval s.
Proof.
  intros A N S. destruct s as [|c r]; [congruence|]. apply Forall_cons_iff in A. destruct A as [C R]. cbn [stops] in S. rewrite dval_cons. cbn [length].
  rewrite Nat2Z.inj_succ. replace (Z.succ (Z.of_nat (length r)) - 1) with (Z.of_nat (length r)) by lia.
  pose proof (dval_bound r R). unfold is_digit in C. nia.
Qed.
Lemma dval_cat a b : dval (a ++ b) = dval a * 10 ^ Z.of_nat (length b) + dval b.
Proof. unfold dval at 1. rewrite fold_left_app. apply dval_from. Qed.
Lemma dval_zeros k : dval (repeat 48 k) = 0.
Proof. induction k as [|k IH]; [reflexivity|]. cbn [repeat]. rewrite dval_cons, IH. lia. Qed.
Lemma dec_digits_len f n k : 10 ^ (k - 1) <= n < 10 ^ k -> 0 < k -> n < 10 ^ Z.of_nat (S f) -> Z.of_nat (length (dec_digits (S f) n)) = k.
Proof.
  intros H K F. assert (P : 0 < 10 ^ (k - 1)) by (apply Z.pow_pos_nonneg; lia).
  destruct (dec_digits_spec f n ltac:(lia)) as (A & B & C & D). specialize (D ltac:(lia)).
  pose proof (dval_bound _ B) as U. pose proof (dval_lead _ B A D) as L. rewrite C in U, L. set (l := Z.of_nat (length (dec_digits (S f) n))) in *.
  assert (0 < l) by (unfold l; destruct (dec_digits (S f) n); [congruence|cbn [length]; lia]).
  destruct (Z.lt_trichotomy l k) as [T|[T|T]]; [exfalso|exact T|exfalso].
  - pose proof (Z.pow_le_mono_r 10 l (k - 1) ltac:(lia) ltac:(lia)). lia.
  - pose proof (Z.pow_le_mono_r 10 k (l - 1) ltac:(lia) ltac:(lia)). lia.
Qed.
Lemma ndigits_ok n : 0 < n -> 0 < ndigits n /\ 10 ^ (ndigits n - 1) <= n < 10 ^ ndigits n.
Proof.
  intros H. unfold ndigits. set (f := Z.to_nat (Z.log2 n)).
  assert (F : n < 10 ^ Z.of_nat (S f)).
  { unfold f. pose proof (Z.log2_spec n H) as [_ L]. pose proof (Z.log2_nonneg n). rewrite Nat2Z.inj_succ, Z2Nat.id by lia.
    eapply Z.lt_le_trans; [exact L|]. apply Z.pow_le_mono_l. lia. }
  destruct (dec_digits_spec f n ltac:(lia)) as (A & B & C & D). specialize (D ltac:(lia)).
  pose proof (dval_bound _ B) as U. pose proof (dval_lead _ B A D) as L. rewrite C in U, L.
  split; [|split; [exact L|apply U]]. destruct (dec_digits (S f) n); [congruence|cbn [length]; lia].
Qed.

(** * The decimal exponent *)
Lemma exponent10_ok n d : 0 < n -> 0 < d -> (t10 (exponent10 n d) <= rat n d < t10 (exponent10 n d + 1))%Q.
Proof.
  intros Hn Hd. unfold exponent10. cbv zeta. destruct (ndigits_ok n Hn) as (An & Ln & Un). destruct (ndigits_ok d Hd) as (Ad & Ld & Ud).
  set (a := ndigits n) in *. set (b := ndigits d) in *. clearbody a b. set (e := a - b).
  pose proof (scaled_ok n d (- e) Hd) as S. destruct (scaled n d (- e)) as [p q]. destruct S as [Q0 S].
  pose proof (rat_mul n d Hd) as M. pose proof (rat_pos n d Hn Hd) as XP. set (x := rat n d) in *. clearbody x.
  apply injZ_le in Ln, Ld. apply injZ_lt in Un, Ud. rewrite <- t10_Z in Ln, Un, Ld, Ud by lia.
  assert (UP : (x < t10 (e + 1))%Q).
  { assert (E : (t10 (e + 1) * t10 (b - 1) == t10 a)%Q) by (rewrite <- t10_plus; unfold e; replace (a - b + 1 + (b - 1)) with a by lia; reflexivity).
    pose proof (t10_pos (e + 1)). pose proof (t10_pos (b - 1)). nra. }
  assert (LO : (t10 (e - 1) < x)%Q).
  { assert (E : (t10 (e - 1) * t10 b == t10 (a - 1))%Q) by (rewrite <- t10_plus; unfold e; replace (a - b - 1 + b) with (a - 1) by lia; reflexivity).
    pose proof (t10_pos (e - 1)). pose proof (t10_pos b). nra. }
  pose proof (rat_mul p q Q0) as M2. pose proof (injZ_pos q Q0) as QP. pose proof (t10_inv e) as I. pose proof (t10_pos e) as TP. pose proof (t10_pos (- e)) as TN.
  destruct (Z.leb_spec q p) as [C|C].
  - apply injZ_le in C. split; [|exact UP]. rewrite S in M2.
    assert (K : (1 <= x * t10 (- e))%Q) by (apply (Qmult_le_r _ _ (inject_Z q) QP); rewrite M2; lra).
    apply (Qmult_le_r _ _ (t10 (- e)) TN). rewrite (Qmult_comm (t10 e)), I. exact K.
  - apply injZ_lt in C. replace (e - 1 + 1) with e by lia. split; [apply Qlt_le_weak, LO|]. rewrite S in M2.
    assert (K : (x * t10 (- e) < 1)%Q) by (apply (Qmult_lt_r _ _ (inject_Z q) QP); rewrite M2; lra).
    apply (Qmult_lt_r _ _ (t10 (- e)) TN). rewrite (Qmult_comm (t10 e)), I. exact K.
Qed.
Lemma exponent10_unique A B x : (t10 A <= x < t10 (A + 1))%Q -> (t10 B <= x < t10 (B + 1))%Q -> A = B.
Proof.
  intros [H1 H2] [H3 H4]. assert (A < B + 1) by (apply t10_lt_inv; eapply Qle_lt_trans; eassumption).
  assert (B < A + 1) by (apply t10_lt_inv; eapply Qle_lt_trans; eassumption). lia.
Qed.

(** * The significant digits *)
Lemma sig_digits_ok P n d D X : 1 <= P -> 0 < n -> 0 < d -> sig_digits P n d = (D, X) ->
  10 ^ (P - 1) <= D < 10 ^ P /\
  exists X0, (t10 X0 <= rat n d < t10 (X0 + 1))%Q /\ X0 <= X <= X0 + 1 /\
    (Qabs (inject_Z D * t10 (X - P + 1) - rat n d) <= (1 # 2) * t10 (X0 - P + 1))%Q.
Proof.
  intros HP Hn Hd. unfold sig_digits. cbv zeta. pose proof (exponent10_ok n d Hn Hd) as E. set (X0 := exponent10 n d) in *. clearbody X0.
  pose proof (scaled_ok n d (P - 1 - X0) Hd) as S. destruct (scaled n d (P - 1 - X0)) as [a b]. destruct S as [B0 S].
  pose proof (rhe_ok a b B0) as R. rewrite S in R. set (k := rhe a b) in *. clearbody k. set (x := rat n d) in *. clearbody x.
  assert (I : (t10 (P - 1 - X0) * t10 (X0 - P + 1) == 1)%Q) by (rewrite <- t10_plus; replace (P - 1 - X0 + (X0 - P + 1)) with 0 by lia; reflexivity).
  assert (T1 : (t10 X0 * t10 (P - 1 - X0) == inject_Z (10 ^ (P - 1)))%Q) by (rewrite <- t10_plus, <- t10_Z by lia; replace (X0 + (P - 1 - X0)) with (P - 1) by lia; reflexivity).
  assert (T2 : (t10 (X0 + 1) * t10 (P - 1 - X0) == inject_Z (10 ^ P))%Q) by (rewrite <- t10_plus, <- t10_Z by lia; replace (X0 + 1 + (P - 1 - X0)) with P by lia; reflexivity).
  pose proof (t10_pos (P - 1 - X0)) as U1. pose proof (t10_pos (X0 - P + 1)) as U2.
  assert (ACC : (Qabs (inject_Z k * t10 (X0 - P + 1) - x) <= (1 # 2) * t10 (X0 - P + 1))%Q).
  { setoid_replace (inject_Z k * t10 (X0 - P + 1) - x)%Q with ((inject_Z k - x * t10 (P - 1 - X0)) * t10 (X0 - P + 1))%Q.
    - rewrite Qabs_Qmult, (Qabs_pos (t10 (X0 - P + 1))) by (now apply Qlt_le_weak). apply Qmult_le_r; assumption.
    - transitivity (inject_Z k * t10 (X0 - P + 1) - x * (t10 (P - 1 - X0) * t10 (X0 - P + 1)))%Q; [rewrite I; ring|ring]. }
  apply Qabs_Qle_condition in R.
  assert (Z1 : (inject_Z (10 ^ (P - 1)) <= x * t10 (P - 1 - X0))%Q) by (rewrite <- T1; apply Qmult_le_r; [exact U1|apply E]).
  assert (Z2 : (x * t10 (P - 1 - X0) < inject_Z (10 ^ P))%Q) by (rewrite <- T2; apply Qmult_lt_r; [exact U1|apply E]).
  assert (K1 : 10 ^ (P - 1) < k + 1) by (apply injZ_lt; rewrite inject_Z_plus; change (inject_Z 1) with 1%Q; lra).
  assert (K2 : k < 10 ^ P + 1) by (apply injZ_lt; rewrite inject_Z_plus; change (inject_Z 1) with 1%Q; lra).
  assert (PP : 10 ^ P = 10 * 10 ^ (P - 1)) by (rewrite <- Z.pow_succ_r by lia; f_equal; lia). assert (0 < 10 ^ (P - 1)) by (apply Z.pow_pos_nonneg; lia).
  destruct (Z.eqb_spec k (10 ^ P)) as [K|K]; intros [= <- <-].
  - split; [lia|]. exists X0. split; [exact E|]. split; [lia|].
    assert (EQ : (inject_Z (10 ^ (P - 1)) * t10 (X0 + 1 - P + 1) == inject_Z k * t10 (X0 - P + 1))%Q).
    { rewrite K, PP, inject_Z_mult. replace (X0 + 1 - P + 1) with (X0 - P + 1 + 1) by lia. rewrite t10_succ. change (inject_Z 10) with 10%Q. ring. }
    rewrite EQ. exact ACC.
  - split; [lia|]. exists X0. split; [exact E|]. split; [lia|exact ACC].
Qed.

Lemma sig_digits_stable P n d D X : 1 <= P -> 0 < n -> 0 < d -> 10 ^ (P - 1) <= D < 10 ^ P ->
  (Qabs (rat n d - inject_Z D * t10 (X - P + 1)) < (1 # 2) * (inject_Z D * t10 (X - P + 1)) * t10 (- P))%Q ->
  sig_digits P n d = (D, X).
Proof.
  intros HP Hn Hd HD HY. unfold sig_digits. cbv zeta. pose proof (exponent10_ok n d Hn Hd) as E. set (X0 := exponent10 n d) in *. clearbody X0.
  pose proof (fun k => scaled_ok n d k Hd) as S. set (y := rat n d) in *.
  assert (PP : 10 ^ P = 10 * 10 ^ (P - 1)) by (rewrite <- Z.pow_succ_r by lia; f_equal; lia).
  set (u := t10 (X - P + 1)) in *. pose proof (t10_pos (X - P + 1)) as U0. fold u in U0.
  assert (TX : (t10 X == inject_Z (10 ^ (P - 1)) * u)%Q) by (unfold u; rewrite <- t10_Z, <- t10_plus by lia; replace (P - 1 + (X - P + 1)) with X by lia; reflexivity).
  assert (TX1 : (t10 (X + 1) == inject_Z (10 ^ P) * u)%Q) by (unfold u; rewrite <- t10_Z, <- t10_plus by lia; replace (P + (X - P + 1)) with (X + 1) by lia; reflexivity).
  assert (V : (inject_Z (10 ^ P) * t10 (- P) == 1)%Q) by (rewrite <- t10_Z, Qmult_comm by lia; apply t10_inv).
  set (w := t10 (- P)) in *. assert (W0 : (0 < w)%Q) by apply t10_pos.
  assert (D1 : (inject_Z (10 ^ (P - 1)) <= inject_Z D)%Q) by (apply injZ_le; lia).
  assert (D2 : (inject_Z D + 1 <= inject_Z (10 ^ P))%Q) by (change 1%Q with (inject_Z 1); rewrite <- inject_Z_plus; apply injZ_le; lia).
  assert (T0 : (0 < inject_Z (10 ^ (P - 1)))%Q) by (apply injZ_pos, Z.pow_pos_nonneg; lia).
  assert (PQ : (inject_Z (10 ^ P) == 10 * inject_Z (10 ^ (P - 1)))%Q) by (rewrite PP, inject_Z_mult; reflexivity).
  set (m := inject_Z (10 ^ (P - 1))) in *. set (M := inject_Z (10 ^ P)) in *. set (DD := inject_Z D) in *.
  assert (HY' : (Qabs (y - DD * u) < (1 # 2) * u)%Q).
  { eapply Qlt_le_trans; [exact HY|]. assert (DD * w <= 1)%Q by nra. nra. }
  pose proof HY as HYb. apply Qabs_Qlt_condition in HY'. apply Qabs_Qlt_condition in HYb.
  destruct (Qlt_le_dec y (t10 X)) as [L|L].
  - (* just below a power of ten *)
    assert (DM : D = 10 ^ (P - 1)).
    { destruct (Z.eq_dec D (10 ^ (P - 1))) as [Q|Q]; [exact Q|exfalso].
      assert (m + 1 <= DD)%Q by (unfold m, DD; change 1%Q with (inject_Z 1); rewrite <- inject_Z_plus; apply injZ_le; lia). nra. }
    assert (DQ : (DD == m)%Q) by (unfold DD, m; rewrite DM; reflexivity).
    assert (XX : X0 = X - 1).
    { eapply exponent10_unique; [exact E|]. replace (X - 1 + 1) with X by lia. split; [|exact L].
      assert (t10 X == 10 * t10 (X - 1))%Q by (rewrite <- t10_succ; replace (X - 1 + 1) with X by lia; reflexivity).
      assert (m >= 1)%Q by (unfold m; change 1%Q with (inject_Z 1); apply injZ_le; assert (0 < 10 ^ (P - 1)) by (apply Z.pow_pos_nonneg; lia); lia). nra. }
    specialize (S (P - 1 - X0)). destruct (scaled n d (P - 1 - X0)) as [a b]. destruct S as [B0 S].
    assert (R : rhe a b = 10 ^ P).
    { apply rhe_unique; [exact B0|]. rewrite S. fold M.
      assert (ST : (u * t10 (P - 1 - X0) == 10)%Q) by (unfold u; rewrite <- t10_plus; replace (X - P + 1 + (P - 1 - X0)) with 1 by lia; reflexivity).
      set (t := t10 (P - 1 - X0)) in *. assert (t0 : (0 < t)%Q) by apply t10_pos.
      assert (A1 : (m * u * w * t == 1)%Q). { transitivity (m * w * (u * t))%Q; [ring|]. rewrite ST. transitivity (10 * m * w)%Q; [ring|]. rewrite <- PQ. exact V. }
      assert (A2 : (m * u * t == M)%Q). { transitivity (m * (u * t))%Q; [ring|]. rewrite ST, PQ. ring. }
      rewrite DQ in HYb. destruct HYb as [B1 B2]. apply Qabs_Qlt_condition.
      apply (Qmult_lt_r _ _ t t0) in B1. apply (Qmult_lt_r _ _ t t0) in B2. split; nra. }
    rewrite R, Z.eqb_refl, DM. f_equal. lia.
  - assert (XX : X0 = X).
    { eapply exponent10_unique; [exact E|]. split; [exact L|]. rewrite TX1. nra. }
    specialize (S (P - 1 - X0)). destruct (scaled n d (P - 1 - X0)) as [a b]. destruct S as [B0 S].
    assert (R : rhe a b = D).
    { apply rhe_unique; [exact B0|]. rewrite S. fold DD.
      assert (ST : (u * t10 (P - 1 - X0) == 1)%Q) by (unfold u; rewrite <- t10_plus; replace (X - P + 1 + (P - 1 - X0)) with 0 by lia; reflexivity).
      set (t := t10 (P - 1 - X0)) in *. assert (t0 : (0 < t)%Q) by apply t10_pos.
      destruct HY' as [B1 B2]. apply Qabs_Qlt_condition.
      apply (Qmult_lt_r _ _ t t0) in B1. apply (Qmult_lt_r _ _ t t0) in B2. split; nra. }
    rewrite R, XX. destruct (Z.eqb_spec D (10 ^ P)); [lia|reflexivity].
Qed.

(** * Reading *)
Lemma round_ratio_op n d N : 0 < n -> 0 < d -> (rat n d < b2 N)%Q -> N <= 1023 -> op_ok 53 1024 (rat n d) N (round_ratio n d).
Proof.
  intros Hn Hd HX HN. unfold round_ratio. cbv zeta. set (k := Z.log2 n - Z.log2 d). set (e := Z.min (fexp 53 1024 k) (k - 2)).
  assert (S : exists a b, (if 0 <=? e then (n, d * 2 ^ e) else (n * 2 ^ (- e), d)) = (a, b) /\ 0 < a /\ 0 < b /\ (rat a b == rat n d * b2 (- e))%Q).
  { destruct (Z.leb_spec 0 e) as [K|K]; eexists _, _; (split; [reflexivity|]).
    - assert (0 < 2 ^ e) by (apply Z.pow_pos_nonneg; lia). split; [exact Hn|]. split; [nia|]. symmetry. apply rat_unique; [nia|].
      rewrite inject_Z_mult, <- b2_Z by lia. transitivity (rat n d * inject_Z d * (b2 (- e) * b2 e))%Q; [ring|]. rewrite rat_mul, b2_mult_inv by exact Hd. ring.
    - assert (0 < 2 ^ (- e)) by (apply Z.pow_pos_nonneg; lia). split; [nia|]. split; [exact Hd|]. symmetry. apply rat_unique; [exact Hd|].
      rewrite inject_Z_mult, <- b2_Z by lia. transitivity (rat n d * inject_Z d * b2 (- e))%Q; [ring|]. rewrite rat_mul by exact Hd. ring. }
  destruct S as (a & b & -> & Ha & Hb & S).
  assert (KL : (b2 (k - 1) < rat n d < b2 (k + 1))%Q).
  { pose proof (Z.log2_spec n Hn) as [n1 n2]. pose proof (Z.log2_spec d Hd) as [d1 d2]. pose proof (Z.log2_nonneg n). pose proof (Z.log2_nonneg d).
    apply injZ_le in n1, d1. apply injZ_lt in n2, d2. rewrite <- b2_Z in n1, n2, d1, d2 by lia.
    pose proof (rat_mul n d Hd) as M. pose proof (rat_pos n d Hn Hd) as XP. set (x := rat n d) in *. clearbody x.
    assert (E1 : (b2 (k - 1) * b2 (Z.succ (Z.log2 d)) == b2 (Z.log2 n))%Q) by (rewrite <- b2_plus; unfold k; replace (Z.log2 n - Z.log2 d - 1 + Z.succ (Z.log2 d)) with (Z.log2 n) by lia; reflexivity).
    assert (E2 : (b2 (k + 1) * b2 (Z.log2 d) == b2 (Z.succ (Z.log2 n)))%Q) by (rewrite <- b2_plus; unfold k; replace (Z.log2 n - Z.log2 d + 1 + Z.log2 d) with (Z.succ (Z.log2 n)) by lia; reflexivity).
    pose proof (b2_pos (k - 1)) as P1. pose proof (b2_pos (k + 1)) as P2. pose proof (b2_pos (Z.log2 d)) as P3. set (dq := inject_Z d) in *. set (nq := inject_Z n) in *.
    set (u := b2 (k - 1)) in *. set (v := b2 (k + 1)) in *. set (ld := b2 (Z.log2 d)) in *. clearbody dq nq u v ld. clear HX.
    split; [clear E2 v P2|clear E1 u P1].
    - destruct (Qlt_le_dec u x) as [L|L]; [exact L|exfalso].
      assert (x * dq <= u * dq)%Q by (apply Qmult_le_r; lra).
      assert (u * dq < u * b2 (Z.succ (Z.log2 d)))%Q by (apply Qmult_lt_l; lra). lra.
    - destruct (Qlt_le_dec x v) as [L|L]; [exact L|exfalso].
      assert (v * dq <= x * dq)%Q by (apply Qmult_le_r; lra).
      assert (v * ld <= v * dq)%Q by (apply Qmult_le_l; lra). lra. }
  assert (FL : (inject_Z (a / b) <= rat a b < inject_Z (a / b) + 1)%Q).
  { pose proof (Z.div_mod a b ltac:(lia)) as E. pose proof (Z.mod_pos_bound a b Hb) as B. pose proof (rat_mul a b Hb) as M. pose proof (injZ_pos b Hb) as P.
    assert (R : (inject_Z a == inject_Z b * inject_Z (a / b) + inject_Z (a mod b))%Q) by (rewrite <- inject_Z_mult, <- inject_Z_plus, <- E; reflexivity).
    assert (0 <= inject_Z (a mod b))%Q by (apply (injZ_le 0); lia). assert (inject_Z (a mod b) < inject_Z b)%Q by (apply injZ_lt; lia). split; nra. }
  assert (ek : e <= k - 2) by (unfold e; lia).
  assert (LO : (b2 (k - 1 - e) < rat a b)%Q). { rewrite S. replace (k - 1 - e) with (k - 1 + - e) by lia. rewrite b2_plus. apply Qmult_lt_r; [apply b2_pos|apply KL]. }
  assert (HI : (rat a b < b2 (k + 1 - e))%Q). { rewrite S. replace (k + 1 - e) with (k + 1 + - e) by lia. rewrite b2_plus. apply Qmult_lt_r; [apply b2_pos|apply KL]. }
  rewrite b2_Z in LO, HI by lia.
  assert (M1 : 2 ^ (k - 1 - e) < a / b + 1) by (apply injZ_lt; rewrite inject_Z_plus; change (inject_Z 1) with 1%Q; eapply Qlt_trans; [exact LO|apply FL]).
  assert (M2 : a / b < 2 ^ (k + 1 - e)) by (apply injZ_lt; eapply Qle_lt_trans; [apply FL|exact HI]).
  pose proof (Z.mod_pos_bound a b Hb) as RB. pose proof (new_location_ok b (a mod b) (a / b) Hb RB) as NL.
  assert (P2 : 0 < 2 ^ (k - 1 - e)) by (apply Z.pow_pos_nonneg; lia).
  destruct (a / b) as [|m|m] eqn:Em; [lia| |lia]. specialize (NL ltac:(lia)).
  apply round_aux_op; try lia; [| |exact HX].
  - eapply inb_eq; [|exact NL]. rewrite <- S. apply rat_unique; [exact Hb|]. pose proof (injZ_pos b Hb) as P.
    transitivity (inject_Z (Zpos m) * inject_Z b + inject_Z (a mod b))%Q.
    + field. intros F. rewrite F in P. now apply Qlt_irrefl in P.
    + rewrite <- inject_Z_mult, <- inject_Z_plus. rewrite <- Em. apply inject_Z_injective. pose proof (Z.div_mod a b ltac:(lia)). lia.
  - assert (k - e <= Zpos (digits2_pos m)) by (apply digits2_ge; [lia|replace (k - e - 1) with (k - 1 - e) by lia; lia]).
    unfold e in *. unfold fexp in *. lia.
Qed.
