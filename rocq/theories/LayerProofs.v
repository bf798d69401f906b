(** The floating-point classification of pyramid layers is exact. *)
From Verif Require Import Base RectModel CodecModel CoordModel StatModel StatSpec FloatProofs.
From Coq Require Import QArith Qpower Qabs Lqa Floats.SpecFloat.
Open Scope Z_scope.

Local Notation dnn := (nn 53 1024).
Local Notation dop := (op_ok 53 1024).
Definition quot64 (p q : Z) : spec_float := f64_div (f64_of_Z p) (f64_of_Z q).

Lemma injZ_pos n : 0 < n -> (0 < inject_Z n)%Q.
Proof. intros H. change 0%Q with (inject_Z 0). apply injZ_lt. exact H. Qed.

Lemma quot64_op p q N : 0 < p < 2 ^ 31 -> 0 < q < 2 ^ 31 -> (inject_Z p / inject_Z q < b2 N)%Q -> N <= 1023 -> dop (inject_Z p / inject_Z q) N (quot64 p q).
Proof.
  intros Hp Hq HX HN.
  destruct (sf_of_Z_exact 53 1024 ltac:(lia) ltac:(lia) p ltac:(lia)) as [Np Qp]. destruct (sf_of_Z_exact 53 1024 ltac:(lia) ltac:(lia) q ltac:(lia)) as [Nq Qq].
  assert (Pq := injZ_pos q ltac:(lia)).
  assert (X : (sfQ (sf_of_Z 53 1024 p) / sfQ (sf_of_Z 53 1024 q) == inject_Z p / inject_Z q)%Q) by (rewrite Qp, Qq; reflexivity).
  eapply op_ok_eq; [exact X|]. unfold quot64, f64_div, f64_of_Z. change (binary_normalize 53 1024 p 0 false) with (sf_of_Z 53 1024 p).
  change (binary_normalize 53 1024 q 0 false) with (sf_of_Z 53 1024 q). apply SFdiv_op; try lia; try assumption.
  - rewrite Qq. exact Pq.
  - rewrite X. apply Qle_shift_div_l; [exact Pq|]. apply Qle_trans with (b2 (-40) * inject_Z q)%Q.
    + apply Qmult_le_compat_r; [apply b2_le; unfold emin; lia|apply Qlt_le_weak; exact Pq].
    + apply Qle_trans with (b2 (-40) * inject_Z (2 ^ 31))%Q; [apply Qmult_le_l; [apply b2_pos|apply injZ_le; lia]|].
      apply Qle_trans with 1%Q; [vm_compute; discriminate|]. change 1%Q with (inject_Z 1). apply injZ_le. lia.
  - rewrite X. exact HX.
Qed.

Lemma quot_range p q : 0 < p < 2 ^ 31 -> 0 < q < 2 ^ 31 -> (b2 (-32) <= inject_Z p / inject_Z q < b2 32)%Q.
Proof.
  intros Hp Hq. assert (Pq := injZ_pos q ltac:(lia)). split.
  - apply Qle_shift_div_l; [exact Pq|]. apply Qle_trans with (b2 (-32) * inject_Z (2 ^ 31))%Q; [apply Qmult_le_l; [apply b2_pos|apply injZ_le; lia]|].
    apply Qle_trans with (inject_Z 1); [vm_compute; discriminate|apply injZ_le; lia].
  - apply Qlt_shift_div_r; [exact Pq|]. apply Qlt_le_trans with (b2 32 * inject_Z 1)%Q.
    + rewrite b2_Z by lia. rewrite <- inject_Z_mult. apply injZ_lt. lia.
    + apply Qmult_le_l; [apply b2_pos|apply injZ_le; lia].
Qed.

(** relative error *)
Lemma dop_rel X N r : dop X N r -> (b2 (-100) <= X)%Q -> (Qabs (sfQ r - X) <= X * b2 (-53))%Q.
Proof.
  intros (_ & E & HE & HX & k & _ & H) L. eapply Qle_trans; [exact H|].
  assert (G : (b2 (E + 53 - 1) <= X)%Q).
  { destruct HX as [->|HX]; [|exact HX]. eapply Qle_trans; [|exact L]. apply b2_le. unfold emin. lia. }
  setoid_replace (b2 E * (1 # 2))%Q with (b2 (E + 53 - 1) * b2 (-53))%Q.
  - apply Qmult_le_compat_r; [exact G|apply Qlt_le_weak, b2_pos].
  - rewrite <- b2_plus. replace (E + 53 - 1 + -53) with (E + -1) by lia. rewrite b2_plus. reflexivity.
Qed.

Lemma Qabs_split a b : (Qabs a <= b -> - b <= a /\ a <= b)%Q.
Proof. intros H. apply Qabs_Qle_condition in H. exact H. Qed.

(** different quotients: a is at most 2^15, the denominators 10 and below 2^31 *)
Lemma quot_sep p q a : 0 < p < 2 ^ 31 -> 0 < q < 2 ^ 31 -> 0 < a < 2 ^ 15 ->
  (10 * p < a * q -> (sfQ (quot64 p q) < sfQ (quot64 a 10))%Q) /\ (a * q < 10 * p -> (sfQ (quot64 a 10) < sfQ (quot64 p q))%Q).
Proof.
  intros Hp Hq Ha.
  destruct (quot_range p q Hp Hq) as [R1 R2]. destruct (quot_range a 10 ltac:(lia) ltac:(lia)) as [R3 R4].
  pose proof (dop_rel _ _ _ (quot64_op p q 32 Hp Hq R2 ltac:(lia)) ltac:(eapply Qle_trans; [|exact R1]; apply b2_le; lia)) as E1.
  pose proof (dop_rel _ _ _ (quot64_op a 10 32 ltac:(lia) ltac:(lia) R4 ltac:(lia)) ltac:(eapply Qle_trans; [|exact R3]; apply b2_le; lia)) as E2.
  apply Qabs_split in E1, E2. assert (Pq := injZ_pos q ltac:(lia)). assert (Pp := injZ_pos p ltac:(lia)). assert (Pa := injZ_pos a ltac:(lia)).
  set (v := sfQ (quot64 p q)) in *. set (l := sfQ (quot64 a 10)) in *. clearbody v l.
  set (X := (inject_Z p / inject_Z q)%Q) in *. set (Y := (inject_Z a / inject_Z 10)%Q) in *.
  assert (XP : (X * inject_Z q == inject_Z p)%Q) by (subst X; field; intros Z0; rewrite Z0 in Pq; discriminate Pq).
  assert (YP : (Y * 10 == inject_Z a)%Q) by (subst Y; change (inject_Z 10) with 10%Q; field).
  assert (E : (b2 (-53) == 1 # 9007199254740992)%Q) by reflexivity. rewrite E in *.
  assert (Qb : (inject_Z q <= 2147483648)%Q) by (change 2147483648%Q with (inject_Z 2147483648); apply injZ_le; lia).
  assert (Ab : (inject_Z a <= 32768)%Q) by (change 32768%Q with (inject_Z 32768); apply injZ_le; lia).
  assert (PX : (0 < X)%Q) by (eapply Qlt_le_trans; [apply (b2_pos (-32))|exact R1]).
  assert (PY : (0 < Y)%Q) by (eapply Qlt_le_trans; [apply (b2_pos (-32))|exact R3]).
  (* 10 q |X - Y| >= 1 *)
  assert (D : forall u, (0 <= u)%Q -> (u * 32768 * 2147483648 <= (1 # 8) -> u * inject_Z a * inject_Z q <= 1 # 8)%Q).
  { intros u Hu Hb. eapply Qle_trans; [|exact Hb]. apply Qle_trans with (u * 32768 * inject_Z q)%Q.
    - apply Qmult_le_compat_r; [|apply Qlt_le_weak; exact Pq]. rewrite !(Qmult_comm u). apply Qmult_le_compat_r; [exact Ab|exact Hu].
    - rewrite <- !(Qmult_comm _ (u * 32768)). apply Qmult_le_compat_r; [exact Qb|]. apply Qmult_le_0_compat; [exact Hu|discriminate]. }
  pose proof (D (1 # 9007199254740992)%Q ltac:(discriminate) ltac:(vm_compute; discriminate)) as D1. clear D.
  split; intros H.
  - assert (H' : (10 * inject_Z p + 1 <= inject_Z a * inject_Z q)%Q).
    { change 10%Q with (inject_Z 10). change 1%Q with (inject_Z 1). rewrite <- !inject_Z_mult, <- inject_Z_plus. apply injZ_le. lia. }
    apply Qnot_le_lt. intros C.
    assert (C2 : (Y - Y * (1 # 9007199254740992) <= X + X * (1 # 9007199254740992))%Q) by lra.
    assert (C3 : ((Y - Y * (1 # 9007199254740992)) * (10 * inject_Z q) <= (X + X * (1 # 9007199254740992)) * (10 * inject_Z q))%Q) by (apply Qmult_le_compat_r; [exact C2|lra]).
    assert (F1 : (Y * (10 * inject_Z q) == inject_Z a * inject_Z q)%Q) by (rewrite <- YP; ring).
    assert (F2 : (X * (10 * inject_Z q) == 10 * inject_Z p)%Q) by (rewrite <- XP; ring).
    set (u := (1 # 9007199254740992)%Q) in *. set (aq := (inject_Z a * inject_Z q)%Q) in *.
    assert (G1 : ((Y - Y * u) * (10 * inject_Z q) == aq - aq * u)%Q) by (rewrite <- F1; ring).
    assert (G2 : ((X + X * u) * (10 * inject_Z q) == 10 * inject_Z p + 10 * inject_Z p * u)%Q) by (rewrite <- F2; ring).
    assert (G3 : (u * inject_Z a * inject_Z q == aq * u)%Q) by (subst aq; ring). rewrite G3 in D1.
    rewrite G1, G2 in C3. assert (10 * inject_Z p * u <= aq * u)%Q by (apply Qmult_le_compat_r; [lra|discriminate]). lra.
  - assert (H' : (inject_Z a * inject_Z q + 1 <= 10 * inject_Z p)%Q).
    { change 10%Q with (inject_Z 10). change 1%Q with (inject_Z 1). rewrite <- !inject_Z_mult, <- inject_Z_plus. apply injZ_le. lia. }
    apply Qnot_le_lt. intros C.
    assert (C2 : (X - X * (1 # 9007199254740992) <= Y + Y * (1 # 9007199254740992))%Q) by lra.
    assert (C3 : ((X - X * (1 # 9007199254740992)) * (10 * inject_Z q) <= (Y + Y * (1 # 9007199254740992)) * (10 * inject_Z q))%Q) by (apply Qmult_le_compat_r; [exact C2|lra]).
    assert (F1 : (Y * (10 * inject_Z q) == inject_Z a * inject_Z q)%Q) by (rewrite <- YP; ring).
    assert (F2 : (X * (10 * inject_Z q) == 10 * inject_Z p)%Q) by (rewrite <- XP; ring).
    set (u := (1 # 9007199254740992)%Q) in *. set (aq := (inject_Z a * inject_Z q)%Q) in *. set (P := (10 * inject_Z p)%Q) in *.
    assert (G1 : ((Y + Y * u) * (10 * inject_Z q) == aq + aq * u)%Q) by (rewrite <- F1; ring).
    assert (G2 : ((X - X * u) * (10 * inject_Z q) == P - P * u)%Q) by (rewrite <- F2; ring).
    assert (G3 : (u * inject_Z a * inject_Z q == aq * u)%Q) by (subst aq; ring). rewrite G3 in D1.
    rewrite G1, G2 in C3. clear - C3 H' D1. clearbody P aq. subst u.
    lra.
Qed.

Lemma float_unit r N : dnn r -> (b2 (N - 1) <= sfQ r)%Q -> -900 <= N -> exists k, (sfQ r == inject_Z k * b2 (N - 53))%Q.
Proof.
  intros Hr HN HN0. destruct r as [s|s| |s m e]; try (destruct Hr as [_ []]; fail).
  - exfalso. cbn [sfQ] in HN. apply (Qlt_not_le _ _ (b2_pos (N - 1))). exact HN.
  - assert (s = false) by apply Hr. subst s. destruct (nn_bounds 53 1024 m e Hr) as [C _]. destruct (digits_bounds m e) as [D1 D2]. cbn [sfQ] in *.
    assert (N - 1 < Zpos (digits2_pos m) + e) by (apply b2_lt_inv; eapply Qle_lt_trans; eassumption).
    unfold SpecFloat.fexp, emin in C. exists (Zpos m * 2 ^ (e - (N - 53))). rewrite inject_Z_mult, <- b2_Z by lia.
    rewrite <- Qmult_assoc, <- b2_plus. replace (e - (N - 53) + (N - 53)) with e by lia. reflexivity.
Qed.

Lemma quot_eq p q a : 0 < p < 2 ^ 31 -> 0 < q < 2 ^ 31 -> 10 <= a < 2 ^ 15 -> 10 * p = a * q -> (sfQ (quot64 p q) == sfQ (quot64 a 10))%Q.
Proof.
  intros Hp Hq Ha H. assert (Pq := injZ_pos q ltac:(lia)).
  assert (X : (inject_Z p / inject_Z q == inject_Z a / inject_Z 10)%Q).
  { assert (Y : (inject_Z 10 * inject_Z p == inject_Z a * inject_Z q)%Q) by (rewrite <- !inject_Z_mult, H; reflexivity). change (inject_Z 10) with 10%Q in *.
    assert (inject_Z p == inject_Z a * inject_Z q / 10)%Q by (rewrite <- Y; field). rewrite H0. field. intros Z0. rewrite Z0 in Pq. discriminate Pq. }
  set (N := Z.log2 (a / 10) + 1).
  assert (L : 2 ^ (N - 1) <= a / 10 < 2 ^ N) by (subst N; replace (Z.log2 (a / 10) + 1 - 1) with (Z.log2 (a / 10)) by lia; apply Z.log2_spec; lia).
  assert (HN : 1 <= N <= 15).
  { assert (0 <= Z.log2 (a / 10)) by apply Z.log2_nonneg. split; [lia|]. destruct (Z_le_dec N 15) as [G|G]; [exact G|]. assert (2 ^ 15 <= 2 ^ (N - 1)) by (apply Z.pow_le_mono_r; lia). lia. }
  set (Q0 := (inject_Z a / inject_Z 10)%Q) in *.
  assert (B : (b2 (N - 1) <= Q0 < b2 N)%Q).
  { subst Q0. change (inject_Z 10) with 10%Q. rewrite !b2_Z by lia. split.
    - apply Qle_shift_div_l; [reflexivity|]. change 10%Q with (inject_Z 10). rewrite <- inject_Z_mult. apply injZ_le. lia.
    - apply Qlt_shift_div_r; [reflexivity|]. change 10%Q with (inject_Z 10). rewrite <- inject_Z_mult. apply injZ_lt. lia. }
  assert (O1 : dop Q0 N (quot64 p q)). { eapply op_ok_eq; [exact X|]. apply quot64_op; try assumption; [|lia]. rewrite X. apply B. }
  assert (O2 : dop Q0 N (quot64 a 10)) by (apply quot64_op; try lia; apply B).
  destruct O1 as (N1 & E1 & F1 & _ & R1). destruct O2 as (N2 & E2 & F2 & _ & R2).
  unfold SpecFloat.fexp, emin in F1, F2.
  destruct (Z.eq_dec (a mod 5) 0) as [M|M].
  - assert (XE : (Q0 == inject_Z (a / 5) * b2 (-1))%Q).
    { subst Q0. assert (Y : (inject_Z a == inject_Z (a / 5) * 5)%Q) by (change 5%Q with (inject_Z 5); rewrite <- inject_Z_mult; replace (a / 5 * 5) with a by lia; reflexivity).
      rewrite Y. change (inject_Z 10) with 10%Q. change (b2 (-1)) with (1 # 2)%Q. field. }
    rewrite (rnd_exact E1 (-1) _ _ _ R1 ltac:(lia) XE), (rnd_exact E2 (-1) _ _ _ R2 ltac:(lia) XE). reflexivity.
  - assert (BB : (inject_Z 1 * b2 (N - 1) <= Q0)%Q) by (change (inject_Z 1) with 1%Q; rewrite Qmult_1_l; apply B).
    pose proof (rnd_ge E1 (N - 1) 1 _ _ R1 ltac:(lia) BB) as G1. pose proof (rnd_ge E2 (N - 1) 1 _ _ R2 ltac:(lia) BB) as G2.
    change (inject_Z 1) with 1%Q in G1, G2. rewrite Qmult_1_l in G1, G2.
    destruct (float_unit _ N N1 G1 ltac:(lia)) as (k1 & K1). destruct (float_unit _ N N2 G2 ltac:(lia)) as (k2 & K2).
    destruct R1 as (_ & _ & A1). destruct R2 as (_ & _ & A2).
    set (U := b2 (N - 53)) in *. assert (PU : (0 < U)%Q) by apply b2_pos.
    assert (A1' : (Qabs (sfQ (quot64 p q) - Q0) <= U * (1 # 2))%Q) by (eapply Qle_trans; [exact A1|]; apply Qmult_le_compat_r; [apply b2_le; lia|discriminate]).
    assert (A2' : (Qabs (sfQ (quot64 a 10) - Q0) <= U * (1 # 2))%Q) by (eapply Qle_trans; [exact A2|]; apply Qmult_le_compat_r; [apply b2_le; lia|discriminate]).
    apply Qabs_split in A1', A2'. rewrite K1 in A1' |- *. rewrite K2 in A2' |- *. clear A1 A2 G1 G2 K1 K2 N1 N2.
    assert (J : k1 = k2 \/ k1 = k2 + 1 \/ k1 = k2 - 1).
    { assert (T1 : (inject_Z k1 * U <= inject_Z (k2 + 1) * U)%Q) by (rewrite inject_Z_plus; change (inject_Z 1) with 1%Q; lra).
      assert (T2 : (inject_Z k2 * U <= inject_Z (k1 + 1) * U)%Q) by (rewrite inject_Z_plus; change (inject_Z 1) with 1%Q; lra).
      pose proof (proj1 (injZ_le _ _) (proj1 (Qmult_le_r _ _ U PU) T1)) as W1. pose proof (proj1 (injZ_le _ _) (proj1 (Qmult_le_r _ _ U PU) T2)) as W2. clear - W1 W2. lia. }
    (* a tie is impossible *)
    assert (Tie : forall k, ~ (Q0 == inject_Z (2 * k + 1) * b2 (N - 54))%Q).
    { intros k T. apply M. assert (T' : (inject_Z a == inject_Z 10 * (inject_Z (2 * k + 1) * b2 (N - 54)))%Q) by (rewrite <- T; subst Q0; change (inject_Z 10) with 10%Q; field).
      assert (T2 : (inject_Z (a * 2 ^ (54 - N)) == inject_Z (10 * (2 * k + 1)))%Q).
      { rewrite !inject_Z_mult, <- b2_Z by lia. rewrite T'. rewrite <- !Qmult_assoc, <- b2_plus. replace (N - 54 + (54 - N)) with 0 by lia. rewrite b2_0. ring. }
      apply (proj1 (inject_Z_injective _ _)) in T2. assert (D : (5 | 2 ^ (54 - N) * a)) by (rewrite Z.mul_comm, T2; exists (2 * (2 * k + 1)); ring).
      apply Znumtheory.Gauss in D.
      - destruct D as [z ->]. apply Z.mod_mul. lia.
      - apply Zpow_facts.rel_prime_Zpower_r; [lia|]. apply Znumtheory.Zgcd_1_rel_prime. reflexivity. }
    assert (UH : (U * (1 # 2) == b2 (N - 54))%Q) by (subst U; replace (N - 54) with (N - 53 + -1) by lia; rewrite b2_plus; reflexivity).
    destruct J as [J|[J|J]]; subst k1; [reflexivity| |]; exfalso.
    + apply (Tie k2). rewrite inject_Z_plus, inject_Z_mult in *. change (inject_Z 1) with 1%Q in *. change (inject_Z 2) with 2%Q. rewrite <- UH.
      apply Qle_antisym; lra.
    + apply (Tie (k2 - 1)). replace (2 * (k2 - 1) + 1) with (2 * k2 - 1) by lia. unfold Z.sub in *. rewrite inject_Z_plus, ?inject_Z_mult in *. change (inject_Z (- (1))) with (-(1))%Q in *. change (inject_Z 2) with 2%Q in *. rewrite <- UH.
      apply Qle_antisym; lra.
Qed.

Lemma quot64_nn p q : 0 < p < 2 ^ 31 -> 0 < q < 2 ^ 31 -> dnn (quot64 p q).
Proof. intros Hp Hq. destruct (quot_range p q Hp Hq) as [_ R]. apply (quot64_op p q 32 Hp Hq R ltac:(lia)). Qed.

Lemma Qle_bool_false a b : (b < a)%Q -> Qle_bool a b = false.
Proof. intros H. destruct (Qle_bool a b) eqn:E; [|reflexivity]. apply Qle_bool_iff in E. exfalso. apply (Qlt_not_le _ _ H E). Qed.

Lemma quot_leb1 p q a : 0 < p < 2 ^ 31 -> 0 < q < 2 ^ 31 -> 10 <= a < 2 ^ 15 -> SFleb (quot64 a 10) (quot64 p q) = (a * q <=? 10 * p).
Proof.
  intros Hp Hq Ha. rewrite (nn_leb 53 1024) by (try lia; apply quot64_nn; lia). destruct (quot_sep p q a Hp Hq ltac:(lia)) as [S1 S2].
  destruct (Z.lt_trichotomy (10 * p) (a * q)) as [H|[H|H]].
  - replace (a * q <=? 10 * p) with false by (symmetry; apply Z.leb_gt; exact H). apply Qle_bool_false. auto.
  - replace (a * q <=? 10 * p) with true by (symmetry; apply Z.leb_le; lia). apply Qle_bool_iff. rewrite (quot_eq p q a Hp Hq Ha H). apply Qle_refl.
  - replace (a * q <=? 10 * p) with true by (symmetry; apply Z.leb_le; lia). apply Qle_bool_iff. apply Qlt_le_weak. auto.
Qed.
Lemma quot_leb2 p q a : 0 < p < 2 ^ 31 -> 0 < q < 2 ^ 31 -> 10 <= a < 2 ^ 15 -> SFleb (quot64 p q) (quot64 a 10) = (10 * p <=? a * q).
Proof.
  intros Hp Hq Ha. rewrite (nn_leb 53 1024) by (try lia; apply quot64_nn; lia). destruct (quot_sep p q a Hp Hq ltac:(lia)) as [S1 S2].
  destruct (Z.lt_trichotomy (10 * p) (a * q)) as [H|[H|H]].
  - replace (10 * p <=? a * q) with true by (symmetry; apply Z.leb_le; lia). apply Qle_bool_iff. apply Qlt_le_weak. auto.
  - replace (10 * p <=? a * q) with true by (symmetry; apply Z.leb_le; lia). apply Qle_bool_iff. rewrite (quot_eq p q a Hp Hq Ha H). apply Qle_refl.
  - replace (10 * p <=? a * q) with false by (symmetry; apply Z.leb_gt; exact H). apply Qle_bool_false. auto.
Qed.

(** the limits are the rounded decimal numbers *)
Definition row_ok (r : Z * Z * Z) : bool :=
  let '(v, t, _) := r in
  let d := f64_div (f64_of_Z t) (f64_of_Z 10) in
  SFeqb (SFsub 53 1024 (f64_of_Z v) d) (quot64 (10 * v - t) 10) && SFeqb (SFadd 53 1024 (f64_of_Z v) d) (quot64 (10 * v + t) 10) &&
  (10 <=? 10 * v - t) && (10 * v + t <? 2 ^ 15) && (0 <=? t).
Lemma tables_ok : forallb row_ok (table2 ++ table3) = true.
Proof. vm_compute. reflexivity. Qed.

Lemma SFeqb_fin x y : SFeqb x y = true -> (forall z, SFleb x z = SFleb y z) /\ (forall z, SFleb z x = SFleb z y).
Proof.
  unfold SFeqb, SFleb. destruct x as [s|s| |s m e], y as [s'|s'| |s' m' e']; try discriminate; cbn [SFcompare].
  all: try (destruct s; discriminate). all: try (destruct s'; discriminate).
  all: try (destruct s, s'; try discriminate; intros _; split; intros [t|t| |t n f]; reflexivity).
  intros H. assert (S754_finite s m e = S754_finite s' m' e').
  { destruct s, s'; try discriminate H; destruct (Z.compare_spec e e') as [->|L|L]; try discriminate H;
      change (Pos.compare_cont Eq m m') with (Pos.compare m m') in H; destruct (Pos.compare_spec m m') as [->|L|L]; try discriminate H; reflexivity. }
  injection H0 as -> -> ->. split; reflexivity.
Qed.

Lemma in_range_row p q v t l : In (v, t, l) (table2 ++ table3) -> 0 < p < 2 ^ 31 -> 0 < q < 2 ^ 31 ->
  in_range (quot64 p q) (v, t, l) = (Z.abs (10 * p - 10 * v * q) <=? t * q).
Proof.
  intros Hr Hp Hq. pose proof (proj1 (forallb_forall _ _) tables_ok _ Hr) as R. unfold row_ok in R. rewrite !andb_true_iff in R. destruct R as ((((R1 & R2) & R3) & R4) & R5).
  unfold in_range. rewrite (proj1 (SFeqb_fin _ _ R1)), (proj2 (SFeqb_fin _ _ R2)). rewrite quot_leb1, quot_leb2 by lia.
  assert (E1 : (10 * v - t) * q = 10 * v * q - t * q) by ring. assert (E2 : (10 * v + t) * q = 10 * v * q + t * q) by ring. rewrite E1, E2.
  set (A := 10 * v * q). set (B := t * q). clearbody A B. lia.
Qed.

Lemma find_rows (v : spec_float) (e : sbe) b : forall tab known,
  Forall2 (fun r k => in_range v r = fits_layer e k /\ fst (fst k) = b /\ snd (fst k) = snd r) tab known ->
  match find (in_range v) tab with Some (_, _, l) => Some (b, l) | None => None end = match find (fits_layer e) known with Some (b, k, _) => Some (b, k) | None => None end.
Proof.
  induction tab as [|[[x t] l] tab IH]; intros known F; inversion F as [|? [[b' k'] t'] ? ? (H1 & H2 & H3) F' E1 E2]; subst; [reflexivity|]. cbn [find fst snd] in *.
  rewrite H1. destruct (fits_layer e (b', k', t')); [congruence|]. apply IH. exact F'.
Qed.

Lemma find_app {A} (f : A -> bool) l1 l2 : find f (l1 ++ l2) = match find f l1 with Some x => Some x | None => find f l2 end.
Proof. induction l1 as [|x l1 IH]; cbn [app find]; [reflexivity|]. destruct (f x); [reflexivity|exact IH]. Qed.

Lemma layer_exact e : 0 < e_w e <= INT_MAX -> 0 < e_h e <= INT_MAX -> 0 < e_sw e <= INT_MAX -> 0 < e_sh e <= INT_MAX -> layer_info e = layer_of e.
Proof.
  intros Hw Hh Hsw Hsh. unfold INT_MAX in *. unfold layer_info, layer_of, same_size, layer0. destruct ((e_w e =? e_sw e) && (e_h e =? e_sh e)); [reflexivity|].
  set (v := minification (e_w e) (e_h e) (e_sw e) (e_sh e)).
  assert (R : forall x t l b k, In (x, t, l) (table2 ++ table3) -> x = b ^ k -> in_range v (x, t, l) = fits_layer e (b, k, t)).
  { intros x t l b k Hin ->. subst v. unfold minification, fits_layer. destruct (e_sh e <? e_sw e).
    - change (f64_div (f64_of_Z (e_w e)) (f64_of_Z (e_sw e))) with (quot64 (e_w e) (e_sw e)). apply in_range_row; [exact Hin|lia|lia].
    - change (f64_div (f64_of_Z (e_h e)) (f64_of_Z (e_sh e))) with (quot64 (e_h e) (e_sh e)). apply in_range_row; [exact Hin|lia|lia]. }
  clearbody v.
  pose proof (find_rows v e 2 table2 (firstn 10 known_layers)) as F2. pose proof (find_rows v e 3 table3 (skipn 10 known_layers)) as F3.
  assert (G2 : match find (in_range v) table2 with Some (_, _, l) => Some (2, l) | None => None end = match find (fits_layer e) (firstn 10 known_layers) with Some (b, k, _) => Some (b, k) | None => None end).
  { apply F2. cbn [known_layers firstn table2]. repeat constructor; cbn [fst snd]; try reflexivity; (eapply R; [cbn [table2 table3 app In]; tauto|reflexivity]). }
  assert (G3 : match find (in_range v) table3 with Some (_, _, l) => Some (3, l) | None => None end = match find (fits_layer e) (skipn 10 known_layers) with Some (b, k, _) => Some (b, k) | None => None end).
  { apply F3. cbn [known_layers skipn table3]. repeat constructor; cbn [fst snd]; try reflexivity; (eapply R; [cbn [table2 table3 app In]; tauto|reflexivity]). }
  clear F2 F3 R. rewrite <- (firstn_skipn 10 known_layers), find_app.
  destruct (find (in_range v) table2) as [[[x t] l]|]; destruct (find (fits_layer e) (firstn 10 known_layers)) as [[[b k] t']|]; try discriminate G2; [congruence|].
  destruct (find (in_range v) table3) as [[[x t] l]|]; destruct (find (fits_layer e) (skipn 10 known_layers)) as [[[b k] t']|]; try discriminate G3; [congruence|reflexivity].
Qed.

(** at most one layer fits *)
Lemma fits_unique e a b : 0 < e_sw e -> 0 < e_sh e -> In a known_layers -> In b known_layers -> fits_layer e a = true -> fits_layer e b = true -> a = b.
Proof.
  intros Hw Hh Ha Hb. unfold fits_layer. destruct a as [[b1 k1] t1], b as [[b2 k2] t2].
  assert (G : forall l s, 0 < s -> (Z.abs (10 * l - 10 * b1 ^ k1 * s) <=? t1 * s) = true -> (Z.abs (10 * l - 10 * b2 ^ k2 * s) <=? t2 * s) = true -> (b1, k1, t1) = (b2, k2, t2)).
  { intros l s Hs H1 H2. assert (D : Z.abs (10 * b1 ^ k1 - 10 * b2 ^ k2) <= t1 + t2) by nia. clear - Ha Hb D.
    assert (C : forallb (fun '(x, k, t) => forallb (fun '(x', k', t') => negb (Z.abs (10 * x ^ k - 10 * x' ^ k') <=? t + t') || ((x =? x') && (k =? k') && (t =? t'))) known_layers) known_layers = true) by (vm_compute; reflexivity).
    rewrite forallb_forall in C. specialize (C _ Ha). cbv beta iota in C. rewrite forallb_forall in C. specialize (C _ Hb). cbv beta iota in C.
    apply orb_true_iff in C. destruct C as [C|C]; [lia|]. rewrite !andb_true_iff in C. repeat f_equal; lia. }
  destruct (e_sh e <? e_sw e); apply G; assumption.
Qed.
