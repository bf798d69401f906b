(** Writing a number and reading it again. *)
From Coq Require Import String QArith Qabs Qpower Lqa Floats.SpecFloat.
From Verif Require Import Base TextModel TextProofs FloatProofs SFloatProofs ScaleModel ScaleNum NumModel NumSpec NumProofs NumText.
Open Scope Z_scope.

Local Notation nn64 := (nn 53 1024).
Lemma nn_canon m e : nn64 (S754_finite false m e) -> Zpos (digits2_pos m) <= 53 /\ -1074 <= e /\ (Zpos (digits2_pos m) = 53 \/ e = -1074).
Proof.
  intros H. destruct (nn_bounds 53 1024 m e H) as [C _]. unfold fexp in C. change (emin 53 1024) with (-1074) in C. lia.
Qed.
Lemma nn_inj x y : nn64 x -> nn64 y -> (sfQ x == sfQ y)%Q -> x = y.
Proof.
  intros Hx Hy E. assert (P : forall m e, ~ (0 == inject_Z (Zpos m) * b2 e)%Q).
  { intros m e F. pose proof (b2_pos e) as B. assert (G : (0 < inject_Z (Zpos m) * b2 e)%Q) by (apply Qmult_lt_0_compat; [reflexivity|exact B]).
    rewrite <- F in G. now apply Qlt_irrefl in G. }
  destruct x as [sx|sx| |sx mx ex]; try (destruct Hx as [_ []]; fail); destruct y as [sy|sy| |sy my ey]; try (destruct Hy as [_ []]; fail).
  - destruct Hx as [_ ->], Hy as [_ ->]. reflexivity.
  - assert (sy = false) by apply Hy. subst. cbn [sfQ] in E. now apply P in E.
  - assert (sx = false) by apply Hx. subst. cbn [sfQ] in E. symmetry in E. now apply P in E.
  - assert (sx = false) by apply Hx. assert (sy = false) by apply Hy. subst. cbn [sfQ] in E.
    pose proof (digits_bounds mx ex) as [A1 A2]. pose proof (digits_bounds my ey) as [B1 B2].
    destruct (nn_bounds 53 1024 _ _ Hx) as [Cx _]. destruct (nn_bounds 53 1024 _ _ Hy) as [Cy _].
    assert (Zpos (digits2_pos mx) + ex - 1 < Zpos (digits2_pos my) + ey) by (apply b2_lt_inv; eapply Qle_lt_trans; [exact A1|rewrite E; exact B2]).
    assert (Zpos (digits2_pos my) + ey - 1 < Zpos (digits2_pos mx) + ex) by (apply b2_lt_inv; eapply Qle_lt_trans; [exact B1|rewrite <- E; exact A2]).
    assert (EE : ex = ey) by (rewrite <- Cx, <- Cy; f_equal; lia). subst ey.
    assert (M : (inject_Z (Zpos mx) == inject_Z (Zpos my))%Q).
    { pose proof (b2_pos ex) as B. apply (Qmult_inj_r _ _ (b2 ex)); [intros F; rewrite F in B; now apply Qlt_irrefl in B|exact E]. }
    assert (MM : Zpos mx = Zpos my) by (apply inject_Z_injective; exact M). injection MM as ->. reflexivity.
Qed.

Lemma b2_half e : (b2 e == 2 * b2 (e - 1))%Q.
Proof. replace e with (1 + (e - 1)) at 1 by lia. rewrite b2_plus. reflexivity. Qed.
Lemma mult_gap k l (u : Q) : (0 < u)%Q -> (Qabs (inject_Z k * u - inject_Z l * u) < u)%Q -> k = l.
Proof.
  intros U H. setoid_replace (inject_Z k * u - inject_Z l * u)%Q with ((inject_Z k - inject_Z l) * u)%Q in H by ring.
  rewrite Qabs_Qmult, (Qabs_pos u) in H by (now apply Qlt_le_weak).
  assert (H' : (Qabs (inject_Z k - inject_Z l) < 1)%Q) by (apply (Qmult_lt_r _ _ u U); rewrite Qmult_1_l; exact H).
  apply Qabs_Qlt_condition in H'.
  assert (inject_Z k < inject_Z (l + 1))%Q by (rewrite inject_Z_plus; change (inject_Z 1) with 1%Q; lra).
  assert (inject_Z l < inject_Z (k + 1))%Q by (rewrite inject_Z_plus; change (inject_Z 1) with 1%Q; lra).
  rewrite injZ_lt in *. lia.
Qed.

(** rounding something very close to a float gives that float *)
Lemma round_close x v N y : nn64 x -> (0 < sfQ x)%Q -> (Qabs (v - sfQ x) <= sfQ x * b2 (-60))%Q -> op_ok 53 1024 v N y -> y = x.
Proof.
  intros Hx Px C (Hy & E & _ & CE & R).
  destruct x as [sx|sx| |sx mx ex]; try (destruct Hx as [_ []]; fail); [cbn in Px; now apply Qlt_irrefl in Px|].
  assert (sx = false) by apply Hx. subst sx. destruct (nn_canon mx ex Hx) as (Dx & Lx & Nx). pose proof (digits_bounds mx ex) as [A1 A2].
  apply nn_inj; [exact Hy|exact Hx|]. cbn [sfQ] in *. set (X := (inject_Z (Zpos mx) * b2 ex)%Q) in *.
  assert (U0 := b2_pos ex). assert (U7 := b2_pos (ex - 7)).
  assert (X53 : (X <= b2 (ex + 53) - b2 ex)%Q).
  { pose proof (digits2_pos_spec mx) as S. pose proof (Z.pow_le_mono_r 2 (Zpos (digits2_pos mx)) 53 ltac:(lia) Dx) as S2.
    assert (M : (inject_Z (Zpos mx) <= inject_Z (2 ^ 53 - 1))%Q) by (apply injZ_le; lia).
    rewrite b2_plus. change (b2 53) with (inject_Z (2 ^ 53)). unfold X. replace (2 ^ 53) with (2 ^ 53 - 1 + 1) by lia.
    rewrite inject_Z_plus. change (inject_Z 1) with 1%Q.
    assert (inject_Z (Zpos mx) * b2 ex <= inject_Z (2 ^ 53 - 1) * b2 ex)%Q by (apply Qmult_le_r; assumption). lra. }
  assert (CL : (Qabs (v - X) < b2 (ex - 7))%Q).
  { eapply Qle_lt_trans; [exact C|]. replace (ex - 7) with (ex + 53 + -60) by lia. rewrite b2_plus. apply Qmult_lt_r; [apply b2_pos|lra]. }
  assert (E7 : (b2 ex == 128 * b2 (ex - 7))%Q) by (replace ex with (7 + (ex - 7)) at 1 by lia; rewrite b2_plus; reflexivity).
  apply Qabs_Qlt_condition in CL.
  assert (EX : E <= ex).
  { destruct CE as [->|CE]; [exact Lx|]. destruct (Z_le_dec E ex) as [L|L]; [exact L|exfalso].
    assert (b2 (ex + 53) <= b2 (E + 53 - 1))%Q by (apply b2_le; lia). lra. }
  assert (EB : (b2 E <= b2 ex)%Q) by (now apply b2_le).
  pose proof R as (kE & RV & RA). apply Qabs_Qle_condition in RA.
  assert (MULT : forall k, (sfQ y == inject_Z k * b2 ex)%Q -> (sfQ y == X)%Q).
  { intros k Hk. assert (k = Zpos mx); [|subst k; exact Hk]. apply (mult_gap _ _ (b2 ex) U0). fold X. rewrite <- Hk. apply Qabs_Qlt_condition. split; lra. }
  destruct (Z.eq_dec E ex) as [->|NE]; [now apply (MULT kE)|].
  destruct y as [sy|sy| |sy my ey]; try (destruct Hy as [_ []]; fail); [apply (MULT 0); reflexivity|].
  assert (sy = false) by apply Hy. subst sy. cbn [sfQ] in *. destruct (nn_canon my ey Hy) as (Dy & Ly & Ny). pose proof (digits_bounds my ey) as [B1 B2].
  destruct (Z_le_dec ex ey) as [L|L].
  { apply (MULT (Zpos my * 2 ^ (ey - ex))). rewrite inject_Z_mult, <- b2_Z by lia.
    replace (b2 ey) with (b2 (ey - ex + ex)) by (f_equal; lia). rewrite b2_plus. ring. }
  exfalso. assert (D53 : Zpos (digits2_pos mx) = 53) by lia. rewrite D53 in A1. replace (53 + ex - 1) with (ex + 52) in A1 by lia.
  assert (Y52 : (inject_Z (Zpos my) * b2 ey < b2 (ex + 52))%Q) by (eapply Qlt_le_trans; [exact B2|apply b2_le; lia]).
  assert (E1 : (b2 E <= b2 (ex - 1))%Q) by (apply b2_le; lia). pose proof (b2_half ex) as HX.
  destruct (Qlt_le_dec v (b2 (ex + 52))) as [V|V].
  - assert (X52 : (X == b2 (ex + 52))%Q).
    { assert (EQ : Zpos mx = 2 ^ 52); [|unfold X; rewrite EQ, b2_plus; change (b2 52) with (inject_Z (2 ^ 52)); ring].
      apply (mult_gap _ _ (b2 ex) U0). fold X. setoid_replace (inject_Z (2 ^ 52) * b2 ex)%Q with (b2 (ex + 52)) by (rewrite b2_plus; change (b2 52) with (inject_Z (2 ^ 52)); ring).
      apply Qabs_Qlt_condition. split; lra. }
    assert (H2 : (b2 (ex - 1) == 2 * b2 (ex - 2))%Q) by (rewrite b2_half; replace (ex - 1 - 1) with (ex - 2) by lia; reflexivity).
    assert (Y1 : (X - b2 (ex - 1) < inject_Z (Zpos my) * b2 ey)%Q) by lra.
    assert (EY : ey = ex - 1).
    { assert (b2 (ex + 51) < b2 (Zpos (digits2_pos my) + ey))%Q.
      { eapply Qle_lt_trans; [|exact B2]. apply Qlt_le_weak. eapply Qle_lt_trans; [|exact Y1]. rewrite X52.
        rewrite (b2_half (ex + 52)). replace (ex + 52 - 1) with (ex + 51) by lia. assert (b2 (ex - 1) <= b2 (ex + 51))%Q by (apply b2_le; lia). lra. }
      apply b2_lt_inv in H. lia. }
    subst ey. assert (inject_Z (Zpos my) * b2 (ex - 1) <= inject_Z (2 ^ 53 - 1) * b2 (ex - 1))%Q.
    { apply Qmult_le_r; [apply b2_pos|]. apply injZ_le. pose proof (digits2_pos_spec my) as S. pose proof (Z.pow_le_mono_r 2 (Zpos (digits2_pos my)) 53 ltac:(lia) Dy). lia. }
    assert (F : (b2 (ex + 52) == (inject_Z (2 ^ 53 - 1) + 1) * b2 (ex - 1))%Q).
    { replace (ex + 52) with (53 + (ex - 1)) by lia. rewrite b2_plus. change (b2 53) with (inject_Z (2 ^ 53 - 1 + 1)). rewrite inject_Z_plus. reflexivity. }
    lra.
  - assert (b2 (ex + 52) <= inject_Z (Zpos my) * b2 ey)%Q; [|lra].
    setoid_replace (b2 (ex + 52)) with (inject_Z 1 * b2 (ex + 52))%Q by (change (inject_Z 1) with 1%Q; ring).
    apply (rnd_ge E (ex + 52) 1 v _ R); [lia|]. change (inject_Z 1) with 1%Q. lra.
Qed.

(** * The digits of a float *)
Lemma frac_abs s m e : fin64 (S754_finite s m e) ->
  exists n d, frac (SFabs (S754_finite s m e)) = Some (n, d) /\ 0 < n /\ 0 < d /\ (rat n d == Qabs (sfQ (S754_finite s m e)))%Q.
Proof.
  intros F. destruct (fin_abs 53 1024 _ F) as (A & _ & B). destruct (frac_ok _ (nn_finite 53 1024 _ A)) as (n & d & H1 & H2 & H3).
  exists n, d. split; [exact H1|]. rewrite <- B. assert (R : (rat n d == sfQ (SFabs (S754_finite s m e)))%Q) by (symmetry; now apply rat_unique).
  split; [|split; [exact H2|exact R]]. apply injZ_lt. rewrite <- H3. cbn [SFabs sfQ]. apply Qmult_lt_0_compat; [|now apply injZ_pos].
  apply Qmult_lt_0_compat; [reflexivity|apply b2_pos].
Qed.

Definition sgn_text (s : bool) : str := if s then [45] else [].
Lemma print_g_abs P (s : bool) x n d : frac x = Some (n, d) -> nn64 x -> (0 < sfQ x)%Q ->
  print_g P (if s then SFopp x else x) = (if s then [45] else []) ++ g_text P (sig_digits P n d).
Proof.
  intros F Hx Px. destruct x as [sx|sx| |sx mx ex]; try (destruct Hx as [_ []]; fail); [cbn in Px; now apply Qlt_irrefl in Px|].
  assert (sx = false) by apply Hx. subst. destruct s; cbn [SFopp negb print_g SFabs]; cbn [frac] in F |- *; injection F as <- <-; reflexivity.
Qed.

Lemma fin_split x : fin64 x -> exists (s : bool) a, x = (if s then SFopp a else a) /\ a = SFabs x /\ nn64 a /\ (sfQ a == Qabs (sfQ x))%Q.
Proof.
  intros F. destruct (fin_abs 53 1024 _ F) as (A & _ & B). exists (sgnb x), (SFabs x). split; [|auto].
  destruct x as [s|s| |s m e]; try (destruct F; discriminate); destruct s; reflexivity.
Qed.

Lemma ten_t10 e : ten e = t10 e.
Proof. reflexivity. Qed.
Lemma t10_bounds : (b2 (-1021) <= t10 (-307) /\ t10 307 <= b2 1022)%Q.
Proof. split; vm_compute; discriminate. Qed.

Section Digits.
  Variables (P n d D X : Z).
  Hypothesis (HP : 1 <= P <= 20) (Hn : 0 < n) (Hd : 0 < d) (HS : sig_digits P n d = (D, X)).
  Lemma sig_rel : 10 ^ (P - 1) <= D < 10 ^ P /\ (Qabs (inject_Z D * t10 (X - P + 1) - rat n d) <= rat n d * ((1 # 2) * t10 (1 - P)))%Q.
  Proof.
    destruct (sig_digits_ok P n d D X ltac:(lia) Hn Hd HS) as (A & X0 & B & _ & C). split; [exact A|]. eapply Qle_trans; [exact C|].
    replace (X0 - P + 1) with (X0 + (1 - P)) by lia. rewrite t10_plus. pose proof (t10_pos (1 - P)). nra.
  Qed.
  Lemma sig_exp : (t10 (-400) <= rat n d <= t10 400)%Q -> Z.abs X < 10 ^ 20.
  Proof.
    intros R. destruct (sig_digits_ok P n d D X ltac:(lia) Hn Hd HS) as (A & X0 & B & C & _).
    assert (-400 < X0 + 1) by (apply t10_lt_inv; eapply Qle_lt_trans; [apply R|apply B]).
    assert (X0 < 401). { apply t10_lt_inv. eapply Qle_lt_trans; [apply B|]. eapply Qle_lt_trans; [apply R|]. reflexivity. }
    lia.
  Qed.
End Digits.

(** a float very close to a number of P digits is written as this number *)
Lemma print_close (s : bool) y D X : nn64 y -> 10 ^ 14 <= D < 10 ^ 15 ->
  (Qabs (sfQ y - inject_Z D * t10 (X - 14)) <= inject_Z D * t10 (X - 14) * b2 (-52))%Q ->
  dbl_text (if s then SFopp y else y) = (if s then [45] else []) ++ g_text 15 (D, X).
Proof.
  intros Hy HD C. set (v := (inject_Z D * t10 (X - 14))%Q) in *.
  assert (V : (0 < v)%Q) by (apply Qmult_lt_0_compat; [apply injZ_pos; lia|apply t10_pos]).
  assert (Y : (0 < sfQ y)%Q).
  { apply Qabs_Qle_condition in C. assert (b2 (-52) <= 1 # 2)%Q by (vm_compute; discriminate). nra. }
  destruct (frac_ok y (nn_finite 53 1024 _ Hy)) as (n & d & F & Hd & R). unfold dbl_text. rewrite (print_g_abs 15 s y n d F Hy Y). f_equal. f_equal.
  assert (Hn : 0 < n) by (apply injZ_lt; rewrite <- R; apply Qmult_lt_0_compat; [exact Y|now apply injZ_pos]).
  apply rat_unique in R; [|exact Hd].
  apply sig_digits_stable; [lia|exact Hn|exact Hd|exact HD|]. rewrite <- R. replace (X - 15 + 1) with (X - 14) by lia. fold v.
  eapply Qle_lt_trans; [exact C|]. assert (b2 (-52) < (1 # 2) * t10 (-15))%Q by reflexivity. change (- (15)) with (-15).
  setoid_replace ((1 # 2) * v * t10 (-15))%Q with (v * ((1 # 2) * t10 (-15)))%Q by ring. apply Qmult_lt_l; assumption.
Qed.

(** what is read from the text of D * 10^(X-14) *)
Lemma value_range D X x : (Qabs (inject_Z D * t10 (X - 14) - x) <= x * ((1 # 2) * t10 (-14)))%Q -> (t10 (-307) <= x <= t10 307)%Q ->
  (b2 (-1022) <= inject_Z D * t10 (X - 14) /\ inject_Z D * t10 (X - 14) < b2 1023)%Q.
Proof.
  intros H [R1 R2]. destruct t10_bounds as [B1 B2]. apply Qabs_Qle_condition in H. assert (T : ((1 # 2) * t10 (-14) <= 1 # 2)%Q) by (vm_compute; discriminate).
  assert (U1 : (b2 (-1021) == 2 * b2 (-1022))%Q) by reflexivity. assert (U2 : (b2 1023 == 2 * b2 1022)%Q) by reflexivity. assert (0 < b2 (-1022))%Q by apply b2_pos. assert (0 < b2 1022)%Q by apply b2_pos.
  set (v := (inject_Z D * t10 (X - 14))%Q) in *. set (w := ((1 # 2) * t10 (-14))%Q) in *. assert (0 <= w)%Q by (unfold w; vm_compute; discriminate). clearbody v w.
  set (p := t10 (-307)) in *. set (q := t10 307) in *. set (c := b2 (-1021)) in *. set (e := b2 (-1022)) in *. set (f := b2 1023) in *. set (g := b2 1022) in *. clearbody p q c e f g.
  assert (x * w <= x * (1 # 2))%Q by (apply Qmult_le_l; lra). split; lra.
Qed.

Theorem write_read x : fin64 x -> moderate (sfQ x) ->
  exists y, strtod (dbl_text x) = (y, length (dbl_text x)) /\ fin64 y /\ (Qabs (sfQ y - sfQ x) <= Qabs (sfQ x) * ten (-14))%Q /\ dbl_text y = dbl_text x.
Proof.
  intros Fx [M1 M2]. rewrite !ten_t10 in *. destruct (fin_split x Fx) as (s & a & Ex & _ & Ha & Qa). rewrite <- Qa in *.
  destruct (frac_ok a (nn_finite 53 1024 _ Ha)) as (n & d & F & Hd & R).
  assert (Pa : (0 < sfQ a)%Q) by (eapply Qlt_le_trans; [|exact M1]; apply t10_pos).
  assert (Hn : 0 < n) by (apply injZ_lt; rewrite <- R; apply Qmult_lt_0_compat; [exact Pa|now apply injZ_pos]).
  apply rat_unique in R; [|exact Hd]. destruct (sig_digits 15 n d) as [D X] eqn:ES.
  assert (PX : dbl_text x = (if s then [45] else []) ++ g_text 15 (D, X)) by (rewrite Ex; unfold dbl_text; rewrite (print_g_abs 15 s a n d F Ha Pa), ES; reflexivity).
  destruct (sig_rel 15 n d D X ltac:(lia) Hn Hd ES) as [HD C]. change (15 - 1) with 14 in HD. replace (X - 15 + 1) with (X - 14) in C by lia. rewrite <- R in C.
  assert (XB : Z.abs X < 10 ^ 20).
  { apply (sig_exp 15 n d D X ltac:(lia) Hn Hd ES). rewrite <- R. split; [eapply Qle_trans; [|exact M1]; vm_compute; discriminate|eapply Qle_trans; [exact M2|]; vm_compute; discriminate]. }
  change (1 - 15) with (-14) in C. destruct (value_range D X (sfQ a) C (conj M1 M2)) as [VL VU].
  pose proof (of_decimal_near D (X - 14) ltac:(lia) VL VU) as NR. pose proof (of_decimal_op D (X - 14) 1023 ltac:(lia) VU ltac:(lia)) as [Hy _].
  set (b := of_decimal false D (X - 14)) in *.
  assert (Es : of_decimal s D (X - 14) = if s then SFopp b else b) by (destruct s; [apply of_decimal_neg|reflexivity]).
  exists (if s then SFopp b else b). pose proof (read_g_text s 15 D X ltac:(lia) HD XB) as RD. cbv zeta in RD.
  split; [rewrite PX, RD; replace (X - 15 + 1) with (X - 14) by lia; rewrite Es; reflexivity|].
  split; [destruct s; [apply fin_opp|]; now apply nn_finite|]. split.
  - assert (ERR : (Qabs (sfQ b - sfQ a) <= sfQ a * t10 (-14))%Q).
    { set (v := (inject_Z D * t10 (X - 14))%Q) in *. apply Qabs_Qle_condition in C. apply Qabs_Qle_condition in NR. apply Qabs_Qle_condition.
      assert (T1 : ((1 # 2) * t10 (-14) + (3 # 2) * b2 (-52) <= t10 (-14))%Q) by (vm_compute; discriminate).
      assert (T2 : (t10 (-14) <= 1)%Q) by (vm_compute; discriminate). assert (T3 : (0 < t10 (-14))%Q) by apply t10_pos. assert (T4 : (0 < b2 (-52))%Q) by apply b2_pos.
      set (w := t10 (-14)) in *. set (u := b2 (-52)) in *. set (xa := sfQ a) in *. clearbody v w u xa.
      assert (xa * ((1 # 2) * w) <= xa * (1 # 2))%Q by (apply Qmult_le_l; lra).
      assert (v * u <= (3 # 2) * xa * u)%Q by (apply Qmult_le_r; lra).
      assert (xa * ((1 # 2) * w + (3 # 2) * u) <= xa * w)%Q by (apply Qmult_le_l; lra). split; lra. }
    rewrite <- Qa, Ex. destruct s; [|exact ERR]. rewrite !sfQ_opp. setoid_replace (- sfQ b - - sfQ a)%Q with (- (sfQ b - sfQ a))%Q by ring. rewrite Qabs_opp. exact ERR.
  - rewrite PX. now apply print_close.
Qed.

(** * Numbers of at most fifteen digits *)
Lemma normalise m e : 0 < m < 10 ^ 15 -> exists D X, 10 ^ 14 <= D < 10 ^ 15 /\ (inject_Z D * t10 (X - 14) == inject_Z m * t10 e)%Q.
Proof.
  intros H. destruct (ndigits_ok m ltac:(lia)) as (K0 & K1 & K2). set (k := ndigits m) in *. clearbody k.
  assert (K : k <= 15). { destruct (Z_le_dec k 15) as [L|L]; [exact L|exfalso]. pose proof (Z.pow_le_mono_r 10 15 (k - 1) ltac:(lia) ltac:(lia)). lia. }
  exists (m * 10 ^ (15 - k)), (e + k - 1).
  assert (E1 : 10 ^ 14 = 10 ^ (k - 1) * 10 ^ (15 - k)) by (rewrite <- Z.pow_add_r by lia; f_equal; lia).
  assert (E2 : 10 ^ 15 = 10 ^ k * 10 ^ (15 - k)) by (rewrite <- Z.pow_add_r by lia; f_equal; lia).
  assert (0 < 10 ^ (15 - k)) by (apply Z.pow_pos_nonneg; lia). split; [rewrite E1, E2; nia|].
  rewrite inject_Z_mult, <- t10_Z by lia. replace (e + k - 1 - 14) with (e + - (15 - k)) by lia. rewrite t10_plus.
  transitivity (inject_Z m * t10 e * (t10 (- (15 - k)) * t10 (15 - k)))%Q; [ring|]. rewrite t10_inv. ring.
Qed.

Theorem decimal_write_read s m e : 0 < m < 10 ^ 15 -> (ten (-307) <= inject_Z m * ten e <= ten 307)%Q ->
  let x := of_decimal s m e in strtod (dbl_text x) = (x, length (dbl_text x)).
Proof.
  intros Hm R. cbv zeta. rewrite !ten_t10 in R. destruct (normalise m e Hm) as (D & X & HD & E). destruct R as [R1 R2]. destruct t10_bounds as [B1 B2].
  assert (VL : (b2 (-1022) <= inject_Z D * t10 (X - 14))%Q) by (rewrite E; eapply Qle_trans; [|exact R1]; eapply Qle_trans; [|exact B1]; apply b2_le; lia).
  assert (VU : (inject_Z D * t10 (X - 14) < b2 1023)%Q) by (rewrite E; eapply Qle_lt_trans; [exact R2|]; eapply Qle_lt_trans; [exact B2|reflexivity]).
  rewrite (of_decimal_eq s m e D (X - 14)) by (try lia; symmetry; exact E).
  pose proof (of_decimal_near D (X - 14) ltac:(lia) VL VU) as NR. pose proof (of_decimal_op D (X - 14) 1023 ltac:(lia) VU ltac:(lia)) as [Hy _].
  set (b := of_decimal false D (X - 14)) in *.
  assert (Es : of_decimal s D (X - 14) = if s then SFopp b else b) by (destruct s; [apply of_decimal_neg|reflexivity]).
  rewrite Es at 1. rewrite (print_close s b D X Hy HD NR).
  assert (XB : Z.abs X < 10 ^ 20).
  { assert (T14 : (t10 14 <= inject_Z D)%Q) by (rewrite t10_Z by lia; apply injZ_le; lia). assert (T15 : (inject_Z D < t10 15)%Q) by (rewrite t10_Z by lia; apply injZ_lt; lia).
    assert (Px := t10_pos (X - 14)).
    assert (t10 X < t10 308)%Q.
    { replace X with (14 + (X - 14)) by lia. rewrite t10_plus. eapply Qle_lt_trans; [apply Qmult_le_r; [exact Px|exact T14]|]. rewrite E. eapply Qle_lt_trans; [exact R2|reflexivity]. }
    assert (t10 (-308) < t10 (X + 1))%Q.
    { replace (X + 1) with (15 + (X - 14)) by lia. rewrite t10_plus. eapply Qlt_trans; [|apply Qmult_lt_r; [exact Px|exact T15]]. rewrite E. eapply Qlt_le_trans; [|exact R1]. reflexivity. }
    apply t10_lt_inv in H, H0. lia. }
  pose proof (read_g_text s 15 D X ltac:(lia) HD XB) as RD. cbv zeta in RD. rewrite RD. replace (X - 15 + 1) with (X - 14) by lia. rewrite Es, (print_close s b D X Hy HD NR). reflexivity.
Qed.

(** * Twenty digits identify a number *)
Theorem exact_write_read x : fin64 x -> (sfQ x == 0)%Q \/ moderate (sfQ x) -> strtod (print_e 20 x) = (x, length (print_e 20 x)).
Proof.
  intros Fx [Z|[M1 M2]].
  { destruct x as [s|s| |s m e]; try (destruct Fx; discriminate).
    - destruct s; vm_compute; reflexivity.
    - exfalso. cbn [sfQ] in Z. assert (0 < inject_Z (Zpos m) * b2 e)%Q by (apply Qmult_lt_0_compat; [reflexivity|apply b2_pos]). destruct s; lra. }
  rewrite !ten_t10 in *. destruct (fin_split x Fx) as (s & a & Ex & _ & Ha & Qa). rewrite <- Qa in *.
  destruct (frac_ok a (nn_finite 53 1024 _ Ha)) as (n & d & F & Hd & R).
  assert (Pa : (0 < sfQ a)%Q) by (eapply Qlt_le_trans; [|exact M1]; apply t10_pos).
  assert (Hn : 0 < n) by (apply injZ_lt; rewrite <- R; apply Qmult_lt_0_compat; [exact Pa|now apply injZ_pos]).
  apply rat_unique in R; [|exact Hd]. destruct (sig_digits 20 n d) as [D X] eqn:ES.
  assert (PX : print_e 20 x = (if s then [45] else []) ++ with_point (firstn 1 (dec D)) (skipn 1 (dec D)) ++ exp_text X).
  { rewrite Ex. destruct a as [sa|sa| |sa ma ea]; try (destruct Ha as [_ []]; fail); [cbn in Pa; now apply Qlt_irrefl in Pa|].
    assert (sa = false) by apply Ha. subst sa. 
    destruct s; cbn [SFopp negb print_e SFabs]; rewrite F, ES; reflexivity. }
  destruct (sig_rel 20 n d D X ltac:(lia) Hn Hd ES) as [HD C]. change (20 - 1) with 19 in HD. rewrite <- R in C. change (1 - 20) with (-19) in C.
  assert (0 < D) by (assert (0 < 10 ^ 19) by lia; lia).
  assert (XB : Z.abs X < 10 ^ 20).
  { apply (sig_exp 20 n d D X ltac:(lia) Hn Hd ES). rewrite <- R. split; [eapply Qle_trans; [|exact M1]; vm_compute; discriminate|eapply Qle_trans; [exact M2|]; vm_compute; discriminate]. }
  assert (C60 : (Qabs (inject_Z D * t10 (X - 20 + 1) - sfQ a) <= sfQ a * b2 (-60))%Q).
  { eapply Qle_trans; [exact C|]. apply Qmult_le_l; [exact Pa|]. vm_compute. discriminate. }
  assert (VU : (inject_Z D * t10 (X - 20 + 1) < b2 1023)%Q).
  { destruct t10_bounds as [_ B2]. apply Qabs_Qle_condition in C60. assert (T : (b2 (-60) <= 1 # 2)%Q) by (vm_compute; discriminate).
    assert (U2 : (b2 1023 == 2 * b2 1022)%Q) by reflexivity. assert (0 < b2 1022)%Q by apply b2_pos.
    assert (sfQ a * b2 (-60) <= sfQ a * (1 # 2))%Q by (apply Qmult_le_l; assumption). lra. }
  pose proof (of_decimal_op D (X - 20 + 1) 1023 ltac:(lia) VU ltac:(lia)) as O.
  pose proof (round_close a _ _ _ Ha Pa C60 O) as EQ.
  pose proof (read_e_text s 20 D X ltac:(lia) HD XB) as RD. cbv zeta in RD. rewrite PX, RD. f_equal. rewrite Ex.
  destruct s; [rewrite of_decimal_neg|]; now rewrite EQ.
Qed.

(** * Texts in general *)
Lemma digits_all s : digits s -> all is_digit s.
Proof. apply Forall_impl. intros c H. unfold is_digit. lia. Qed.
Lemma exponent_tail ex e : exponent ex e -> tail_ok ex e.
Proof.
  intros H. destruct H as [|c sg ds e C SG Dg N E|c ds e C Dg N E].
  - apply tail_nil.
  - apply digits_all in Dg. assert (SS : span is_digit ds = (ds, [])) by (rewrite <- (app_nil_r ds) at 1; apply span_app; [exact Dg|exact I]).
    assert (LC : (c =? 101) || (c =? 69) = true) by lia. assert (ND : is_digit c = false) by (unfold is_digit; lia). assert (NP : (46 =? c) = false) by lia.
    split; [|split; [exact ND|exact NP]]. cbn [take_exponent]. rewrite LC. destruct SG as [->| ->]; cbn [app].
    + assert (TS : take_sign ds = (false, ds)).
      { destruct ds as [|d r]; [reflexivity|]. apply Forall_cons_iff in Dg. destruct Dg as [Dd _]. cbn [take_sign]. unfold is_digit in Dd.
        destruct (Z.eqb_spec d 45); [lia|]. destruct (Z.eqb_spec d 43); [lia|]. reflexivity. }
      rewrite TS, SS. destruct ds; [congruence|]. now rewrite E.
    + cbn [take_sign]. change (43 =? 45) with false. change (43 =? 43) with true. cbv iota. rewrite SS. destruct ds; [congruence|]. now rewrite E.
  - apply digits_all in Dg. assert (SS : span is_digit ds = (ds, [])) by (rewrite <- (app_nil_r ds) at 1; apply span_app; [exact Dg|exact I]).
    assert (LC : (c =? 101) || (c =? 69) = true) by lia. assert (ND : is_digit c = false) by (unfold is_digit; lia). assert (NP : (46 =? c) = false) by lia.
    split; [|split; [exact ND|exact NP]]. cbn [take_exponent]. rewrite LC. cbn [take_sign]. change (45 =? 45) with true. cbv iota. rewrite SS. destruct ds; [congruence|]. now rewrite E.
Qed.
Theorem read_decimal (neg : bool) t M K : decimal t M K ->
  let s := (if neg then [45] else []) ++ t in strtod s = (of_decimal neg M K, length s).
Proof.
  intros H. cbv zeta. destruct H as [ip ex e M K Di Ni Ex -> ->|ip fp ex e M K Di Df Ni Ex -> ->]; apply exponent_tail in Ex.
  - pose proof (read_parts neg ip [] ex e (digits_all _ Di) Ni (Forall_nil _) Ex) as R. cbv zeta in R. cbn [with_point length] in R. rewrite app_nil_r, Z.sub_0_r in R. exact R.
  - apply digits_all in Di, Df. unfold strtod. destruct Ex as (T1 & T2 & T3).
    assert (HD : exists c r, ip ++ [46] ++ fp ++ ex = c :: r /\ (is_digit c = true \/ c = 46)).
    { destruct ip as [|c r]; [exists 46, (fp ++ ex); split; [reflexivity|now right]|]. apply Forall_cons_iff in Di. exists c, (r ++ [46] ++ fp ++ ex). split; [reflexivity|left; apply Di]. }
    assert (SP : span is_space ((if neg then [45] else []) ++ ip ++ [46] ++ fp ++ ex) = ([], (if neg then [45] else []) ++ ip ++ [46] ++ fp ++ ex)).
    { apply span_stop. destruct neg; [reflexivity|]. cbn [app] in *. destruct HD as (c & r & -> & Dc). cbn [stops]. unfold is_digit in Dc. unfold is_space. lia. }
    rewrite SP. cbn [snd].
    assert (TS : take_sign ((if neg then [45] else []) ++ ip ++ [46] ++ fp ++ ex) = (neg, ip ++ [46] ++ fp ++ ex)).
    { destruct neg; [reflexivity|]. cbn [app] in *. destruct HD as (c & r & -> & Dc). cbn [take_sign]. unfold is_digit in Dc.
      destruct (Z.eqb_spec c 45); [lia|]. destruct (Z.eqb_spec c 43); [lia|]. reflexivity. }
    rewrite TS, (span_app is_digit ip ([46] ++ fp ++ ex) Di eq_refl). cbn [app take_fraction]. change (46 =? 46) with true. cbv iota.
    rewrite (span_app is_digit fp ex Df T2). destruct (ip ++ fp) as [|d ds] eqn:E; [congruence|]. rewrite T1. cbn [length]. rewrite Nat.sub_0_r. reflexivity.
Qed.
