(** Lemmas: single precision numbers as text. *)
From Coq Require Import String QArith Qabs Lqa Floats.SpecFloat.
From Verif Require Import Base TextModel TextProofs FloatProofs SFloatProofs ScaleModel ScaleNum NumModel NumSpec NumProofs NumText NumRound DocModel DocSpec DispModel DispSpec.
Open Scope Z_scope.
Local Notation nn32 := (nn 24 128).

Lemma frac_any x : sf_fin x = true -> exists n d, frac x = Some (n, d) /\ 0 < d /\ (sfQ x * inject_Z d == inject_Z n)%Q.
Proof.
  intros F. destruct x as [s|s| |s m e]; try discriminate; cbn [frac].
  - exists 0, 1. repeat split; lia.
  - exists (cond_Zopp s (Zpos m * 2 ^ Z.max e 0)), (2 ^ Z.max (- e) 0). split; [reflexivity|]. split; [lia|].
    cbn [sfQ]. rewrite <- (b2_Z (Z.max (- e) 0)) by lia.
    replace (cond_Zopp s (Zpos m * 2 ^ Z.max e 0)) with (cond_Zopp s (Zpos m) * 2 ^ Z.max e 0) by (destruct s; cbn [cond_Zopp]; lia).
    rewrite inject_Z_mult, <- (b2_Z (Z.max e 0)) by lia. rewrite <- Qmult_assoc, <- b2_plus. replace (e + Z.max (- e) 0) with (Z.max e 0) by lia.
    destruct s; reflexivity.
Qed.
Lemma print_g_any P (s : bool) x n d : frac x = Some (n, d) -> nn32 x -> (0 < sfQ x)%Q ->
  print_g P (if s then SFopp x else x) = (if s then [45] else []) ++ g_text P (sig_digits P n d).
Proof.
  intros F Hx Px. destruct x as [sx|sx| |sx mx ex]; try (destruct Hx as [_ []]; fail); [cbn in Px; now apply Qlt_irrefl in Px|].
  assert (sx = false) by apply Hx. subst. destruct s; cbn [SFopp negb print_g SFabs]; cbn [frac] in F |- *; injection F as <- <-; reflexivity.
Qed.
Lemma fin_split32 x : fin32 x -> exists (s : bool) a, x = (if s then SFopp a else a) /\ nn32 a /\ (sfQ a == Qabs (sfQ x))%Q.
Proof.
  intros F. destruct (fin_abs 24 128 _ F) as (A & _ & B). exists (sgnb x), (SFabs x). split; [|auto].
  destruct x as [s|s| |s m e]; try (destruct F; discriminate); destruct s; reflexivity.
Qed.
(** a float close to a number of six digits is written as this number *)
Lemma print_close32 (s : bool) y D X : nn32 y -> 10 ^ 5 <= D < 10 ^ 6 ->
  (Qabs (sfQ y - inject_Z D * t10 (X - 5)) <= inject_Z D * t10 (X - 5) * b2 (-22))%Q ->
  flt_text (if s then SFopp y else y) = (if s then [45] else []) ++ g_text 6 (D, X).
Proof.
  intros Hy HD C. set (v := (inject_Z D * t10 (X - 5))%Q) in *.
  assert (V : (0 < v)%Q) by (apply Qmult_lt_0_compat; [apply injZ_pos; lia|apply t10_pos]).
  assert (Y : (0 < sfQ y)%Q).
  { apply Qabs_Qle_condition in C. assert (b2 (-22) <= 1 # 2)%Q by (vm_compute; discriminate). nra. }
  destruct (frac_any y (nn_fin 24 128 _ Hy)) as (n & d & F & Hd & R). unfold flt_text. rewrite (print_g_any 6 s y n d F Hy Y). f_equal. f_equal.
  assert (Hn : 0 < n) by (apply injZ_lt; rewrite <- R; apply Qmult_lt_0_compat; [exact Y|now apply injZ_pos]).
  apply rat_unique in R; [|exact Hd].
  apply sig_digits_stable; [lia|exact Hn|exact Hd|exact HD|]. rewrite <- R. replace (X - 6 + 1) with (X - 5) by lia. fold v.
  eapply Qle_lt_trans; [exact C|]. assert (b2 (-22) < (1 # 2) * t10 (-6))%Q by reflexivity. change (- (6)) with (-6).
  setoid_replace ((1 # 2) * v * t10 (-6))%Q with (v * ((1 # 2) * t10 (-6)))%Q by ring. apply Qmult_lt_l; assumption.
Qed.
Lemma to_f32_opp x : to_f32 (SFopp x) = SFopp (to_f32 x).
Proof.
  destruct x as [s|s| |s m e]; try reflexivity. cbn [SFopp to_f32]. unfold binary_round. destruct (shl_align m e _) as [mz ez].
  destruct s; cbn [negb]; [rewrite round_aux_opp|rewrite round_aux_opp]; [|reflexivity].
  destruct (binary_round_aux 24 128 false (Z.pos mz) ez loc_Exact) as [s| s| |s m2 e2]; cbn [SFopp]; rewrite ?negb_involutive; reflexivity.
Qed.
(** rounding a positive double of the range to single precision *)
Lemma to_f32_near x : nn 53 1024 x -> (b2 (-126) <= sfQ x)%Q -> (sfQ x < b2 127)%Q -> nn32 (to_f32 x) /\ (Qabs (sfQ (to_f32 x) - sfQ x) <= sfQ x * b2 (-23))%Q.
Proof.
  intros H L U. assert (P : (0 < sfQ x)%Q) by (eapply Qlt_le_trans; [apply b2_pos|exact L]).
  destruct x as [sx|sx| |sx mx ex]; try (destruct H as [_ []]; fail); [cbn in P; now apply Qlt_irrefl in P|].
  assert (sx = false) by apply H. subst sx. cbn [to_f32]. cbn [sfQ cond_Zopp] in L, U, P |- *. set (X := (inject_Z (Z.pos mx) * b2 ex)%Q) in *.
  pose proof (round_op 24 128 ltac:(lia) ltac:(lia) mx ex X 127 ltac:(reflexivity) U ltac:(lia)) as O. split; [apply O|].
  apply sop_of_op in O; [|now apply Qlt_le_weak]. pose proof (sop_rel 24 128 X 127 _ O) as R. rewrite (Qabs_pos X) in R by now apply Qlt_le_weak.
  eapply Qle_trans; [exact R|]. change (- (24)) with (-24). change (emin 24 128 - 1) with (-150).
  assert (B : (b2 (-150) <= b2 (-126) * b2 (-24))%Q) by (vm_compute; discriminate). assert (E : (b2 (-23) == 2 * b2 (-24))%Q) by reflexivity. rewrite E.
  assert (G : (0 < b2 (-24))%Q) by apply b2_pos. assert (b2 (-126) * b2 (-24) <= X * b2 (-24))%Q by (apply Qmult_le_r; assumption). lra.
Qed.
(** writing and reading *)
Lemma flt_write_read x : ordinary32 x -> exists y, to_f32 (fst (strtod (flt_text x))) = y /\ close32 x y /\ flt_text y = flt_text x.
Proof.
  intros [(s & ->)|(Fx & M1 & M2)].
  { exists (S754_zero s). destruct s; (split; [vm_compute; reflexivity|]); (split; [left; eexists; split; reflexivity|reflexivity]). }
  rewrite !ten_t10 in *. destruct (fin_split32 x Fx) as (s & a & Ex & Ha & Qa). rewrite <- Qa in *.
  destruct (frac_any a (nn_fin 24 128 _ Ha)) as (n & d & F & Hd & R).
  assert (Pa : (0 < sfQ a)%Q) by (eapply Qlt_le_trans; [|exact M1]; apply t10_pos).
  assert (Hn : 0 < n) by (apply injZ_lt; rewrite <- R; apply Qmult_lt_0_compat; [exact Pa|now apply injZ_pos]).
  apply rat_unique in R; [|exact Hd]. destruct (sig_digits 6 n d) as [D X] eqn:ES.
  assert (PX : flt_text x = (if s then [45] else []) ++ g_text 6 (D, X)) by (rewrite Ex; unfold flt_text; rewrite (print_g_any 6 s a n d F Ha Pa), ES; reflexivity).
  destruct (sig_rel 6 n d D X ltac:(lia) Hn Hd ES) as [HD C]. change (6 - 1) with 5 in HD. replace (X - 6 + 1) with (X - 5) in C by lia. rewrite <- R in C.
  assert (XB : Z.abs X < 10 ^ 20).
  { apply (sig_exp 6 n d D X ltac:(lia) Hn Hd ES). rewrite <- R. split; [eapply Qle_trans; [|exact M1]; vm_compute; discriminate|eapply Qle_trans; [exact M2|]; vm_compute; discriminate]. }
  change (1 - 6) with (-5) in C. set (v := (inject_Z D * t10 (X - 5))%Q) in *.
  pose proof C as C0. apply Qabs_Qle_condition in C0. assert (T : ((1 # 2) * t10 (-5) <= 1 # 100)%Q) by (vm_compute; discriminate).
  assert (Tx : (sfQ a * ((1 # 2) * t10 (-5)) <= sfQ a * (1 # 100))%Q) by (apply Qmult_le_l; assumption).
  assert (V1 : ((99 # 100) * sfQ a <= v)%Q) by lra. assert (V2 : (v <= (101 # 100) * sfQ a)%Q) by lra.
  assert (VL : (b2 (-1022) <= v)%Q).
  { eapply Qle_trans; [|exact V1]. eapply Qle_trans; [|apply Qmult_le_l; [reflexivity|exact M1]]. vm_compute. discriminate. }
  assert (VU' : (v <= (101 # 100) * t10 38)%Q) by (eapply Qle_trans; [exact V2|]; apply Qmult_le_l; [reflexivity|exact M2]).
  assert (VU : (v < b2 1023)%Q) by (eapply Qle_lt_trans; [exact VU'|]; reflexivity).
  pose proof (of_decimal_near D (X - 5) ltac:(lia) VL VU) as NR. pose proof (of_decimal_op D (X - 5) 1023 ltac:(lia) VU ltac:(lia)) as [Hb _]. fold v in NR.
  set (b := of_decimal false D (X - 5)) in *.
  assert (Es : of_decimal s D (X - 5) = if s then SFopp b else b) by (destruct s; [apply of_decimal_neg|reflexivity]).
  pose proof (read_g_text s 6 D X ltac:(lia) HD XB) as RD. cbv zeta in RD. replace (X - 6 + 1) with (X - 5) in RD by lia.
  pose proof NR as NR0. apply Qabs_Qle_condition in NR0. assert (V0 : (0 < v)%Q) by (eapply Qlt_le_trans; [|exact VL]; apply b2_pos).
  assert (U52 : (v * b2 (-52) <= v * (1 # 1000000000))%Q) by (apply Qmult_le_l; [exact V0|vm_compute; discriminate]).
  assert (B1 : ((98 # 100) * sfQ a <= sfQ b)%Q) by lra. assert (B2 : (sfQ b <= (102 # 100) * sfQ a)%Q) by lra.
  destruct (to_f32_near b Hb) as (Hc & NC).
  { eapply Qle_trans; [|exact B1]. eapply Qle_trans; [|apply Qmult_le_l; [reflexivity|exact M1]]. vm_compute. discriminate. }
  { eapply Qle_lt_trans; [exact B2|]. eapply Qle_lt_trans; [apply Qmult_le_l; [reflexivity|exact M2]|]. reflexivity. }
  set (c := to_f32 b) in *. exists (if s then SFopp c else c).
  assert (B0 : (0 < sfQ b)%Q) by lra. pose proof NC as NC0. apply Qabs_Qle_condition in NC0.
  assert (CV : (Qabs (sfQ c - v) <= v * b2 (-22))%Q).
  { apply Qabs_Qle_condition. assert (E : (b2 (-22) == 2 * b2 (-23))%Q) by reflexivity. rewrite E. assert (G : (b2 (-52) <= b2 (-23) * (1 # 1000))%Q) by (vm_compute; discriminate).
    assert (G0 : (0 < b2 (-23))%Q) by apply b2_pos. assert (v * b2 (-52) <= v * (b2 (-23) * (1 # 1000)))%Q by (apply Qmult_le_l; assumption).
    assert (sfQ b <= v * (1001 # 1000))%Q by lra.
    assert (sfQ b * b2 (-23) <= v * (1001 # 1000) * b2 (-23))%Q by (apply Qmult_le_r; assumption).
    set (w := b2 (-23)) in *. clearbody w. split; lra. }
  split; [|split].
  - rewrite PX, RD. cbn [fst]. rewrite Es. destruct s; [apply to_f32_opp|reflexivity].
  - right. split; [destruct s; [apply fin_opp|]; now apply nn_finite|].
    assert (ERR : (Qabs (sfQ c - sfQ a) <= sfQ a * t10 (-5))%Q).
    { apply Qabs_Qle_condition. apply Qabs_Qle_condition in CV. assert (G : (b2 (-22) <= (1 # 10) * t10 (-5))%Q) by (vm_compute; discriminate).
      assert (v * b2 (-22) <= v * ((1 # 10) * t10 (-5)))%Q by (apply Qmult_le_l; assumption).
      assert (t0 : (0 < t10 (-5))%Q) by apply t10_pos. assert (v * ((1 # 10) * t10 (-5)) <= (101 # 100) * sfQ a * ((1 # 10) * t10 (-5)))%Q by (apply Qmult_le_r; [|exact V2]; lra).
      set (w := t10 (-5)) in *. clearbody w. assert (0 < sfQ a * w)%Q by (apply Qmult_lt_0_compat; assumption). split; lra. }
    rewrite ten_t10, <- Qa, Ex. destruct s; [|exact ERR]. rewrite !sfQ_opp. setoid_replace (- sfQ c - - sfQ a)%Q with (- (sfQ c - sfQ a))%Q by ring. rewrite Qabs_opp. exact ERR.
  - rewrite PX. now apply print_close32.
Qed.
