(** Numbers with six digits (NumModel, ChanSpec). *)
From Coq Require Import String QArith Qabs Lqa Floats.SpecFloat.
From Verif Require Import Base TextModel TextProofs FloatProofs SFloatProofs ScaleModel ScaleNum NumModel NumSpec NumProofs NumText NumRound DocModel DocSpec RangeModel ChanModel ChanSpec.
Open Scope Z_scope.

Lemma six_ordinary x : ordinary x -> six_digits x (stream_dbl x).
Proof.
  unfold six_digits, stream_dbl. intros [(s & ->)|(Fx & M1 & M2)].
  { exists (S754_zero s). split; [destruct s; vm_compute; reflexivity|]. left. exists s. auto. }
  rewrite !ten_t10 in *. destruct (fin_split x Fx) as (s & a & Ex & _ & Ha & Qa). rewrite <- Qa in *.
  destruct (frac_ok a (nn_finite 53 1024 _ Ha)) as (n & d & F & Hd & R).
  assert (Pa : (0 < sfQ a)%Q) by (eapply Qlt_le_trans; [|exact M1]; apply t10_pos).
  assert (Hn : 0 < n) by (apply injZ_lt; rewrite <- R; apply Qmult_lt_0_compat; [exact Pa|now apply injZ_pos]).
  apply rat_unique in R; [|exact Hd]. destruct (sig_digits 6 n d) as [D X] eqn:ES.
  assert (PX : print_g 6 x = (if s then [45] else []) ++ g_text 6 (D, X)) by (rewrite Ex; rewrite (print_g_abs 6 s a n d F Ha Pa), ES; reflexivity).
  destruct (sig_rel 6 n d D X ltac:(lia) Hn Hd ES) as [HD C]. change (6 - 1) with 5 in HD. replace (X - 6 + 1) with (X - 5) in C by lia. rewrite <- R in C.
  assert (XB : Z.abs X < 10 ^ 20).
  { apply (sig_exp 6 n d D X ltac:(lia) Hn Hd ES). rewrite <- R. split; [eapply Qle_trans; [|exact M1]; vm_compute; discriminate|eapply Qle_trans; [exact M2|]; vm_compute; discriminate]. }
  change (1 - 6) with (-5) in C. set (v := (inject_Z D * t10 (X - 5))%Q) in *.
  pose proof C as C0. apply Qabs_Qle_condition in C0. assert (T : ((1 # 2) * t10 (-5) <= 1 # 100)%Q) by (vm_compute; discriminate).
  assert (Tx : (sfQ a * ((1 # 2) * t10 (-5)) <= sfQ a * (1 # 100))%Q) by (apply Qmult_le_l; assumption).
  assert (V1 : ((99 # 100) * sfQ a <= v)%Q) by lra. assert (V2 : (v <= (101 # 100) * sfQ a)%Q) by lra.
  assert (VL : (b2 (-1022) <= v)%Q).
  { eapply Qle_trans; [|exact V1]. eapply Qle_trans; [|apply Qmult_le_l; [reflexivity|exact M1]]. vm_compute. discriminate. }
  assert (VU' : (v <= (101 # 100) * t10 307)%Q) by (eapply Qle_trans; [exact V2|]; apply Qmult_le_l; [reflexivity|exact M2]).
  assert (VU : (v < b2 1023)%Q) by (eapply Qle_lt_trans; [exact VU'|]; reflexivity).
  pose proof (of_decimal_near D (X - 5) ltac:(lia) VL VU) as NR. pose proof (of_decimal_op D (X - 5) 1023 ltac:(lia) VU ltac:(lia)) as [Hb _]. fold v in NR.
  set (b := of_decimal false D (X - 5)) in *.
  assert (Es : of_decimal s D (X - 5) = if s then SFopp b else b) by (destruct s; [apply of_decimal_neg|reflexivity]).
  pose proof (read_g_text s 6 D X ltac:(lia) HD XB) as RD. cbv zeta in RD. replace (X - 6 + 1) with (X - 5) in RD by lia.
  exists (if s then SFopp b else b). split; [rewrite PX, RD, Es; reflexivity|]. right.
  split; [destruct s; [apply fin_opp|]; now apply nn_finite|].
  assert (V0 : (0 < v)%Q) by (eapply Qlt_le_trans; [|exact VL]; apply b2_pos).
  assert (ERR : (Qabs (sfQ b - sfQ a) <= sfQ a * t10 (-5))%Q).
  { apply Qabs_Qle_condition. apply Qabs_Qle_condition in NR. assert (G : (b2 (-52) <= (1 # 10) * t10 (-5))%Q) by (vm_compute; discriminate).
    assert (v * b2 (-52) <= v * ((1 # 10) * t10 (-5)))%Q by (apply Qmult_le_l; assumption).
    assert (t0 : (0 < t10 (-5))%Q) by apply t10_pos. assert (v * ((1 # 10) * t10 (-5)) <= (101 # 100) * sfQ a * ((1 # 10) * t10 (-5)))%Q by (apply Qmult_le_r; [|exact V2]; lra).
    set (w := t10 (-5)) in *. clearbody w. assert (0 < sfQ a * w)%Q by (apply Qmult_lt_0_compat; assumption). split; lra. }
  rewrite <- Qa, Ex. destruct s; [|exact ERR]. rewrite !sfQ_opp. setoid_replace (- sfQ b - - sfQ a)%Q with (- (sfQ b - sfQ a))%Q by ring. rewrite Qabs_opp. exact ERR.
Qed.
Lemma six_min : six_digits DBL_MIN (stream_dbl DBL_MIN).
Proof.
  exists (fst (strtod (stream_dbl DBL_MIN))). split; [vm_compute; reflexivity|]. right. split; [vm_compute; repeat split; discriminate|]. vm_compute. discriminate.
Qed.
Lemma six_max : six_digits DBL_MAX (stream_dbl DBL_MAX).
Proof.
  exists (fst (strtod (stream_dbl DBL_MAX))). split; [vm_compute; reflexivity|]. right. split; [vm_compute; repeat split; discriminate|]. vm_compute. discriminate.
Qed.
Lemma six_bound x : ordinary x \/ x = DBL_MIN \/ x = DBL_MAX -> six_digits x (stream_dbl x).
Proof. intros [H|[->| ->]]; [now apply six_ordinary|exact six_min|exact six_max]. Qed.
