(** Floating point numbers in nodes of the metadata XML. *)
From Coq Require Import String QArith Qabs Floats.SpecFloat.
From Verif Require Import Base TextModel TextProofs XmlModel XmlSpec XmlProofs XmlValues XmlPaths XmlNumbers FloatProofs SFloatProofs ScaleNum NumModel NumSpec NumProofs NumText NumRound.
Open Scope Z_scope.

Lemma read_all fuel n s x : try_get_value n = Some s -> strtod s = (x, length s) -> as_double strtod fuel n = Ok (Some x).
Proof.
  intros V R. unfold as_double, try_convert. rewrite V, R. cbn [fst snd]. rewrite skipn_all. destruct fuel; reflexivity.
Qed.
Theorem node_write_read fuel x n n' : fin64 x -> moderate (sfQ x) -> tidy_kids (kids_of n) -> set_double x n = Ok n' ->
  exists y n2, as_double strtod fuel n' = Ok (Some y) /\ fin64 y /\ (Qabs (sfQ y - sfQ x) <= Qabs (sfQ x) * ten (-14))%Q /\
    set_double y n' = Ok n2 /\ try_get_value n2 = try_get_value n'.
Proof.
  intros F M T H. destruct (write_read x F M) as (y & R & Fy & A & S). unfold set_double in H.
  pose proof (set_value_get _ n n' T H) as V. pose proof (set_value_tidy _ n n' T H) as K.
  destruct n' as [nm ats kids| |]; try discriminate. cbn [kids_of] in K. subst kids.
  eexists y, _. split; [exact (read_all fuel _ _ y V R)|]. split; [exact Fy|]. split; [exact A|]. split; [reflexivity|].
  rewrite V, S. cbn. destruct (dbl_text x); reflexivity.
Qed.
Theorem node_zero fuel s n n' : tidy_kids (kids_of n) -> set_double (S754_zero s) n = Ok n' -> as_double strtod fuel n' = Ok (Some (S754_zero s)).
Proof. intros T H. apply (read_all fuel n' _ (S754_zero s) (set_value_get _ n n' T H)). destruct s; reflexivity. Qed.

(** a number read from a decimal text *)
Theorem node_decimal fuel (neg : bool) t M K n : decimal t M K -> try_get_value n = Some ((if neg then [45] else []) ++ t) ->
  exists x, as_double strtod fuel n = Ok (Some x) /\
    (0 < M -> (ten (-307) <= inject_Z M * ten K <= ten 307)%Q ->
      let v := (if neg then - (inject_Z M * ten K) else inject_Z M * ten K)%Q in
      fin64 x /\ (Qabs (sfQ x - v) <= Qabs v * b2 (-52))%Q /\
      (M < 10 ^ 15 -> forall n1 n2, tidy_kids (kids_of n1) -> set_double x n1 = Ok n2 -> as_double strtod fuel n2 = Ok (Some x))).
Proof.
  intros D V. pose proof (read_decimal neg t M K D) as R. cbv zeta in R. eexists. split; [exact (read_all fuel n _ _ V R)|].
  intros HM B. cbv zeta. rewrite !ten_t10 in *. destruct B as [B1 B2]. destruct t10_bounds as [T1 T2].
  assert (VL : (b2 (-1022) <= inject_Z M * t10 K)%Q) by (eapply Qle_trans; [|exact B1]; eapply Qle_trans; [|exact T1]; apply b2_le; lia).
  assert (VU : (inject_Z M * t10 K < b2 1023)%Q) by (eapply Qle_lt_trans; [exact B2|]; eapply Qle_lt_trans; [exact T2|reflexivity]).
  pose proof (of_decimal_near M K HM VL VU) as NR. pose proof (of_decimal_op M K 1023 HM VU ltac:(lia)) as [Hy _].
  assert (V0 : (0 <= inject_Z M * t10 K)%Q) by (eapply Qle_trans; [|exact VL]; apply Qlt_le_weak, b2_pos).
  split; [destruct neg; [rewrite of_decimal_neg; apply fin_opp|]; now apply nn_finite|]. split.
  - destruct neg; [rewrite of_decimal_neg, sfQ_opp, Qabs_opp|]; rewrite (Qabs_pos _ V0); [|exact NR].
    setoid_replace (- sfQ (of_decimal false M K) - - (inject_Z M * t10 K))%Q with (- (sfQ (of_decimal false M K) - inject_Z M * t10 K))%Q by ring. rewrite Qabs_opp. exact NR.
  - intros H15 n1 n2 T H. apply (read_all fuel n2 _ _ (set_value_get _ n1 n2 T H)).
    pose proof (decimal_write_read neg M K ltac:(lia) (conj B1 B2)) as W. exact W.
Qed.
