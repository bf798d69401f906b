(** The numbers of the JPEG XR compression: qualities, quantizers, floats. *)
From Coq Require Import QArith Qabs Lqa Floats.SpecFloat.
From Verif Require Import Base RectModel CopyModel HiLoModel HiLoProofs PixelModel FloatProofs SFloatProofs FloatMono ScaleNum PixelProofs FillProofs LutModel LutSpec LutProofs LutToe
  CreateNum JxrModel JxrSpec.
Open Scope Z_scope.

(** ** the quality of a number *)
Lemma quality_best p : param_ok p -> best p -> quality_of p = f32_of_Z 1.
Proof.
  destruct p as [[n|]|]; cbn [param_ok best asked quality_of]; [|reflexivity|reflexivity]. intros H B.
  assert (T : SFltb (f32_div (f32_of_Z n) (f32_of_Z 1000)) (f32_of_Z 1) = false).
  { destruct (f32_of_Z_ok 1000 ltac:(lia)) as [N3 Q3]. destruct (as_float n ltac:(lia)) as [On _].
    pose proof (float_mono 1000 n ltac:(lia) ltac:(lia)) as M. rewrite Q3 in M.
    assert (U : (sfQ (f32_of_Z n) <= b2 33)%Q).
    { assert (N33 : fnn (S754_finite false 8388608 10)) by (split; reflexivity).
      assert (E33 : (sfQ (S754_finite false 8388608 10) == b2 33)%Q) by reflexivity.
      rewrite <- E33. apply (op_le _ _ _ _ On N33). rewrite E33. apply Qle_trans with (inject_Z (2 ^ 32)); [apply injZ_le; lia|vm_compute; discriminate]. }
    assert (G : (1 <= sfQ (f32_of_Z n) / sfQ (f32_of_Z 1000))%Q).
    { apply Qle_shift_div_l; rewrite Q3; [reflexivity|]. lra. }
    assert (O : op32 (sfQ (f32_of_Z n) / sfQ (f32_of_Z 1000)) 34 (f32_div (f32_of_Z n) (f32_of_Z 1000))).
    { apply SFdiv_op; try assumption; try lia; try apply On.
      - rewrite Q3. reflexivity.
      - apply Qle_trans with 1%Q; [vm_compute; discriminate|exact G].
      - apply Qle_lt_trans with (b2 33); [|reflexivity]. apply Qle_shift_div_r; rewrite Q3; [reflexivity|].
        apply Qle_trans with (b2 33); [exact U|vm_compute; discriminate]. }
    destruct (f32_of_Z_ok 1 ltac:(lia)) as [N1 Q1].
    destruct (SFltb (f32_div (f32_of_Z n) (f32_of_Z 1000)) (f32_of_Z 1)) eqn:E; [|reflexivity].
    apply (nn_ltb 24 128) in E; [|apply O|exact N1].
    assert (X : (sfQ (f32_of_Z 1) <= sfQ (f32_div (f32_of_Z n) (f32_of_Z 1000)))%Q).
    { apply (op_ge _ _ _ _ O N1). rewrite Q1. change (inject_Z 1) with 1%Q. exact G. }
    lra. }
  cbv zeta. rewrite T. vm_compute. reflexivity.
Qed.

(** ** the quantizers of all 1000 numbers *)
Definition all_fmt := [FBgr24; FBgr48; FGray8; FGray16; FGray32].
Lemma all_fmt_all f : In f all_fmt. Proof. destruct f; cbn [In all_fmt]; tauto. Qed.

Definition qp_of (quality : f32) (f : jfmt) : res (list Z) :=
  let c420 := negb (SFleb f_half quality || is16 f) in
  let q := if SFltb f_08 quality && is8 f && negb c420
           then f32_add f_08 (f32_mul (SFsub 24 128 quality f_08) f_15) else quality in
  let* qi := f32_cast INT_MIN INT_MAX (f32_mul (f32_of_Z 10) q) in
  let qf := SFsub 24 128 (f32_mul (f32_of_Z 10) q) (f32_of_Z qi) in
  let t := if c420 then qps_420 else if is8 f then qps_8 else if is16 f then qps_16 else qps_32f in
  let* r0 := row_at t qi in
  let* r1 := row_at t (qi + 1) in
  mix_rows qf r0 r1.
Lemma apply_split q f w : apply_quality q f w =
  let* v := qp_of q f in Ok (mkJset (negb (SFleb f_half q || (w <? 2 * 16))) (negb (SFleb f_half q || is16 f)) v).
Proof.
  unfold apply_quality, qp_of. cbv zeta.
  match goal with |- context [f32_cast INT_MIN INT_MAX ?x] => generalize (f32_cast INT_MIN INT_MAX x) end. intros [qi| | |]; cbn [bind]; try reflexivity.
  match goal with |- context [row_at ?t qi] => destruct (row_at t qi); cbn [bind]; try reflexivity end.
  match goal with |- context [row_at ?t (qi + 1)] => destruct (row_at t (qi + 1)); cbn [bind]; reflexivity end.
Qed.

Definition qn (n : Z) : f32 := quality_of (Some (PUint32 n)).
Definition good_qps (f : jfmt) (n : Z) : bool :=
  match qp_of (qn n) f with
  | Ok v => (List.length v =? 6)%nat && forallb (fun q => (2 <=? q) && (q <=? 255)) v
  | _ => false
  end.
Fixpoint le_all (a b : list Z) : bool :=
  match a, b with [], [] => true | x :: a', y :: b' => (x <=? y) && le_all a' b' | _, _ => false end.
(** the next number is not coarser *)
Definition step_ok (f : jfmt) (n : Z) : bool :=
  match qp_of (qn n) f, qp_of (qn (n + 1)) f with Ok a, Ok b => le_all b a | _, _ => false end.
Definition range_ok (n : Z) : bool :=
  SFltb (qn n) (f32_of_Z 1) && negb (SFltb (qn n) (f32_of_Z 0)) && negb (SFltb (f32_of_Z 1) (qn n)) && Bool.eqb (SFleb f_half (qn n)) (500 <=? n).

Lemma check_range : forallb range_ok (zseq 1000) = true. Proof. vm_compute. reflexivity. Qed.
Lemma check_qps : forallb (fun f => forallb (good_qps f) (zseq 1000)) all_fmt = true. Proof. vm_compute. reflexivity. Qed.
Lemma check_step : forallb (fun f => forallb (fun n => (n =? 499) && negb (is16 f) || step_ok f n) (zseq 999)) all_fmt = true.
Proof. vm_compute. reflexivity. Qed.

Lemma in_zseq k n : In k (zseq n) <-> 0 <= k < Z.of_nat n.
Proof.
  unfold zseq. rewrite in_map_iff. split; [intros (i & <- & I); apply in_seq in I; lia|].
  intros H. exists (Z.to_nat k). split; [lia|]. apply in_seq. lia.
Qed.
Lemma range_all n : 0 <= n < 1000 -> SFltb (qn n) (f32_of_Z 1) = true /\ SFltb (qn n) (f32_of_Z 0) = false /\ SFltb (f32_of_Z 1) (qn n) = false /\ SFleb f_half (qn n) = (500 <=? n).
Proof.
  intros H. pose proof (proj1 (forallb_forall _ _) check_range n (proj2 (in_zseq n 1000) ltac:(lia))) as R. unfold range_ok in R.
  apply andb_prop in R. destruct R as [R E]. apply andb_prop in R. destruct R as [R B]. apply andb_prop in R. destruct R as [A Z].
  apply Bool.eqb_prop in E. destruct (SFltb (qn n) (f32_of_Z 0)); [discriminate|]. destruct (SFltb (f32_of_Z 1) (qn n)); [discriminate|]. auto.
Qed.
Lemma qps_all f n : 0 <= n < 1000 -> exists v, qp_of (qn n) f = Ok v /\ List.length v = 6%nat /\ Forall (fun q => 2 <= q <= 255) v.
Proof.
  intros H. pose proof (proj1 (forallb_forall _ _) check_qps f (all_fmt_all f)) as R. cbv beta in R.
  pose proof (proj1 (forallb_forall _ _) R n (proj2 (in_zseq n 1000) ltac:(lia))) as G. unfold good_qps in G.
  destruct (qp_of (qn n) f) as [v| | |]; try discriminate. exists v. split; [reflexivity|]. apply andb_prop in G. destruct G as [L G].
  apply Nat.eqb_eq in L. split; [exact L|]. apply Forall_forall. intros q I. pose proof (proj1 (forallb_forall _ _) G q I). lia.
Qed.
Lemma le_all_ok a : forall b, le_all a b = true -> not_coarser a b.
Proof.
  induction a as [|x a IH]; intros [|y b]; cbn [le_all]; try discriminate; [constructor|]. intros H. apply andb_prop in H. destruct H as [A B].
  constructor; [lia|]. now apply IH.
Qed.
Lemma coarser_trans a : forall b c, not_coarser a b -> not_coarser b c -> not_coarser a c.
Proof.
  induction a as [|x a IH]; intros b c A B; inversion A; subst; inversion B; subst; constructor; [lia|]. eapply IH; eassumption.
Qed.
Lemma coarser_refl a : not_coarser a a.
Proof. induction a; constructor; [lia|assumption]. Qed.
Lemma step_all f n : 0 <= n < 999 -> n <> 499 \/ is16 f = true -> exists a b, qp_of (qn n) f = Ok a /\ qp_of (qn (n + 1)) f = Ok b /\ not_coarser b a.
Proof.
  intros H K. pose proof (proj1 (forallb_forall _ _) check_step f (all_fmt_all f)) as R. cbv beta in R.
  pose proof (proj1 (forallb_forall _ _) R n (proj2 (in_zseq n 999) ltac:(lia))) as G. cbv beta in G.
  replace ((n =? 499) && negb (is16 f)) with false in G by (destruct K as [K| ->]; [destruct (n =? 499) eqn:E; [lia|reflexivity]|now rewrite andb_false_r]).
  cbn [orb] in G. unfold step_ok in G. destruct (qp_of (qn n) f) as [a| | |]; try discriminate. destruct (qp_of (qn (n + 1)) f) as [b| | |]; try discriminate.
  exists a, b. split; [reflexivity|]. split; [reflexivity|]. now apply le_all_ok.
Qed.
Lemma mono_all f (k : nat) : forall n, 0 <= n -> n + Z.of_nat k < 1000 -> n + Z.of_nat k < 500 \/ 500 <= n \/ is16 f = true ->
  exists a b, qp_of (qn n) f = Ok a /\ qp_of (qn (n + Z.of_nat k)) f = Ok b /\ not_coarser b a.
Proof.
  induction k as [|k IH]; intros n H0 H1 S.
  - destruct (qps_all f n ltac:(lia)) as (v & E & _). exists v, v. replace (n + Z.of_nat 0) with n by lia. split; [exact E|]. split; [exact E|apply coarser_refl].
  - destruct (step_all f n ltac:(lia)) as (a & b & Ea & Eb & L). { destruct S as [S|[S|S]]; [left; lia|left; lia|now right]. }
    destruct (IH (n + 1)) as (b' & c & Eb' & Ec & L'); [lia|lia| |].
    { destruct S as [S|[S|S]]; [left; lia|right; left; lia|auto]. }
    rewrite Eb in Eb'. assert (b = b') by congruence. subst b'. exists a, c. split; [exact Ea|]. split.
    + replace (n + Z.of_nat (Datatypes.S k)) with (n + 1 + Z.of_nat k) by lia. exact Ec.
    + eapply coarser_trans; eassumption.
Qed.

(** ** floats *)
Lemma renorm_stop n m e lim : lim <= m -> renorm n m e lim = (m, e).
Proof. intros H. destruct n; cbn [renorm]; [reflexivity|]. replace (m <? lim) with false by lia. reflexivity. Qed.

Lemma float_short bits : not_tiny bits -> pixel2float (float2pixel bits exp_bias len_mantissa) exp_bias len_mantissa = shortened bits.
Proof.
  intros ((B0 & B1) & E4 & _). unfold shortened.
  pose proof (Z.div_mod bits (2 ^ 31) ltac:(lia)) as D. set (s := bits / 2 ^ 31) in *. set (mag := bits mod 2 ^ 31) in *.
  assert (Hs : s = 0 \/ s = 1) by (unfold s; lia).
  assert (Hm : 0 <= mag < 2 ^ 31) by (unfold mag; lia).
  set (e := bits / 2 ^ 23 mod 256) in *. set (f := bits mod 2 ^ 23).
  assert (Ef : mag = e * 2 ^ 23 + f) by (unfold mag, e, f; lia).
  assert (Hf : 0 <= f < 2 ^ 23) by (unfold f; lia). assert (He : 4 <= e < 256) by (unfold e in *; lia).
  set (h := (e - 3) * 2 ^ 13 + (f + 2 ^ 9) / 2 ^ 10).
  assert (P : float2pixel bits exp_bias len_mantissa = if s =? 0 then h else - h).
  { unfold float2pixel, exp_bias, len_mantissa. fold mag. replace (mag =? 0) with false by lia. cbv zeta. fold e f s.
    replace (e =? 0) with false by lia. change (2 ^ (23 - 13 - 1)) with (2 ^ 9). change (2 ^ (23 - 13)) with (2 ^ 10).
    destruct (e - 127 + 124 <=? 1) eqn:C.
    - replace (e - 127 + 124 <? 1) with false by lia. replace ((f + 2 ^ 23) / 2 ^ 23 mod 2 =? 0) with false by lia.
      replace ((f + 2 ^ 23) mod 2 ^ 23) with f by lia. unfold h. replace (e - 3) with 1 by lia. reflexivity.
    - replace ((f + 2 ^ 23) mod 2 ^ 23) with f by lia. unfold h. replace (e - 127 + 124) with (e - 3) by lia. reflexivity. }
  assert (H1 : 2 ^ 13 <= h) by (unfold h; lia).
  assert (HH : h * 1024 = (mag + 512) / 1024 * 1024 - 3 * 2 ^ 23) by (unfold h; rewrite Ef; lia).
  rewrite P. clear P.
  assert (Q : forall g, Z.abs g = h -> pixel2float g exp_bias len_mantissa = (if g <? 0 then 2 ^ 31 else 0) + (mag + 512) / 1024 * 1024).
  { intros g G. unfold pixel2float, exp_bias, len_mantissa. rewrite G. cbv zeta.
    replace (h / 2 ^ 13 =? 0) with false by lia. rewrite renorm_stop by lia. replace (h mod 2 ^ 13 + 2 ^ 13 <? 2 ^ 13) with false by lia.
    change (2 ^ (23 - 13)) with 1024. lia. }
  destruct Hs as [-> | ->]; cbn [Z.eqb].
  - rewrite Q by lia. replace (h <? 0) with false by lia. lia.
  - change (1 =? 0) with false. cbv iota. rewrite Q by lia. replace (- h <? 0) with true by lia. lia.
Qed.

Lemma pixel_range bits : 0 <= bits < 2 ^ 32 -> - 2 ^ 21 < float2pixel bits exp_bias len_mantissa < 2 ^ 21.
Proof.
  intros B. unfold float2pixel, exp_bias, len_mantissa. destruct (bits mod 2 ^ 31 =? 0); [lia|]. cbv zeta.
  change (2 ^ (23 - 13 - 1)) with (2 ^ 9). change (2 ^ (23 - 13)) with (2 ^ 10).
  set (e := bits / 2 ^ 23 mod 256). assert (He : 0 <= e < 256) by (unfold e; lia).
  assert (K : forall e1 m, 0 <= e1 <= 252 -> - 2 ^ 21 < (if bits / 2 ^ 31 =? 0 then e1 * 2 ^ 13 + (m mod 2 ^ 23 + 2 ^ 9) / 2 ^ 10 else - (e1 * 2 ^ 13 + (m mod 2 ^ 23 + 2 ^ 9) / 2 ^ 10)) < 2 ^ 21).
  { intros e1 m H. pose proof (Z.mod_pos_bound m (2 ^ 23) ltac:(lia)). destruct (bits / 2 ^ 31 =? 0); lia. }
  destruct (e =? 0) eqn:E0.
  - replace (e + 1 - 127 + 124 <=? 1) with true by lia. apply K. match goal with |- context [if ?c then 0 else 1] => destruct c; lia end.
  - destruct (e - 127 + 124 <=? 1) eqn:C; [|apply K; lia]. apply K. match goal with |- context [if ?c then 0 else 1] => destruct c; lia end.
Qed.
