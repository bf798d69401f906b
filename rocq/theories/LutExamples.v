(** Look-up tables: where they are wrong, and concrete ones. *)
From Coq Require Import QArith Qabs Lqa Floats.SpecFloat.
From Verif Require Import Base RectModel CopyModel CoordModel StatModel ScaleModel PixelModel CompositorModel
  FloatProofs SFloatProofs FloatMono PixelProofs FillProofs LutModel LutSpec LutProofs LutToe LutSplines.
Open Scope Z_scope.

(** 1/4, 1/2, 3/4, 129/256 *)
Definition f_14 : f32 := S754_finite false 8388608 (-25).
Definition f_34 : f32 := S754_finite false 12582912 (-24).
Definition f_129 : f32 := S754_finite false 8454144 (-24).

Lemma length_wrong mx f : exists t, make_lut 256 f_34 f_14 mx f = Ok t /\ length t = 384%nat.
Proof. eexists. split; [unfold make_lut; vm_compute; reflexivity|reflexivity]. Qed.

Lemma mul_nan x : f32_mul x S754_nan = S754_nan.
Proof. destruct x; reflexivity. Qed.
Lemma one_sample_gamma pw mx g : pw S754_nan g = S754_nan -> lut_from_gamma pw mx 256 f_half f_129 g = UB.
Proof.
  intros H. unfold lut_from_gamma, make_lut. cbv zeta. change (256 <? 0) with false. cbv iota.
  change (f32_cast INT_MIN INT_MAX (f32_mul f_half (f32_of_Z 256))) with (Ok 128). change (f32_cast INT_MIN INT_MAX (f32_mul f_129 (f32_of_Z 256))) with (Ok 129). cbn [bind].
  change (Z.to_nat (129 - 128)) with 1%nat. cbn [map_range]. change (lut_x 128 129 128) with (Ok S754_nan). cbn [bind].
  rewrite mul_nan. change (f32_add S754_nan f_one) with S754_nan. rewrite H. change (f32_sub S754_nan f_one) with S754_nan. rewrite mul_nan.
  assert (DV : forall d, f32_div S754_nan d = S754_nan) by (intros []; reflexivity). rewrite DV.
  destruct (SFltb g f_one);
  unfold to_out; (assert (C : SFltb (f32_of_Z mx) S754_nan = false) by (destruct (f32_of_Z mx) as [[]|[]| |[] ? ?]; reflexivity)); rewrite C; reflexivity.
Qed.
Lemma add_nan x : f64_add x S754_nan = S754_nan.
Proof. destruct x; reflexivity. Qed.
Lemma one_sample_splines l : l <> [] -> lut_from_splines 256 f_half f_129 l = UB.
Proof.
  intros H. unfold lut_from_splines, make_lut. change (256 <? 0) with false. cbv iota.
  change (f32_cast INT_MIN INT_MAX (f32_mul f_half (f32_of_Z 256))) with (Ok 128). change (f32_cast INT_MIN INT_MAX (f32_mul f_129 (f32_of_Z 256))) with (Ok 129). cbn [bind].
  change (Z.to_nat (129 - 128)) with 1%nat. cbn [map_range]. change (chk (129 - 128)) with (Ok 1). cbn [bind]. change (chk (1 - 1)) with (Ok 0). cbn [bind]. change (chk (128 - 128)) with (Ok 0). cbn [bind].
  change (f64_div (f64_of_Z 0) (f64_of_Z 0)) with S754_nan. unfold calc_spline. change (SFltb S754_nan (f64_of_Z 0) || SFltb (f64_of_Z 1) S754_nan) with false. cbv iota.
  assert (C : forall p, SFltb p S754_nan = false) by (intros [[]|[]| |[] ? ?]; reflexivity).
  assert (I : forall m i, spline_index S754_nan i 0 m = 0%nat) by (induction m as [|s m IH]; intros i; cbn [spline_index]; [reflexivity|rewrite C; apply IH]).
  rewrite I. destruct l as [|s l]; [congruence|]. cbn [nth_error bind]. change (f64_sub S754_nan (s_pos s)) with S754_nan.
  assert (V : spline_value S754_nan (s_co s) = S754_nan).
  { unfold spline_value. cbn [fold_left fst]. assert (NM : forall d, f64_mul S754_nan d = S754_nan) by (intros []; reflexivity).
    assert (M : f64_mul (f64_of_Z 1) S754_nan = S754_nan) by reflexivity. rewrite M, !NM. apply add_nan. }
  rewrite V. reflexivity.
Qed.

(** a gamma of zero: pow(x, 0) is 1 for every x *)
Lemma gamma_zero pw : (forall x, pw x (S754_zero false) = f_one) ->
  lut8_from_gamma pw 256 (f32_of_Z 0) f_one (S754_zero false) = UB /\ lut16_from_gamma pw 256 (f32_of_Z 0) f_one (S754_zero false) = UB.
Proof.
  intros H. unfold lut8_from_gamma, lut16_from_gamma, lut_from_gamma, make_lut. cbv zeta. change (256 <? 0) with false. cbv iota.
  change (f32_cast INT_MIN INT_MAX (f32_mul (f32_of_Z 0) (f32_of_Z 256))) with (Ok 0). change (f32_cast INT_MIN INT_MAX (f32_mul f_one (f32_of_Z 256))) with (Ok 256). cbn [bind].
  change (Z.to_nat (256 - 0)) with (S 255). generalize 255%nat. intros n. cbn [map_range]. change (lut_x 0 256 0) with (Ok (S754_zero false)). cbn [bind].
  rewrite !H. split; reflexivity.
Qed.

(** ** a linear table *)
Definition pw_linear (x g : f32) : f32 := x.
Lemma pow_unit_linear g : pow_unit pw_linear g.
Proof. split; [trivial|]. split; [trivial|]. split; reflexivity. Qed.
Lemma pow_above_linear g : pow_above pw_linear g.
Proof. split; [|trivial]. intros x H. split; [exact H|apply Qle_refl]. Qed.
Lemma unit_14 : unit_float f_14. Proof. split; [split; reflexivity|discriminate]. Qed.
Lemma unit_one : unit_float f_one. Proof. split; [split; reflexivity|discriminate]. Qed.
Lemma le_14 : fle f_14 f_one. Proof. discriminate. Qed.
Example linear_table : lut8_from_gamma pw_linear 8 f_14 f_one f_one = Ok [0; 0; 0; 51; 102; 153; 204; 255].
Proof. vm_compute. reflexivity. Qed.
(** gamma 2 and 1/2, for which pow is x * x and the square root *)
Example square_table : lut8_from_gamma (fun x _ => f32_mul x x) 9 (f32_of_Z 0) f_one (f32_of_Z 2) = Ok [0; 3; 15; 35; 63; 99; 143; 195; 255].
Proof. vm_compute. reflexivity. Qed.
Example sqrt_table : lut8_from_gamma (fun x _ => SFsqrt 24 128 x) 9 (f32_of_Z 0) f_one f_half = Ok [0; 79; 119; 149; 175; 198; 218; 237; 255].
Proof. vm_compute. reflexivity. Qed.
Lemma toe_half pw : toe_slope pw f_half = f32_of_Z 224.
Proof. reflexivity. Qed.

(** ** a table from two pieces: 2 x, then 1 *)
Definition d_half : spec_float := S754_finite false 4503599627370496 (-53).
Definition two_pieces : list spline :=
  [mkSpline (f64_of_Z 0) (mkCubic (f64_of_Z 0) (f64_of_Z 0) (f64_of_Z 2) (f64_of_Z 0));
   mkSpline d_half (mkCubic (f64_of_Z 0) (f64_of_Z 0) (f64_of_Z 0) (f64_of_Z 1))].
Lemma two_pieces_ok s : In s two_pieces -> spline_ok s.
Proof.
  assert (U : forall x, valid_binary 53 1024 x = true -> sf_fin x = true -> Qle_bool 0 (sfQ x) && Qle_bool (sfQ x) 1 = true -> unit_double x).
  { intros x V F B. apply andb_true_iff in B. destruct B as [A B]. split; [split; assumption|]. split; now apply Qle_bool_iff. }
  assert (M : forall x, valid_binary 53 1024 x = true -> sf_fin x = true -> Qle_bool (- b2 20) (sfQ x) && Qle_bool (sfQ x) (b2 20) = true -> moderate x).
  { intros x V F B. apply andb_true_iff in B. destruct B as [A B]. split; [split; assumption|]. split; now apply Qle_bool_iff. }
  intros [<-|[<-|[]]]; (split; [apply U; reflexivity|]); (split; [apply M; reflexivity|]); (split; [apply M; reflexivity|]); (split; apply M; reflexivity).
Qed.
Example spline_table : lut_from_splines 9 (f32_of_Z 0) f_one two_pieces = Ok [0; 63; 127; 191; 255; 255; 255; 255; 255].
Proof. vm_compute. reflexivity. Qed.
