(** C83: look-up tables. *)
From Coq Require Import QArith Floats.SpecFloat.
From Verif Require Import Base RectModel CopyModel CoordModel StatModel ScaleModel PixelModel CompositorModel
  FloatProofs SFloatProofs LutModel LutSpec LutProofs LutToe LutSplines LutExamples.
Open Scope Z_scope.

(** C83: the documentation promises as many elements as asked for. With a black point above the white point there
    are more, whatever the gamma or the splines *)
Theorem C83_length_refuted : forall pw g l,
  (exists t, lut8_from_gamma pw 256 f_34 f_14 g = Ok t /\ length t = 384%nat) /\
  (exists t, lut_from_splines 256 f_34 f_14 l = Ok t /\ length t = 384%nat).
Proof. intros pw g l. split; exact (length_wrong 255 _). Qed.
Print Assumptions C83_length_refuted.

(** a black and a white point which are one element apart: 0/0, the conversion of which is undefined.
    pow(NaN, g) is NaN unless g is zero (ISO C, F.10.4.4) *)
Theorem C83_one_sample_refuted :
  (forall pw g, pw S754_nan g = S754_nan -> lut8_from_gamma pw 256 f_half f_129 g = UB /\ lut16_from_gamma pw 256 f_half f_129 g = UB) /\
  (forall l, l <> [] -> lut_from_splines 256 f_half f_129 l = UB).
Proof. exact (conj (fun pw g H => conj (one_sample_gamma pw 255 g H) (one_sample_gamma pw 65535 g H)) one_sample_splines). Qed.
Print Assumptions C83_one_sample_refuted.

(** a gamma of zero: 0/0 again. pow(x, 0) is 1 for every x (ISO C, F.10.4.4) *)
Theorem C83_gamma_zero_refuted : forall pw, (forall x, pw x (S754_zero false) = f_one) ->
  lut8_from_gamma pw 256 (f32_of_Z 0) f_one (S754_zero false) = UB /\ lut16_from_gamma pw 256 (f32_of_Z 0) f_one (S754_zero false) = UB.
Proof. exact gamma_zero. Qed.
Print Assumptions C83_gamma_zero_refuted.

(** what holds, for a gamma of at least one: with 0 <= black <= white <= 1 the table has the length asked for, is zero below the
    black point, maximal from the white point, follows the curve between them and never decreases. Missing: exactly one sample
    between the points (undefined, see above) *)
Theorem C83_gamma_partial : forall pw mx cnt b w g, 1 <= mx <= 65535 -> 0 <= cnt <= 65536 -> unit_float b -> unit_float w -> fle b w ->
  SFltb g f_one = false -> pow_unit pw g ->
  exists low high, cuts cnt b w low high /\
    (high - low <> 1 -> exists t, lut_from_gamma pw mx cnt b w g = Ok t /\ table mx cnt low high (gamma_sample pw g mx) t /\ nondecreasing t).
Proof. exact gamma_up. Qed.
Print Assumptions C83_gamma_partial.
Example C83_gamma_case : exists low high, cuts 8 f_14 f_one low high /\
    (high - low <> 1 -> exists t, lut8_from_gamma pw_linear 8 f_14 f_one f_one = Ok t /\ table 255 8 low high (gamma_sample pw_linear f_one 255) t /\ nondecreasing t).
Proof. exact (C83_gamma_partial pw_linear 255 8 f_14 f_one f_one ltac:(lia) ltac:(lia) unit_14 unit_one le_14 eq_refl (pow_unit_linear _)). Qed.

(** for a gamma below one, provided that the parameter [a] of the curve is moderate and (a + 1)^g is above one *)
Theorem C83_toe_partial : forall pw mx cnt b w g, 1 <= mx <= 65535 -> 0 <= cnt <= 65536 -> unit_float b -> unit_float w -> fle b w ->
  SFltb g f_one = true -> pow_above pw g ->
  let a := toe_slope pw g in nn 24 128 a -> (sfQ a < b2 90)%Q -> (1 < sfQ (pw (f32_add a f_one) g))%Q ->
  exists low high, cuts cnt b w low high /\
    (high - low <> 1 -> exists t, lut_from_gamma pw mx cnt b w g = Ok t /\ table mx cnt low high (toe_sample pw g a (f32_add a f_one) mx) t /\ nondecreasing t).
Proof. exact gamma_down. Qed.
Print Assumptions C83_toe_partial.
Example C83_toe_case : exists low high, cuts 8 f_14 f_one low high /\
    (high - low <> 1 -> exists t, lut8_from_gamma pw_linear 8 f_14 f_one f_half = Ok t /\
       table 255 8 low high (toe_sample pw_linear f_half (f32_of_Z 224) (f32_of_Z 225) 255) t /\ nondecreasing t).
Proof.
  exact (C83_toe_partial pw_linear 255 8 f_14 f_one f_half ltac:(lia) ltac:(lia) unit_14 unit_one le_14 eq_refl (pow_above_linear _)
           (conj eq_refl eq_refl) eq_refl eq_refl).
Qed.

(** for splines: the value of the piece at the sample, truncated and limited *)
Theorem C83_splines_partial : forall cnt b w l, 0 <= cnt <= 65536 -> unit_float b -> unit_float w -> fle b w ->
  (forall s, In s l -> spline_ok s) -> l <> [] ->
  exists low high, cuts cnt b w low high /\
    (high - low <> 1 -> exists t, lut_from_splines cnt b w l = Ok t /\ table 255 cnt low high (spline_sample l) t).
Proof. exact splines_ok. Qed.
Print Assumptions C83_splines_partial.
Example C83_splines_case : exists low high, cuts 9 f_14 f_one low high /\
    (high - low <> 1 -> exists t, lut_from_splines 9 f_14 f_one two_pieces = Ok t /\ table 255 9 low high (spline_sample two_pieces) t).
Proof. exact (C83_splines_partial 9 f_14 f_one two_pieces ltac:(lia) unit_14 unit_one le_14 two_pieces_ok ltac:(discriminate)). Qed.
