(** C42, C67, C68: multi-channel composition *)
From Verif Require Import Base RectModel CopyModel CopyProofs HiLoProofs PixelModel PixelSpec FloatProofs CompositorModel CompositorSpec CompositorProofs WeightProofs CompositorExamples.
From Coq Require Import QArith Floats.SpecFloat Permutation.
Open Scope Z_scope.

(** C42, C67.  One function gives the contributions of channels to pixels; it meets the
    specification of contributions, and every composed pixel is the saturated sum. *)
Theorem C42_saturated_sum : exists contrib : chan -> Z -> Z -> bgr,
  (forall dst ch x y, chan_ok dst ch -> 0 <= x < bw dst -> 0 <= y < bh dst -> byte_color (contrib ch x y) /\ contribution ch (pix (h_src ch) x y) (contrib ch x y)) /\
  forall dst dst_px alpha chs, compose_args dst dst_px alpha chs -> unweighted chs ->
    exists d', compose_multi dst dst_px alpha chs = Ok d' /\
      pix_post dst d' (fun x y => Some (saturated alpha (total (map (fun ch => contrib ch x y) chs)))).
Proof. exact compose_unweighted. Qed.
Print Assumptions C42_saturated_sum.
Theorem C42_order : forall dst dst_px alpha chs chs', compose_args dst dst_px alpha chs -> unweighted chs -> Permutation chs chs' ->
  exists d d', compose_multi dst dst_px alpha chs = Ok d /\ compose_multi dst dst_px alpha chs' = Ok d' /\
    forall x y, 0 <= x < bw dst -> 0 <= y < bh dst -> pix d x y = pix d' x y.
Proof. exact compose_order. Qed.
Print Assumptions C42_order.
Example C42_example : (compose_args cdst Bgra32 (Some 77) ex_chs /\ unweighted ex_chs) /\
  exists d, compose_multi cdst Bgra32 (Some 77) ex_chs = Ok d /\ pix d 0 0 = [255; 255; 255; 77] /\ pix d 1 0 = [0; 254; 255; 77].
Proof. exact (conj ex_args ex_composed). Qed.
(** C42.  Arguments which are refused *)
Theorem C42_refused : forall dst dst_px alpha chs, bad_arguments dst dst_px alpha chs -> compose_multi dst dst_px alpha chs = Throw.
Proof. exact compose_refused. Qed.
Print Assumptions C42_refused.
Example C42_refused_case : bad_arguments cdst Bgra32 (Some 77) [ch_red f1; mkChan (h_src (ch_red f1)) Gray8 f1 None (f32_of_Z 0) f1 255 false (fun _ => 0) 255].
Proof. right. right. right. eexists. split; [right; left; reflexivity|]. right. right. split; [reflexivity|]. right. right. right. vm_compute. discriminate. Qed.

(** C67.  Without the range hypothesis on the points, and with a negative table size, the contribution is undefined. *)
Theorem C67_point_range_refuted : exists dst ch, bmp_wf dst /\ bmp_wf (h_src ch) /\ sf_fin (h_black ch) = true /\ sf_fin (h_white ch) = true /\ compose_multi dst Bgr24 None [ch] = UB.
Proof. exact bw_out_of_range. Qed.
Print Assumptions C67_point_range_refuted.
Theorem C67_table_size_refuted : exists dst ch, bmp_wf dst /\ bmp_wf (h_src ch) /\ h_lutn ch = -1 /\ compose_multi dst Bgr24 None [ch] = UB.
Proof. exact lut_negative. Qed.
Print Assumptions C67_table_size_refuted.
Example C67_example : exists d, compose_multi cdst Bgra32 (Some 77) [ch_bw f1] = Ok d /\ pix d 0 0 = [128; 128; 128; 77] /\ pix d 1 0 = [0; 0; 0; 77].
Proof. exact ex_composed_bw. Qed.

(** C68 *)
Theorem C68_weighted_partial : forall dst dst_px alpha chs, compose_args dst dst_px alpha chs -> weights_ok chs ->
  exists d' (contrib stored : chan -> Z -> Z -> bgr), compose_multi dst dst_px alpha chs = Ok d' /\
    pix_post dst d' (fun x y => Some (saturated alpha (total (map (fun ch => stored ch x y) chs)))) /\
    forall ch x y, In ch chs -> 0 <= x < bw dst -> 0 <= y < bh dst ->
      contribution ch (pix (h_src ch) x y) (contrib ch x y) /\
      map3 (weighted (sfQ (h_weight ch)) (mean_weight chs)) (contrib ch x y) (stored ch x y).
Proof. exact compose_weighted. Qed.
Print Assumptions C68_weighted_partial.
Theorem C68_equal_weights : forall dst dst_px alpha chs chs' w, compose_args dst dst_px alpha chs -> weights_ok chs ->
  (forall ch, In ch chs -> (sfQ (h_weight ch) == w)%Q) ->
  chs' = map (fun ch => mkChan (h_src ch) (h_px ch) (f32_of_Z 1) (h_tint ch) (h_black ch) (h_white ch) (h_lutn ch) (h_lutnull ch) (h_lut ch) (h_lutsize ch)) chs ->
  exists d d', compose_multi dst dst_px alpha chs = Ok d /\ compose_multi dst dst_px alpha chs' = Ok d' /\
    forall x y, 0 <= x < bw dst -> 0 <= y < bh dst -> pix d x y = pix d' x y.
Proof. exact compose_equal_weights. Qed.
Print Assumptions C68_equal_weights.
(** finite weights whose sum overflows turn everything black *)
Theorem C68_overflow_refuted : exists dst chs d, (forall ch, In ch chs -> usable (h_weight ch) /\ chan_ok dst ch) /\
  compose_multi dst Bgra32 (Some 77) chs = Ok d /\ pix d 1 0 = [0; 0; 0; 77].
Proof. exact weights_overflow. Qed.
Print Assumptions C68_overflow_refuted.
Example C68_example : (compose_args cdst Bgra32 (Some 77) ex_wchs /\ weights_ok ex_wchs /\ (mean_weight ex_wchs == 2)%Q) /\
  exists d, compose_multi cdst Bgra32 (Some 77) ex_wchs = Ok d /\ pix d 0 0 = [192; 192; 242; 77].
Proof. exact (conj ex_weights ex_weighted). Qed.
Example C68_equal_example : weights_ok [ch_red f_tenth; ch_bw f_tenth; ch_lut f_tenth].
Proof. exact ex_equal. Qed.
