(** C50, C65, C66: pixel conversions, filling, component order *)
From Verif Require Import Base RectModel CopyModel MemProofs CopyProofs HiLoModel HiLoProofs PixelModel PixelSpec FloatProofs PixelProofs FillProofs PixLoopProofs PixelExamples.
From Coq Require Import QArith Floats.SpecFloat.
Open Scope Z_scope.

(** C50.  Bgr24 to Bgr48 reads 16-bit components from 8-bit pixels: it leaves the buffer, or delivers wrong values. *)
Theorem C50_bgr24_to_bgr48_refuted : exists src dst, bmp_wf src /\ bmp_wf dst /\ bbpp src = bpp_of Bgr24 /\ bbpp dst = bpp_of Bgr48 /\ byte_mem (bdata src) /\
  copy_px_offset Bgr24 Bgr48 false src dst 0 0 = UB.
Proof. exact bgr24_bgr48_ub. Qed.
Print Assumptions C50_bgr24_to_bgr48_refuted.
Theorem C50_bgr24_to_bgr48_values_refuted : exists src dst d, bmp_wf src /\ bmp_wf dst /\ bbpp src = bpp_of Bgr24 /\ bbpp dst = bpp_of Bgr48 /\ byte_mem (bdata src) /\
  copy_px_offset Bgr24 Bgr48 false src dst 0 0 = Ok d /\
  comps Bgr24 (pix src 0 0) = [10; 20; 31] /\ comps Bgr48 (pix d 0 0) = [5130; 65311; 510].
Proof. exact bgr24_bgr48_wrong. Qed.
Print Assumptions C50_bgr24_to_bgr48_values_refuted.
(** Every other conversion, for all bitmaps and offsets, without reading or writing outside of the bitmaps. *)
Theorem C50_conversions_partial : forall s d border src dst xo yo, s <> d -> supported s d = true -> (s = Bgr24 /\ d = Bgr48 -> False) ->
  bmp_wf src -> bmp_wf dst -> bbpp src = bpp_of s -> bbpp dst = bpp_of d -> byte_mem (bdata src) ->
  exists d' v, copy_px_offset s d border src dst xo yo = Ok d' /\
    pix_post dst d' (fun x y =>
      if (0 <=? x - xo) && (x - xo <? bw src) && (0 <=? y - yo) && (y - yo <? bh src) then Some (v x y) else None) /\
    forall x y, 0 <= x < bw dst -> 0 <= y < bh dst -> 0 <= x - xo < bw src -> 0 <= y - yo < bh src ->
      conv_spec s d (pix src (x - xo) (y - yo)) (v x y).
Proof. exact copy_px_offset_ok. Qed.
Print Assumptions C50_conversions_partial.
Theorem C50_refused : forall s d dr sr w h border src dst, s <> d -> supported s d = false -> copy_px s d dr sr w h border src dst = Throw.
Proof. exact copy_px_refused. Qed.
Print Assumptions C50_refused.
Example C50_example : bmp_wf ex_src /\ bmp_wf (ex_dst 1) /\ byte_mem (bdata ex_src) /\ supported Bgr24 Gray8 = true /\
  exists d, copy_px_offset Bgr24 Gray8 false ex_src (ex_dst 1) 1 0 = Ok d /\
    map (fun x => pix d x 0) [0; 1; 2] = [[7]; [20]; [170]] /\ map (fun x => pix d x 1) [0; 1; 2] = [[7]; [7]; [7]].
Proof. exact (conj ex_src_wf (conj ex_dst_wf (conj ex_src_bytes (conj eq_refl ex_convert)))). Qed.
Example C50_refused_example : supported Gray32F Gray8 = false.
Proof. exact eq_refl. Qed.

(** C65 *)
Theorem C65_fill : forall t c b, bmp_wf b -> bbpp b = bpp_of t -> unit_color c ->
  exists v d', fill_px t c b = Ok d' /\ fill_spec t (sfQ (c_r c)) (sfQ (c_g c)) (sfQ (c_b c)) v /\ pix_post b d' (fun _ _ => Some v).
Proof. exact fill_px_ok. Qed.
Print Assumptions C65_fill.
Theorem C65_nan_refuted : forall b, fill_px Bgr24 (mkRgbf (f32_of_Z 0) (f32_of_Z 0) S754_nan) b = UB.
Proof. exact fill_nan. Qed.
Print Assumptions C65_nan_refuted.
Theorem C65_infinity_refuted : forall b, fill_px Gray8 (mkRgbf (S754_infinity false) (S754_infinity true) (f32_of_Z 0)) b = UB.
Proof. exact fill_inf_cancel. Qed.
Print Assumptions C65_infinity_refuted.
Example C65_example : unit_color ex_color /\ exists d, fill_px Bgr24 ex_color (ex_dst 3) = Ok d /\ pix d 2 1 = [0; 128; 255] /\ bdata d 9 = 7.
Proof. exact (conj ex_color_ok ex_fill). Qed.

(** C66 *)
Theorem C66_swap_components : forall b, bmp_wf b -> bbpp b = 6 -> byte_mem (bdata b) ->
  exists d e, rgb48_to_bgr48 b = Ok d /\ rgb48_to_bgr48 d = Ok e /\
    (forall x y, 0 <= x < bw b -> 0 <= y < bh b -> comps Bgr48 (pix d x y) = rev (comps Bgr48 (pix b x y))) /\
    (forall a, bdata e a = bdata b a).
Proof. exact rgb48_twice. Qed.
Print Assumptions C66_swap_components.
Theorem C66_padding : forall b, bmp_wf b -> bbpp b = 6 -> byte_mem (bdata b) ->
  exists d, rgb48_to_bgr48 b = Ok d /\ pix_post b d (fun x y => Some (swap6 (pix b x y))).
Proof. exact rgb48_to_bgr48_ok. Qed.
Print Assumptions C66_padding.
Example C66_example : (bmp_wf ex_rgb /\ bbpp ex_rgb = 6 /\ byte_mem (bdata ex_rgb)) /\ exists d, rgb48_to_bgr48 ex_rgb = Ok d /\ pix d 0 0 = [254; 1; 31; 255; 10; 20].
Proof. exact (conj ex_rgb_ok ex_swap). Qed.
