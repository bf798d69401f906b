(** C105: composing channels with the display settings of the document *)
From Coq Require Import QArith Floats.SpecFloat.
From Verif Require Import Base RectModel CopyModel PixelModel PixelSpec FloatProofs CompositorModel CompositorSpec LutModel LutSpec LutExamples DispModel
  ShowModel ShowSpec ShowProofs ShowExamples.
Open Scope Z_scope.

(** the C++ helper: the active channels are the enabled ones, in order, and the picture is their weighted sum *)
Theorem C105_helper : forall pw sp fresh types srcs w h ds, makes_bitmaps fresh -> 0 <= w -> 0 <= h ->
  Forall (showable pw sp w h types srcs) (enabled ds) -> enabled ds <> [] -> setting_weights_ok (enabled ds) ->
  (exists l, active pw sp types ds = Ok l /\ map fst l = map fst (enabled ds)) /\
  exists d, show_helper pw sp fresh types srcs ds = Ok d /\ bw d = w /\ bh d = h /\
    picture_of pw sp (setting_mean (enabled ds)) types srcs (enabled ds) d.
Proof. exact helper_picture. Qed.
Print Assumptions C105_helper.
Example C105_helper_case : Forall (showable pw_linear no_splines 2 1 e_types e_srcs) (enabled e_ds) /\ enabled e_ds = [(0, e_red); (1, e_bw)] /\
  setting_weights_ok (enabled e_ds) /\ makes_bitmaps new_bmp /\
  (exists d, show_helper pw_linear no_splines new_bmp e_types e_srcs e_ds = Ok d /\ pix d 0 0 = [192; 192; 242]).
Proof. exact (conj e_shown (conj e_enabled (conj e_weights (conj new_bmp_ok (proj1 e_pictures))))). Qed.

(** with the C API a channel which is switched off still counts in the mean weight: the other channels get brighter *)
Theorem C105_disabled_refuted : exists types srcs bits ds d d',
  Forall (showable pw_linear no_splines 2 1 types srcs) ds /\ (forall c, bits c = is_16 (types c)) /\ enabled ds <> [] /\
  show_helper pw_linear no_splines new_bmp types srcs ds = Ok d /\ show_capi pw_linear no_splines new_bmp bits types srcs ds = Ok d' /\
  pix d 0 0 = [100; 100; 100] /\ pix d' 0 0 = [200; 200; 200].
Proof. exact disabled_brightens. Qed.
Print Assumptions C105_disabled_refuted.

(** with all channels switched off: white with the C API, an access to an empty list with the helper *)
Theorem C105_all_disabled_refuted : exists types srcs bits ds d,
  Forall (showable pw_linear no_splines 2 1 types srcs) ds /\ (forall c, bits c = is_16 (types c)) /\ ds <> [] /\ enabled ds = [] /\
  show_helper pw_linear no_splines new_bmp types srcs ds = UB /\ show_capi pw_linear no_splines new_bmp bits types srcs ds = Ok d /\
  pix (srcs 0) 0 0 = [100] /\ pix d 0 0 = [255; 255; 255].
Proof. exact all_disabled. Qed.
Print Assumptions C105_all_disabled_refuted.

(** what holds for the C API: the picture is that of the enabled channels with a mean weight which is too small by the share of enabled channels *)
Theorem C105_capi_partial : forall pw sp fresh bits types srcs w h ds, makes_bitmaps fresh -> 0 <= w -> 0 <= h ->
  Forall (showable pw sp w h types srcs) ds -> (forall c, bits c = is_16 (types c)) ->
  enabled ds <> [] -> Z.of_nat (length ds) <= 1024 -> Forall (fun e => weight_ok (s_weight (snd e))) (enabled ds) ->
  let mean := (setting_mean (enabled ds) * (inject_Z (Z.of_nat (length (enabled ds))) / inject_Z (Z.of_nat (length ds))))%Q in
  (b2 (-10) <= mean)%Q ->
  exists d mean', (mean' == mean)%Q /\ show_capi pw sp fresh bits types srcs ds = Ok d /\ bw d = w /\ bh d = h /\ picture_of pw sp mean' types srcs (enabled ds) d.
Proof. exact capi_picture. Qed.
Print Assumptions C105_capi_partial.
Example C105_capi_case : Forall (showable pw_linear no_splines 2 1 e_types e_srcs) e_ds /\ (forall c, e_bits c = is_16 (e_types c)) /\
  (b2 (-10) <= setting_mean (enabled e_ds) * (inject_Z (Z.of_nat (length (enabled e_ds))) / inject_Z (Z.of_nat (length e_ds))))%Q /\
  (exists d, show_capi pw_linear no_splines new_bmp e_bits e_types e_srcs e_ds = Ok d /\ pix d 0 0 = [255; 255; 255] /\ pix d 1 0 = [0; 0; 191]).
Proof. exact (conj e_ds_ok (conj e_bits_ok (conj e_mean (proj2 e_pictures)))). Qed.

(** with all channels enabled the C API and the helper agree exactly *)
Theorem C105_same : forall pw sp fresh bits types srcs w h ds, makes_bitmaps fresh -> 0 <= w -> 0 <= h ->
  Forall (showable pw sp w h types srcs) ds -> (forall c, bits c = is_16 (types c)) ->
  (forall e, In e ds -> s_enabled (snd e) = true) -> ds <> [] ->
  fill_all pw sp bits ds = active pw sp types ds /\ show_capi pw sp fresh bits types srcs ds = show_helper pw sp fresh types srcs ds.
Proof. exact capi_same. Qed.
Print Assumptions C105_same.
Example C105_same_case : Forall (showable pw_linear no_splines 2 1 e_types e_srcs) e_all /\
  exists d, show_helper pw_linear no_splines new_bmp e_types e_srcs e_all = Ok d /\
    show_capi pw_linear no_splines new_bmp e_bits e_types e_srcs e_all = Ok d /\ pix d 0 0 = [192; 242; 192].
Proof. exact (conj e_all_ok e_gamma_same). Qed.

(** whatever the settings: filling out the structure never reads beyond the table it copies *)
Theorem C105_copy : forall pw sp sixteen s, fill_out pw sp sixteen s = UB ->
  s_enabled s = true /\ s_curve s <> Linear /\ curve_lut pw sp (if sixteen then 65536 else 256) s = UB.
Proof. exact fill_out_safe. Qed.
Print Assumptions C105_copy.
