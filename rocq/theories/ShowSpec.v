(** What display settings say about a composed picture. *)
From Coq Require Import QArith Floats.SpecFloat.
From Verif Require Import Base RectModel CopyModel HiLoProofs PixelModel PixelSpec FloatProofs CompositorModel CompositorSpec LutModel LutSpec DispModel.
Open Scope Z_scope.

(** the channels which are shown *)
Definition enabled (ds : settings) : settings := filter (fun e => s_enabled (snd e)) ds.
(** [t] is the table of the curve of [s] for pixels of [n] values *)
Definition curve_table (pw : f32 -> f32 -> f32) (sp : list (f32 * f32) -> list spline) (n : Z) (s : setting) (t : list Z) : Prop :=
  match s_curve s with
  | Gamma g => lut8_from_gamma pw n (s_black s) (s_white s) g = Ok t
  | Spline p => lut_from_splines n (s_black s) (s_white s) (sp p) = Ok t
  | Linear => False
  end.
(** a channel as the compositor has to get it: the bitmap of the channel, weight, tint, points of the setting, and the table of its curve *)
Definition realizes pw sp (types : Z -> px) (srcs : Z -> bmp) (e : Z * setting) (ch : chan) : Prop :=
  let '(c, s) := e in
  h_src ch = srcs c /\ h_px ch = types c /\ h_weight ch = s_weight s /\ h_black ch = s_black s /\ h_white ch = s_white s /\
  h_tint ch = match s_tint s with Some (r, g, b) => Some (b, g, r) | None => None end /\
  match s_curve s with
  | Linear => h_lutn ch = 0
  | _ => let n := maxval (types c) + 1 in h_lutn ch = n /\ h_lutnull ch = false /\
         exists t, curve_table pw sp n s t /\
           forall a, 0 <= a < n -> nth_error t (Z.to_nat a) = Some (h_lut ch a)
  end.
(** bitmap and setting of a channel for which composition is specified *)
Definition showable pw sp (w h : Z) (types : Z -> px) (srcs : Z -> bmp) (e : Z * setting) : Prop :=
  let '(c, s) := e in
  bmp_wf (srcs c) /\ byte_mem (bdata (srcs c)) /\ bw (srcs c) = w /\ bh (srcs c) = h /\ bbpp (srcs c) = bpp_of (types c) /\
  types c <> Gray32F /\ types c <> Bgra32 /\
  (match s_tint s with Some c => byte_color c | None => True end) /\
  unit_float (s_black s) /\ unit_float (s_white s) /\ fle (s_black s) (s_white s) /\
  (s_curve s = Linear \/ exists t, curve_table pw sp (maxval (types c) + 1) s t).
(** the site makes bitmaps of the size asked for *)
Definition makes_bitmaps (fresh : Z -> Z -> bmp) : Prop :=
  forall w h, 0 <= w -> 0 <= h -> let d := fresh w h in bmp_wf d /\ bw d = w /\ bh d = h /\ bbpp d = 3.
(** usable weights: see weights_ok *)
Definition setting_weights_ok (ds : settings) : Prop :=
  Z.of_nat (length ds) <= 1024 /\ Forall (fun e => weight_ok (s_weight (snd e))) ds /\
  (b2 (-10) <= Qsum (map (fun e => sfQ (s_weight (snd e))) ds) / inject_Z (Z.of_nat (length ds)))%Q.
Definition setting_mean (ds : settings) : Q := (Qsum (map (fun e => sfQ (s_weight (snd e))) ds) / inject_Z (Z.of_nat (length ds)))%Q.
(** [d] is the picture of the channels [ds]: every pixel is the saturated sum of what the channels contribute by their settings, weighted
    with the weight of the setting relative to [mean] *)
Definition picture_of pw sp (mean : Q) (types : Z -> px) (srcs : Z -> bmp) (ds : settings) (d : bmp) : Prop :=
  exists chs (contrib stored : chan -> Z -> Z -> bgr), Forall2 (realizes pw sp types srcs) ds chs /\
    forall x y, 0 <= x < bw d -> 0 <= y < bh d ->
      pix d x y = saturated None (total (map (fun ch => stored ch x y) chs)) /\
      forall ch, In ch chs -> contribution ch (pix (h_src ch) x y) (contrib ch x y) /\
        map3 (weighted (sfQ (h_weight ch)) mean) (contrib ch x y) (stored ch x y).
