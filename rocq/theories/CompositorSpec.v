(** What a channel contributes to a composed pixel, in exact arithmetic. *)
From Verif Require Import Base RectModel CopyModel HiLoModel HiLoProofs PixelModel PixelSpec FloatProofs CompositorModel.
From Coq Require Import QArith Qabs Floats.SpecFloat.
Open Scope Z_scope.

Definition maxval (t : px) : Z := match t with Gray16 | Bgr48 => 65535 | _ => 255 end.
(** blue, green and red of a pixel (grey: three times the same; alpha is ignored) *)
Definition raw3 (t : px) (v : bytes) : bgr :=
  match comps t v with
  | [a] => (a, a, a)
  | a :: b :: c :: _ => (a, b, c)
  | _ => (0, 0, 0)
  end.
Definition map3 (P : Z -> Z -> Prop) (a c : bgr) : Prop :=
  let '(a1, a2, a3) := a in let '(c1, c2, c3) := c in P a1 c1 /\ P a2 c2 /\ P a3 c3.
Definition sum3 (a : bgr) : Z := let '(a1, a2, a3) := a in a1 + a2 + a3.
Definition around (x : Q) (n : Z) : Prop := (Qabs (inject_Z n - x) <= (1 # 2) + b2 (-15))%Q.
(** the colour [col] scaled with an intensity between 0 and 1 *)
Definition tinted (col : bgr) (intensity : Q) (c : bgr) : Prop :=
  map3 (fun k n => 0 <= n <= k /\ around (inject_Z k * intensity) n) col c.

(** black and white point on the scale of the pixel values, up to single precision *)
Definition is_black_point (M : Z) (black : Q) (bp : Z) : Prop :=
  0 <= bp <= M /\ (inject_Z M * black - b2 (-8) <= inject_Z bp < inject_Z M * black + 1 + b2 (-8))%Q.
Definition is_white_point (M : Z) (white : Q) (wp : Z) : Prop :=
  0 <= wp <= M /\ (inject_Z M * white - 1 - b2 (-8) < inject_Z wp <= inject_Z M * white + b2 (-8))%Q.
(** the intensity of value [v] with black and white point *)
Definition bw_intensity (bp wp v : Z) : Q :=
  if v <=? bp then 0 else if wp <=? v then 1 else inject_Z (v - bp) / inject_Z (wp - bp).
(** the grey value of a pixel *)
Definition gray_of (t : px) (a : bgr) : Z := if is_color t then (sum3 a + 1) / 3 else let '(x, _, _) := a in x.

Definition contribution (ch : chan) (v : bytes) (c : bgr) : Prop :=
  let t := h_px ch in let a := raw3 t v in
  if negb (h_lutn ch =? 0) then
    match h_tint ch with
    | None => map3 (fun x n => n = h_lut ch x) a c
    | Some col => let '(a1, a2, a3) := a in
        tinted col (inject_Z (h_lut ch a1 + h_lut ch a2 + h_lut ch a3) / inject_Z (3 * 255)) c
    end
  else if is_bw_used ch then
    exists bp wp, is_black_point (maxval t) (sfQ (h_black ch)) bp /\ is_white_point (maxval t) (sfQ (h_white ch)) wp /\
      match h_tint ch with
      | None => map3 (fun x n => 0 <= n <= 255 /\ around (255 * bw_intensity bp wp x) n) a c
      | Some col => tinted col (bw_intensity bp wp (gray_of t a)) c
      end
  else
    match h_tint ch with
    | None => map3 (fun x n => n = if is_16 t then x / 256 else x) a c
    | Some col => tinted col (inject_Z (sum3 a) / inject_Z (3 * maxval t)) c
    end.

(** the arguments for which composition is specified *)
Definition byte_color (c : bgr) : Prop := let '(b, g, r) := c in 0 <= b <= 255 /\ 0 <= g <= 255 /\ 0 <= r <= 255.
Definition point_ok (f : f32) : Prop := (nn 24 128 f /\ sfQ f <= 1)%Q.
Definition chan_ok (dst : bmp) (ch : chan) : Prop :=
  bmp_wf (h_src ch) /\ byte_mem (bdata (h_src ch)) /\ bw (h_src ch) = bw dst /\ bh (h_src ch) = bh dst /\
  bbpp (h_src ch) = bpp_of (h_px ch) /\ h_px ch <> Gray32F /\
  (match h_tint ch with Some c => byte_color c | None => True end) /\
  (h_lutn ch <> 0 -> h_px ch <> Bgra32 /\ h_lutn ch = maxval (h_px ch) + 1 /\ h_lutnull ch = false /\ h_lutn ch <= h_lutsize ch /\ byte_mem (h_lut ch)) /\
  (h_lutn ch = 0 -> is_bw_used ch = true -> h_px ch <> Bgra32 /\ point_ok (h_black ch) /\ point_ok (h_white ch)).

(** ** composition *)
Definition add3 (a c : bgr) : bgr := let '(a1, a2, a3) := a in let '(c1, c2, c3) := c in (a1 + c1, a2 + c2, a3 + c3).
Definition total (l : list bgr) : bgr := fold_right add3 (0, 0, 0) l.
(** the pixel stored for a sum of contributions *)
Definition saturated (alpha : option Z) (c : bgr) : bytes :=
  let '(b, g, r) := c in [Z.min 255 b; Z.min 255 g; Z.min 255 r] ++ match alpha with Some a => [a] | None => [] end.

(** a usable weight is a non-negative finite number *)
Definition usable (w : f32) : Prop := match w with S754_zero _ => True | S754_finite s _ _ => s = false | _ => False end.
(** weights that select plain addition *)
Definition unweighted (chs : list chan) : Prop :=
  (exists ch, In ch chs /\ ~ usable (h_weight ch)) \/
  (forall ch, In ch chs -> (sfQ (h_weight ch) == 0)%Q) \/
  (Z.of_nat (length chs) < 2 ^ 24 /\ forall ch, In ch chs -> h_weight ch = f32_of_Z 1).

Definition compose_args (dst : bmp) (dst_px : px) (alpha : option Z) (chs : list chan) : Prop :=
  bmp_wf dst /\ chs <> [] /\ (forall ch, In ch chs -> chan_ok dst ch) /\
  match alpha with
  | None => dst_px = Bgr24 /\ bbpp dst = 3
  | Some a => dst_px = Bgra32 /\ bbpp dst = 4 /\ 0 <= a <= 255
  end.

(** ** weights *)
Definition Qsum (l : list Q) : Q := fold_right Qplus 0%Q l.
Definition mean_weight (chs : list chan) : Q := (Qsum (map (fun ch => sfQ (h_weight ch)) chs) / inject_Z (Z.of_nat (length chs)))%Q.
Definition weight_ok (w : f32) : Prop := nn 24 128 w /\ ((sfQ w == 0)%Q \/ (b2 (-40) <= sfQ w <= b2 40)%Q).
Definition weights_ok (chs : list chan) : Prop :=
  Z.of_nat (length chs) <= 1024 /\ (forall ch, In ch chs -> weight_ok (h_weight ch)) /\ (b2 (-10) <= mean_weight chs)%Q.
(** component [k] stored for contribution [c] of a channel with weight [w] *)
Definition weighted (w mean : Q) (c k : Z) : Prop :=
  0 <= k /\ (Qabs (inject_Z k - inject_Z c * (w / mean)) <= (5 # 8) + inject_Z c * (w / mean) * b2 (-10))%Q.

(** ** arguments which are refused *)
Definition bad_channel (dst : bmp) (ch : chan) : Prop :=
  bw (h_src ch) <> bw dst \/ bh (h_src ch) <> bh dst \/
  0 < h_lutn ch /\ (h_lutnull ch = true \/ h_px ch = Bgra32 \/ h_px ch = Gray32F \/ h_lutn ch <> maxval (h_px ch) + 1).
Definition bad_arguments (dst : bmp) (dst_px : px) (alpha : option Z) (chs : list chan) : Prop :=
  chs = [] \/ (alpha = None /\ dst_px <> Bgr24) \/ (alpha <> None /\ dst_px <> Bgra32) \/ exists ch, In ch chs /\ bad_channel dst ch.
