(** What a user of JPEG XR compression relies on. *)
From Verif Require Import Base RectModel CopyModel HiLoModel HiLoProofs PixelModel JxrModel.
Open Scope Z_scope.

(** a bitmap given to the compression *)
Definition picture (t : px) (b : bmp) : Prop :=
  bmp_wf b /\ bbpp b = bpp_of t /\ byte_mem (bdata b) /\ 1 <= bw b < 2 ^ 32 /\ 1 <= bh b < 2 ^ 32 /\ bstride b < 2 ^ 32.
(** a size which JPEG XR can take *)
Definition fits (b : bmp) : Prop := 1 <= bw b <= 2 ^ 28 /\ 1 <= bh b <= 2 ^ 28.
(** the site makes the bitmaps it is asked for *)
Definition good_site (mk : px -> Z -> Z -> bmp) : Prop :=
  forall t w h, 0 <= w -> 0 <= h ->
    let b := mk t w h in bmp_wf b /\ bw b = w /\ bh b = h /\ bbpp b = bpp_of t /\ byte_mem (bdata b).
(** the parameter is a uint32_t *)
Definition param_ok (p : option cparam) : Prop := match p with Some (PUint32 n) => 0 <= n < 2 ^ 32 | _ => True end.
(** the number given, if there is one *)
Definition asked (p : option cparam) : option Z := match p with Some (PUint32 n) => Some n | _ => None end.
(** loss-less: nothing said, or 1000 or more *)
Definition best (p : option cparam) : Prop := match asked p with Some n => 1000 <= n | None => True end.

(** the integers jxrlib codes: samples of the width of the format; 22 bits for floats *)
Definition sample_ok (f : jfmt) (v : Z) : Prop :=
  match f with
  | FGray8 | FBgr24 => 0 <= v < 2 ^ 8
  | FGray16 | FBgr48 => 0 <= v < 2 ^ 16
  | FGray32 => - 2 ^ 21 < v < 2 ^ 21
  end.
Definition comps_of (f : jfmt) : nat := match f with FBgr24 | FBgr48 => 3%nat | _ => 1%nat end.
(** the coding does not fail ... *)
Definition never_fails (k : codec) : Prop := forall s f w h px, k_enc k s f w h px <> None.
(** ... and with the settings for loss-less coding it gives back the integers it was given *)
Definition lossless_codec (k : codec) : Prop :=
  forall f w h px d, 1 <= w <= 2 ^ 28 -> 1 <= h <= 2 ^ 28 -> Z.of_nat (length px) = w * h ->
    Forall (fun p => length p = comps_of f /\ Forall (sample_ok f) p) px ->
    k_enc k lossless_set f w h px = Some d -> d <> [] /\ k_dec k d = Some (f, w, h, px).

(** a coding which tells the quantizers it was asked to use, as its data *)
Definition teller : codec := mkCodec (fun s _ _ _ _ => Some (j_qp s)) (fun _ => None).
(** no component is quantized more coarsely in the first list *)
Definition not_coarser (a b : list Z) : Prop := Forall2 Z.le a b.

(** a float, rounded to thirteen bits of mantissa *)
Definition shortened (bits : Z) : Z := bits / 2 ^ 31 * 2 ^ 31 + (bits mod 2 ^ 31 + 512) / 1024 * 1024.
(** a float which is not tiny: 2^-123 and above, or an infinity or a NaN (without those of the largest mantissas) *)
Definition not_tiny (bits : Z) : Prop := 0 <= bits < 2 ^ 32 /\ 4 <= bits / 2 ^ 23 mod 256 /\ bits mod 2 ^ 31 < 2 ^ 31 - 512.

(** the pixels which come back for those which were given *)
Definition same_pixels (b d : bmp) : Prop :=
  bw d = bw b /\ bh d = bh b /\ forall x y, 0 <= x < bw b -> 0 <= y < bh b -> pix d x y = pix b x y.
Definition short_pixels (b d : bmp) : Prop :=
  bw d = bw b /\ bh d = bh b /\ forall x y, 0 <= x < bw b -> 0 <= y < bh b -> not_tiny (unle (pix b x y)) ->
    unle (pix d x y) = shortened (unle (pix b x y)).
