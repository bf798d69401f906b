(** What handing over a picture should achieve. *)
From Verif Require Import Base CodesModel CodecModel WriterModel WriterSpec ZstdModel AddModel.

(** byte [i] of the pixels, row after row, of a picture with rows of [line] bytes which start [stride] bytes apart *)
Definition given_byte (d : bytes) (stride line : Z) (i : Z) : byte := nth (Z.to_nat (i / line * stride + i mod line)) d 0.
(** the same for a picture given line by line *)
Definition line_byte (lines : Z -> buf) (line : Z) (i : Z) : byte :=
  match lines (i / line) with Some d => nth (Z.to_nat (i mod line)) d 0 | None => 0 end.

(** a picture of the size and type given, whose memory reaches to its last pixel *)
Definition picture_ok (d : bytes) (stride : Z) (pt : pixel_type) (bpp w h : Z) : Prop :=
  bytes_per_pel pt = Ok bpp /\ 0 < w /\ 0 < h /\ 0 <= stride /\ w * bpp + 3 < 2 ^ 32 /\ h * (w * bpp + 3) < 2 ^ 64 /\
  (h - 1) * stride + w * bpp <= Z.of_nat (length d).
Definition lines_ok (lines : Z -> buf) (pt : pixel_type) (bpp w h : Z) : Prop :=
  bytes_per_pel pt = Ok bpp /\ 0 < w /\ 0 < h /\ w * bpp + 3 < 2 ^ 32 /\ h * (w * bpp + 3) < 2 ^ 64 /\
  forall y, 0 <= y < h -> exists d, lines y = Some d /\ w * bpp <= Z.of_nat (length d).

(** a reader which decodes the uncompressed data [stored] gets the picture [f] *)
Definition decodes_to (stored : bytes) (pt : pixel_type) (bpp w h : Z) (f : Z -> byte) : Prop :=
  forall junk, exists b, create_uncompressed true stored pt w h junk = Ok b /\ shows b (w * bpp) h f.

(** ** The C API *)

(** the number of bits of [v] set below bit [i] *)
Definition set_below (v : Z) (i : nat) : nat := length (filter (fun k => Z.testbit v (Z.of_nat k)) (seq 0 i)).
(** the position in dimension [i] (misc_types.h l.59-65): bit [i] tells whether it is given; the values are those of the
    dimensions given, in their order *)
Definition interop_at (c : icoord) (i : nat) : option Z :=
  if Z.testbit (ic_valid c) (Z.of_nat i) then Some (nth (set_below (ic_valid c) i) (ic_value c) 0) else None.

(** metadata or attachment of a sub-block: none, or memory of at least the size given *)
Definition part_given (b : buf) (n : Z) : Prop := n = 0 \/ exists d, b = Some d /\ 0 <= n <= Z.of_nat (length d).
Definition part_bytes (b : buf) (n : Z) : bytes := match b with Some d => firstn (Z.to_nat n) d | None => [] end.

(** a sub-block shows the coordinate, M-index, position, extent and pixel type given *)
Definition recorded (a : iadd) (ob : observed) : Prop :=
  let e := ob_entry ob in
  (forall i, (i < 9)%nat -> nth i (e_coord e) None = interop_at (ia_coord a) i) /\ length (e_coord e) = 9%nat /\
  e_m e = (if ia_mvalid a =? 0 then INT_MIN else ia_m a) /\
  e_x e = ia_x a /\ e_y e = ia_y a /\ e_w e = ia_lw a /\ e_h e = ia_lh a /\ e_sw e = ia_pw a /\ e_sh e = ia_ph a /\ e_pt e = ia_pt a /\
  e_coord (ob_info ob) = e_coord e /\ e_x (ob_info ob) = ia_x a /\ e_y (ob_info ob) = ia_y a /\ e_w (ob_info ob) = ia_lw a /\
  e_h (ob_info ob) = ia_lh a /\ e_sw (ob_info ob) = ia_pw a /\ e_sh (ob_info ob) = ia_ph a /\ e_pt (ob_info ob) = ia_pt a.
