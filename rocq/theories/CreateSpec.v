(** What is expected of a mosaic. *)
From Verif Require Import Base RectModel TextModel CodecModel CodesModel CoordModel CoordSpec.
Open Scope Z_scope.

(** rows by columns, numbered line by line; column [c] is at [px c], row [r] at [py r]: (x, y, M-index) *)
Definition mosaic (rows cols : Z) (px py : Z -> Z) (l : list (Z * Z * Z)) : Prop :=
  Z.of_nat (length l) = rows * cols /\
  forall r c, 0 <= r < rows -> 0 <= c < cols -> nth_error l (Z.to_nat (r * cols + c)) = Some (px c, py r, r * cols + c).

(** [x] is [k] tiles of [size] pixels with an overlap of [p] percent away from 0, rounded: to the nearest pixel, with a relative
    error below 2^-21 before *)
Definition about (p k size x : Z) : Prop :=
  2 ^ 21 * (Z.abs (100 * x - k * size * (100 - p)) - 50) <= k * size * p.

(** no pixel of a line is missing between the first tile and the end of the last *)
Definition no_gap (n size : Z) (px : Z -> Z) : Prop :=
  forall x, px 0 <= x < px (n - 1) + size -> exists k, 0 <= k < n /\ px k <= x < px k + size.

(** every coordinate within the bounds has the whole mosaic, every sub-block once *)
Definition complete (b : bounds) (w h : Z) (l : list (Z * Z * Z)) (es : list sbe) : Prop :=
  NoDup (map (fun e => (e_coord e, e_m e)) es) /\
  (forall e, In e es -> e_w e = w /\ e_h e = h /\ e_sw e = w /\ e_sh e = h) /\
  forall c x y m, (in_box b c /\ In (x, y, m) l) <-> exists e, In e es /\ e_coord e = c /\ e_x e = x /\ e_y e = y /\ e_m e = m.
(** all of a list of sub-blocks can be put into the directory of the writer: any two of them are in order *)
Definition all_different {A} (less : A -> A -> res bool) (es : list A) : Prop :=
  ForallOrdPairs (fun a b => (less a b = Ok true /\ less b a = Ok false) \/ (less a b = Ok false /\ less b a = Ok true)) es.

(** the bounds with a dimension C *)
Definition and_channel (b b' : bounds) : Prop :=
  table9 b' /\ forall d, In d dims -> tget b' d = if (d =? 2) && match tget b 2 with None => true | _ => false end then Some (0, 1) else tget b d.

(** the number by which the file tells a compression; without one given the pixels are stored as they are *)
Inductive stored_as : compression -> Z -> Prop :=
| as_given_none : stored_as CompInvalid 0
| as_plain : stored_as UnCompressed 0
| as_zstd0 : stored_as Zstd0 5
| as_zstd1 : stored_as Zstd1 6.
