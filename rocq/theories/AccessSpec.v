(** What the accessors should deliver. *)
From Verif Require Import Base RectModel CodecModel CopyModel TextModel CoordModel CoordSpec StatModel StatSpec PixelModel PixelSpec FloatProofs FillProofs AccessModel.
From Coq Require Import Permutation Sorted.
Open Scope Z_scope.

(** ** Frames of reference *)
Definition meaning (dflt f : frame) : frame := match f with FDefault => dflt | _ => f end.
(** the point of the raw frame; the origin of the pixel frame is the upper left corner of layer 0 *)
Definition raw_point (box0 : rect) (f : frame) (p : Z * Z) : Z * Z :=
  match f with FPixel => (fst p + rx box0, snd p + ry box0) | _ => p end.
Definition point_ok (p : Z * Z) : Prop := in_i32 (fst p) /\ in_i32 (snd p).
Definition proper (f : frame) : Prop := f = FRaw \/ f = FPixel.

(** ** Pyramid *)
(** nearest integer of a quotient of positive numbers, halves upwards *)
Definition nearest (p q : Z) : Z := (2 * p + q) / (2 * q).
(** ratio of logical to stored size along the larger stored side *)
Definition ratio_of (w h pw ph : Z) : Z := if ph <? pw then nearest w pw else nearest h ph.
Definition least_layer (factor n k : Z) : Prop := 0 <= k /\ n <= factor ^ k /\ (k = 0 \/ factor ^ (k - 1) < n).
Definition sizes_ok (i : sbinfo) : Prop :=
  0 < rw (sb_rect i) <= INT_MAX /\ 0 < rh (sb_rect i) <= INT_MAX /\ 0 < sb_pw i <= INT_MAX /\ 0 < sb_ph i <= INT_MAX.
Definition sb_ratio (i : sbinfo) : Z := ratio_of (rw (sb_rect i)) (rh (sb_rect i)) (sb_pw i) (sb_ph i).

(** ** Pictures *)
(** contract of std::sort for the comparison of M indices *)
Definition sorts_by_m (sort : list (Z * sbinfo) -> list (Z * sbinfo)) : Prop :=
  forall l, Permutation l (sort l) /\ StronglySorted (fun a b => m_key a <= m_key b) (sort l).
(** sub-block number k *)
Definition sub_block (dir : list sbinfo) (k : Z) (i : sbinfo) : Prop := 0 <= k /\ nth_error dir (Z.to_nat k) = Some i.
(** every point of the picture shows the candidate which is on top there, else the background *)
Definition picture (cand : Z -> sbinfo -> Prop) (tile_of : Z -> sbinfo -> tile) (above : Z * sbinfo -> Z * sbinfo -> Prop)
    (back : Z -> Z -> bytes) (d : bmp) (x0 y0 : Z) : Prop :=
  forall x y, 0 <= x < bw d -> 0 <= y < bh d ->
    let p := (x + x0, y + y0) in
    (exists k i, cand k i /\ shows (tile_of k i) p = true /\ pix d x y = tile_value (tile_of k i) p /\
       forall k' i', cand k' i' -> shows (tile_of k' i') p = true -> above (k, i) (k', i')) \/
    ((forall k i, cand k i -> shows (tile_of k i) p = false) /\ pix d x y = back x y).
(** drawn later: larger M index, or later in the directory *)
Definition no_m (i : sbinfo) : Prop := sb_m i = INT_MIN \/ sb_m i = INT_MAX.
(** sub-blocks without M index are below those with one, a larger M index is above *)
Definition m_above (a b : sbinfo) : Prop := INT_MIN < sb_m b < INT_MAX -> ~ no_m a /\ sb_m b <= sb_m a.
Definition drawn_above (sort_m : bool) (a b : Z * sbinfo) : Prop := if sort_m then m_above (snd a) (snd b) else fst b <= fst a.
(** what the destination holds where no sub-block shows *)
Definition background (bg : option (px * rgbf)) (dst : bmp) (back : Z -> Z -> bytes) : Prop :=
  match bg with
  | None => back = pix dst
  | Some (t, c) => exists v, fill_spec t (sfQ (c_r c)) (sfQ (c_g c)) (sfQ (c_b c)) v /\ back = fun _ _ => v
  end.
Definition background_ok (bg : option (px * rgbf)) (dst : bmp) : Prop :=
  match bg with None => True | Some (t, c) => bbpp dst = bpp_of t /\ unit_color c end.
(** sub-blocks of the plane on layer 0 *)
Definition plane_tile (plane : coord) (dir : list sbinfo) (k : Z) (i : sbinfo) : Prop :=
  sub_block dir k i /\ in_plane plane (sb_coord i) /\ sb_pw i = rw (sb_rect i) /\ sb_ph i = rh (sb_rect i).
(** the bitmap of a sub-block can be copied into the destination and has the stored size *)
Definition bitmap_ok (bitmap : Z -> bmp * option mask * copy_kind) (dst : bmp) (k : Z) (i : sbinfo) : Prop :=
  tile_wf dst (tile_at bitmap k 0 0) /\ bw (fst (fst (bitmap k))) = sb_pw i /\ bh (fst (fst (bitmap k))) = sb_ph i.
(** a sub-block at its position in the document *)
Definition at_home (bitmap : Z -> bmp * option mask * copy_kind) (k : Z) (i : sbinfo) : tile :=
  let '(b, mk, kind) := bitmap k in mkTile (rx (sb_rect i)) (ry (sb_rect i)) b mk kind.
(** ... of a pyramid layer with pixels of the given size, in the output *)
Definition shrunk (bitmap : Z -> bmp * option mask * copy_kind) (x0 y0 size : Z) (k : Z) (i : sbinfo) : tile :=
  let '(b, mk, kind) := bitmap k in mkTile ((rx (sb_rect i) - x0) / size) ((ry (sb_rect i) - y0) / size) b mk kind.
(** sub-blocks of the plane, of an allowed scene, which meet the region *)
Definition region_tile (plane : coord) (scenes : option (Z -> bool)) (roi : rect) (dir : list sbinfo) (k : Z) (i : sbinfo) : Prop :=
  sub_block dir k i /\ in_plane plane (sb_coord i) /\ share_point roi (sb_rect i) /\
  (forall p s, scenes = Some p -> tget (sb_coord i) 5 = Some s -> p s = true).
Definition sizes_logical (i : sbinfo) : Prop := 0 <= rw (sb_rect i) <= INT_MAX /\ 0 <= rh (sb_rect i) <= INT_MAX.
(** if there are sub-blocks at all, one of them is of the given kind *)
Definition if_some (cand : Z -> sbinfo -> Prop) (kind : sbinfo -> Prop) : Prop :=
  (exists k i, cand k i) -> exists k i, cand k i /\ kind i.
