(** What a plane scan should deliver. *)
From Verif Require Import Base RectModel CodecModel CopyModel TextModel CoordModel CoordSpec PixelModel AccessModel AccessSpec ScaleSpec.
Open Scope Z_scope.

Definition covers (r : rect) (x y : Z) : Prop := rx r <= x < rx r + rw r /\ ry r <= y < ry r + rh r.
Definition contained (r roi : rect) : Prop :=
  0 < rw r /\ 0 < rh r /\ rx roi <= rx r /\ rx r + rw r <= rx roi + rw roi /\ ry roi <= ry r /\ ry r + rh r <= ry roi + rh roi.
(** the tiles lie in the region, every point of the region is in exactly one of them, and only those at the far border are
    smaller than asked for *)
Definition cuts (ts : list rect) (roi : rect) (tw th : Z) : Prop :=
  NoDup ts /\
  (forall t, In t ts -> contained t roi /\ rw t <= tw /\ rh t <= th /\
     (rx t + rw t < rx roi + rw roi -> rw t = tw) /\ (ry t + rh t < ry roi + rh roi -> rh t = th)) /\
  (forall x y, covers roi x y -> exists t, In t ts /\ covers t x y /\ forall t', In t' ts -> covers t' x y -> t' = t).
(** a picture of a part of the region is the corresponding part of the picture of the region, at the points of [where] *)
Definition part_of (whole : bmp) (roi : rect) (where_ : Z -> Z -> Prop) (p : rect * bmp) : Prop :=
  let '(r, b) := p in
  bw b = rw r /\ bh b = rh r /\
  forall x y, covers r x y -> where_ x y -> pix b (x - rx r) (y - ry r) = pix whole (x - rx roi) (y - ry roi).
(** which sub-block is on top is settled: where two tiles of the plane show, their M-indices are valid and differ *)
Definition settled (bitmap : Z -> bmp * option mask * copy_kind) (sort_m : bool) (plane : coord) (dir : list sbinfo) : Prop :=
  sort_m = true -> forall k i k' i' p, plane_tile plane dir k i -> plane_tile plane dir k' i' -> k <> k' ->
    shows (at_home bitmap k i) p = true -> shows (at_home bitmap k' i') p = true -> INT_MIN < sb_m i < INT_MAX /\ INT_MIN < sb_m i' < INT_MAX /\ sb_m i <> sb_m i'.
(** points where the picture does not depend on what the memory of a new bitmap holds *)
Definition determined (bitmap : Z -> bmp * option mask * copy_kind) (bg : option (px * rgbf)) (plane : coord) (filter_s : option (Z -> bool)) (dir : list sbinfo) (x y : Z) : Prop :=
  bg <> None \/ exists k i, plane_tile plane dir k i /\ scene_in filter_s i /\ shows (at_home bitmap k i) (x, y) = true.
