(** The plane scan of the command-line tool: a region is cut into tiles, each of which is written to a file
    (Src/CZICmd/executePlaneScan.cpp, executeBase.cpp). *)
From Verif Require Import Base RectModel CodecModel CopyModel TextModel CoordModel StatModel PixelModel FloatProofs AccessModel ScaleModel.
From Coq Require Import Floats.SpecFloat.
Open Scope Z_scope.

(** GetRoiFromOptions, executeBase.cpp l.59-69; [box] is the bounding box of layer 0 *)
Definition roi_from_options (relative : bool) (r box : rect) : res rect :=
  if relative then
    let* x := chk (rx r + rx box) in
    let* y := chk (ry r + ry box) in
    Ok (mkRect x y (rw r) (rh r))
  else Ok r.

(** The number of tiles along an axis, executePlaneScan.cpp l.39 and l.41; a division by zero is undefined *)
Definition tile_count (extent tile : Z) : res Z :=
  let* a := chk (extent + tile) in
  let* b := chk (a - 1) in
  if tile =? 0 then UB else chk (Z.quot b tile).
(** Position and extent of a tile along an axis, l.43-49 *)
Definition tile_axis (start extent tile k : Z) : res (Z * Z) :=
  let* o := chk (k * tile) in
  let* p := chk (start + o) in
  let* e := chk (extent - o) in
  Ok (p, Z.min tile e).
(** a loop [for (int k = 0; k < n; ++k)] collecting results *)
Fixpoint collect {A} (n : nat) (k : Z) (f : Z -> res (list A)) : res (list A) :=
  match n with
  | O => Ok []
  | S n => let* l := f k in let* l' := collect n (k + 1) f in Ok (l ++ l')
  end.
(** The tiles, l.36 and l.39-53.  The tile sizes are of type uint32_t.  Simplification: the rectangles are determined
    before the first one is drawn. *)
Definition scan_tiles (roi : rect) (tile_w tile_h : Z) : res (list rect) :=
  let tw := s32 tile_w in
  let th := s32 tile_h in
  let* ny := tile_count (rh roi) th in
  collect (Z.to_nat ny) 0 (fun y =>
    let* nx := tile_count (rw roi) tw in
    collect (Z.to_nat nx) 0 (fun x =>
      let* (px, pw) := tile_axis (rx roi) (rw roi) tw x in
      let* (py, ph) := tile_axis (ry roi) (rh roi) th y in
      Ok [mkRect px py pw ph])).

(** Get of the scaling accessor which creates the bitmap, SingleChannelScalingTileAccessor.cpp l.43-56, the region given
    in the frame of the sub-blocks.  [fresh]: what CreateBitmap hands out *)
Definition scale_shot sort_zoom_m sort_zoom bitmap (fresh : Z -> Z -> bmp) optimise bnds st bg sort_m plane filter_s zoom dir (roi : rect) : res bmp :=
  let* w := calc_size (rw roi) zoom in
  let* h := calc_size (rh roi) zoom in
  scale_get sort_zoom_m sort_zoom bitmap optimise bnds st bg sort_m plane filter_s zoom roi (fresh w h) dir.

(** execute, l.21-56, with WriteRoi, l.59-83: the pictures with the rectangles their file names are made of *)
Definition plane_scan (shot : rect -> res bmp) (roi : rect) (tile_w tile_h : Z) : res (list (rect * bmp)) :=
  let* ts := scan_tiles roi tile_w tile_h in
  fold_right (fun t r => let* b := shot t in let* l := r in Ok ((t, b) :: l)) (Ok []) ts.
