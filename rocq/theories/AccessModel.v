(** Frames of reference and the single-channel accessors
    (Src/libCZI/CZIReader.cpp, SingleChannelTileAccessor.cpp, SingleChannelPyramidLevelTileAccessor.cpp,
    SingleChannelScalingTileAccessor.cpp). *)
From Coq Require Import Floats.SpecFloat.
From Verif Require Import Base RectModel CodecModel CopyModel TextModel CoordModel StatModel PixelModel.
Open Scope Z_scope.

(** ** CZIFrameOfReference, libCZI_Pixels.h *)
Inductive frame := FInvalid | FDefault | FRaw | FPixel.
Definition frame_eqb (a b : frame) : bool :=
  match a, b with FInvalid, FInvalid | FDefault, FDefault | FRaw, FRaw | FPixel, FPixel => true | _, _ => false end.
(** the default chosen by CCZIReader::Open (l.66-76) and by CCziReaderWriter::GetDefaultFrameOfReference (l.963-974) *)
Definition default_frame (f : frame) : frame := match f with FInvalid | FDefault => FRaw | _ => f end.
Definition consolidated (dflt f : frame) : res frame :=
  match f with FRaw | FPixel => Ok f | FDefault => Ok dflt | FInvalid => Throw end.
(** CCZIReader::TransformPoint, CZIReader.cpp l.116-166 (CCziReaderWriter::TransformPoint, l.721-771, is the same).
    [box0] is the bounding box of layer 0 in the statistics; while it is not valid its position is
    indeterminate (IntRect::Invalidate sets the size only). *)
Definition transform_point (dflt : frame) (box0 : rect) (f : frame) (p : Z * Z) (dst : frame) : res (frame * (Z * Z)) :=
  let* s := consolidated dflt f in
  let* d := consolidated dflt dst in
  if frame_eqb d s then Ok (s, p)
  else
    match s, d with
    | FPixel, FRaw =>
      if rvalid box0 then
        let* x := chk (fst p + rx box0) in let* y := chk (snd p + ry box0) in Ok (FRaw, (x, y))
      else UB
    | FRaw, FPixel =>
      if rvalid box0 then
        let* x := chk (fst p - rx box0) in let* y := chk (snd p - ry box0) in Ok (FPixel, (x, y))
      else UB
    | _, _ => Throw
    end.
(** ISubBlockRepository::TransformRectangle, libCZI.h l.656-674 *)
Definition transform_rect (dflt : frame) (box0 : rect) (f : frame) (r : rect) (dst : frame) : res (frame * rect) :=
  let* (_, ul) := transform_point dflt box0 f (rx r, ry r) dst in
  let* x2 := chk (rx r + rw r) in
  let* y2 := chk (ry r + rh r) in
  let* (g, lr) := transform_point dflt box0 f (x2, y2) dst in
  let* w := chk (fst lr - fst ul) in
  let* h := chk (snd lr - snd ul) in
  Ok (g, mkRect (fst ul) (snd ul) w h).

(** ** Pyramid arithmetic, SingleChannelPyramidLevelTileAccessor.cpp *)
(** static_cast<int>(round(x)): nearest integer, halves away from zero; undefined if it does not fit *)
Definition round_int (x : spec_float) : res Z :=
  match x with
  | S754_zero _ => Ok 0
  | S754_finite s m e => chk (cond_Zopp s (if 0 <=? e then Zpos m * 2 ^ e else (2 * Zpos m + 2 ^ (- e)) / 2 ^ (1 - e)))
  | _ => UB
  end.
(** the loop of CalcPyramidLayerNo, l.186-199 *)
Fixpoint layer_loop (fuel : nat) (f layer n factor : Z) : res Z :=
  match fuel with
  | O => OutOfFuel
  | S fuel' =>
    if n <=? f then Ok layer
    else let* f' := chk (f * factor) in let* layer' := chk (layer + 1) in layer_loop fuel' f' layer' n factor
  end.
(** CalcPyramidLayerNo, l.174-211 (without logging); the division yields infinity or NaN for a size of 0 *)
Definition calc_layer (fuel : nat) (w h pw ph factor : Z) : res Z :=
  let* n := round_int (if ph <? pw then f64_div (f64_of_Z w) (f64_of_Z pw) else f64_div (f64_of_Z h) (f64_of_Z ph)) in
  layer_loop fuel 1 0 n factor.
(** CalcSizeOfPixelOnLayer0, l.150-159 *)
Fixpoint pixel_size_from (n : nat) (f factor : Z) : res Z :=
  match n with O => Ok f | S n' => let* f' := chk (f * factor) in pixel_size_from n' f' factor end.
Definition pixel_size (layer factor : Z) : res Z := pixel_size_from (Z.to_nat layer) 1 factor.
(** position of a tile in the output, l.119-120; division of ints truncates *)
Definition tile_pos (p origin size : Z) : res Z :=
  if size =? 0 then UB else let* d := chk (p - origin) in chk (Z.quot d size).

(** ** Order of drawing *)
(** the key compared in SingleChannelTileAccessor.cpp l.153-157, SingleChannelPyramidLevelTileAccessor.cpp l.224-231 *)
Definition m_key (i : Z * sbinfo) : Z := if valid_m (sb_m (snd i)) then sb_m (snd i) else INT_MIN.

Section Accessors.
  (** std::sort with the comparison of [m_key] *)
  Variable sort : list (Z * sbinfo) -> list (Z * sbinfo).
  (** the decoded bitmap and mask of a sub-block (GetSubBlockDataIncludingMaskForSubBlockIndex) and how it is copied *)
  Variable bitmap : Z -> bmp * option mask * copy_kind.

  Definition tile_at (k x y : Z) : tile := let '(b, mk, kind) := bitmap k in mkTile x y b mk kind.

  (** CSingleChannelAccessorBase::Clear, l.25-31; [None]: a component is NaN *)
  Definition clear (bg : option (px * rgbf)) (dst : bmp) : res bmp :=
    match bg with None => Ok dst | Some (t, c) => fill_px t c dst end.

  (** GetSubBlocksSubset, GetAllSubBlocks of the tile accessor, l.143-179 *)
  Definition tile_subset (sort_m : bool) (plane : coord) (roi : rect) (dir : list sbinfo) : list (Z * sbinfo) :=
    let l := filter (fun i => do_intersect roi (sb_rect (snd i))) (enum_subset (Some plane) None true (fun _ _ => true) 0 dir) in
    if sort_m then sort l else l.
  (** CSingleChannelTileAccessor::InternalGet, l.125-141, and ComposeTiles without optimisation, l.97-122 *)
  Definition tile_get (bnds : bounds) (bg : option (px * rgbf)) (sort_m : bool) (plane : coord) (x y : Z) (dst : bmp) (dir : list sbinfo) : res bmp :=
    let* _ := check_plane bnds plane in
    let* dst := clear bg dst in
    let subs := tile_subset sort_m plane (mkRect x y (bw dst) (bh dst)) dir in
    compose_tiles dst (map (fun i => tile_at (fst i) (rx (sb_rect (snd i))) (ry (sb_rect (snd i)))) subs) x y.
  (** ... with useVisibilityCheckOptimization, l.54-95: the rectangles tested are the logical ones *)
  Definition tile_get_optimised (fuel : nat) (bnds : bounds) (bg : option (px * rgbf)) (sort_m : bool) (plane : coord) (x y : Z) (dst : bmp) (dir : list sbinfo) : res bmp :=
    let* _ := check_plane bnds plane in
    let* dst := clear bg dst in
    let subs := tile_subset sort_m plane (mkRect x y (bw dst) (bh dst)) dir in
    let no := (0, SbInfo [] (mkRect 0 0 0 0) 0 0 0) in
    let* vis := check_visibility fuel (mkRect x y (bw dst) (bh dst)) (length subs) (fun k => sb_rect (snd (nth k subs no))) in
    compose_tiles dst (map (fun k => let i := nth k subs no in tile_at (fst i) (rx (sb_rect (snd i))) (ry (sb_rect (snd i)))) vis) x y.

  (** ** Pyramid accessor *)
  (** GetAllSubBlocks, l.240-275: scenes which are not allowed are left out *)
  Definition scene_allowed (scenes : option (Z -> bool)) (i : sbinfo) : bool :=
    match scenes, tget (sb_coord i) 5 with Some p, Some s => p s | _, _ => true end.
  Definition pyramid_subset (sort_m : bool) (plane : coord) (scenes : option (Z -> bool)) (roi : rect) (dir : list sbinfo) : list (Z * sbinfo) :=
    let l := filter (fun i => scene_allowed scenes (snd i) && do_intersect roi (sb_rect (snd i))) (enum_subset (Some plane) None false (fun _ _ => true) 0 dir) in
    if sort_m then sort l else l.
  (** CalcByLayer, l.161-172: the layer of every sub-block is computed, those of the requested one are kept *)
  Fixpoint by_layer (fuel : nat) (factor layer : Z) (l : list (Z * sbinfo)) : res (list (Z * sbinfo)) :=
    match l with
    | [] => Ok []
    | i :: l' =>
      let* n := calc_layer fuel (rw (sb_rect (snd i))) (rh (sb_rect (snd i))) (sb_pw (snd i)) (sb_ph (snd i)) factor in
      let* r := by_layer fuel factor layer l' in
      Ok (if n =? layer then i :: r else r)
    end.
  Fixpoint place (x y size : Z) (l : list (Z * sbinfo)) : res (list tile) :=
    match l with
    | [] => Ok []
    | i :: l' =>
      let* tx := tile_pos (rx (sb_rect (snd i))) x size in
      let* ty := tile_pos (ry (sb_rect (snd i))) y size in
      let* r := place x y size l' in
      Ok (tile_at (fst i) tx ty :: r)
    end.
  (** CSingleChannelPyramidLevelTileAccessor::InternalGet, l.75-97, ComposeTiles, l.99-130; the size of a pixel is
      computed by the callers, l.52 and l.70.  map::at throws if the layer is missing. *)
  Definition pyramid_get (fuel : nat) (bnds : bounds) (bg : option (px * rgbf)) (sort_m : bool) (plane : coord) (scenes : option (Z -> bool))
      (factor layer x y : Z) (dst : bmp) (dir : list sbinfo) : res bmp :=
    let* size := pixel_size layer factor in
    let* _ := check_plane bnds plane in
    let* dst := clear bg dst in
    let* w := chk (bw dst * size) in
    let* h := chk (bh dst * size) in
    match pyramid_subset sort_m plane scenes (mkRect x y w h) dir with
    | [] => Ok dst
    | subs =>
      let* l := by_layer fuel factor layer subs in
      match l with
      | [] => Throw
      | _ => let* ts := place x y size l in compose_tiles dst ts 0 0
      end
    end.
End Accessors.
