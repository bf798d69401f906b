(** What scaling should deliver.  Positions are exact rational numbers; position [x] of the output shows what is found
    at the corresponding position of the document. *)
From Coq Require Import QArith Qabs Qminmax Permutation Sorted Floats.SpecFloat.
From Verif Require Import Base RectModel CodecModel CopyModel TextModel CoordModel CoordSpec OrderProofs StatModel StatSpec PixelModel FloatProofs AccessModel AccessSpec.
Open Scope Z_scope.

(** one axis: a tile at [a_pos] of length [a_len], stored with [a_pix] pixels, and a region at [a_org] of length [a_ext],
    shown with [a_out] pixels *)
Record axis := Axis { a_pos : Z; a_len : Z; a_pix : Z; a_org : Z; a_ext : Z; a_out : Z }.
(** position in the output of a coordinate of the document *)
Definition out_pos (a : axis) (z : Z) : Q := inject_Z (z - a_org a) * inject_Z (a_out a) / inject_Z (a_ext a).
(** the tile extends from here ... *)
Definition tile_from (a : axis) : Q := out_pos a (a_pos a).
(** ... to here *)
Definition tile_to (a : axis) : Q := out_pos a (a_pos a + a_len a).
(** pixels of the tile per pixel of the output *)
Definition tile_step (a : axis) : Q := (inject_Z (a_pix a) * inject_Z (a_ext a)) / (inject_Z (a_len a) * inject_Z (a_out a)).
(** the position in the tile shown at [x], at most one of its last pixel *)
Definition tile_point (a : axis) (x : Z) : Q := Qmax 0 (Qmin ((inject_Z x - tile_from a) * tile_step a) (inject_Z (a_pix a) - 1)).

Definition extent_ok (n : Z) : Prop := 1 <= n <= 2 ^ 20.
(** sizes up to 2^20, the tile has no more pixels than its size in the document, is magnified twice at most and meets the region *)
Definition axis_ok (a : axis) : Prop :=
  extent_ok (a_len a) /\ extent_ok (a_pix a) /\ extent_ok (a_ext a) /\ extent_ok (a_out a) /\ a_pix a <= a_len a /\
  a_len a * a_out a <= 2 * (a_pix a * a_ext a) /\ Z.max (a_pos a) (a_org a) < Z.min (a_pos a + a_len a) (a_org a + a_ext a).

(** [f x]: the pixel of the tile put at [x], if any.  Exactly scaled *)
Definition scaled_exactly (a : axis) (f : Z -> option Z) : Prop :=
  forall x, 0 <= x < a_out a ->
    (f x <> None <-> (tile_from a <= inject_Z x /\ inject_Z x < tile_to a)%Q) /\
    forall s, f x = Some s -> 0 <= s < a_pix a /\ (Qabs (inject_Z s - tile_point a x) <= 1 # 2)%Q.
(** ... and up to an error of 1/32 pixel at the edges and 1/64 pixel inside *)
Definition scaled (a : axis) (f : Z -> option Z) : Prop :=
  (forall x s, f x = Some s -> 0 <= x < a_out a /\ 0 <= s < a_pix a /\
     (tile_from a - (1 # 32) <= inject_Z x /\ inject_Z x <= tile_to a + (1 # 32))%Q /\
     (Qabs (inject_Z s - tile_point a x) <= (1 # 2) + (1 # 64))%Q) /\
  (forall x, 0 <= x < a_out a -> (tile_from a + (1 # 32) <= inject_Z x)%Q -> (inject_Z x + (1 # 32) <= tile_to a)%Q ->
     (inject_Z x + (1 # 32) <= tile_to a + 1 - / tile_step a)%Q -> f x <> None).

(** ** Drawing one sub-block *)
Definition unmasked (mk : option mask) (x y : Z) : bool :=
  match mk with None => true | Some k => (x <? mw k) && (y <? mh k) && mask_pixel k x y end.
Definition x_axis (i : sbinfo) (roi : rect) (dst : bmp) : axis := Axis (rx (sb_rect i)) (rw (sb_rect i)) (sb_pw i) (rx roi) (rw roi) (bw dst).
Definition y_axis (i : sbinfo) (roi : rect) (dst : bmp) : axis := Axis (ry (sb_rect i)) (rh (sb_rect i)) (sb_ph i) (ry roi) (rh roi) (bh dst).
(** the bitmap has the stored size and its pixels can be put into the destination *)
Definition source_ok (bitmap : Z -> bmp * option mask * copy_kind) (dst : bmp) (k : Z) (i : sbinfo) : Prop :=
  let '(b, mk, kind) := bitmap k in
  bmp_wf b /\ bw b = sb_pw i /\ bh b = sb_ph i /\ (forall m, mk = Some m -> mask_wf m) /\
  match kind with SameType _ => bbpp b = bbpp dst | Convert c => forall v, length v = Z.to_nat (bbpp b) -> length (c v) = Z.to_nat (bbpp dst) end.
(** what a scaled sub-block puts at a pixel of the output *)
Definition scaled_value (bitmap : Z -> bmp * option mask * copy_kind) (k : Z) (fx fy : Z -> option Z) (x y : Z) : option bytes :=
  let '(b, mk, kind) := bitmap k in
  match fx x, fy y with
  | Some sx, Some sy => if unmasked mk sx sy then Some (match kind with SameType _ => pix b sx sy | Convert c => c (pix b sx sy) end) else None
  | _, _ => None
  end.
(** [d'] is [d] with the given values put *)
Definition put_pixels (d d' : bmp) (v : Z -> Z -> option bytes) : Prop :=
  (exists m, d' = bwith d m) /\
  (forall x y, 0 <= x < bw d -> 0 <= y < bh d -> pix d' x y = match v x y with Some b => b | None => pix d x y end) /\
  (forall a, (forall x y k, 0 <= x < bw d -> 0 <= y < bh d -> 0 <= k < bbpp d -> a <> pix_off d x y + k) -> bdata d' a = bdata d a).

(** ** The picture *)
(** every pixel shows the candidate which is on top there, else the background *)
Definition scaled_picture (F : axis -> Z -> option Z) (bitmap : Z -> bmp * option mask * copy_kind) (roi : rect) (cand : Z -> sbinfo -> Prop)
    (above : Z * sbinfo -> Z * sbinfo -> Prop) (back : Z -> Z -> bytes) (d : bmp) : Prop :=
  let value k i := scaled_value bitmap k (F (x_axis i roi d)) (F (y_axis i roi d)) in
  forall x y, 0 <= x < bw d -> 0 <= y < bh d ->
    (exists k i, cand k i /\ value k i x y = Some (pix d x y) /\ forall k' i', cand k' i' -> value k' i' x y <> None -> above (k, i) (k', i')) \/
    ((forall k i, cand k i -> value k i x y = None) /\ pix d x y = back x y).
(** the zoom of a sub-block, in single precision *)
Definition zoomQ (i : sbinfo) : Q := sfQ (sb_zoom i).
(** 1.05 and 1.9 in single precision *)
Definition single_105 : f32 := S754_finite false 8808038 (-23).
Definition single_19 : f32 := S754_finite false 15938355 (-23).
(** sub-blocks with enough pixels for the zoom, ... *)
Definition fine (zoom : f32) (cand : Z -> sbinfo -> Prop) (k : Z) (i : sbinfo) : Prop := cand k i /\ (sfQ (f32_div zoom single_105) <= zoomQ i)%Q.
(** ... and of these the coarsest of their group: those with less than 1.9 times the least zoom *)
Definition level (zoom : f32) (same : sbinfo -> sbinfo -> Prop) (cand : Z -> sbinfo -> Prop) (k : Z) (i : sbinfo) : Prop :=
  fine zoom cand k i /\ exists k0 i0, fine zoom cand k0 i0 /\ same i0 i /\
    (forall k' i', fine zoom cand k' i' -> same i' i -> (zoomQ i0 <= zoomQ i')%Q) /\ (zoomQ i < sfQ (f32_mul (sb_zoom i0) single_19))%Q.
(** finer sub-blocks above coarser ones, then by M index within layer 0 or by their position in the directory *)
Definition finer_above (sort_m : bool) (a b : Z * sbinfo) : Prop :=
  (zoomQ (snd b) < zoomQ (snd a))%Q \/
  (zoomQ (snd b) == zoomQ (snd a))%Q /\ (if sort_m then on_layer0 (snd a) = true -> on_layer0 (snd b) = true -> m_above (snd a) (snd b) else fst b <= fst a).
Definition scene (i : sbinfo) : option Z := tget (sb_coord i) 5.
(** later scenes above earlier ones *)
Definition scene_above (sort_m : bool) (a b : Z * sbinfo) : Prop :=
  exists s t, scene (snd a) = Some s /\ scene (snd b) = Some t /\ (t < s \/ t = s /\ finer_above sort_m a b).
(** contracts of std::sort and std::stable_sort with the comparisons used: [zoom_less], a strict weak order on layered sets
    (claim C29), and the order of zooms *)
Definition sorts_by_zoom_m (sort : list (Z * sbinfo) -> list (Z * sbinfo)) : Prop :=
  forall l, layered (fun i => exists k, In (k, i) l) -> Permutation l (sort l) /\ StronglySorted (fun a b => zoom_less (snd b) (snd a) = false) (sort l).
Definition sorts_by_zoom (sort : list (Z * sbinfo) -> list (Z * sbinfo)) : Prop :=
  forall l, StronglySorted (fun a b => fst a < fst b) l -> (forall k i, In (k, i) l -> is_num (sb_zoom i)) ->
    Permutation l (sort l) /\ StronglySorted (fun a b => SFltb (sb_zoom (snd b)) (sb_zoom (snd a)) = false /\ (SFltb (sb_zoom (snd a)) (sb_zoom (snd b)) = true \/ fst a < fst b)) (sort l).
Definition encloses (b r : rect) : Prop := rx b <= rx r /\ rx r + rw r <= rx b + rw b /\ ry b <= ry r /\ ry r + rh r <= ry b + rh b.
(** the scenes of the statistics, in ascending order, and their extents *)
Definition scenes_known (st : stats) (dir : list sbinfo) : Prop :=
  StronglySorted Z.lt (map fst (st_scenes st)) /\
  (forall k i s, sub_block dir k i -> scene i = Some s -> exists b b0, In (s, (b, b0)) (st_scenes st) /\ encloses b (sb_rect i)).
(** sizes for which the zoom is computed without overflow *)
Definition zoom_sizes (i : sbinfo) : Prop := extent_ok (rw (sb_rect i)) /\ extent_ok (rh (sb_rect i)) /\ extent_ok (sb_pw i) /\ extent_ok (sb_ph i).
Definition zoom_range (zoom : f32) : Prop := nn 24 128 zoom /\ (b2 (-24) <= sfQ zoom <= b2 24)%Q.
(** what is needed for drawing a sub-block *)
Definition drawable (bitmap : Z -> bmp * option mask * copy_kind) (roi : rect) (dst : bmp) (k : Z) (i : sbinfo) : Prop :=
  source_ok bitmap dst k i /\ axis_ok (x_axis i roi dst) /\ axis_ok (y_axis i roi dst).
Definition any (i j : sbinfo) : Prop := True.
Definition same_scene (i j : sbinfo) : Prop := scene i = scene j.
Definition layer0_tile (i : sbinfo) : Prop := sb_pw i = rw (sb_rect i) /\ sb_ph i = rh (sb_rect i).
Definition scene_in (filter_s : option (Z -> bool)) (i : sbinfo) : Prop := forall p s, filter_s = Some p -> scene i = Some s -> p s = true.
(** the region touches the extent of a scene which is asked for *)
Definition touched (st : stats) (filter_s : option (Z -> bool)) (roi : rect) (s : Z) : Prop :=
  exists b b0, In (s, (b, b0)) (st_scenes st) /\ (forall p, filter_s = Some p -> p s = true) /\
    (0 <= rw b /\ 0 <= rh b /\ 0 <= rw roi /\ 0 <= rh roi) /\ rx b < rx roi + rw roi /\ rx roi < rx b + rw b /\ ry b < ry roi + rh roi /\ ry roi < ry b + rh b.
Definition one_scene st filter_s roi : Prop := forall s t, touched st filter_s roi s -> touched st filter_s roi t -> s = t.
Definition several_scenes st filter_s roi : Prop := exists s t, touched st filter_s roi s /\ touched st filter_s roi t /\ s <> t.
