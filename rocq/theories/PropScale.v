(** C79, C80, C81: nearest-neighbour scaling and the picture of the scaling accessor *)
From Verif Require Import Base RectModel CodecModel CopyModel CopyProofs TextModel CoordModel CoordSpec OrderProofs StatModel StatSpec PixelModel PixelSpec FloatProofs FillProofs PixelExamples ComposeExamples AccessModel AccessSpec AccessCompose AccessExamples ScaleModel ScaleSpec ScaleProofs ScaleCompose ScaleExamples.
From Coq Require Import QArith Qabs Floats.SpecFloat.
Open Scope Z_scope.

(** C79.  A tile which starts exactly at a pixel of the output may leave it out, ... *)
Theorem C79_left_edge_refuted : exists bitmap zoom roi dst i d',
  SFeqb zoom (f32_of_Z 1) = false /\ bmp_wf dst /\ drawable bitmap roi dst 0 i /\ calc_size (rw roi) zoom = Ok (bw dst) /\ calc_size (rh roi) zoom = Ok (bh dst) /\
  scale_blt bitmap zoom roi dst (0, i) = Ok d' /\
  (tile_from (x_axis i roi dst) == 7 /\ tile_to (x_axis i roi dst) == 25 /\ tile_from (y_axis i roi dst) == 0 /\ tile_to (y_axis i roi dst) == 1)%Q /\
  pix dst 7 0 = [0] /\ pix d' 7 0 = [0] /\ pix d' 8 0 = [50].
Proof. exact left_edge_missing. Qed.
Print Assumptions C79_left_edge_refuted.

(** ... and one which ends exactly where a pixel begins may be drawn there. *)
Theorem C79_right_edge_refuted : exists bitmap zoom roi dst i d',
  SFeqb zoom (f32_of_Z 1) = false /\ bmp_wf dst /\ drawable bitmap roi dst 0 i /\ calc_size (rw roi) zoom = Ok (bw dst) /\ calc_size (rh roi) zoom = Ok (bh dst) /\
  scale_blt bitmap zoom roi dst (0, i) = Ok d' /\ (tile_to (x_axis i roi dst) == 5)%Q /\ pix dst 5 0 = [0] /\ pix d' 5 0 = [50].
Proof. exact right_edge_beyond. Qed.
Print Assumptions C79_right_edge_refuted.

(** Up to 1/32 pixel at the edges and 1/64 pixel inside the pixels are those of exact nearest-neighbour scaling. *)
Theorem C79_scaled_partial : exists F : axis -> Z -> option Z, (forall a, axis_ok a -> scaled a (F a)) /\
  forall bitmap zoom roi dst k i, SFeqb zoom (f32_of_Z 1) = false -> bmp_wf dst -> drawable bitmap roi dst k i ->
  exists d', scale_blt bitmap zoom roi dst (k, i) = Ok d' /\ put_pixels dst d' (scaled_value bitmap k (F (x_axis i roi dst)) (F (y_axis i roi dst))).
Proof. exact (ex_intro _ axis_map (conj axis_map_scaled (fun bitmap zoom roi dst k i Z W D => scale_blt_ok bitmap zoom roi dst k i Z W (proj1 D) (proj1 (proj2 D)) (proj2 (proj2 D))))). Qed.
Print Assumptions C79_scaled_partial.

Example C79_example : let roi := mkRect 8 20 12 4 in
  SFeqb half (f32_of_Z 1) = false /\ bmp_wf (canvas 6 2) /\ drawable one_bmp roi (canvas 6 2) 0 one /\
  exists d, scale_blt one_bmp half roi (canvas 6 2) (0, one) = Ok d /\
    map (fun x => pix d x 0) [0; 1; 2; 3; 4; 5] = [[0]; [100]; [101]; [102]; [103]; [0]] /\ map (fun x => pix d x 1) [0; 1; 2; 3; 4; 5] = [[0]; [104]; [105]; [106]; [107]; [0]].
Proof. exact one_example. Qed.

(** C80.  Adjacent tiles which cover the region may leave a seam, ... *)
Theorem C80_seam_refuted : let roi := mkRect 0 0 41 1 in
  (forall x y, pt_in roi (x, y) = true -> exists k i, region_tile (ch 0) None roi seam_dir k i /\ layer0_tile i /\ pt_in (sb_rect i) (x, y) = true) /\
  (forall k i, region_tile (ch 0) None roi seam_dir k i -> drawable seam_bmp roi (canvas 43 1) k i) /\
  exists d, scale_get_into by_zoom_m by_zoom seam_bmp None ex_bnds (with_scenes []) None true (ch 0) None zoom_1049 roi (canvas 43 1) seam_dir = Ok d /\
    map (fun x => pix d x 0) [20; 21; 22; 23; 24] = [[50]; [50]; [0]; [60]; [60]].
Proof. exact seam. Qed.
Print Assumptions C80_seam_refuted.

(** ... a pyramid tile anywhere in the region keeps finer tiles elsewhere from being drawn, ... *)
Theorem C80_incomplete_pyramid_refuted : let roi := mkRect 0 0 16 4 in
  sub_block hole_dir 1 (tl None 8 0 8 4 8 4 1) /\ layer0_tile (tl None 8 0 8 4 8 4 1) /\
  (exists d, scale_get_into by_zoom_m by_zoom hole_bmp None ex_bnds (with_scenes []) None true (ch 0) None half roi (canvas 8 2) hole_dir = Ok d /\
    map (fun x => pix d x 0) [2; 3; 4; 5; 6] = [[50]; [50]; [0]; [0]; [0]]) /\
  exists d, scale_get_into by_zoom_m by_zoom hole_bmp None ex_bnds (with_scenes []) None true (ch 0) None half roi (canvas 8 2) (skipn 1 hole_dir) = Ok d /\ pix d 5 0 = [50].
Proof. exact hole. Qed.
Print Assumptions C80_incomplete_pyramid_refuted.

(** ... magnifying shows nothing, ... *)
Theorem C80_magnified_refuted : let roi := mkRect 0 0 4 2 in
  exists d, scale_get_into by_zoom_m by_zoom (bitmaps [gray 4 2 (fun _ => 50)]) None ex_bnds (with_scenes []) None true (ch 0) None zoom_2 roi (canvas 8 4) [tl None 0 0 4 2 4 2 1] = Ok d /\
    forallb (fun x => forallb (fun y => match pix d x y with [0] => true | _ => false end) [0; 1; 2; 3]) [0; 1; 2; 3; 4; 5; 6; 7] = true.
Proof. exact magnified. Qed.
Print Assumptions C80_magnified_refuted.

(** ... and tiles without a scene vanish as soon as the region touches two scenes. *)
Theorem C80_no_scene_refuted : scenes_known loose_st loose_dir /\
  (exists d, scale_get_into by_zoom_m by_zoom loose_bmp None ex_bnds loose_st None true (ch 0) None half (mkRect 0 0 12 2) (canvas 6 1) loose_dir = Ok d /\
    map (fun x => pix d x 0) [0; 1; 2; 3; 4; 5] = [[60]; [60]; [70]; [70]; [70]; [0]]) /\
  (exists d, scale_get_into by_zoom_m by_zoom loose_bmp None ex_bnds loose_st None true (ch 0) None half (mkRect 4 0 8 2) (canvas 4 1) loose_dir = Ok d /\
    map (fun x => pix d x 0) [0; 1; 2; 3] = [[70]; [70]; [70]; [50]]).
Proof. exact loose. Qed.
Print Assumptions C80_no_scene_refuted.

(** Within these limits the picture shows the coarsest sufficient level, finer tiles above coarser ones, scaled as in C79. *)
Theorem C80_picture_partial : exists F : axis -> Z -> option Z, (forall a, axis_ok a -> scaled a (F a)) /\
  forall sort_zoom_m sort_zoom bitmap bnds st bg sort_m plane filter_s zoom roi dst dir, sorts_by_zoom_m sort_zoom_m -> sorts_by_zoom sort_zoom ->
  check_plane bnds plane = Ok tt -> bmp_wf dst -> background_ok bg dst -> scenes_known st dir -> zoom_range zoom ->
  (forall k i, region_tile plane filter_s roi dir k i -> zoom_sizes i) ->
  (sort_m = true -> layered (fun i => exists k, region_tile plane filter_s roi dir k i)) ->
  one_scene st filter_s roi -> SFeqb zoom (f32_of_Z 1) = false ->
  let shown := level zoom any (region_tile plane filter_s roi dir) in
  (forall k i, shown k i -> drawable bitmap roi dst k i) ->
  exists m back, scale_get sort_zoom_m sort_zoom bitmap None bnds st bg sort_m plane filter_s zoom roi dst dir = Ok (bwith dst m) /\ background bg dst back /\
    scaled_picture F bitmap roi shown (finer_above sort_m) back (bwith dst m).
Proof. exact (ex_intro _ axis_map (conj axis_map_scaled (fun sm sz bitmap bnds st bg sort_m plane filter_s zoom roi dst dir Hm Hs P W B K Zr Sz L O =>
  scale_get_one sm sz Hm Hs bitmap bnds st bg sort_m plane filter_s zoom roi dst dir P W B K Zr Sz L (involved_one st filter_s roi dir K O)))). Qed.
Print Assumptions C80_picture_partial.

(** If several scenes are touched the level is chosen per scene and later scenes are on top. *)
Theorem C80_scenes_partial : exists F : axis -> Z -> option Z, (forall a, axis_ok a -> scaled a (F a)) /\
  forall sort_zoom_m sort_zoom bitmap bnds st bg sort_m plane filter_s zoom roi dst dir, sorts_by_zoom_m sort_zoom_m -> sorts_by_zoom sort_zoom ->
  check_plane bnds plane = Ok tt -> bmp_wf dst -> background_ok bg dst -> scenes_known st dir -> zoom_range zoom ->
  (forall k i, region_tile plane filter_s roi dir k i -> zoom_sizes i) ->
  (sort_m = true -> layered (fun i => exists k, region_tile plane filter_s roi dir k i)) ->
  several_scenes st filter_s roi -> length plane = 9%nat -> (forall k i, region_tile plane filter_s roi dir k i -> scene i <> None) -> SFeqb zoom (f32_of_Z 1) = false ->
  let shown := level zoom same_scene (region_tile plane filter_s roi dir) in
  (forall k i, shown k i -> drawable bitmap roi dst k i) ->
  exists m back, scale_get sort_zoom_m sort_zoom bitmap None bnds st bg sort_m plane filter_s zoom roi dst dir = Ok (bwith dst m) /\ background bg dst back /\
    scaled_picture F bitmap roi shown (scene_above sort_m) back (bwith dst m).
Proof. exact (ex_intro _ axis_map (conj axis_map_scaled (fun sm sz bitmap bnds st bg sort_m plane filter_s zoom roi dst dir Hm Hs P W B K Zr Sz L O =>
  scale_get_scenes sm sz Hm Hs bitmap bnds st bg sort_m plane filter_s zoom roi dst dir P W B K Zr Sz L (involved_several st filter_s roi O)))). Qed.
Print Assumptions C80_scenes_partial.

Example C80_example : sorts_by_zoom_m by_zoom_m /\ sorts_by_zoom by_zoom /\ check_plane ex_bnds (ch 0) = Ok tt /\ bmp_wf (canvas 4 2) /\ background_ok (Some (Gray8, ex_color)) (canvas 4 2) /\
  scenes_known (with_scenes []) pyr_dir /\ zoom_range half /\ (forall k i, region_tile (ch 0) None pyr_roi pyr_dir k i -> zoom_sizes i) /\
  layered (fun i => exists k, region_tile (ch 0) None pyr_roi pyr_dir k i) /\ one_scene (with_scenes []) None pyr_roi /\ SFeqb half (f32_of_Z 1) = false /\
  (forall k i, level half any (region_tile (ch 0) None pyr_roi pyr_dir) k i -> drawable pyr_bmp pyr_roi (canvas 4 2) k i) /\
  exists d, scale_get by_zoom_m by_zoom pyr_bmp None ex_bnds (with_scenes []) (Some (Gray8, ex_color)) true (ch 0) None half pyr_roi (canvas 4 2) pyr_dir = Ok d /\
    map (fun x => pix d x 0) [0; 1; 2; 3] = [[100]; [101]; [102]; [103]] /\ map (fun x => pix d x 1) [0; 1; 2; 3] = [[104]; [105]; [106]; [107]].
Proof. exact pyr_example. Qed.
Example C80_scenes_example : check_plane ex_bnds (ch 0) = Ok tt /\ bmp_wf (canvas 6 2) /\ background_ok (Some (Gray8, ex_color)) (canvas 6 2) /\
  scenes_known scenes_st scenes_dir /\ zoom_range half /\ (forall k i, region_tile (ch 0) None scenes_roi scenes_dir k i -> zoom_sizes i) /\
  layered (fun i => exists k, region_tile (ch 0) None scenes_roi scenes_dir k i) /\ several_scenes scenes_st None scenes_roi /\ length (ch 0) = 9%nat /\
  (forall k i, region_tile (ch 0) None scenes_roi scenes_dir k i -> scene i <> None) /\ SFeqb half (f32_of_Z 1) = false /\
  (forall k i, level half same_scene (region_tile (ch 0) None scenes_roi scenes_dir) k i -> drawable scenes_bmp scenes_roi (canvas 6 2) k i) /\
  exists d, scale_get by_zoom_m by_zoom scenes_bmp None ex_bnds scenes_st (Some (Gray8, ex_color)) true (ch 0) None half scenes_roi (canvas 6 2) scenes_dir = Ok d /\
    map (fun x => pix d x 0) [0; 1; 2; 3; 4; 5] = [[10]; [11]; [100]; [101]; [102]; [103]].
Proof. exact scenes_example. Qed.

(** C80: a bitmap of the caller is filled if and only if it has the announced size, otherwise it is refused. *)
Theorem C80_size : forall sort_zoom_m sort_zoom bitmap opt bnds st bg sort_m plane filter_s zoom roi dst dir w h, calc_size (rw roi) zoom = Ok w -> calc_size (rh roi) zoom = Ok h ->
  (bw dst = w -> bh dst = h -> scale_get_into sort_zoom_m sort_zoom bitmap opt bnds st bg sort_m plane filter_s zoom roi dst dir = scale_get sort_zoom_m sort_zoom bitmap opt bnds st bg sort_m plane filter_s zoom roi dst dir) /\
  (bw dst <> w \/ bh dst <> h -> scale_get_into sort_zoom_m sort_zoom bitmap opt bnds st bg sort_m plane filter_s zoom roi dst dir = Throw).
Proof. exact into_size. Qed.
Print Assumptions C80_size.
Example C80_size_example : calc_size 41 zoom_1049 = Ok 43 /\ bw (canvas 43 1) = 43.
Proof. split; vm_compute; reflexivity. Qed.

(** C81.  At zoom 1 a tile without a scene is missing where the tile accessor shows it. *)
Theorem C81_no_scene_refuted : scenes_known loose_st loose_dir /\ (forall k i, sub_block loose_dir k i -> layer0_tile i) /\
  (exists d, scale_get_into by_zoom_m by_zoom loose_bmp None ex_bnds loose_st None true (ch 0) None zoom_1 (mkRect 0 0 12 2) (canvas 12 2) loose_dir = Ok d /\
    map (fun x => pix d x 0) [0; 3; 4; 7; 8; 11] = [[60]; [60]; [70]; [70]; [0]; [0]]) /\
  (exists d, tile_get AccessExamples.sort_m loose_bmp ex_bnds None true (ch 0) 0 0 (canvas 12 2) loose_dir = Ok d /\
    map (fun x => pix d x 0) [0; 3; 4; 7; 8; 11] = [[60]; [60]; [70]; [70]; [50]; [50]]).
Proof. exact loose_1. Qed.
Print Assumptions C81_no_scene_refuted.

(** At other zooms the visibility optimisation changes the picture. *)
Theorem C81_optimisation_refuted : let roi := mkRect 0 0 41 1 in
  (forall k, snd (fst (under_bmp k)) = None) /\ (forall k i, sub_block under_dir k i -> drawable under_bmp roi (canvas 43 1) k i) /\
  exists d d', scale_get_into by_zoom_m by_zoom under_bmp None ex_bnds (with_scenes []) None true (ch 0) None zoom_1049 roi (canvas 43 1) under_dir = Ok d /\
    (forall f, scale_get_into by_zoom_m by_zoom under_bmp (Some (100 + f)%nat) ex_bnds (with_scenes []) None true (ch 0) None zoom_1049 roi (canvas 43 1) under_dir = Ok d') /\
    pix d 22 0 = [40] /\ pix d' 22 0 = [0].
Proof. exact under. Qed.
Print Assumptions C81_optimisation_refuted.

(** With one scene and no levels between 1/1.05 and 1 the picture at zoom 1 is the one promised for the tile accessor (C72), ... *)
Theorem C81_tiles_partial : forall sort_zoom_m sort_zoom bitmap bnds st bg sort_m plane filter_s zoom roi dst dir, sorts_by_zoom_m sort_zoom_m -> sorts_by_zoom sort_zoom ->
  check_plane bnds plane = Ok tt -> bmp_wf dst -> background_ok bg dst -> scenes_known st dir -> zoom_range zoom ->
  (forall k i, region_tile plane filter_s roi dir k i -> zoom_sizes i) ->
  (sort_m = true -> layered (fun i => exists k, region_tile plane filter_s roi dir k i)) ->
  one_scene st filter_s roi -> SFeqb zoom (f32_of_Z 1) = true ->
  (forall k i, region_tile plane filter_s roi dir k i -> layer0_tile i \/ (zoomQ i < sfQ (f32_div zoom single_105))%Q) ->
  bw dst = rw roi -> bh dst = rh roi ->
  (forall k i, plane_tile plane dir k i -> bitmap_ok bitmap dst k i) ->
  exists m back, scale_get sort_zoom_m sort_zoom bitmap None bnds st bg sort_m plane filter_s zoom roi dst dir = Ok (bwith dst m) /\ background bg dst back /\
    picture (fun k i => plane_tile plane dir k i /\ scene_in filter_s i) (at_home bitmap) (drawn_above sort_m) back (bwith dst m) (rx roi) (ry roi).
Proof. exact (fun sm sz bitmap bnds st bg sort_m plane filter_s zoom roi dst dir Hm Hs P W B K Zr Sz L O Z1 C E1 E2 T =>
  scale_get_tiles sm sz Hm Hs bitmap bnds st bg sort_m plane filter_s zoom roi dst dir P W B K Zr Sz L (involved_one st filter_s roi dir K O) Z1 C E1 E2
    (fun k i R L0 => T k i (conj (proj1 R) (conj (proj1 (proj2 R)) L0))) T). Qed.
Print Assumptions C81_tiles_partial.

(** ... and without masks the visibility optimisation does not change it. *)
Theorem C81_optimisation_partial : forall sort_zoom_m sort_zoom bitmap bnds st bg sort_m plane filter_s zoom roi dst dir, sorts_by_zoom_m sort_zoom_m -> sorts_by_zoom sort_zoom ->
  check_plane bnds plane = Ok tt -> bmp_wf dst -> background_ok bg dst -> scenes_known st dir -> zoom_range zoom ->
  (forall k i, region_tile plane filter_s roi dir k i -> zoom_sizes i) ->
  (sort_m = true -> layered (fun i => exists k, region_tile plane filter_s roi dir k i)) ->
  one_scene st filter_s roi -> SFeqb zoom (f32_of_Z 1) = true ->
  (forall k i, region_tile plane filter_s roi dir k i -> layer0_tile i \/ (zoomQ i < sfQ (f32_div zoom single_105))%Q) ->
  bw dst = rw roi -> bh dst = rh roi ->
  (forall k i, plane_tile plane dir k i -> bitmap_ok bitmap dst k i /\ snd (fst (bitmap k)) = None) ->
  exists fuel d m', (forall f, (fuel <= f)%nat -> scale_get sort_zoom_m sort_zoom bitmap (Some f) bnds st bg sort_m plane filter_s zoom roi dst dir = Ok d) /\
    scale_get sort_zoom_m sort_zoom bitmap None bnds st bg sort_m plane filter_s zoom roi dst dir = Ok (bwith dst m') /\
    forall x y, 0 <= x < bw dst -> 0 <= y < bh dst -> pix d x y = pix (bwith dst m') x y.
Proof. exact (fun sm sz bitmap bnds st bg sort_m plane filter_s zoom roi dst dir Hm Hs P W B K Zr Sz L O Z1 C E1 E2 T =>
  scale_get_tiles_optimised sm sz Hm Hs bitmap bnds st bg sort_m plane filter_s zoom roi dst dir P W B K Zr Sz L (involved_one st filter_s roi dir K O) Z1 C E1 E2
    (fun k i R L0 => T k i (conj (proj1 R) (conj (proj1 (proj2 R)) L0)))). Qed.
Print Assumptions C81_optimisation_partial.

Example C81_example : check_plane ex_bnds (ch 0) = Ok tt /\ bmp_wf (canvas 8 4) /\ background_ok None (canvas 8 4) /\ scenes_known (with_scenes []) pyr_dir /\ zoom_range zoom_1 /\
  (forall k i, region_tile (ch 0) None pyr_roi pyr_dir k i -> zoom_sizes i) /\ layered (fun i => exists k, region_tile (ch 0) None pyr_roi pyr_dir k i) /\
  one_scene (with_scenes []) None pyr_roi /\ SFeqb zoom_1 (f32_of_Z 1) = true /\
  (forall k i, region_tile (ch 0) None pyr_roi pyr_dir k i -> layer0_tile i \/ (zoomQ i < sfQ (f32_div zoom_1 single_105))%Q) /\
  bw (canvas 8 4) = rw pyr_roi /\ bh (canvas 8 4) = rh pyr_roi /\
  (forall k i, plane_tile (ch 0) pyr_dir k i -> bitmap_ok pyr_bmp (canvas 8 4) k i /\ snd (fst (pyr_bmp k)) = None) /\
  exists d d', scale_get by_zoom_m by_zoom pyr_bmp None ex_bnds (with_scenes []) None true (ch 0) None zoom_1 pyr_roi (canvas 8 4) pyr_dir = Ok d /\
    scale_get by_zoom_m by_zoom pyr_bmp (Some 100%nat) ex_bnds (with_scenes []) None true (ch 0) None zoom_1 pyr_roi (canvas 8 4) pyr_dir = Ok d' /\
    map (fun x => pix d x 1) [0; 1; 3; 4; 5; 7] = [[14]; [15]; [17]; [44]; [45]; [47]] /\ map (fun x => pix d' x 1) [0; 1; 3; 4; 5; 7] = [[14]; [15]; [17]; [44]; [45]; [47]].
Proof. exact tiles_example. Qed.
