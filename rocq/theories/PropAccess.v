(** C35, C49, C54, C71, C72, C73: frames of reference, pyramid layers, pictures of the tile and pyramid accessors *)
From Verif Require Import Base RectModel CodecModel CopyModel CopyProofs TextModel CoordModel CoordSpec StatModel StatSpec StatProofs StatExamples PixelModel PixelSpec FillProofs PixelExamples ComposeExamples AccessModel AccessSpec AccessProofs AccessCompose AccessExamples.
From Coq Require Import Permutation Sorted.
Open Scope Z_scope.

(** C35.  In a document without tiles on layer 0 the origin of the pixel frame is indeterminate. *)
Theorem C35_no_layer0_refuted : Forall entry_ok only_pyramid /\ bounds_fit only_pyramid /\ exists u, open_stats only_pyramid = Ok u /\
  forall p, transform_point (default_frame FDefault) (st_box0 (get_stats u)) FPixel p FRaw = UB.
Proof. exact no_layer0_ub. Qed.
Print Assumptions C35_no_layer0_refuted.

(** Otherwise the result is the same point of the document in the other frame ... *)
Theorem C35_transform_partial : forall dflt box0 f dst p, proper dflt -> rvalid box0 = true -> f <> FInvalid -> dst <> FInvalid ->
  forall q, raw_point box0 (meaning dflt dst) q = raw_point box0 (meaning dflt f) p -> (point_ok q \/ meaning dflt f = meaning dflt dst) ->
  transform_point dflt box0 f p dst = Ok (meaning dflt dst, q).
Proof. exact transform_ok. Qed.
Print Assumptions C35_transform_partial.

Theorem C35_transform_exact_partial : forall dflt box0 f dst p g q, proper dflt -> transform_point dflt box0 f p dst = Ok (g, q) ->
  f <> FInvalid /\ dst <> FInvalid /\ g = meaning dflt dst /\ raw_point box0 g q = raw_point box0 (meaning dflt f) p /\
  (rvalid box0 = true \/ meaning dflt f = g) /\ (point_ok p -> point_ok q).
Proof. exact transform_exact. Qed.
Print Assumptions C35_transform_exact_partial.

(** ... and the way back is the identity, for points and rectangles. *)
Theorem C35_back_partial : forall dflt box0 f dst p g q, proper dflt -> point_ok p -> transform_point dflt box0 f p dst = Ok (g, q) ->
  transform_point dflt box0 g q f = Ok (meaning dflt f, p).
Proof. exact transform_back. Qed.
Print Assumptions C35_back_partial.

Theorem C35_rectangle_partial : forall dflt box0 f dst r g r', proper dflt -> in_i32 (rx r) -> in_i32 (ry r) -> in_i32 (rw r) -> in_i32 (rh r) -> transform_rect dflt box0 f r dst = Ok (g, r') ->
  g = meaning dflt dst /\ raw_point box0 g (rx r', ry r') = raw_point box0 (meaning dflt f) (rx r, ry r) /\ rw r' = rw r /\ rh r' = rh r /\
  transform_rect dflt box0 g r' f = Ok (meaning dflt f, r).
Proof. exact transform_rect_back. Qed.
Print Assumptions C35_rectangle_partial.

Example C35_example : proper (default_frame FInvalid) /\ transform_rect (default_frame FInvalid) (mkRect (-50) 7 240 264) FPixel (mkRect 1 2 30 40) FDefault = Ok (FRaw, mkRect (-49) 9 30 40).
Proof. split; [left|]; reflexivity. Qed.

(** C49.  Factors 0 and 1 never end; large factors overflow. *)
Theorem C49_termination_refuted : forall w h pw ph factor fuel k, 0 < w <= INT_MAX -> 0 < h <= INT_MAX -> 0 < pw <= INT_MAX -> 0 < ph <= INT_MAX ->
  factor = 0 \/ factor = 1 -> 2 <= ratio_of w h pw ph -> calc_layer fuel w h pw ph factor <> Ok k.
Proof. exact calc_layer_stuck. Qed.
Print Assumptions C49_termination_refuted.

Theorem C49_overflow_refuted : exists w h pw ph factor, 0 < w <= INT_MAX /\ 0 < h <= INT_MAX /\ 0 < pw <= INT_MAX /\ 0 < ph <= INT_MAX /\ 2 <= factor <= 255 /\
  forall fuel, (10 <= fuel)%nat -> calc_layer fuel w h pw ph factor = UB.
Proof. exact layer_overflow. Qed.
Print Assumptions C49_overflow_refuted.

(** Otherwise at most 32 rounds yield the least layer. *)
Theorem C49_least_layer_partial : forall w h pw ph factor, 0 < w <= INT_MAX -> 0 < h <= INT_MAX -> 0 < pw <= INT_MAX -> 0 < ph <= INT_MAX -> 2 <= factor -> ratio_of w h pw ph * factor <= INT_MAX ->
  exists k, least_layer factor (ratio_of w h pw ph) k /\ forall fuel, (32 <= fuel)%nat -> calc_layer fuel w h pw ph factor = Ok k.
Proof. exact calc_layer_ok. Qed.
Print Assumptions C49_least_layer_partial.

Theorem C49_pixel_size_partial : forall layer factor, 1 <= factor -> 0 <= layer -> factor ^ layer <= INT_MAX -> pixel_size layer factor = Ok (factor ^ layer).
Proof. exact pixel_size_ok. Qed.
Print Assumptions C49_pixel_size_partial.

Example C49_example : ratio_of 1000 700 112 80 * 3 <= INT_MAX /\ calc_layer 32 1000 700 112 80 3 = Ok 2 /\ calc_layer 32 100 100 100 100 1 = Ok 0 /\ 2 <= ratio_of 100 100 50 50 /\ pixel_size 4 3 = Ok 81.
Proof. repeat split; vm_compute; congruence. Qed.

(** C54.  Regions starting left and right of a tile, one output pixel apart, show it at the same place. *)
Theorem C54_negative_offset_refuted : exists d1 d2,
  pyramid_get sort_m ex_bitmap 32 ex_bnds None true (ch 0) None 2 1 99 200 ex_dst ex_dir = Ok d1 /\
  pyramid_get sort_m ex_bitmap 32 ex_bnds None true (ch 0) None 2 1 101 200 ex_dst ex_dir = Ok d2 /\
  map (fun x => pix d1 x 0) [0; 1; 2] = [[21]; [22]; [23]] /\ map (fun x => pix d2 x 0) [0; 1; 2] = [[21]; [22]; [23]].
Proof. exact negative_offset. Qed.
Print Assumptions C54_negative_offset_refuted.

(** The position is right for offsets which are not negative or multiples. *)
Theorem C54_position_partial : forall p o s, 0 < s -> in_i32 (p - o) -> (o <= p \/ (p - o) mod s = 0) -> tile_pos p o s = Ok ((p - o) / s).
Proof. exact tile_pos_ok. Qed.
Print Assumptions C54_position_partial.

Theorem C54_shift_partial : forall p o s a, 0 < s -> in_i32 (p - o) -> in_i32 (p - (o + a * s)) -> (o <= p /\ o + a * s <= p \/ (p - o) mod s = 0) ->
  exists x, tile_pos p o s = Ok x /\ tile_pos p (o + a * s) s = Ok (x - a).
Proof. exact tile_pos_shift. Qed.
Print Assumptions C54_shift_partial.

Example C54_example : tile_pos 107 100 4 = Ok 1 /\ tile_pos 92 100 4 = Ok (-2) /\ tile_pos 93 100 4 = Ok (-1) /\ (93 - 100) / 4 = -2.
Proof. repeat split; reflexivity. Qed.

(** C71.  A tile which the statistics count on layer 4 is delivered on layer 5. *)
Theorem C71_layers_disagree_refuted : exists e, 0 < e_w e <= INT_MAX /\ 0 < e_h e <= INT_MAX /\ 0 < e_sw e <= INT_MAX /\ 0 < e_sh e <= INT_MAX /\ layer_info e = (2, 4) /\
  calc_layer 32 (e_w e) (e_h e) (e_sw e) (e_sh e) 2 = Ok 5.
Proof. exact layers_disagree. Qed.
Print Assumptions C71_layers_disagree_refuted.

(** The layer is the counted one exactly if the rounded ratio does not exceed that of the layer; else the next one. *)
Theorem C71_layers_partial : forall e b k fuel, 0 < e_w e <= INT_MAX -> 0 < e_h e <= INT_MAX -> 0 < e_sw e <= INT_MAX -> 0 < e_sh e <= INT_MAX ->
  layer_info e = (b, k) -> b = 2 \/ b = 3 -> (32 <= fuel)%nat ->
  calc_layer fuel (e_w e) (e_h e) (e_sw e) (e_sh e) b = Ok (if ratio_of (e_w e) (e_h e) (e_sw e) (e_sh e) <=? b ^ k then k else k + 1).
Proof. exact statistics_accessor. Qed.
Print Assumptions C71_layers_partial.

Theorem C71_bottom_partial : forall e factor fuel, 0 < e_w e <= INT_MAX -> 0 < e_h e <= INT_MAX -> layer_info e = (0, 0) -> 0 < e_sw e <= INT_MAX -> 0 < e_sh e <= INT_MAX -> (1 <= fuel)%nat ->
  calc_layer fuel (e_w e) (e_h e) (e_sw e) (e_sh e) factor = Ok 0.
Proof. exact bottom_accessor. Qed.
Print Assumptions C71_bottom_partial.

Example C71_example : exists e, 0 < e_w e <= INT_MAX /\ 0 < e_h e <= INT_MAX /\ 0 < e_sw e <= INT_MAX /\ 0 < e_sh e <= INT_MAX /\ layer_info e = (3, 2) /\ accessor_layer e 3 2 = 2 /\ e_w e <> 9 * e_sw e.
Proof. exact layers_agree. Qed.

(** C72.  Every pixel of the tile accessor's picture is that of the topmost tile there, else the background. *)
Theorem C72_picture : forall sort bitmap bnds bg sort_m plane x0 y0 dst dir, sorts_by_m sort ->
  check_plane bnds plane = Ok tt -> bmp_wf dst -> background_ok bg dst -> (forall k i, sub_block dir k i -> sizes_logical i) ->
  (forall k i, plane_tile plane dir k i -> bitmap_ok bitmap dst k i) ->
  exists m back, tile_get sort bitmap bnds bg sort_m plane x0 y0 dst dir = Ok (bwith dst m) /\ background bg dst back /\
    picture (plane_tile plane dir) (at_home bitmap) (drawn_above sort_m) back (bwith dst m) x0 y0.
Proof. exact (fun sort bitmap bnds bg sort_m plane x0 y0 dst dir H => tile_get_ok sort H bitmap bnds bg sort_m plane x0 y0 dst dir). Qed.
Print Assumptions C72_picture.

(** Without masks the visibility optimisation does not change the picture. *)
Theorem C72_optimisation : forall sort bitmap bnds bg sort_m plane x0 y0 dst dir, sorts_by_m sort ->
  check_plane bnds plane = Ok tt -> bmp_wf dst -> background_ok bg dst -> (forall k i, sub_block dir k i -> sizes_logical i) ->
  (forall k i, plane_tile plane dir k i -> bitmap_ok bitmap dst k i /\ snd (fst (bitmap k)) = None) ->
  exists fuel d m', (forall f, (fuel <= f)%nat -> tile_get_optimised sort bitmap f bnds bg sort_m plane x0 y0 dst dir = Ok d) /\
    tile_get sort bitmap bnds bg sort_m plane x0 y0 dst dir = Ok (bwith dst m') /\
    forall x y, 0 <= x < bw dst -> 0 <= y < bh dst -> pix d x y = pix (bwith dst m') x y.
Proof. exact (fun sort bitmap bnds bg sort_m plane x0 y0 dst dir H => tile_get_optimised_ok sort H bitmap bnds bg sort_m plane x0 y0 dst dir). Qed.
Print Assumptions C72_optimisation.

Example C72_example : sorts_by_m sort_m /\ check_plane ex_bnds (ch 0) = Ok tt /\ bmp_wf ex_dst /\ background_ok (Some (Gray8, ex_color)) ex_dst /\
  (forall k i, sub_block ex_dir k i -> sizes_logical i) /\ (forall k i, plane_tile (ch 0) ex_dir k i -> bitmap_ok ex_bitmap ex_dst k i) /\
  (exists d, tile_get sort_m ex_bitmap ex_bnds (Some (Gray8, ex_color)) true (ch 0) 100 200 ex_dst ex_dir = Ok d /\
    map (fun x => pix d x 0) [0; 1; 2] = [[11]; [12]; [13]] /\ pix d 0 1 <> pix ex_dst 0 1) /\
  (exists d, tile_get sort_m ex_bitmap ex_bnds None false (ch 0) 100 200 ex_dst ex_dir = Ok d /\
    map (fun x => pix d x 0) [0; 1; 2] = [[11]; [21]; [22]] /\ pix d 0 1 = [0]).
Proof. exact tile_get_example. Qed.

(** C73.  If the region holds tiles but none of the requested layer an exception is thrown. *)
Theorem C73_absent_layer_refuted : forall sort bitmap bnds bg sort_m plane scenes factor layer x0 y0 dst dir fuel, sorts_by_m sort ->
  let size := factor ^ layer in let roi := mkRect x0 y0 (bw dst * size) (bh dst * size) in
  (32 <= fuel)%nat -> check_plane bnds plane = Ok tt -> bmp_wf dst -> background_ok bg dst ->
  2 <= factor -> 0 <= layer -> size <= INT_MAX -> bw dst * size <= INT_MAX -> bh dst * size <= INT_MAX ->
  (forall k i, region_tile plane scenes roi dir k i -> sizes_ok i /\ sb_ratio i * factor <= INT_MAX) ->
  (exists k i, region_tile plane scenes roi dir k i) -> (forall k i, region_tile plane scenes roi dir k i -> ~ least_layer factor (sb_ratio i) layer) ->
  pyramid_get sort bitmap fuel bnds bg sort_m plane scenes factor layer x0 y0 dst dir = Throw.
Proof. exact (fun sort bitmap bnds bg sort_m plane scenes factor layer x0 y0 dst dir fuel H => pyramid_get_absent sort H bitmap bnds bg sort_m plane scenes factor layer x0 y0 dst dir fuel). Qed.
Print Assumptions C73_absent_layer_refuted.

(** Otherwise (and for tiles at admissible offsets) the picture is that of the tiles of the layer. *)
Theorem C73_picture_partial : forall sort bitmap bnds bg sort_m plane scenes factor layer x0 y0 dst dir fuel, sorts_by_m sort ->
  let size := factor ^ layer in let roi := mkRect x0 y0 (bw dst * size) (bh dst * size) in
  (32 <= fuel)%nat -> check_plane bnds plane = Ok tt -> bmp_wf dst -> background_ok bg dst ->
  2 <= factor -> 0 <= layer -> size <= INT_MAX -> bw dst * size <= INT_MAX -> bh dst * size <= INT_MAX ->
  (forall k i, region_tile plane scenes roi dir k i -> sizes_ok i /\ sb_ratio i * factor <= INT_MAX) ->
  (forall k i, region_tile plane scenes roi dir k i -> least_layer factor (sb_ratio i) layer ->
     bitmap_ok bitmap dst k i /\ in_i32 (rx (sb_rect i) - x0) /\ in_i32 (ry (sb_rect i) - y0) /\
     (x0 <= rx (sb_rect i) \/ (rx (sb_rect i) - x0) mod size = 0) /\ (y0 <= ry (sb_rect i) \/ (ry (sb_rect i) - y0) mod size = 0)) ->
  if_some (region_tile plane scenes roi dir) (fun i => least_layer factor (sb_ratio i) layer) ->
  exists m back, pyramid_get sort bitmap fuel bnds bg sort_m plane scenes factor layer x0 y0 dst dir = Ok (bwith dst m) /\ background bg dst back /\
    picture (fun k i => region_tile plane scenes roi dir k i /\ least_layer factor (sb_ratio i) layer) (shrunk bitmap x0 y0 size) (drawn_above sort_m) back (bwith dst m) 0 0.
Proof. exact (fun sort bitmap bnds bg sort_m plane scenes factor layer x0 y0 dst dir fuel H => pyramid_get_ok sort H bitmap bnds bg sort_m plane scenes factor layer x0 y0 dst dir fuel). Qed.
Print Assumptions C73_picture_partial.

Example C73_example : (forall k i, region_tile (ch 0) None (mkRect 100 200 6 4) ex_dir k i -> sizes_ok i /\ sb_ratio i * 2 <= INT_MAX) /\
  (forall k i, region_tile (ch 0) None (mkRect 100 200 6 4) ex_dir k i -> least_layer 2 (sb_ratio i) 1 ->
       bitmap_ok ex_bitmap ex_dst k i /\ in_i32 (rx (sb_rect i) - 100) /\ in_i32 (ry (sb_rect i) - 200) /\
       (100 <= rx (sb_rect i) \/ (rx (sb_rect i) - 100) mod 2 = 0) /\ (200 <= ry (sb_rect i) \/ (ry (sb_rect i) - 200) mod 2 = 0)) /\
  if_some (region_tile (ch 0) None (mkRect 100 200 6 4) ex_dir) (fun i => least_layer 2 (sb_ratio i) 1) /\
  exists d, pyramid_get sort_m ex_bitmap 32 ex_bnds None true (ch 0) None 2 1 100 200 ex_dst ex_dir = Ok d /\ map (fun x => pix d x 0) [0; 1; 2] = [[21]; [22]; [23]].
Proof. exact (proj2 (proj2 (proj2 (proj2 pyramid_get_example)))). Qed.

Example C73_absent_example : (forall k i, region_tile (ch 0) None (mkRect 100 200 12 8) ex_dir k i -> sizes_ok i /\ sb_ratio i * 2 <= INT_MAX) /\
  (exists k i, region_tile (ch 0) None (mkRect 100 200 12 8) ex_dir k i) /\ (forall k i, region_tile (ch 0) None (mkRect 100 200 12 8) ex_dir k i -> ~ least_layer 2 (sb_ratio i) 2).
Proof. exact pyramid_absent_example. Qed.
