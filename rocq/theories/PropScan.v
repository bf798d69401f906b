(** C110: scanning a plane with the command-line tool. *)
From Verif Require Import Base RectModel CodecModel CopyModel TextModel CoordModel CoordSpec OrderProofs StatModel StatSpec PixelModel PixelSpec FloatProofs FillProofs PixelExamples ComposeExamples AccessModel AccessSpec AccessExamples ScaleModel ScaleSpec ScaleProofs ScaleExamples ScanModel ScanSpec ScanProofs ScanExamples.
From Coq Require Import QArith Floats.SpecFloat.
Open Scope Z_scope.

(** The full claim: for every region and every size of tiles which the tool accepts, the files written cover the region,
    each point once, and what they show is what the accessor shows for the region.
    Missing from the claims named [_partial]: regions with [region_ok] and tile sizes with [tile_ok] only, and zoom 1. *)

(** The tiles cut the region. *)
Theorem C110_cuts_partial : forall roi tw th, region_ok roi -> tile_ok roi tw th -> exists ts, scan_tiles roi tw th = Ok ts /\ cuts ts roi tw th.
Proof. exact scan_cuts. Qed.
Print Assumptions C110_cuts_partial.
Example C110_cuts_meets : region_ok scan_roi /\ tile_ok scan_roi 4 3 /\ exists ts, scan_tiles scan_roi 4 3 = Ok ts /\
  ts = [mkRect (-1) 0 4 3; mkRect 3 0 4 3; mkRect 7 0 2 3; mkRect (-1) 3 4 2; mkRect 3 3 4 2; mkRect 7 3 2 2].
Proof. split; [closed|]. split; [closed|]. eexists. split; [vm_compute; reflexivity|reflexivity]. Qed.

(** The region which is scanned: with the option "rel" as asked for from the upper left of the document, with "abs" as asked for. *)
Theorem C110_region_partial : forall relative r box, in_i32 (rx r + rx box) -> in_i32 (ry r + ry box) ->
  exists roi, roi_from_options relative r box = Ok roi /\ rw roi = rw r /\ rh roi = rh r /\
    forall x y, covers roi x y <-> if relative then covers r (x - rx box) (y - ry box) else covers r x y.
Proof. exact relative_region. Qed.
Print Assumptions C110_region_partial.
Example C110_region_meets : roi_from_options true (mkRect 10 20 30 40) (mkRect (-5) 7 100 100) = Ok (mkRect 5 27 30 40) /\
  roi_from_options false (mkRect 10 20 30 40) (mkRect (-5) 7 100 100) = Ok (mkRect 10 20 30 40).
Proof. exact relative_example. Qed.

(** The pictures of the tiles are the parts of the picture of the region. *)
Theorem C110_stitched_partial : forall sort_zoom_m sort_zoom, sorts_by_zoom_m sort_zoom_m -> sorts_by_zoom sort_zoom ->
  forall bitmap fresh bnds st bg sort_m plane filter_s zoom dir roi, check_plane bnds plane = Ok tt -> scenes_known st dir -> zoom_range zoom -> SFeqb zoom (f32_of_Z 1) = true ->
  (forall w h, 0 < w -> 0 < h -> bmp_wf (fresh w h) /\ bw (fresh w h) = w /\ bh (fresh w h) = h /\ background_ok bg (fresh w h) /\ forall k i, plane_tile plane dir k i -> bitmap_ok bitmap (fresh w h) k i) ->
  (forall k i, region_tile plane filter_s roi dir k i -> zoom_sizes i) -> (sort_m = true -> layered (fun i => exists k, region_tile plane filter_s roi dir k i)) ->
  one_scene st filter_s roi ->
  (forall k i, region_tile plane filter_s roi dir k i -> layer0_tile i \/ (zoomQ i < sfQ (f32_div zoom single_105))%Q) ->
  settled bitmap sort_m plane dir ->
  forall tw th, region_ok roi -> tile_ok roi tw th -> rw roi < 2 ^ 24 -> rh roi < 2 ^ 24 ->
  exists l whole, plane_scan (scale_shot sort_zoom_m sort_zoom bitmap fresh None bnds st bg sort_m plane filter_s zoom dir) roi tw th = Ok l /\
    scale_shot sort_zoom_m sort_zoom bitmap fresh None bnds st bg sort_m plane filter_s zoom dir roi = Ok whole /\ bw whole = rw roi /\ bh whole = rh roi /\
    cuts (map fst l) roi tw th /\ Forall (part_of whole roi (determined bitmap bg plane filter_s dir)) l.
Proof. exact stitched. Qed.
Print Assumptions C110_stitched_partial.
Example C110_stitched_meets :
  check_plane ex_bnds (ch 0) = Ok tt /\ scenes_known (with_scenes []) pyr_dir /\ zoom_range zoom_1 /\ SFeqb zoom_1 (f32_of_Z 1) = true /\
  (forall w h, 0 < w -> 0 < h -> bmp_wf (canvas w h) /\ bw (canvas w h) = w /\ bh (canvas w h) = h /\ background_ok scan_bg (canvas w h) /\ forall k i, plane_tile (ch 0) pyr_dir k i -> bitmap_ok pyr_bmp (canvas w h) k i) /\
  (forall k i, region_tile (ch 0) None scan_roi pyr_dir k i -> zoom_sizes i) /\ layered (fun i => exists k, region_tile (ch 0) None scan_roi pyr_dir k i) /\
  one_scene (with_scenes []) None scan_roi /\
  (forall k i, region_tile (ch 0) None scan_roi pyr_dir k i -> layer0_tile i \/ (zoomQ i < sfQ (f32_div zoom_1 single_105))%Q) /\
  settled pyr_bmp true (ch 0) pyr_dir /\ region_ok scan_roi /\ tile_ok scan_roi 4 3 /\ rw scan_roi < 2 ^ 24 /\ rh scan_roi < 2 ^ 24 /\
  exists l whole, plane_scan (scan_shot zoom_1 scan_bg pyr_dir pyr_bmp) scan_roi 4 3 = Ok l /\ scan_shot zoom_1 scan_bg pyr_dir pyr_bmp scan_roi = Ok whole /\
    map fst l = [mkRect (-1) 0 4 3; mkRect 3 0 4 3; mkRect 7 0 2 3; mkRect (-1) 3 4 2; mkRect 3 3 4 2; mkRect 7 3 2 2] /\
    map (fun p => pix (snd p) 1 1) l = [[14]; [44]; [128]; [128]; [128]; [128]] /\ pix whole 1 1 = [14] /\ pix whole 5 1 = [44] /\ pix whole 9 1 = [128].
Proof. exact scan_meets. Qed.

(** At other zooms pixels are lost between the tiles. *)
Theorem C110_zoom_refuted : exists l whole, plane_scan (scan_shot half scan_bg pyr_dir pyr_bmp) (mkRect 0 0 6 2) 3 2 = Ok l /\ scan_shot half scan_bg pyr_dir pyr_bmp (mkRect 0 0 6 2) = Ok whole /\
  map fst l = [mkRect 0 0 3 2; mkRect 3 0 3 2] /\ map (fun p => bw (snd p)) l = [1; 1] /\ bw whole = 3.
Proof. exact scan_zoomed. Qed.
Print Assumptions C110_zoom_refuted.

(** With a tile size of 2^31 or more, or without a region, nothing is written and the tool reports success. *)
Theorem C110_nothing_refuted : scan_tiles (mkRect 0 0 10 10) 4294967295 4294967295 = Ok [] /\ scan_tiles (mkRect 0 0 10 10) 2147483648 4 = Ok [] /\ scan_tiles (mkRect 0 0 (-1) (-1)) 512 512 = Ok [].
Proof. exact scan_nothing. Qed.
Print Assumptions C110_nothing_refuted.

(** The number of tiles overflows for large tiles. *)
Theorem C110_overflow_refuted : scan_tiles (mkRect 0 0 1 1) INT_MAX INT_MAX = UB /\ (exists t, scan_tiles (mkRect 0 0 1 1) (INT_MAX - 1) (INT_MAX - 1) = Ok [t]).
Proof. exact scan_overflow. Qed.
Print Assumptions C110_overflow_refuted.
