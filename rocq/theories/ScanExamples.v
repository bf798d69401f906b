(** Examples of plane scans. *)
From Coq Require Import QArith Floats.SpecFloat.
From Verif Require Import Base RectModel CodecModel CopyModel CopyProofs TextModel CoordModel CoordSpec OrderProofs StatModel StatSpec PixelModel PixelSpec FloatProofs FillProofs PixelExamples ComposeExamples AccessModel AccessSpec AccessExamples ScaleModel ScaleSpec ScaleProofs ScaleExamples ScanModel ScanSpec ScanProofs.
Open Scope Z_scope.

Definition scan_roi := mkRect (-1) 0 10 5.
Definition scan_bg : option (px * rgbf) := Some (Gray8, ex_color).
Definition scan_shot zoom bg dir bitmap := scale_shot by_zoom_m by_zoom bitmap canvas None ex_bnds (with_scenes []) bg true (ch 0) None zoom dir.
Lemma canvas_wf w h : 0 < w -> 0 < h -> bmp_wf (canvas w h).
Proof. intros. unfold bmp_wf, canvas, gray. cbn [bw bh bstride bbpp bsize]. nia. Qed.
Lemma scan_meets :
  check_plane ex_bnds (ch 0) = Ok tt /\ scenes_known (with_scenes []) pyr_dir /\ zoom_range zoom_1 /\ SFeqb zoom_1 (f32_of_Z 1) = true /\
  (forall w h, 0 < w -> 0 < h -> bmp_wf (canvas w h) /\ bw (canvas w h) = w /\ bh (canvas w h) = h /\ background_ok scan_bg (canvas w h) /\ forall k i, plane_tile (ch 0) pyr_dir k i -> bitmap_ok pyr_bmp (canvas w h) k i) /\
  (forall k i, region_tile (ch 0) None scan_roi pyr_dir k i -> zoom_sizes i) /\ layered (fun i => exists k, region_tile (ch 0) None scan_roi pyr_dir k i) /\
  one_scene (with_scenes []) None scan_roi /\
  (forall k i, region_tile (ch 0) None scan_roi pyr_dir k i -> layer0_tile i \/ (zoomQ i < sfQ (f32_div zoom_1 single_105))%Q) /\
  settled pyr_bmp true (ch 0) pyr_dir /\ region_ok scan_roi /\ tile_ok scan_roi 4 3 /\ rw scan_roi < 2 ^ 24 /\ rh scan_roi < 2 ^ 24 /\
  exists l whole, plane_scan (scan_shot zoom_1 scan_bg pyr_dir pyr_bmp) scan_roi 4 3 = Ok l /\ scan_shot zoom_1 scan_bg pyr_dir pyr_bmp scan_roi = Ok whole /\
    map fst l = [mkRect (-1) 0 4 3; mkRect 3 0 4 3; mkRect 7 0 2 3; mkRect (-1) 3 4 2; mkRect 3 3 4 2; mkRect 7 3 2 2] /\
    map (fun p => pix (snd p) 1 1) l = [[14]; [44]; [128]; [128]; [128]; [128]] /\ pix whole 1 1 = [14] /\ pix whole 5 1 = [44] /\ pix whole 9 1 = [128].
Proof.
  split; [reflexivity|]. split; [split; [constructor|]; intros k i s H; each pyr_dir H; discriminate|]. split; [closed|]. split; [reflexivity|]. split.
  { intros w h Hw Hh. split; [now apply canvas_wf|]. split; [reflexivity|]. split; [reflexivity|]. split; [split; [reflexivity|exact ex_color_ok]|].
    intros k i (H & _ & W & _). each pyr_dir H; [discriminate|..]; (split; [|split; reflexivity]); (split; [wf|]); (split; [discriminate|]); split; reflexivity. }
  split; [intros k i (H & _); each pyr_dir H; closed|]. split.
  { split.
    - intros i (k & H & _). each pyr_dir H; vm_compute; discriminate.
    - intros a b (ka & Ha & _) (kb & Hb & _) La Lb. each pyr_dir Ha; each pyr_dir Hb; first [discriminate|left; vm_compute; reflexivity|right; vm_compute; reflexivity]. }
  split; [intros s t (b & b0 & [] & _)|]. split.
  { intros k i (H & _). each pyr_dir H; first [left; split; reflexivity|right; vm_compute; reflexivity]. }
  split.
  { intros _ k i k' i' p (H & _ & W & _) (H' & _ & W' & _) Ne _ _. each pyr_dir H; each pyr_dir H'; first [discriminate|now contradiction Ne|cbn; unfold INT_MIN, INT_MAX; lia]. }
  split; [closed|]. split; [closed|]. split; [reflexivity|]. split; [reflexivity|].
  eexists _, _. split; [vm_compute; reflexivity|]. split; [vm_compute; reflexivity|]. split; [reflexivity|]. split; [vm_compute; reflexivity|]. split; [vm_compute; reflexivity|]. split; vm_compute; reflexivity.
Qed.
(** at half the size two tiles of three pixels yield one column each, the region of six pixels three *)
Lemma scan_zoomed : exists l whole, plane_scan (scan_shot half scan_bg pyr_dir pyr_bmp) (mkRect 0 0 6 2) 3 2 = Ok l /\ scan_shot half scan_bg pyr_dir pyr_bmp (mkRect 0 0 6 2) = Ok whole /\
  map fst l = [mkRect 0 0 3 2; mkRect 3 0 3 2] /\ map (fun p => bw (snd p)) l = [1; 1] /\ bw whole = 3.
Proof. eexists _, _. split; [vm_compute; reflexivity|]. split; [vm_compute; reflexivity|]. split; [reflexivity|]. split; reflexivity. Qed.
(** a tile size beyond the range of int, and the region which is scanned if none is given *)
Lemma scan_nothing : scan_tiles (mkRect 0 0 10 10) 4294967295 4294967295 = Ok [] /\ scan_tiles (mkRect 0 0 10 10) 2147483648 4 = Ok [] /\ scan_tiles (mkRect 0 0 (-1) (-1)) 512 512 = Ok [].
Proof. split; [|split]; vm_compute; reflexivity. Qed.
Lemma scan_overflow : scan_tiles (mkRect 0 0 1 1) INT_MAX INT_MAX = UB /\ (exists t, scan_tiles (mkRect 0 0 1 1) (INT_MAX - 1) (INT_MAX - 1) = Ok [t]).
Proof. split; [vm_compute; reflexivity|]. eexists. vm_compute. reflexivity. Qed.

(** regions relative to the upper left of the document *)
Lemma relative_region relative r box : in_i32 (rx r + rx box) -> in_i32 (ry r + ry box) ->
  exists roi, roi_from_options relative r box = Ok roi /\ rw roi = rw r /\ rh roi = rh r /\
    forall x y, covers roi x y <-> if relative then covers r (x - rx box) (y - ry box) else covers r x y.
Proof.
  intros X Y. unfold roi_from_options. destruct relative.
  - rewrite !chk_ok by assumption. cbn [bind]. eexists. split; [reflexivity|]. split; [reflexivity|]. split; [reflexivity|]. intros x y. unfold covers. cbn [rx ry rw rh]. lia.
  - eexists. split; [reflexivity|]. split; [reflexivity|]. split; [reflexivity|]. intros x y. reflexivity.
Qed.
Lemma relative_example : roi_from_options true (mkRect 10 20 30 40) (mkRect (-5) 7 100 100) = Ok (mkRect 5 27 30 40) /\
  roi_from_options false (mkRect 10 20 30 40) (mkRect (-5) 7 100 100) = Ok (mkRect 10 20 30 40).
Proof. split; vm_compute; reflexivity. Qed.
