(** Nearest-neighbour scaling and the scaling accessor (Src/libCZI/BitmapOperations.hpp l.415-474, BitmapOperations.cpp
    l.196-217, BitmapOperationsBitonal.cpp l.431-495 and l.922-956, SingleChannelScalingTileAccessor.cpp).
    Simplifications: int arithmetic on positions is done in Z (both agree for coordinates within [-2^29, 2^29]); the
    indices of SbInfo into a vector are replaced by the elements. *)
From Coq Require Import Floats.SpecFloat.
From Verif Require Import Base RectModel CodecModel CopyModel TextModel CoordModel StatModel PixelModel AccessModel.
Open Scope Z_scope.

(** ** double: IEEE binary64 *)
Definition f64_add := SFadd 53 1024.
Definition f64_sub := SFsub 53 1024.
Definition f64_mul := SFmul 53 1024.

(** numerator and denominator; none for infinities and NaN *)
Definition frac (x : spec_float) : option (Z * Z) :=
  match x with
  | S754_zero _ => Some (0, 1)
  | S754_finite s m e => Some (cond_Zopp s (Zpos m * 2 ^ Z.max e 0), 2 ^ Z.max (- e) 0)
  | _ => None
  end.
(** static_cast<int>: towards zero, undefined if it does not fit *)
Definition cast_int (x : spec_float) : res Z := match frac x with Some (n, d) => chk (Z.quot n d) | None => UB end.
(** static_cast<int>(std::ceil(x)) *)
Definition ceil_int (x : spec_float) : res Z := match frac x with Some (n, d) => chk (- ((- n) / d)) | None => UB end.
(** lround: nearest, halves away from zero; an unspecified value if it does not fit a long (64 bit) *)
Definition lround (x : spec_float) : res Z :=
  match frac x with
  | Some (n, d) => let r := Z.sgn n * ((2 * Z.abs n + d) / (2 * d)) in if (- 2 ^ 63 <=? r) && (r <? 2 ^ 63) then Ok r else UB
  | None => UB
  end.

(** ** Scaling, InternalNNScale2 / InternalNNScaleMaskAware2 *)
Record drect := mkDrect { d_x : spec_float; d_y : spec_float; d_w : spec_float; d_h : spec_float }.
(** the range of one axis of the destination, BitmapOperations.hpp l.421-435: first and last line to be written.
    [s0], [sn]: start and extent of the source region, [srcn]: extent of the source; likewise for the destination *)
Definition nn_range (s0 sn : spec_float) (srcn : Z) (d0 dn : spec_float) (dstn : Z) : res (Z * Z) :=
  let* a := cast_int d0 in
  let start := Z.max a 0 in
  let* b := cast_int (f64_add d0 dn) in
  let last := Z.min b (dstn - 1) in
  let vmin := f64_add (f64_div (f64_mul (f64_sub (f64_of_Z 0) s0) dn) sn) d0 in
  let vmax := f64_add (f64_div (f64_mul (f64_sub (f64_of_Z (srcn - 1)) s0) dn) sn) d0 in
  let* c := ceil_int vmin in
  let* d := ceil_int vmax in
  Ok (Z.max c start, Z.min d last).
(** the line of the source for line [v] of the destination, l.442-451 and l.458-467 *)
Definition nn_source (s0 sn : spec_float) (srcn : Z) (d0 dn : spec_float) (v : Z) : res Z :=
  let* i := lround (f64_add (f64_mul (f64_sub (f64_of_Z v) d0) (f64_div sn dn)) s0) in
  Ok (if i <? 0 then 0 else if srcn <=? i then srcn - 1 else i).
(** for (v = a; v <= b; ++v) *)
Definition for_range {A} (a b : Z) (f : Z -> A -> res A) (s : A) : res A := for_loop (Z.to_nat (b - a + 1)) a f s.
(** one pixel, l.469-471, with mask BitmapOperationsBitonal.cpp l.483-490 *)
Definition nn_pixel (conv : bytes -> bytes) (mk : option mask) (src dst : bmp) (sx sy x y : Z) (m : mem) : res mem :=
  let put := convert_pixel conv (mkRegion (bsize dst) 0 (bstride dst) (bbpp dst)) (mkRegion (bsize src) 0 (bstride src) (bbpp src))
               (y * bstride dst + x * bbpp dst) (sy * bstride src + sx * bbpp src) (bdata src) m in
  match mk with
  | None => put
  | Some k => if (sx <? mw k) && (sy <? mh k) then let* b := get_mask_pixel k sx sy in if (b : bool) then put else Ok m else Ok m
  end.
(** NNResize, NNResizeMaskAware with regions *)
Definition nn_resize (conv : bytes -> bytes) (mk : option mask) (src : bmp) (s : drect) (d : drect) (dst : bmp) : res bmp :=
  let* (x0, x1) := nn_range (d_x s) (d_w s) (bw src) (d_x d) (d_w d) (bw dst) in
  let* (y0, y1) := nn_range (d_y s) (d_h s) (bh src) (d_y d) (d_h d) (bh dst) in
  let* m := for_range y0 y1 (fun y m =>
    let* sy := nn_source (d_y s) (d_h s) (bh src) (d_y d) (d_h d) y in
    for_range x0 x1 (fun x m =>
      let* sx := nn_source (d_x s) (d_w s) (bw src) (d_x d) (d_w d) x in
      nn_pixel conv mk src dst sx sy x y m) m) (bdata dst) in
  Ok (bwith dst m).

(** ** The accessor, SingleChannelScalingTileAccessor.cpp *)
(** InternalCalcSize, l.80-83 *)
Definition calc_size (w : Z) (zoom : f32) : res Z := f32_cast 0 (2 ^ 32 - 1) (f32_mul (f32_of_Z w) zoom).
(** one axis of ScaleBlt, l.142-163: start and extent of the regions in source and destination.  [i], [n]: the common
    part of the logical rectangle [l], [lw] (stored with [pw] pixels) and the region of interest [o], [ow] *)
Definition blt_axis (i n l lw pw o ow dstn : Z) : (spec_float * spec_float) * (spec_float * spec_float) :=
  let q a b := f64_div (f64_of_Z a) (f64_of_Z b) in
  let s0 := q (i - l) lw in let s1 := q (i + n - l) lw in
  let d0 := q (i - o) ow in let d1 := q (i + n - o) ow in
  ((f64_mul s0 (f64_of_Z pw), f64_mul (f64_sub s1 s0) (f64_of_Z pw)), (f64_mul d0 (f64_of_Z dstn), f64_mul (f64_sub d1 d0) (f64_of_Z dstn))).
Definition kind_conv (k : copy_kind) : bytes -> bytes := match k with SameType _ => fun v => v | Convert c => c end.
(** 1.05f and 1.9f *)
Definition f_105 : f32 := S754_finite false 8808038 (-23).
Definition f_19 : f32 := S754_finite false 15938355 (-23).

Section Scaling.
  (** std::sort and std::stable_sort with the comparisons of CreateSortByZoom, l.200-252 *)
  Variable sort_zoom_m sort_zoom : list (Z * sbinfo) -> list (Z * sbinfo).
  Variable bitmap : Z -> bmp * option mask * copy_kind.

  (** ScaleBlt, l.85-174; the mask is used with maskAware only, [bitmap] delivers none otherwise *)
  Definition scale_blt (zoom : f32) (roi : rect) (dst : bmp) (i : Z * sbinfo) : res bmp :=
    let r := sb_rect (snd i) in
    if SFeqb zoom (f32_of_Z 1) then compose_tile dst (tile_at bitmap (fst i) (rx r) (ry r)) (rx roi) (ry roi)
    else
      let c := intersect r roi in
      let '((sx, sw), (dx, dw)) := blt_axis (rx c) (rw c) (rx r) (rw r) (sb_pw (snd i)) (rx roi) (rw roi) (bw dst) in
      let '((sy, sh), (dy, dh)) := blt_axis (ry c) (rh c) (ry r) (rh r) (sb_ph (snd i)) (ry roi) (rh roi) (bh dst) in
      let '(b, mk, k) := bitmap (fst i) in
      nn_resize (kind_conv k) mk b (mkDrect sx sy sw sh) (mkDrect dx dy dw dh) dst.

  (** GetIdxOf1stSubBlockWithZoomGreater, l.176-188 *)
  Fixpoint from_zoom (z : f32) (l : list (Z * sbinfo)) : list (Z * sbinfo) :=
    match l with [] => [] | i :: l' => if SFleb z (sb_zoom (snd i)) then l else from_zoom z l' end.
  Fixpoint below_zoom (z : f32) (l : list (Z * sbinfo)) : list (Z * sbinfo) :=
    match l with [] => [] | i :: l' => if SFleb z (sb_zoom (snd i)) then [] else i :: below_zoom z l' end.
  (** the sub-blocks drawn by Paint, l.339-369 *)
  Definition chosen (zoom : f32) (l : list (Z * sbinfo)) : list (Z * sbinfo) :=
    match from_zoom (f32_div zoom f_105) l with
    | [] => []
    | i :: l' => i :: below_zoom (f32_mul (sb_zoom (snd i)) f_19) l'
    end.
  Definition draw (zoom : f32) (roi : rect) (l : list (Z * sbinfo)) (dst : bmp) : res bmp :=
    fold_left (fun r i => let* d := r in scale_blt zoom roi d i) l (Ok dst).
  (** Paint, l.371-415, without and with useVisibilityCheckOptimization ([Some fuel]) *)
  Definition paint (optimise : option nat) (zoom : f32) (roi : rect) (l : list (Z * sbinfo)) (dst : bmp) : res bmp :=
    let subs := chosen zoom l in
    match optimise with
    | None => draw zoom roi subs dst
    | Some fuel =>
      let no := (0, SbInfo [] (mkRect 0 0 0 0) 0 0 0) in
      let* vis := check_visibility fuel roi (length subs) (fun k => sb_rect (snd (nth k subs no))) in
      draw zoom roi (map (fun k => nth k subs no) vis) dst
    end.
  (** DetermineInvolvedScenes, l.425-447 *)
  Definition involved (st : stats) (filter_s : option (Z -> bool)) (roi : rect) : list Z :=
    map fst (filter (fun e => (match filter_s with Some p => p (fst e) | None => true end) && intersects_with (fst (snd e)) roi) (st_scenes st)).
  (** GetSubSet, l.254-284, and CreateSortByZoom *)
  Definition scale_subset (sort_m : bool) (plane : coord) (allowed : option (list Z)) (roi : rect) (dir : list sbinfo) : list (Z * sbinfo) :=
    let l := filter (fun i => scene_allowed (option_map (fun l s => existsb (Z.eqb s) l) allowed) (snd i)) (enum_subset (Some plane) (Some roi) false (fun _ _ => true) 0 dir) in
    if sort_m then sort_zoom_m l else sort_zoom l.
  (** InternalGet, l.286-337.  S is dimension 5 *)
  Definition scale_get (optimise : option nat) (bnds : bounds) (st : stats) (bg : option (px * rgbf)) (sort_m : bool) (plane : coord)
      (filter_s : option (Z -> bool)) (zoom : f32) (roi : rect) (dst : bmp) (dir : list sbinfo) : res bmp :=
    let* _ := check_plane bnds plane in
    let* dst := clear bg dst in
    let scenes := involved st filter_s roi in
    if (length scenes <=? 1)%nat then paint optimise zoom roi (scale_subset sort_m plane (Some scenes) roi dir) dst
    else fold_left (fun r s => let* d := r in paint optimise zoom roi (scale_subset sort_m (tset plane 5 s) None roi dir) d) scenes (Ok dst).
  (** Get with a bitmap of the caller, l.58-76, region given in the frame of the sub-blocks *)
  Definition scale_get_into (optimise : option nat) (bnds : bounds) (st : stats) (bg : option (px * rgbf)) (sort_m : bool) (plane : coord)
      (filter_s : option (Z -> bool)) (zoom : f32) (roi : rect) (dst : bmp) (dir : list sbinfo) : res bmp :=
    let* w := calc_size (rw roi) zoom in
    let* h := calc_size (rh roi) zoom in
    if negb (w =? bw dst) || negb (h =? bh dst) then Throw
    else scale_get optimise bnds st bg sort_m plane filter_s zoom roi dst dir.
End Scaling.
