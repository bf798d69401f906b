(** C15-C19, C51: tile composition. *)
From Verif Require Import Base RectModel CopyModel CopyProofs ComposeExamples.

(** C18: copying at any offset accesses only bytes of the two buffers (the outcome is not [UB]),
    replaces exactly the pixels of the overlap and nothing else. *)
Theorem C18_copy_in_bounds : forall k src dst xo yo,
  bmp_wf src -> bmp_wf dst -> kind_wf src dst k ->
  exists d', copy_with_offset k src dst xo yo = Ok d' /\
    pix_post dst d' (fun x y =>
      if (0 <=? x - xo) && (x - xo <? bw src) && (0 <=? y - yo) && (y - yo <? bh src)
      then Some (kind_val k (pix src (x - xo) (y - yo))) else None).
Proof. exact copy_with_offset_ok. Qed.
Print Assumptions C18_copy_in_bounds.

Example C18_example :
  bmp_wf ex_src /\ bmp_wf ex_dst /\ kind_wf ex_src ex_dst (SameType false) /\
  exists d', copy_with_offset (SameType false) ex_src ex_dst (-1) 1 = Ok d' /\
             map (fun x => pix d' x 1) [0; 1; 2] = [[12]; [13]; [0]].
Proof. exact ex_c18. Qed.

(** C17: every pixel of the composed bitmap shows the last drawn tile which covers it and does not
    mask it out; otherwise the destination keeps its value. *)
Theorem C17_topmost_tile : forall ts dst xpos ypos,
  bmp_wf dst -> Forall (tile_wf dst) ts ->
  exists d', compose_tiles dst ts xpos ypos = Ok d' /\
    pix_post dst d' (fun x y => option_map (fun t => tile_value t (x + xpos, y + ypos))
                                           (topmost ts (x + xpos, y + ypos))).
Proof. exact compose_tiles_ok. Qed.
Print Assumptions C17_topmost_tile.

Example C17_example :
  bmp_wf ex_dst /\ Forall (tile_wf ex_dst) ex_tiles /\
  exists d', compose_tiles ex_dst ex_tiles 100 200 = Ok d' /\
             map (fun x => pix d' x 0) [0; 1; 2] = [[11]; [22]; [13]].
Proof. exact ex_c17. Qed.

(** C15: for tiles without masks the visibility optimisation terminates and gives, pixel for pixel
    (and for the bytes which belong to no pixel), the same bitmap. *)
Theorem C15_visibility_same_picture : forall dst ts xpos ypos dflt,
  bmp_wf dst -> Forall (tile_wf dst) ts -> Forall (fun t => t_mask t = None) ts ->
  exists fuel d1 d2,
    (forall f, (fuel <= f)%nat -> compose_optimised f dst ts xpos ypos dflt = Ok d1) /\
    compose_tiles dst ts xpos ypos = Ok d2 /\
    (forall x y, 0 <= x < bw dst -> 0 <= y < bh dst -> pix d1 x y = pix d2 x y) /\
    (forall a, (forall x y k, 0 <= x < bw dst -> 0 <= y < bh dst -> 0 <= k < bbpp dst ->
                  a <> pix_off dst x y + k) -> bdata d1 a = bdata d2 a).
Proof. exact visibility_unmasked. Qed.
Print Assumptions C15_visibility_same_picture.

(** here the optimisation really drops a tile: only tiles 1 and 2 of three are drawn *)
Example C15_example :
  bmp_wf ex_dst /\ Forall (tile_wf ex_dst) ex_tiles3 /\ Forall (fun t => t_mask t = None) ex_tiles3 /\
  check_visibility 10 (mkRect 100 200 3 2) 3 (fun i => tile_rect (nth i ex_tiles3 ex_t1)) = Ok [1; 2]%nat.
Proof. exact ex_c15. Qed.

(** C16 is false: with valid-pixel masks the optimisation drops a tile which shines through. *)
Theorem C16_visibility_with_masks_refuted :
  exists dst ts dflt, bmp_wf dst /\ Forall (tile_wf dst) ts /\
    exists d1 d2, (forall f, (1 <= f)%nat -> compose_optimised f dst ts 0 0 dflt = Ok d1) /\
      compose_tiles dst ts 0 0 = Ok d2 /\ pix d1 0 0 = [0] /\ pix d2 0 0 = [7].
Proof. exact c16_witness. Qed.
Print Assumptions C16_visibility_with_masks_refuted.

(** The strongest pixel-wise restriction: pixels at which the topmost tile (by rectangle) is not
    masked out agree.  Missing for C16: the other pixels, for which it is false. *)
Theorem C16_visibility_with_masks_partial : forall dst ts xpos ypos dflt,
  bmp_wf dst -> Forall (tile_wf dst) ts ->
  exists fuel d1 d2,
    (forall f, (fuel <= f)%nat -> compose_optimised f dst ts xpos ypos dflt = Ok d1) /\
    compose_tiles dst ts xpos ypos = Ok d2 /\
    (forall x y, 0 <= x < bw dst -> 0 <= y < bh dst ->
       (forall t, topmost_rect ts (x + xpos, y + ypos) = Some t -> shows t (x + xpos, y + ypos) = true) ->
       pix d1 x y = pix d2 x y) /\
    (forall a, (forall x y k, 0 <= x < bw dst -> 0 <= y < bh dst -> 0 <= k < bbpp dst ->
                  a <> pix_off dst x y + k) -> bdata d1 a = bdata d2 a).
Proof. exact compose_optimised_ok. Qed.
Print Assumptions C16_visibility_with_masks_partial.

Example C16_example :
  bmp_wf ex_dst /\ Forall (tile_wf ex_dst) ex_tiles /\
  topmost_rect ex_tiles (101, 200) = Some ex_t2 /\ shows ex_t2 (101, 200) = true.
Proof. exact ex_c16. Qed.

(** C19 is false for the converting copy: with an all-ones mask the second pixel of a row is not
    written at all. *)
Theorem C19_masked_converting_copy_refuted :
  exists conv src dst mk, bmp_wf src /\ bmp_wf dst /\ mask_wf mk /\ kind_wf src dst (Convert conv) /\
    (forall x, 0 <= x < 8 -> mask_pixel mk x 0 = true) /\
    exists d', copy_with_offset_and_mask (Convert conv) src dst mk 0 0 = Ok d' /\
      pix d' 1 0 = [0; 0] /\ conv (pix src 1 0) = [5; 0].
Proof. exact c19_witness. Qed.
Print Assumptions C19_masked_converting_copy_refuted.

(** The masked copy without conversion is correct. Missing for C19: the conversion. *)
Theorem C19_masked_copy_partial : forall src dst mk xo yo,
  bmp_wf src -> bmp_wf dst -> mask_wf mk -> bbpp src = bbpp dst ->
  exists d', copy_with_offset_and_mask (SameType false) src dst mk xo yo = Ok d' /\
    pix_post dst d' (fun x y =>
      if (0 <=? x - xo) && (x - xo <? bw src) && (0 <=? y - yo) && (y - yo <? bh src)
         && (x - xo <? mw mk) && (y - yo <? mh mk) && mask_pixel mk (x - xo) (y - yo)
      then Some (pix src (x - xo) (y - yo)) else None).
Proof. exact copy_with_offset_and_mask_ok. Qed.
Print Assumptions C19_masked_copy_partial.

Example C19_example : bmp_wf ex_src /\ bmp_wf ex_dst /\ mask_wf ex_mask /\ bbpp ex_src = bbpp ex_dst.
Proof. exact ex_c19. Qed.

(** C51 is false: the interior is shifted by one pixel, and a tile of width 1 is undefined behaviour. *)
Theorem C51_tile_border_refuted :
  (exists src dst d', bmp_wf src /\ bmp_wf dst /\ copy_with_offset (SameType true) src dst 0 0 = Ok d' /\
     0 < 2 < bw src - 1 /\ 0 < 1 < bh src - 1 /\ pix d' 2 1 = pix src 1 1 /\ pix src 1 1 <> pix src 2 1) /\
  (exists src dst, bmp_wf src /\ bmp_wf dst /\ bw src = 1 /\ copy_with_offset (SameType true) src dst 0 0 = UB).
Proof. exact c51_witness. Qed.
Print Assumptions C51_tile_border_refuted.

(** What the code does for blocks of at least 2x2 pixels: the outermost pixels are zero and the
    interior pixel in column c is the source pixel of column c-1 (missing: column c). *)
Theorem C51_tile_border_partial : forall dr sr w h src dst,
  region_ok dr w h -> region_ok sr w h -> g_bpp dr = g_bpp sr -> 2 <= w -> 2 <= h ->
  exists m', copy_same dr sr w h true src dst = Ok m' /\
    block_post dr w h (fun r c =>
      if (r =? 0) || (r =? h - 1) || (c =? 0) || (c =? w - 1) then Some (repeat 0 (Z.to_nat (g_bpp dr)))
      else Some (mread src (g_off sr + r * g_stride sr + (c - 1) * g_bpp sr) (Z.to_nat (g_bpp sr)))) dst m'.
Proof. exact copy_same_border_ok. Qed.
Print Assumptions C51_tile_border_partial.

Example C51_example : region_ok (mkRegion 20 5 5 1) 4 3 /\ region_ok (mkRegion 16 0 4 1) 4 3.
Proof. exact ex_c51. Qed.
