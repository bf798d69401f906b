(** Bitmap buffers and the copy operations used by the tile compositor.
    Sources: BitmapOperations.hpp l.21-70 (CopySamePixelType, Copy), BitmapOperations.cpp l.175-194
    (CopyWithOffset), BitmapOperationsBitonal.cpp l.653-721 (masked copies), l.958-999
    (CopyWithOffsetAndMask), SingleChannelTileCompositor.cpp l.13-135.
    Every memory access is checked against the buffer it belongs to; an access outside is [UB].
    Simplification: int/size_t arithmetic on sizes is modelled in Z. *)
From Verif Require Import Base RectModel.

(** A bitmap as seen through its lock info: width, height, stride, bytes per pixel, size of the
    buffer in bytes and its content (libCZI_Pixels.h BitmapLockInfo, IBitmapData). *)
Record bmp := mkBmp { bw : Z; bh : Z; bstride : Z; bbpp : Z; bsize : Z; bdata : mem }.

Definition bwith (b : bmp) (m : mem) : bmp := mkBmp (bw b) (bh b) (bstride b) (bbpp b) (bsize b) m.

(** a bitonal bitmap (valid-pixel mask), 8 pixels per byte, MSB first *)
Record mask := mkMask { mw : Z; mh : Z; mstride : Z; msize : Z; mdata : mem }.

(** for (i = i0; i < i0 + n; ++i) *)
Fixpoint for_loop {S} (n : nat) (i : Z) (f : Z -> S -> res S) (s : S) : res S :=
  match n with
  | O => Ok s
  | S n' => let* s' := f i s in for_loop n' (i + 1) f s'
  end.

(** memcpy with bounds checks; a negative count becomes a huge size_t *)
Definition memcpy (d : mem) (dsz doff : Z) (s : mem) (ssz soff n : Z) : res mem :=
  if (0 <=? n) && (0 <=? doff) && (doff + n <=? dsz) && (0 <=? soff) && (soff + n <=? ssz)
  then Ok (mwrite d doff (mread s soff (Z.to_nat n))) else UB.

Definition memset0 (d : mem) (dsz doff n : Z) : res mem :=
  if (0 <=? n) && (0 <=? doff) && (doff + n <=? dsz)
  then Ok (mwrite d doff (repeat 0 (Z.to_nat n))) else UB.

(** The arguments of the copy routines: destination / source buffer, base offset, stride. *)
Record region := mkRegion { g_size : Z; g_off : Z; g_stride : Z; g_bpp : Z }.

(** BitmapOperations.hpp l.21-50 CopySamePixelType (both branches) *)
Definition copy_same (dr sr : region) (w h : Z) (border : bool) (src dst : mem) : res mem :=
  let bytes_to_copy := w * g_bpp dr in
  if negb border then
    for_loop (Z.to_nat h) 0 (fun y m =>
      memcpy m (g_size dr) (g_off dr + y * g_stride dr)
             src (g_size sr) (g_off sr + y * g_stride sr) bytes_to_copy) dst
  else
    let* m0 := memset0 dst (g_size dr) (g_off dr) bytes_to_copy in
    let* m1 := for_loop (Z.to_nat (h - 2)) 1 (fun y m =>
      let d := g_off dr + y * g_stride dr in
      let s := g_off sr + y * g_stride sr in
      let* m := memcpy m (g_size dr) (d + g_bpp dr) src (g_size sr) s (bytes_to_copy - 2 * g_bpp dr) in
      let* m := memset0 m (g_size dr) d (g_bpp dr) in
      memset0 m (g_size dr) (d + bytes_to_copy - g_bpp dr) (g_bpp dr)) m0 in
    memset0 m1 (g_size dr) (g_off dr + (h - 1) * g_stride dr) bytes_to_copy.

(** one call of a ConvertPixel functor: reads one source pixel, writes one destination pixel *)
Definition convert_pixel (conv : bytes -> bytes) (dr sr : region) (doff soff : Z) (src m : mem) : res mem :=
  if (0 <=? doff) && (doff + g_bpp dr <=? g_size dr) && (0 <=? soff) && (soff + g_bpp sr <=? g_size sr)
  then Ok (mwrite m doff (conv (mread src soff (Z.to_nat (g_bpp sr))))) else UB.

(** BitmapOperations.hpp l.52-70 Copy<tSrc,tDst,tPixelConverter> *)
Definition copy_conv (conv : bytes -> bytes) (dr sr : region) (w h : Z) (src dst : mem) : res mem :=
  for_loop (Z.to_nat h) 0 (fun y m =>
    for_loop (Z.to_nat w) 0 (fun x m =>
      convert_pixel conv dr sr (g_off dr + y * g_stride dr + x * g_bpp dr)
                    (g_off sr + y * g_stride sr + x * g_bpp sr) src m) m) dst.

(** BitmapOperationsBitonal.h l.82-86 GetPixelFromBitonalUnchecked *)
Definition mask_bit (mk : mask) (x y : Z) : bool :=
  Z.testbit (mdata mk (y * mstride mk + x / 8)) (7 - x mod 8).
Definition get_mask_pixel (mk : mask) (x y : Z) : res bool :=
  let a := y * mstride mk + x / 8 in
  if (0 <=? a) && (a <? msize mk) then Ok (mask_bit mk x y) else UB.

(** BitmapOperationsBitonal.cpp l.653-676 CopySamePixelTypeWithMask, drawTileBorder == false *)
Definition copy_same_masked (dr sr : region) (w h : Z) (mk : mask) (mx my : Z) (src dst : mem) : res mem :=
  for_loop (Z.to_nat h) 0 (fun y m =>
    for_loop (Z.to_nat w) 0 (fun x m =>
      let* b := get_mask_pixel mk (x + mx) (y + my) in
      if (b : bool) then
        memcpy m (g_size dr) (g_off dr + y * g_stride dr + x * g_bpp dr)
               src (g_size sr) (g_off sr + y * g_stride sr + x * g_bpp dr) (g_bpp dr)
      else Ok m) m) dst.

(** BitmapOperationsBitonal.cpp l.702-721 CopyWithMask with a pixel converter: dest and src are
    advanced outside of the inner loop. *)
Definition copy_conv_masked (conv : bytes -> bytes) (dr sr : region) (w h : Z) (mk : mask) (mx my : Z)
           (src dst : mem) : res mem :=
  for_loop (Z.to_nat h) 0 (fun y m =>
    for_loop (Z.to_nat w) 0 (fun x m =>
      let* b := get_mask_pixel mk (x + mx) (y + my) in
      if (b : bool) then
        convert_pixel conv dr sr (g_off dr + y * g_stride dr) (g_off sr + y * g_stride sr) src m
      else Ok m) m) dst.

(** How the pixel types of source and destination select the copy routine
    (BitmapOperations.cpp l.29-172): same type or a converter. *)
Inductive copy_kind := SameType (border : bool) | Convert (conv : bytes -> bytes).

Definition copy_block (k : copy_kind) (dr sr : region) (w h : Z) (src dst : mem) : res mem :=
  match k with
  | SameType border => copy_same dr sr w h border src dst
  | Convert conv => copy_conv conv dr sr w h src dst
  end.

(** BitmapOperations.cpp l.175-194 CopyWithOffset *)
Definition copy_with_offset (k : copy_kind) (src dst : bmp) (xo yo : Z) : res bmp :=
  let i := intersect (mkRect xo yo (bw src) (bh src)) (mkRect 0 0 (bw dst) (bh dst)) in
  if (rw i =? 0) || (rh i =? 0) then Ok dst
  else
    let dr := mkRegion (bsize dst) (ry i * bstride dst + rx i * bbpp dst) (bstride dst) (bbpp dst) in
    let sr := mkRegion (bsize src) (Z.max (- yo) 0 * bstride src + Z.max (- xo) 0 * bbpp src)
                       (bstride src) (bbpp src) in
    let* m := copy_block k dr sr (rw i) (rh i) (bdata src) (bdata dst) in
    Ok (bwith dst m).

(** BitmapOperationsBitonal.cpp l.958-999 CopyWithOffsetAndMask (mask not null, no tile border) *)
Definition copy_with_offset_and_mask (k : copy_kind) (src dst : bmp) (mk : mask) (xo yo : Z) : res bmp :=
  let w0 := Z.min (bw src) (mw mk) in
  let h0 := Z.min (bh src) (mh mk) in
  let i := intersect (mkRect xo yo w0 h0) (mkRect 0 0 (bw dst) (bh dst)) in
  if (rw i =? 0) || (rh i =? 0) then Ok dst
  else
    let tx := Z.max (- xo) 0 in
    let ty := Z.max (- yo) 0 in
    let dr := mkRegion (bsize dst) (ry i * bstride dst + rx i * bbpp dst) (bstride dst) (bbpp dst) in
    let sr := mkRegion (bsize src) (ty * bstride src + tx * bbpp src) (bstride src) (bbpp src) in
    let* m := match k with
              | SameType _ => copy_same_masked dr sr (rw i) (rh i) mk tx ty (bdata src) (bdata dst)
              | Convert conv => copy_conv_masked conv dr sr (rw i) (rh i) mk tx ty (bdata src) (bdata dst)
              end in
    Ok (bwith dst m).

(** A tile as delivered to the compositor. *)
Record tile := mkTile { t_x : Z; t_y : Z; t_bmp : bmp; t_mask : option mask; t_kind : copy_kind }.

(** SingleChannelTileCompositor.cpp l.13-71 Compose / ComposeMaskAware *)
Definition compose_tile (dst : bmp) (t : tile) (xpos ypos : Z) : res bmp :=
  match t_mask t with
  | None => copy_with_offset (t_kind t) (t_bmp t) dst (t_x t - xpos) (t_y t - ypos)
  | Some mk => copy_with_offset_and_mask (t_kind t) (t_bmp t) dst mk (t_x t - xpos) (t_y t - ypos)
  end.

(** SingleChannelTileCompositor.cpp l.75-135 ComposeSingleChannelTiles(MaskAware) *)
Definition compose_tiles (dst : bmp) (ts : list tile) (xpos ypos : Z) : res bmp :=
  fold_left (fun r t => let* d := r in compose_tile d t xpos ypos) ts (Ok dst).

(** SingleChannelAccessorBase.cpp l.108-145 CheckForVisibilityCore.  [idxs] is count-1 ... 0. *)
Fixpoint vis_loop (fuel : nat) (roi : rect) (get_rect : nat -> rect) (sp : list rect) (covered : Z)
         (idxs : list nat) : res (list nat) :=
  match idxs with
  | [] => Ok []
  | i :: idxs' =>
      let* sp' := add_rect fuel sp (get_rect i) in
      let n := calc_area sp' roi in
      if covered <? n then
        if n =? rw roi * rh roi then Ok [i]
        else let* rest := vis_loop fuel roi get_rect sp' n idxs' in Ok (i :: rest)
      else vis_loop fuel roi get_rect sp' covered idxs'
  end.

Definition check_visibility (fuel : nat) (roi : rect) (count : nat) (get_rect : nat -> rect) : res (list nat) :=
  if Nat.eqb count 0 || negb (rnonempty roi) then Ok []
  else let* ks := vis_loop fuel roi get_rect [] 0 (rev (seq 0 count)) in Ok (rev ks).

(** SingleChannelTileAccessor.cpp l.38-123 ComposeTiles with and without the optimisation.
    The rectangle used for the visibility test is the tile's logical rectangle. *)
Definition tile_rect (t : tile) : rect := mkRect (t_x t) (t_y t) (bw (t_bmp t)) (bh (t_bmp t)).

Definition compose_optimised (fuel : nat) (dst : bmp) (ts : list tile) (xpos ypos : Z) (dflt : tile) : res bmp :=
  let get i := nth i ts dflt in
  let* vis := check_visibility fuel (mkRect xpos ypos (bw dst) (bh dst)) (length ts)
                               (fun i => tile_rect (get i)) in
  compose_tiles dst (map get vis) xpos ypos.

(** ---- specification vocabulary ---- *)
Definition pix_off (b : bmp) (x y : Z) : Z := y * bstride b + x * bbpp b.
(** the bytes of pixel (x,y) *)
Definition pix (b : bmp) (x y : Z) : bytes := mread (bdata b) (pix_off b x y) (Z.to_nat (bbpp b)).

Definition bmp_wf (b : bmp) : Prop :=
  0 <= bw b /\ 0 <= bh b /\ 0 < bbpp b /\ bw b * bbpp b <= bstride b /\
  (0 < bh b -> (bh b - 1) * bstride b + bw b * bbpp b <= bsize b).
Definition mask_wf (k : mask) : Prop :=
  0 <= mw k /\ 0 <= mh k /\ (mw k + 7) / 8 <= mstride k /\
  (0 < mh k -> (mh k - 1) * mstride k + (mw k + 7) / 8 <= msize k).

(** pixel of a mask: the leftmost pixel of a byte is its most significant bit *)
Definition mask_pixel (k : mask) (x y : Z) : bool :=
  let b := mdata k (y * mstride k + x / 8) in
  nth (Z.to_nat (x mod 8))
    [Z.odd (b / 128); Z.odd (b / 64); Z.odd (b / 32); Z.odd (b / 16); Z.odd (b / 8); Z.odd (b / 4); Z.odd (b / 2); Z.odd b] false.
(** tile t has a (not masked out) pixel at document position (x,y) *)
Definition shows (t : tile) (p : Z * Z) : bool :=
  pt_in (tile_rect t) p &&
  match t_mask t with
  | None => true
  | Some mk => let x := fst p - t_x t in let y := snd p - t_y t in
               (x <? mw mk) && (y <? mh mk) && mask_pixel mk x y
  end.
(** the value this tile contributes *)
Definition tile_value (t : tile) (p : Z * Z) : bytes :=
  let v := pix (t_bmp t) (fst p - t_x t) (snd p - t_y t) in
  match t_kind t with SameType _ => v | Convert c => c v end.
(** topmost (= last) tile showing at p *)
Definition topmost (ts : list tile) (p : Z * Z) : option tile := find (fun t => shows t p) (rev ts).

Definition tile_wf (dst : bmp) (t : tile) : Prop :=
  bmp_wf (t_bmp t) /\
  (forall mk, t_mask t = Some mk -> mask_wf mk) /\
  match t_kind t with
  | SameType b => b = false /\ bbpp (t_bmp t) = bbpp dst
  | Convert c => t_mask t = None /\
                 forall v, length v = Z.to_nat (bbpp (t_bmp t)) -> length (c v) = Z.to_nat (bbpp dst)
  end.
