(** Pictures of a document: from the reader through decoding, masks and the sub-block cache to the accessors
    (Src/libCZI/CreateBitmap.cpp, SingleChannelAccessorBase.cpp, SingleChannelTileAccessor.cpp,
    SingleChannelPyramidLevelTileAccessor.cpp, SingleChannelScalingTileAccessor.cpp). *)
From Verif Require Import Base RectModel CodecModel WriterModel CodesModel CopyModel TextModel CoordModel StatModel HiLoModel PixelModel AccessModel ScaleModel
  ReaderModel CacheModel ZstdModel SubMetaModel.
Open Scope Z_scope.
Local Notation ptype := CodesModel.pixel_type.

(** ** Pixel types *)
(** the pixel types known to CBitmapOperations *)
Definition px_of (t : ptype) : option px :=
  match t with
  | CodesModel.Gray8 => Some PixelModel.Gray8 | CodesModel.Gray16 => Some PixelModel.Gray16 | CodesModel.Gray32Float => Some PixelModel.Gray32F
  | CodesModel.Bgr24 => Some PixelModel.Bgr24 | CodesModel.Bgr48 => Some PixelModel.Bgr48 | CodesModel.Bgra32 => Some PixelModel.Bgra32
  | _ => None
  end.
(** CBitmapOperations::Copy, BitmapOperations.cpp l.62-172: the copy routine for a source and a destination type.  The conversion of Bgr24
    to Bgr48 reads beyond the pixel (C19) and is not modelled here. *)
Definition kind_of (border : bool) (s d : ptype) : res copy_kind :=
  match px_of s, px_of d with
  | Some a, Some b =>
    if px_eqb a b then match a with PixelModel.Bgra32 => Throw | _ => Ok (SameType border) end
    else match a, b with
         | PixelModel.Bgr24, PixelModel.Bgr48 => UB
         | _, _ => match conv_load a b (fun _ => 0) 0 0 with
                   | None => Throw
                   | Some _ => Ok (Convert (fun v => match conv_load a b (lmem v) (llen v) 0 with Some (Ok r) => r | _ => [] end))
                   end
         end
  | _, _ => Throw
  end.
(** CopyWithOffset (BitmapOperations.cpp l.175-194), CopyWithOffsetAndMask (BitmapOperationsBitonal.cpp l.958-999): nothing is looked at if
    there is nothing to copy *)
Definition draw_at (border : bool) (s d : ptype) (src : bmp) (mk : option mask) (dst : bmp) (x y : Z) : res bmp :=
  let w := match mk with None => bw src | Some m => Z.min (bw src) (mw m) end in
  let h := match mk with None => bh src | Some m => Z.min (bh src) (mh m) end in
  let i := intersect (mkRect x y w h) (mkRect 0 0 (bw dst) (bh dst)) in
  if (rw i =? 0) || (rh i =? 0) then Ok dst
  else let* k := kind_of border s d in compose_tile dst (mkTile x y src mk k) 0 0.

(** ** Decoding *)
(** what is outside the library: zstd, the implementation of the byte unpacking, the JPEG XR decoder (pixel type and bitmap), and the content of
    memory which is not initialised *)
Record outer := mkOuter { o_zstd : zstd; o_impl : impl; o_jxr : bytes -> res (ptype * bmp); o_junk : mem; o_junk2 : mem; o_junk3 : mem }.
Definition bmp_of (bpp w h : Z) (b : ZstdModel.bitmap) : bmp := let '(s, z, m) := b in mkBmp w h s bpp z m.
(** CreateBitmapFromSubBlock_JpgXr, CreateBitmap.cpp l.16-68, with handle_jxr_bitmap_mismatch; Fill with black and CopyWithOffset as needed *)
Definition create_jxr (g : outer) (i : rinfo) (d : bytes) : res (ptype * bmp) :=
  let* (t, b) := o_jxr g d in
  if (bw b =? ri_pw i) && (bh b =? ri_ph i) && (match px_of t, px_of (ri_pt i) with Some a, Some c => px_eqb a c | _, _ => false end) then Ok (t, b)
  else
    let* bpp := bytes_per_pel (ri_pt i) in
    let (s, z) := new_bitmap (default_pitch (ri_pw i) bpp) (ri_ph i) in
    let blank := mkBmp (ri_pw i) (ri_ph i) s bpp z (o_junk g) in
    match px_of (ri_pt i) with
    | None => Throw
    | Some p =>
      let* blank := fill_px p (mkRgbf (f32_of_Z 0) (f32_of_Z 0) (f32_of_Z 0)) blank in
      let* b := draw_at false t (ri_pt i) b None blank 0 0 in
      Ok (ri_pt i, b)
    end.
(** CreateBitmapFromSubBlock without options, CreateBitmap.cpp l.174-189, as called by CCziSubBlock::CreateBitmap, CziSubBlock.cpp l.70-73 *)
Definition create_bitmap (g : outer) (i : rinfo) (d : bytes) : res (ptype * bmp) :=
  let plain (r : res ZstdModel.bitmap) := let* b := r in let* bpp := bytes_per_pel (ri_pt i) in Ok (ri_pt i, bmp_of bpp (ri_pw i) (ri_ph i) b) in
  match compression_from_int (ri_comp i) with
  | JpgXr => create_jxr g i d
  | Zstd0 => plain (decode0 (o_zstd g) true d (ri_pt i) (ri_pw i) (ri_ph i) (o_junk g) (o_junk2 g))
  | Zstd1 => plain (decode1 (o_zstd g) (o_impl g) true d (ri_pt i) (ri_pw i) (ri_ph i) (o_junk g) (o_junk2 g) (o_junk3 g))
  | UnCompressed => plain (create_uncompressed true d (ri_pt i) (ri_pw i) (ri_ph i) (o_junk g))
  | _ => Throw
  end.

(** ** One sub-block, SingleChannelAccessorBase.cpp l.146-194 *)
(** what a cache entry holds *)
Definition object : Type := (ptype * bmp * option mask)%type.
(** SubBlockData *)
Record sbd := mkSbd { v_obj : object; v_info : rinfo }.
Definition v_pt (v : sbd) : ptype := fst (fst (v_obj v)).
Definition v_bmp (v : sbd) : bmp := snd (fst (v_obj v)).
Definition v_mask (v : sbd) : option mask := snd (v_obj v).

(** l.157-163 and l.176-182: read the sub-block, decode it, get its mask if asked for.  ReadSubBlock delivers a null pointer for an index which
    does not exist *)
Definition load_block (g : outer) (r : rstate) (mask_aware : bool) (k : Z) : res sbd :=
  let* a := snd (rstep r (RBlock k)) in
  match a with
  | ABlock (Some (i, (d, att, meta))) =>
    let* (t, b) := create_bitmap g i d in
    let* mk := (if mask_aware then try_get_mask meta att else Ok None) in
    Ok (mkSbd (t, b, mk) i)
  | _ => UB
  end.

(** The cache (CacheModel) and the bitmaps its entries point to: an item is identified by its number *)
Record shelf := mkShelf { sh_cache : cache; sh_objs : list object }.
Definition shelf0 : shelf := mkShelf cache_empty [].
Definition item_of (n : Z) (x : object) : item :=
  let '(t, b, mk) := x in mkItem n (bw b) (bh b) (bbpp b) (option_map (fun m => (mw m, mh m)) mk).
Definition shelf_get (s : shelf) (k : Z) : option object * shelf :=
  let (o, c) := cache_get (sh_cache s) k in
  (match o with Some i => nth_error (sh_objs s) (Z.to_nat (it_id i)) | None => None end, mkShelf c (sh_objs s)).
Definition shelf_add (s : shelf) (k : Z) (x : object) : shelf :=
  mkShelf (cache_add (sh_cache s) k (item_of (Z.of_nat (length (sh_objs s))) x)) (sh_objs s ++ [x]).
Definition shelf_prune (s : shelf) (m n : Z) : res shelf :=
  let* c := cache_prune (sh_cache s) m n in Ok (mkShelf c (sh_objs s)).

(** l.166-172: a hit; the information comes from the directory, the mask is taken whether asked for or not *)
Definition from_shelf (r : rstate) (k : Z) (x : object) : res sbd :=
  let* a := snd (rstep r (RInfo k)) in
  match a with AInfo (Some i) => Ok (mkSbd x i) | _ => Throw end.
(** l.183-188 *)
Definition to_be_added (only_compressed : bool) (v : sbd) : bool :=
  negb only_compressed || negb (match compression_from_int (ri_comp (v_info v)) with UnCompressed => true | _ => false end).
(** GetSubBlockDataIncludingMaskForSubBlockIndex *)
Definition fetch (g : outer) (r : rstate) (only_compressed mask_aware : bool) (c : option shelf) (k : Z) : res sbd * option shelf :=
  match c with
  | None => (load_block g r mask_aware k, None)
  | Some s =>
    match shelf_get s k with
    | (Some x, s1) => (from_shelf r k x, Some s1)
    | (None, s1) =>
      match load_block g r mask_aware k with
      | Ok v => (Ok v, Some (if to_be_added only_compressed v then shelf_add s1 k (v_obj v) else s1))
      | e => (e, Some s1)
      end
    end
  end.

(** ** The accessors *)
(** The options common to the accessors; [vo_vis]: useVisibilityCheckOptimization *)
Record vopts := mkVo { vo_mask : bool; vo_only : bool; vo_border : bool; vo_bg : option rgbf; vo_sort : bool; vo_vis : option nat }.
Inductive vreq :=
| QTile (plane : CodecModel.coord) (x y : Z)
| QPyramid (fuel : nat) (plane : CodecModel.coord) (scenes : option (Z -> bool)) (factor layer x y : Z)
| QScale (plane : CodecModel.coord) (scenes : option (Z -> bool)) (zoom : f32) (roi : rect).
(** a sub-block to be drawn and how *)
Definition job : Type := (Z * (sbd -> bmp -> res bmp))%type.
Definition no_sb : Z * sbinfo := (0, SbInfo [] (mkRect 0 0 0 0) 0 0 0).

Section View.
  Variable sort : list (Z * sbinfo) -> list (Z * sbinfo).
  Variable sort_zoom_m sort_zoom : list (Z * sbinfo) -> list (Z * sbinfo).
  Variable g : outer.

  Definition visible (vis : option nat) (roi : rect) (l : list (Z * sbinfo)) : res (list (Z * sbinfo)) :=
    match vis with
    | None => Ok l
    | Some fuel => let* v := check_visibility fuel roi (length l) (fun k => sb_rect (snd (nth k l no_sb))) in Ok (map (fun k => nth k l no_sb) v)
    end.
  (** SingleChannelTileAccessor.cpp l.54-122: the tile is placed where the fetched data say, and drawn with the mask that was fetched *)
  Definition tile_job (o : vopts) (t : ptype) (x y : Z) (i : Z * sbinfo) : job :=
    (fst i, fun v d => draw_at (vo_border o) (v_pt v) t (v_bmp v) (v_mask v) d (rx (ri_rect (v_info v)) - x) (ry (ri_rect (v_info v)) - y)).
  (** SingleChannelPyramidLevelTileAccessor.cpp l.99-130 *)
  Definition pyramid_job (o : vopts) (t : ptype) (x y size : Z) (i : Z * sbinfo) : job :=
    (fst i, fun v d =>
      let* tx := tile_pos (rx (ri_rect (v_info v))) x size in
      let* ty := tile_pos (ry (ri_rect (v_info v))) y size in
      draw_at (vo_border o) (v_pt v) t (v_bmp v) (v_mask v) d tx ty).
  (** ScaleBlt, SingleChannelScalingTileAccessor.cpp l.85-174: the mask with maskAware only, the geometry of the directory.  NNScale2 is taken to
      know the same pairs of pixel types as Copy. *)
  Definition scale_job (o : vopts) (t : ptype) (zoom : f32) (roi : rect) (i : Z * sbinfo) : job :=
    (fst i, fun v d =>
      let mk := if vo_mask o then v_mask v else None in
      let r := sb_rect (snd i) in
      if SpecFloat.SFeqb zoom (f32_of_Z 1) then draw_at false (v_pt v) t (v_bmp v) mk d (rx r - rx roi) (ry r - ry roi)
      else let* k := kind_of false (v_pt v) t in scale_blt (fun _ => (v_bmp v, mk, k)) zoom roi d i).

  Definition paint_jobs_of (o : vopts) (t : ptype) (zoom : f32) (roi : rect) (l : list (Z * sbinfo)) : res (list job) :=
    let* l := visible (vo_vis o) roi (chosen zoom l) in Ok (map (scale_job o t zoom roi) l).
  Fixpoint concat_res {A} (l : list (res (list A))) : res (list A) :=
    match l with [] => Ok [] | a :: l' => let* x := a in let* y := concat_res l' in Ok (x ++ y) end.

  (** what is drawn, in order: SingleChannelTileAccessor.cpp l.125-179, SingleChannelPyramidLevelTileAccessor.cpp l.75-172 and l.240-275,
      SingleChannelScalingTileAccessor.cpp l.286-447; the statistics and the directory are those of the reader *)
  Definition jobs (r : rstate) (o : vopts) (q : vreq) (t : ptype) (dst : bmp) : res (list job) :=
    let dir := map sbinfo_of (r_dir r) in
    let st := get_stats (r_upd r) in
    match q with
    | QTile plane x y =>
      let* _ := check_plane (st_dims st) plane in
      let roi := mkRect x y (bw dst) (bh dst) in
      let* l := visible (vo_vis o) roi (tile_subset sort (vo_sort o) plane roi dir) in
      Ok (map (tile_job o t x y) l)
    | QPyramid fuel plane scenes factor layer x y =>
      let* size := pixel_size layer factor in
      let* _ := check_plane (st_dims st) plane in
      let* w := chk (bw dst * size) in
      let* h := chk (bh dst * size) in
      match pyramid_subset sort (vo_sort o) plane scenes (mkRect x y w h) dir with
      | [] => Ok []
      | subs =>
        let* l := by_layer fuel factor layer subs in
        match l with [] => Throw | _ => Ok (map (pyramid_job o t x y size) l) end
      end
    | QScale plane scenes zoom roi =>
      let* _ := check_plane (st_dims st) plane in
      let sc := involved st scenes roi in
      let sub p a := scale_subset sort_zoom_m sort_zoom (vo_sort o) p a roi dir in
      if (length sc <=? 1)%nat then paint_jobs_of o t zoom roi (sub plane (Some sc))
      else concat_res (map (fun s => paint_jobs_of o t zoom roi (sub (tset plane 5 s) None)) sc)
    end.

  (** the loops over the sub-blocks *)
  Fixpoint run_jobs (r : rstate) (o : vopts) (l : list job) (c : option shelf) (d : bmp) : res bmp * option shelf :=
    match l with
    | [] => (Ok d, c)
    | (k, f) :: l' =>
      let (v, c) := fetch g r (vo_only o) (vo_mask o) c k in
      match (let* v := v in f v d) with
      | Ok d => run_jobs r o l' c d
      | e => (e, c)
      end
    end.
  (** Clear, SingleChannelAccessorBase.cpp l.25-31 *)
  Definition clear_for (o : vopts) (t : ptype) (d : bmp) : res bmp :=
    match vo_bg o with None => Ok d | Some c => match px_of t with None => Throw | Some p => fill_px p c d end end.
  (** Get with a bitmap of the caller; every accessor starts with the statistics of the reader, which must be operational *)
  Definition view (r : rstate) (o : vopts) (q : vreq) (t : ptype) (c : option shelf) (dst : bmp) : res bmp * option shelf :=
    if r_op r then
      match (let* l := jobs r o q t dst in let* d := clear_for o t dst in Ok (l, d)) with
      | Ok (l, d) => run_jobs r o l c d
      | Throw => (Throw, c) | UB => (UB, c) | OutOfFuel => (OutOfFuel, c)
      end
    else (Throw, c).

  (** ** Calls one after the other with the same cache *)
  Inductive vop := OGet (o : vopts) (q : vreq) (t : ptype) (dst : bmp) | OPrune (m n : Z).
  Fixpoint vrun (r : rstate) (c : shelf) (ops : list vop) : list (res bmp) :=
    match ops with
    | [] => []
    | OGet o q t dst :: ops' =>
      match view r o q t (Some c) dst with
      | (x, Some c1) => x :: vrun r c1 ops'
      | (x, None) => [x]
      end
    | OPrune m n :: ops' => match shelf_prune c m n with Ok c1 => vrun r c1 ops' | _ => [] end
    end.

  (** ** Calls of many threads with the same cache

      The operations of the cache are atomic here (CacheModel has them in detail); reading a sub-block happens between them.  [ok]: the calls
      which are made. *)
  Record call := mkCall { ca_o : vopts; ca_q : vreq; ca_t : ptype; ca_dst : bmp }.
  Inductive vpc :=
  | VIdle
  | VDraw (a : call) (l : list job) (d : bmp)
  | VMiss (a : call) (k : Z) (f : sbd -> bmp -> res bmp) (l : list job) (d : bmp)
  | VHave (a : call) (k : Z) (v : sbd) (f : sbd -> bmp -> res bmp) (l : list job) (d : bmp).
  Record vsys := mkVsys { y_shelf : shelf; y_thr : nat -> vpc; y_log : list (call * res bmp) }.
  Definition at_thr (f : nat -> vpc) (t : nat) (p : vpc) : nat -> vpc := fun u => if (u =? t)%nat then p else f u.
  (** after the data have been obtained: draw, and go on or end with the error *)
  Definition drawn (a : call) (f : sbd -> bmp -> res bmp) (l : list job) (v : res sbd) (d : bmp) : vpc * list (call * res bmp) :=
    match (let* v := v in f v d) with
    | Ok d => (VDraw a l d, [])
    | e => (VIdle, [(a, e)])
    end.
  Inductive vstep (r : rstate) (ok : call -> Prop) : vsys -> vsys -> Prop :=
  | VStart t a s f log l d : f t = VIdle -> ok a -> r_op r = true -> jobs r (ca_o a) (ca_q a) (ca_t a) (ca_dst a) = Ok l ->
      clear_for (ca_o a) (ca_t a) (ca_dst a) = Ok d -> vstep r ok (mkVsys s f log) (mkVsys s (at_thr f t (VDraw a l d)) log)
  | VHit t a k f l d s s1 x p e th log : th t = VDraw a ((k, f) :: l) d -> shelf_get s k = (Some x, s1) ->
      drawn a f l (from_shelf r k x) d = (p, e) -> vstep r ok (mkVsys s th log) (mkVsys s1 (at_thr th t p) (log ++ e))
  | VNoHit t a k f l d s s1 th log : th t = VDraw a ((k, f) :: l) d -> shelf_get s k = (None, s1) ->
      vstep r ok (mkVsys s th log) (mkVsys s1 (at_thr th t (VMiss a k f l d)) log)
  | VFail t a k f l d s p e th log : th t = VMiss a k f l d -> (forall v, load_block g r (vo_mask (ca_o a)) k <> Ok v) ->
      drawn a f l (load_block g r (vo_mask (ca_o a)) k) d = (p, e) -> vstep r ok (mkVsys s th log) (mkVsys s (at_thr th t p) (log ++ e))
  | VLoad t a k f l d s v th log : th t = VMiss a k f l d -> load_block g r (vo_mask (ca_o a)) k = Ok v ->
      vstep r ok (mkVsys s th log) (mkVsys s (at_thr th t (VHave a k v f l d)) log)
  | VStore t a k v f l d s p e th log : th t = VHave a k v f l d -> drawn a f l (Ok v) d = (p, e) ->
      vstep r ok (mkVsys s th log)
        (mkVsys (if to_be_added (vo_only (ca_o a)) v then shelf_add s k (v_obj v) else s) (at_thr th t p) (log ++ e))
  | VDone t a d s th log : th t = VDraw a [] d -> vstep r ok (mkVsys s th log) (mkVsys s (at_thr th t VIdle) (log ++ [(a, Ok d)]))
  | VPrune s s1 m n th log : shelf_prune s m n = Ok s1 -> vstep r ok (mkVsys s th log) (mkVsys s1 th log).
  Inductive vreach (r : rstate) (ok : call -> Prop) : vsys -> Prop :=
  | VReach0 : vreach r ok (mkVsys shelf0 (fun _ => VIdle) [])
  | VReachS a b : vreach r ok a -> vstep r ok a b -> vreach r ok b.
End View.
