(** What is written is what is seen, scaled. *)
From Coq Require Import Floats.SpecFloat.
From Verif Require Import Base RectModel CodecModel CodesModel CopyModel TextModel CoordModel CoordSpec StatModel StatSpec WriterModel WriterSpec PixelModel AccessModel AccessSpec OrderProofs ReaderModel SubMetaModel ViewModel ScaleSpec EndSpec.
Open Scope Z_scope.

(** an addition as the directory will describe it *)
Definition info_of (a : addinfo) : sbinfo :=
  let e := ai_e a in SbInfo (e_coord e) (mkRect (e_x e) (e_y e) (e_w e) (e_h e)) (e_sw e) (e_sh e) (given_m a).
(** it belongs to the plane and the scenes asked for and has a point in the region, on whichever layer of the pyramid it is *)
Definition asked (plane : CodecModel.coord) (scenes : option (Z -> bool)) (roi : rect) (l : list addinfo) (_ : Z) (i : sbinfo) : Prop :=
  exists a, In a l /\ i = info_of a /\ in_plane plane (sb_coord i) /\ share_point roi (sb_rect i) /\ scene_in scenes i.
(** what the addition puts at pixel (x, y) of the output: pixel (sx, sy) of the picture handed over, as [F] tells *)
Definition puts (F : axis -> Z -> option Z) (roi : rect) (d : bmp) (bpp : Z) (pic : Z -> byte) (mk : option mask) (a : addinfo) (x y : Z) : option bytes :=
  match F (x_axis (info_of a) roi d) x, F (y_axis (info_of a) roi d) y with
  | Some sx, Some sy => if unmasked mk sx sy then Some (pixel_of pic bpp (width_of a) sx sy) else None
  | _, _ => None
  end.
(** every pixel shows the addition of the level for the zoom which is on top there, else the background *)
Definition scaled_seen (F : axis -> Z -> option Z) (same : sbinfo -> sbinfo -> Prop) (above : Z * sbinfo -> Z * sbinfo -> Prop) (zoom : f32)
    (plane : CodecModel.coord) (scenes : option (Z -> bool)) (roi : rect) (l : list addinfo) (bpp : Z) (pic : addinfo -> Z -> byte) (msk : addinfo -> option mask)
    (back : Z -> Z -> bytes) (d : bmp) : Prop :=
  let shown a := level zoom same (asked plane scenes roi l) 0 (info_of a) in
  let value a := puts F roi d bpp (pic a) (msk a) a in
  forall x y, 0 <= x < bw d -> 0 <= y < bh d ->
    (exists a, In a l /\ shown a /\ value a x y = Some (pix d x y) /\
       forall a', In a' l -> shown a' -> value a' x y <> None -> above (0, info_of a) (0, info_of a')) \/
    ((forall a, In a l -> shown a -> value a x y = None) /\ pix d x y = back x y).
(** coordinates of the additions which fit, so that the statistics are defined (C32) *)
Definition additions_fit (l : list addinfo) : Prop := Forall (fun a => StatSpec.entry_ok (ai_e a)) l /\ bounds_fit (map ai_e l).

(** what the calls have in common; [same]: what is compared when the level is chosen *)
Definition scaled_call (l : list addinfo) (g : outer) (o : vopts) (plane : CodecModel.coord) (scenes : option (Z -> bool)) (zoom : f32) (roi : rect) (t : CodesModel.pixel_type) (p : px) (bpp : Z)
    (pic : addinfo -> Z -> byte) (msk : addinfo -> option mask) (dst : bmp) (same : sbinfo -> sbinfo -> Prop) : Prop :=
  px_of t = Some p /\ p <> PixelModel.Bgra32 /\
  (forall a, In a l -> level zoom same (asked plane scenes roi l) 0 (info_of a) -> ptype_of a = t /\ handed g a bpp (pic a) /\
    (if vo_mask o then try_get_mask (src_bytes (ai_meta a)) (src_bytes (ai_att a)) else Ok None) = Ok (msk a) /\ (forall m, msk a = Some m -> mask_wf m) /\
    axis_ok (x_axis (info_of a) roi dst) /\ axis_ok (y_axis (info_of a) roi dst)) /\
  bmp_wf dst /\ bbpp dst = bpp /\ vo_sort o = true /\ vo_vis o = None /\ background_ok (option_map (pair p) (vo_bg o)) dst /\
  zoom_range zoom /\ SFeqb zoom (f32_of_Z 1) = false /\
  (forall a, In a l -> asked plane scenes roi l 0 (info_of a) -> zoom_sizes (info_of a)) /\ layered (asked plane scenes roi l 0).
