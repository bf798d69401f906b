(** C109: what was written is what is seen *)
From Verif Require Import Base RectModel CodecModel WriterModel WriterSpec CodesModel CopyModel CoordModel StatModel PixelModel AccessModel AccessSpec AccessExamples ScaleExamples
  ReaderModel SubMetaModel ViewModel ViewSpec ViewExamples EndSpec EndProofs EndExamples ScaleSpec ScaleProofs EndScaleSpec EndScale EndScaleExamples.
Open Scope Z_scope.

(** Full statement of C109: the pixels handed to the writer are the pixels which the tile accessor delivers when the document is opened: at each
    point of the region asked for the pixel of the addition with the highest M-index which has a pixel there, or the background.

    Proved for pictures which are not compressed (given with any stride or line by line) or compressed by the compressors of the library, of any
    pixel type but Bgra32 (and, packed, Bgr48), delivered in this pixel type, for every document written or edited (C08), region, plane, background, with masks or
    without, and also after any calls with the same cache.  [l]: the additions which succeeded, or which are left by the edits; [pic a]: the pixels handed over; [msk a]: the mask
    in the attachment of the sub-block.  Missing: JPG-XR, whose codec is not part of the library; conversion to other pixel types *)
Theorem C109_seen_partial : forall l d, opened_document l d \/ edited_document l d ->
  forall sort zm z g o plane t p bpp pic msk dst x0 y0 st, sorts_by_m sort -> px_of t = Some p -> p <> PixelModel.Bgra32 ->
  (forall a, In a l -> in_picture plane a -> ptype_of a = t /\ handed g a bpp (pic a) /\
    (if vo_mask o then try_get_mask (src_bytes (ai_meta a)) (src_bytes (ai_att a)) else Ok None) = Ok (msk a) /\ forall m, msk a = Some m -> mask_wf m) ->
  bmp_wf dst -> bbpp dst = bpp -> vo_border o = false -> vo_sort o = true -> vo_vis o = None -> background_ok (option_map (pair p) (vo_bg o)) dst ->
  snd (rstep d RStats) = Ok (AStats st) -> check_plane (st_dims st) plane = Ok tt ->
  exists m back, fst (view sort zm z g d o (QTile plane x0 y0) t None dst) = Ok (bwith dst m) /\
    background (option_map (pair p) (vo_bg o)) dst back /\ seen_at plane l bpp pic msk back (bwith dst m) x0 y0 /\
    forall calls, uniform (calls ++ [OGet o (QTile plane x0 y0) t dst]) ->
      exists before, vrun sort zm z g d shelf0 (calls ++ [OGet o (QTile plane x0 y0) t dst]) = before ++ [Ok (bwith dst m)].
Proof. exact document_seen. Qed.
Print Assumptions C109_seen_partial.
(** three overlapping pictures: one given with a stride and with a mask, one line by line and without M-index, one compressed *)
Example C109_seen_meets : opened_document [end_c; end_a; end_b] end_doc /\ Forall (in_picture plane0) [end_c; end_a; end_b] /\
  (exists st, snd (rstep end_doc RStats) = Ok (AStats st) /\ check_plane (st_dims st) plane0 = Ok tt) /\
  (forall a, In a [end_c; end_a; end_b] -> in_picture plane0 a -> ptype_of a = CodesModel.Gray8 /\ handed end_outer a 1 (end_pic a) /\
    (if vo_mask (ask true) then try_get_mask (src_bytes (ai_meta a)) (src_bytes (ai_att a)) else Ok None) = Ok (end_msk a) /\ forall m, end_msk a = Some m -> mask_wf m) /\
  seen [fst (view sort_m by_zoom_m by_zoom end_outer end_doc (ask true) (QTile plane0 0 (-4)) CodesModel.Gray8 None (dst9 5 2))] = [Ok [1; 5; 11; 12; 99; 3; 4; 13; 14; 99]].
Proof. exact (conj end_document (conj end_in (conj end_stats (conj end_pictures end_seen)))). Qed.

(** the document of C08 after a session of the editor: the sub-block replaced, another one added *)
Example C109_edited_meets : edited_document [end_b; end_c] edit_doc /\
  seen [fst (view sort_m by_zoom_m by_zoom end_outer edit_doc (ask false) (QTile plane0 0 (-4)) CodesModel.Gray8 None (dst9 5 2))] = [Ok [99; 5; 11; 12; 99; 99; 7; 13; 14; 99]].
Proof. exact (conj end_edit_document edit_seen). Qed.

(** false: a picture of type Bgra32 can be written, but not looked at: the accessor throws *)
Theorem C109_bgra_refuted : opened_document [end_bgra] bgra_doc /\ ptype_of end_bgra = CodesModel.Bgra32 /\ in_picture plane0 end_bgra /\
  handed ex_outer end_bgra 4 (AddSpec.given_byte [1; 2; 3; 4; 5; 6; 7; 8] 8 8) /\
  fst (view sort_m by_zoom_m by_zoom ex_outer bgra_doc (ask false) (QTile plane0 0 (-4)) CodesModel.Bgra32 None dst_bgra) = Throw.
Proof. exact bgra_throws. Qed.
Print Assumptions C109_bgra_refuted.

(** The scaling accessor at any other zoom than 1: every pixel of the output is the pixel, scaled as in C79, of one of the pictures handed over: of those of
    the coarsest sufficient level the finest, then the one with the highest M-index.  The extents of the scenes are those which the reader finds.
    Missing, besides: zooms for which C80 is refuted ([axis_ok]) *)
Theorem C109_scaled_partial : exists F : axis -> Z -> option Z, (forall a, axis_ok a -> scaled a (F a)) /\
  forall l d, opened_document l d \/ edited_document l d -> additions_fit l ->
  forall sort zm z g o plane scenes zoom roi t p bpp pic msk dst st, sorts_by_zoom_m zm -> sorts_by_zoom z ->
  snd (rstep d RStats) = Ok (AStats st) -> check_plane (st_dims st) plane = Ok tt ->
  one_scene st scenes roi -> scaled_call l g o plane scenes zoom roi t p bpp pic msk dst any ->
  exists m back, fst (view sort zm z g d o (QScale plane scenes zoom roi) t None dst) = Ok (bwith dst m) /\ background (option_map (pair p) (vo_bg o)) dst back /\
    scaled_seen F any (finer_above true) zoom plane scenes roi l bpp pic msk back (bwith dst m) /\
    forall calls, uniform (calls ++ [OGet o (QScale plane scenes zoom roi) t dst]) ->
      exists before, vrun sort zm z g d shelf0 (calls ++ [OGet o (QScale plane scenes zoom roi) t dst]) = before ++ [Ok (bwith dst m)].
Proof. exact (ex_intro _ axis_map (conj axis_map_scaled document_scaled)). Qed.
Print Assumptions C109_scaled_partial.
Example C109_scaled_meets : opened_document [sc_a; sc_b; sc_c] sc_doc /\ additions_fit [sc_a; sc_b; sc_c] /\ sorts_by_zoom_m by_zoom_m /\ sorts_by_zoom by_zoom /\
  (snd (rstep sc_doc RStats) = Ok (AStats sc_stats) /\ check_plane (st_dims sc_stats) plane0 = Ok tt) /\
  one_scene sc_stats None sc_left /\ scaled_call [sc_a; sc_b; sc_c] end_outer (ask false) plane0 None half sc_left CodesModel.Gray8 Gray8 1 sc_pic (fun _ => None) (dst9 2 2) any /\
  seen [fst (view sort_m by_zoom_m by_zoom end_outer sc_doc (ask false) (QScale plane0 None half sc_left) CodesModel.Gray8 None (dst9 2 2))] = [Ok [10; 11; 14; 15]].
Proof. exact (conj sc_document (conj sc_fit (conj by_zoom_m_ok (conj by_zoom_ok (conj sc_stats_of sc_one))))). Qed.

(** ... and if the region touches several scenes: the level is chosen for each of them, later scenes are on top *)
Theorem C109_scenes_partial : exists F : axis -> Z -> option Z, (forall a, axis_ok a -> scaled a (F a)) /\
  forall l d, opened_document l d \/ edited_document l d -> additions_fit l ->
  forall sort zm z g o plane scenes zoom roi t p bpp pic msk dst st, sorts_by_zoom_m zm -> sorts_by_zoom z ->
  snd (rstep d RStats) = Ok (AStats st) -> check_plane (st_dims st) plane = Ok tt ->
  several_scenes st scenes roi -> length plane = 9%nat -> (forall a, In a l -> asked plane scenes roi l 0 (info_of a) -> scene (info_of a) <> None) ->
  scaled_call l g o plane scenes zoom roi t p bpp pic msk dst same_scene ->
  exists m back, fst (view sort zm z g d o (QScale plane scenes zoom roi) t None dst) = Ok (bwith dst m) /\ background (option_map (pair p) (vo_bg o)) dst back /\
    scaled_seen F same_scene (scene_above true) zoom plane scenes roi l bpp pic msk back (bwith dst m) /\
    forall calls, uniform (calls ++ [OGet o (QScale plane scenes zoom roi) t dst]) ->
      exists before, vrun sort zm z g d shelf0 (calls ++ [OGet o (QScale plane scenes zoom roi) t dst]) = before ++ [Ok (bwith dst m)].
Proof. exact (ex_intro _ axis_map (conj axis_map_scaled document_scenes)). Qed.
Print Assumptions C109_scenes_partial.
Example C109_scenes_meets : opened_document [sc_a; sc_b; sc_c] sc_doc /\ additions_fit [sc_a; sc_b; sc_c] /\ several_scenes sc_stats None sc_wide /\ length plane0 = 9%nat /\
  (forall a, In a [sc_a; sc_b; sc_c] -> asked plane0 None sc_wide [sc_a; sc_b; sc_c] 0 (info_of a) -> scene (info_of a) <> None) /\
  scaled_call [sc_a; sc_b; sc_c] end_outer (ask false) plane0 None half sc_wide CodesModel.Gray8 Gray8 1 sc_pic (fun _ => None) (dst9 6 2) same_scene /\
  seen [fst (view sort_m by_zoom_m by_zoom end_outer sc_doc (ask false) (QScale plane0 None half sc_wide) CodesModel.Gray8 None (dst9 6 2))] = [Ok [10; 11; 100; 101; 102; 103; 14; 15; 104; 105; 106; 107]].
Proof. exact (conj sc_document (conj sc_fit sc_several)). Qed.
