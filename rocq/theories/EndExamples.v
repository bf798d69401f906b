(** A document written and looked at. *)
From Coq Require Import Floats.SpecFloat.
From Verif Require Import Base RectModel CodecModel CodecProofs WriterModel WriterSpec WriterExamples CodesModel CopyModel TextModel CoordModel StatModel PixelModel AccessModel AccessSpec AccessExamples ScaleModel ScaleExamples
  ReaderModel ReaderSpec ReaderExamples EditModel EditSpec EditOpen EditExamples ZstdModel ZstdProofs HiLoModel AddModel AddSpec AddExamples SubMetaModel SubMetaExamples ChunkExamples ViewModel ViewSpec ViewExamples EndSpec.
Open Scope Z_scope.

Definition end_geo (m x comp : Z) : sbe := mkSbe [None; Some 1; None; None; None; None; None; None; None] m x (-4) 2 2 2 2 0 0 comp 0.
(** [a]: given with a stride, with a mask, M-index 3; [b]: line by line, no M-index; [c]: compressed, M-index 4 *)
Definition end_a : addinfo := mkAdd (end_geo 3 0 0) true (full_src ex_ctext) (mkSrc 4 [Some [1; 2]; Some [3; 4]]) (full_src ChunkExamples.ex_mask).
Definition end_lines (y : Z) : buf := if y =? 0 then Some [5; 6; 90] else Some [7; 8].
Definition end_b : addinfo := mkAdd (end_geo 9 1 0) false (full_src []) (mkSrc 4 [Some [5; 6]; Some [7; 8]]) (full_src []).
Definition end_src : mem := fun i => nth (Z.to_nat i) [11; 12; 90; 91; 13; 14] 0.
Definition end_c : addinfo := mkAdd (end_geo 4 2 5) true (full_src []) (full_src [11; 12; 13; 14]) (full_src []).
Definition end_ops : list wop := [OpSub end_c (Some 0%nat); OpSub end_a (Some 0%nat); OpSub end_b (Some 0%nat)].
Definition end_doc : rstate := opened (file_of m_zero (fst (fst (session ex_info end_ops)))) ropts0.
Definition end_outer : outer := mkOuter zid Scalar (fun _ => Throw) (fun _ => 0) (fun _ => 0) (fun _ => 0).
Definition end_pic (a : addinfo) : Z -> byte :=
  if e_comp (ai_e a) =? 5 then source_byte end_src 4 2 else if e_x (ai_e a) =? 0 then given_byte ex_pic 4 2 else line_byte end_lines 2.
Definition end_msk (a : addinfo) : option mask :=
  match try_get_mask (src_bytes (ai_meta a)) (src_bytes (ai_att a)) with Ok m => m | _ => None end.

Lemma end_geo_ok m x c : in_i32 m -> in_i32 x -> in_i32 c -> geometry_ok (end_geo m x c).
Proof.
  intros Hm Hx Hc. unfold geometry_ok, end_geo, sbe_wf, coord_wf, with_pos. cbn [e_coord e_m e_x e_y e_w e_h e_sw e_sh e_pt e_pos e_comp e_pyr].
  split; [split; [reflexivity|repeat (apply Forall_cons; [cbn; unfold in_i32, INT_MIN, INT_MAX; try lia; exact Logic.I|]); apply Forall_nil]|].
  change (2 ^ 64) with 18446744073709551616. unfold in_i32, INT_MIN, INT_MAX in *. lia.
Qed.
Lemma end_src_ok a b : WriterSpec.source_ok (mkSrc (Z.of_nat (length (a ++ b))) [Some a; Some b]).
Proof. exact (chunked_src_ok a b). Qed.
Lemma end_ops_ok : Forall (request_ok INT_MAX) end_ops.
Proof.
  assert (G : forall m x c, Z.abs m + Z.abs x + Z.abs c < 100 -> geometry_ok (end_geo m x c)) by (intros; apply end_geo_ok; unfold in_i32, INT_MIN, INT_MAX; lia).
  repeat apply Forall_cons; [..|apply Forall_nil]; (split; [apply G; vm_compute; reflexivity|]); (split; [apply full_src_ok|]);
    (split; [first [apply full_src_ok|exact (end_src_ok [1; 2] [3; 4])|exact (end_src_ok [5; 6] [7; 8])]|]); (split; [apply full_src_ok|]); vm_compute; intuition discriminate.
Qed.
Definition end_ran : bool :=
  let '(ws, rs, r) := session ex_info end_ops in match rs, r with [Ok _; Ok _; Ok _], Ok _ => file_size ws <? 2 ^ 63 | _, _ => false end.
Lemma end_document : opened_document [end_c; end_a; end_b] end_doc.
Proof.
  assert (R : end_ran = true) by (vm_compute; reflexivity).
  assert (E : exists ws, session ex_info end_ops = (ws, [Ok tt; Ok tt; Ok tt], Ok tt) /\ file_size ws < 2 ^ 63).
  { revert R. unfold end_ran. destruct (session ex_info end_ops) as [[ws rs] r]. destruct rs as [|[[]| | |] [|[[]| | |] [|[[]| | |] [|]]]]; try discriminate. destruct r as [[]| | |]; try discriminate.
    intros H. exists ws. split; [reflexivity|lia]. }
  destruct E as (ws & E & S). exists m_zero, false, ex_info, end_ops, ws, [Ok tt; Ok tt; Ok tt], (Ok tt), [], ropts0.
  split; [exact E|]. split; [exact ex_info_ok|]. split; [exact end_ops_ok|]. split; [exact S|]. split; [vm_compute; discriminate|]. split; [now left|].
  split; [repeat constructor; vm_compute; congruence|]. split; [reflexivity|]. cbv zeta. cbn [rrun fst].
  split; [unfold end_doc, opened; rewrite E; reflexivity|]. split; [|reflexivity].
  replace ws with (fst (fst (session ex_info end_ops))) by (rewrite E; reflexivity). vm_compute. reflexivity.
Qed.
Lemma end_stats : exists st, snd (rstep end_doc RStats) = Ok (AStats st) /\ check_plane (st_dims st) plane0 = Ok tt.
Proof.
  assert (T : match snd (rstep end_doc RStats) with Ok (AStats st) => match check_plane (st_dims st) plane0 with Ok _ => true | _ => false end | _ => false end = true) by (vm_compute; reflexivity).
  destruct (snd (rstep end_doc RStats)) as [[]| | |]; try discriminate T. eexists. split; [reflexivity|]. destruct (check_plane _ plane0) as [[]| | |]; [reflexivity|discriminate T..].
Qed.
Lemma end_pictures : forall a, In a [end_c; end_a; end_b] -> in_picture plane0 a -> ptype_of a = CodesModel.Gray8 /\ handed end_outer a 1 (end_pic a) /\
  (if vo_mask (ask true) then try_get_mask (src_bytes (ai_meta a)) (src_bytes (ai_att a)) else Ok None) = Ok (end_msk a) /\ forall m, end_msk a = Some m -> mask_wf m.
Proof.
  intros a [<-|[<-|[<-|[]]]] _; (split; [reflexivity|]).
  - split; [|split; [vm_compute; reflexivity|vm_compute; discriminate]].
    apply (HandedZstd0 end_outer end_c 1 end_src 6 4 (fun _ => 0) [11; 12; 13; 14]); try (vm_compute; reflexivity); [exact zid_ok|vm_compute; intuition discriminate].
  - split; [|split; [vm_compute; reflexivity|]].
    + apply (HandedStrided end_outer end_a 1 ex_pic 4); [reflexivity|vm_compute; intuition discriminate|reflexivity].
    + intros m E. assert (E' := f_equal (fun o => match o with Some k => (mw k, mh k, mstride k, msize k) | None => (0, 0, 0, 0) end) E). cbv beta iota in E'.
      assert (M : match end_msk end_a with Some k => (mw k, mh k, mstride k, msize k) | None => (0, 0, 0, 0) end = (11, 3, 2, 8)) by (vm_compute; reflexivity).
      rewrite M in E'. injection E' as E1 E2 E3 E4. unfold mask_wf. rewrite <- E1, <- E2, <- E3, <- E4. vm_compute. intuition discriminate.
  - split; [|split; [vm_compute; reflexivity|vm_compute; discriminate]].
    apply (HandedLines end_outer end_b 1 end_lines); [reflexivity| |reflexivity].
    split; [reflexivity|]. do 4 (split; [vm_compute; reflexivity|]). intros y Hy. destruct (Z.eq_dec y 0) as [->|].
    + exists [5; 6; 90]. split; [reflexivity|vm_compute; discriminate].
    + assert (y = 1) as -> by (change (height_of end_b) with 2 in Hy; lia). exists [7; 8]. split; [reflexivity|vm_compute; discriminate].
Qed.
Lemma end_in : Forall (in_picture plane0) [end_c; end_a; end_b].
Proof.
  repeat apply Forall_cons; [..|apply Forall_nil]; (split; [|split; reflexivity]); intros d v I H; change (e_coord _) with plane0; exact H.
Qed.
Lemma end_seen : seen [fst (view sort_m by_zoom_m by_zoom end_outer end_doc (ask true) (QTile plane0 0 (-4)) CodesModel.Gray8 None (dst9 5 2))] =
  [Ok [1; 5; 11; 12; 99; 3; 4; 13; 14; 99]].
Proof. vm_compute. reflexivity. Qed.

(** a picture of type Bgra32 *)
Definition end_bgra : addinfo := mkAdd (mkSbe [None; Some 1; None; None; None; None; None; None; None] 3 0 (-4) 2 1 2 1 9 0 0 0) true (full_src []) (full_src [1; 2; 3; 4; 5; 6; 7; 8]) (full_src []).
Definition bgra_doc : rstate := opened (file_of m_zero (fst (fst (session ex_info [OpSub end_bgra (Some 0%nat)])))) ropts0.
Definition dst_bgra : bmp := mkBmp 2 1 8 4 8 (fun _ => 99).
Definition bgra_ran : bool :=
  let '(ws, rs, r) := session ex_info [OpSub end_bgra (Some 0%nat)] in match rs, r with [Ok _], Ok _ => file_size ws <? 2 ^ 63 | _, _ => false end.
Lemma bgra_document : opened_document [end_bgra] bgra_doc.
Proof.
  assert (R : bgra_ran = true) by (vm_compute; reflexivity).
  assert (E : exists ws, session ex_info [OpSub end_bgra (Some 0%nat)] = (ws, [Ok tt], Ok tt) /\ file_size ws < 2 ^ 63).
  { revert R. unfold bgra_ran. destruct (session ex_info _) as [[ws rs] r]. destruct rs as [|[[]| | |] [|]]; try discriminate. destruct r as [[]| | |]; try discriminate.
    intros H. exists ws. split; [reflexivity|lia]. }
  destruct E as (ws & E & S). exists m_zero, false, ex_info, [OpSub end_bgra (Some 0%nat)], ws, [Ok tt], (Ok tt), [], ropts0.
  split; [exact E|]. split; [exact ex_info_ok|]. split.
  { repeat constructor; vm_compute; intuition discriminate. }
  split; [exact S|]. split; [vm_compute; discriminate|]. split; [now left|].
  split; [repeat constructor; vm_compute; congruence|]. split; [reflexivity|]. cbv zeta. cbn [rrun fst].
  split; [unfold bgra_doc, opened; rewrite E; reflexivity|]. split; [|reflexivity].
  replace ws with (fst (fst (session ex_info [OpSub end_bgra (Some 0%nat)]))) by (rewrite E; reflexivity). vm_compute. reflexivity.
Qed.
Lemma bgra_throws : opened_document [end_bgra] bgra_doc /\ ptype_of end_bgra = CodesModel.Bgra32 /\ in_picture plane0 end_bgra /\ handed ex_outer end_bgra 4 (given_byte [1; 2; 3; 4; 5; 6; 7; 8] 8 8) /\
  fst (view sort_m by_zoom_m by_zoom ex_outer bgra_doc (ask false) (QTile plane0 0 (-4)) CodesModel.Bgra32 None dst_bgra) = Throw.
Proof.
  split; [exact bgra_document|]. split; [reflexivity|]. split; [split; [intros d v I H; exact H|split; reflexivity]|].
  split; [apply (HandedStrided ex_outer end_bgra 4 [1; 2; 3; 4; 5; 6; 7; 8] 8); [reflexivity|vm_compute; intuition discriminate|reflexivity]|vm_compute; reflexivity].
Qed.

(** a document changed by the editor: its sub-block replaced, another one added, one refused, the metadata replaced *)
Definition end_edits : list eop := [EReplace 0 end_b; EAdd end_c; EAdd end_c; EReplace 7 end_a; EMeta [60; 62] []].
Definition end_edited : file := match edit false true (repeat 5 16) file2 end_edits with Ok (f', _, _) => f' | _ => file2 end.
Definition edit_doc : rstate := opened end_edited ropts0.
Lemma end_edits_ok : Forall edit_ok end_edits.
Proof.
  pose proof end_ops_ok as F. unfold end_ops in F. inversion F as [|? ? C F1]; subst. inversion F1 as [|? ? A F2]; subst. inversion F2 as [|? ? B _]; subst.
  repeat apply Forall_cons; [exact B|exact C|exact C|exact A|split; vm_compute; discriminate|apply Forall_nil].
Qed.
Lemma end_edit_document : edited_document [end_b; end_c] edit_doc.
Proof.
  assert (R : match edit false true (repeat 5 16) file2 end_edits with Ok (f', _, _) => f_size f' <? 2 ^ 63 | _ => false end = true) by (vm_compute; reflexivity).
  destruct (edit false true (repeat 5 16) file2 end_edits) as [[[f' rs] r]| | |] eqn:E; try discriminate R.
  exists false, true, (repeat 5 16), file2, (header_of file2), doc2, end_edits, f', rs, r, [], ropts0.
  split; [exact document2|]. split; [apply reopened_twice|]. split; [reflexivity|]. split; [exact end_edits_ok|].
  split; [vm_compute; repeat split|]. split; [unfold close_safe; cbv zeta; left; reflexivity|]. split; [now left|]. split; [split; vm_compute; discriminate|]. split; [exact E|]. split; [lia|].
  split; [vm_compute; reflexivity|]. split; [repeat constructor; vm_compute; congruence|]. split; [reflexivity|]. split; [reflexivity|]. cbv zeta. cbn [rrun fst].
  assert (Ef : end_edited = f') by (unfold end_edited; rewrite E; reflexivity).
  split; [unfold edit_doc, opened; rewrite Ef; reflexivity|]. rewrite <- Ef. vm_compute. reflexivity.
Qed.
Lemma edit_seen : seen [fst (view sort_m by_zoom_m by_zoom end_outer edit_doc (ask false) (QTile plane0 0 (-4)) CodesModel.Gray8 None (dst9 5 2))] =
  [Ok [99; 5; 11; 12; 99; 99; 7; 13; 14; 99]].
Proof. vm_compute. reflexivity. Qed.
