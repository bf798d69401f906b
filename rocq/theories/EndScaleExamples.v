(** A document with two overlapping scenes and a pyramid, written and looked at at half the size. *)
From Coq Require Import Floats.SpecFloat.
From Verif Require Import Base RectModel CodecModel CodecProofs WriterModel WriterSpec WriterExamples CodesModel CopyModel TextModel CoordModel CoordSpec OrderProofs StatModel StatSpec PixelModel AccessModel AccessSpec AccessExamples ScaleModel ScaleSpec ScaleExamples
  ReaderModel ReaderSpec ReaderExamples ZstdModel AddModel AddSpec AddExamples SubMetaModel ViewModel ViewSpec ViewExamples EndSpec EndExamples EndScaleSpec.
Open Scope Z_scope.

Definition sc_geo (s x pw ph : Z) : sbe := mkSbe [None; Some 1; None; None; Some s; None; None; None; None] 0 x 0 8 4 pw ph 0 0 0 0.
Definition sc_bytes (a : Z) (n : nat) : bytes := map (fun i => a + Z.of_nat i) (seq 0 n).
Definition sc_rows (a pw ph : Z) : source := mkSrc (pw * ph) (map (fun y => Some (sc_bytes (a + Z.of_nat y * pw) (Z.to_nat pw))) (seq 0 (Z.to_nat ph))).
Definition sc_add (s x pw ph a : Z) (mv : bool) : addinfo := mkAdd (sc_geo s x pw ph) mv (full_src []) (sc_rows a pw ph) (full_src []).
(** [sc_a]: scene 1, reduced; [sc_b]: scene 0, reduced; [sc_c]: scene 1, full size *)
Definition sc_a : addinfo := sc_add 1 4 4 2 100 false.
Definition sc_b : addinfo := sc_add 0 0 4 2 10 false.
Definition sc_c : addinfo := sc_add 1 4 8 4 200 true.
Definition sc_ops : list wop := [OpSub sc_a (Some 0%nat); OpSub sc_b (Some 0%nat); OpSub sc_c (Some 0%nat)].
Definition sc_doc : rstate := opened (file_of m_zero (fst (fst (session ex_info sc_ops)))) ropts0.
Definition sc_stats : stats := match snd (rstep sc_doc RStats) with Ok (AStats st) => st | _ => with_scenes [] end.
Definition sc_wide : rect := mkRect 0 0 12 4.
Definition sc_left : rect := mkRect 0 0 4 4.
Definition sc_pic (a : addinfo) : Z -> byte := given_byte (src_bytes (ai_data a)) (width_of a) (width_of a).

Lemma sc_geo_ok s x w h : Z.abs s + Z.abs x + Z.abs w + Z.abs h < 100 -> geometry_ok (sc_geo s x w h).
Proof.
  intros H. unfold geometry_ok, sc_geo, sbe_wf, coord_wf, with_pos. cbn [e_coord e_m e_x e_y e_w e_h e_sw e_sh e_pt e_pos e_comp e_pyr].
  split; [split; [reflexivity|repeat (apply Forall_cons; [cbn; unfold in_i32, INT_MIN, INT_MAX; try lia; exact Logic.I|]); apply Forall_nil]|].
  change (2 ^ 64) with 18446744073709551616. unfold in_i32, INT_MIN, INT_MAX in *. lia.
Qed.
Lemma sc_ops_ok : Forall (request_ok INT_MAX) sc_ops.
Proof.
  repeat apply Forall_cons; [..|apply Forall_nil]; (split; [apply sc_geo_ok; vm_compute; reflexivity|]); (split; [apply full_src_ok|]); (split; [vm_compute; intuition discriminate|]); (split; [apply full_src_ok|]); vm_compute; intuition discriminate.
Qed.
Definition sc_ran : bool :=
  let '(ws, rs, r) := session ex_info sc_ops in match rs, r with [Ok _; Ok _; Ok _], Ok _ => file_size ws <? 2 ^ 63 | _, _ => false end.
Lemma sc_document : opened_document [sc_a; sc_b; sc_c] sc_doc.
Proof.
  assert (R : sc_ran = true) by (vm_compute; reflexivity).
  assert (E : exists ws, session ex_info sc_ops = (ws, [Ok tt; Ok tt; Ok tt], Ok tt) /\ file_size ws < 2 ^ 63).
  { revert R. unfold sc_ran. destruct (session ex_info sc_ops) as [[ws rs] r]. destruct rs as [|[[]| | |] [|[[]| | |] [|[[]| | |] [|]]]]; try discriminate. destruct r as [[]| | |]; try discriminate.
    intros H. exists ws. split; [reflexivity|lia]. }
  destruct E as (ws & E & S). exists m_zero, false, ex_info, sc_ops, ws, [Ok tt; Ok tt; Ok tt], (Ok tt), [], ropts0.
  split; [exact E|]. split; [exact ex_info_ok|]. split; [exact sc_ops_ok|]. split; [exact S|]. split; [vm_compute; discriminate|]. split; [now left|].
  split; [repeat constructor; vm_compute; congruence|]. split; [reflexivity|]. cbv zeta. cbn [rrun fst].
  split; [unfold sc_doc, opened; rewrite E; reflexivity|]. split; [|reflexivity].
  replace ws with (fst (fst (session ex_info sc_ops))) by (rewrite E; reflexivity). vm_compute. reflexivity.
Qed.
Lemma sc_fit : additions_fit [sc_a; sc_b; sc_c].
Proof.
  split.
  - repeat apply Forall_cons; [..|apply Forall_nil]; (split; [reflexivity|]); repeat (split; [vm_compute; intuition discriminate|]);
      repeat (apply Forall_cons; [cbn; unfold in_i32, INT_MIN, INT_MAX; try lia; exact Logic.I|]); apply Forall_nil.
  - intros a b Ha Hb. do 4 (split; [destruct Ha as [<-|[<-|[<-|[]]]], Hb as [<-|[<-|[<-|[]]]]; vm_compute; discriminate|]).
    assert (K : forall e, In e (map ai_e [sc_a; sc_b; sc_c]) -> forall i v, nth i (e_coord e) None = Some v -> 0 <= v <= 1).
    { intros e He i v. destruct He as [<-|[<-|[<-|[]]]]; cbn [sc_a sc_b sc_c sc_add ai_e sc_geo e_coord]; do 10 (destruct i as [|i]; [cbn; intros H; (discriminate || injection H as <-; lia)|]); cbn; destruct i; discriminate. }
    intros i v v' Hv Hv'. pose proof (K a Ha i v Hv). pose proof (K b Hb i v' Hv'). unfold INT_MAX. lia.
Qed.
Lemma sc_scenes : st_scenes sc_stats = [(0, (mkRect 0 0 8 4, mkRect 0 0 (-1) (-1))); (1, (mkRect 4 0 8 4, mkRect 4 0 8 4))].
Proof. vm_compute. reflexivity. Qed.
Lemma sc_stats_of : snd (rstep sc_doc RStats) = Ok (AStats sc_stats) /\ check_plane (st_dims sc_stats) plane0 = Ok tt.
Proof.
  split; [|vm_compute; reflexivity]. assert (T : match snd (rstep sc_doc RStats) with Ok (AStats st) => true | _ => false end = true) by (vm_compute; reflexivity).
  unfold sc_stats. destruct (snd (rstep sc_doc RStats)) as [[]| | |]; try discriminate T. reflexivity.
Qed.
Lemma sc_layered scenes roi : layered (asked plane0 scenes roi [sc_a; sc_b; sc_c] 0).
Proof.
  split.
  - intros i (a & Ia & -> & _). destruct Ia as [<-|[<-|[<-|[]]]]; vm_compute; discriminate.
  - intros i j (a & Ia & -> & _) (b & Ib & -> & _) La Lb.
    destruct Ia as [<-|[<-|[<-|[]]]], Ib as [<-|[<-|[<-|[]]]]; first [discriminate La|discriminate Lb|left; vm_compute; reflexivity|right; vm_compute; reflexivity].
Qed.
Lemma sc_handed a : In a [sc_a; sc_b; sc_c] -> ptype_of a = CodesModel.Gray8 /\ handed end_outer a 1 (sc_pic a).
Proof.
  intros [<-|[<-|[<-|[]]]]; (split; [reflexivity|]); unfold sc_pic;
    [apply (HandedStrided end_outer sc_a 1 (sc_bytes 100 8) 4)|apply (HandedStrided end_outer sc_b 1 (sc_bytes 10 8) 4)|apply (HandedStrided end_outer sc_c 1 (sc_bytes 200 32) 8)];
    first [reflexivity|vm_compute; intuition discriminate].
Qed.
Lemma sc_call same roi w h : (forall a, In a [sc_a; sc_b; sc_c] -> level half same (asked plane0 None roi [sc_a; sc_b; sc_c]) 0 (info_of a) -> axis_ok (x_axis (info_of a) roi (dst9 w h)) /\ axis_ok (y_axis (info_of a) roi (dst9 w h))) ->
  0 < w -> 0 < h -> scaled_call [sc_a; sc_b; sc_c] end_outer (ask false) plane0 None half roi CodesModel.Gray8 Gray8 1 sc_pic (fun _ => None) (dst9 w h) same.
Proof.
  intros A W H. split; [reflexivity|]. split; [discriminate|]. split.
  { intros a I L. destruct (sc_handed a I) as [T Hd]. split; [exact T|]. split; [exact Hd|]. split; [reflexivity|]. split; [discriminate|]. now apply A. }
  split; [unfold bmp_wf, dst9; cbn [bw bh bstride bbpp bsize]; nia|]. split; [reflexivity|]. split; [reflexivity|]. split; [reflexivity|]. split; [exact Logic.I|]. split; [closed|]. split; [reflexivity|].
  split; [|apply sc_layered]. intros a Ia _. destruct Ia as [<-|[<-|[<-|[]]]]; closed.
Qed.
Lemma sc_one : one_scene sc_stats None sc_left /\ scaled_call [sc_a; sc_b; sc_c] end_outer (ask false) plane0 None half sc_left CodesModel.Gray8 Gray8 1 sc_pic (fun _ => None) (dst9 2 2) any /\
  seen [fst (view sort_m by_zoom_m by_zoom end_outer sc_doc (ask false) (QScale plane0 None half sc_left) CodesModel.Gray8 None (dst9 2 2))] = [Ok [10; 11; 14; 15]].
Proof.
  split; [|split; [apply sc_call; [|lia|lia]|vm_compute; reflexivity]].
  - assert (K : forall s, touched sc_stats None sc_left s -> s = 0).
    { intros s (b & b0 & I & _ & T). rewrite sc_scenes in I. destruct I as [I|[I|[]]]; [congruence|]. injection I as <- <- <-. cbn [sc_left rx ry rw rh] in T. lia. }
    intros s t Hs Ht. now rewrite (K s Hs), (K t Ht).
  - intros a Ia [[(_ & _ & _ & _ & Sh & _) _] _]. destruct Ia as [<-|[<-|[<-|[]]]]; [exfalso|split; closed|exfalso]; destruct Sh as (x & y & Sh); cbn in Sh; lia.
Qed.
Lemma sc_several : several_scenes sc_stats None sc_wide /\ length plane0 = 9%nat /\ (forall a, In a [sc_a; sc_b; sc_c] -> asked plane0 None sc_wide [sc_a; sc_b; sc_c] 0 (info_of a) -> scene (info_of a) <> None) /\
  scaled_call [sc_a; sc_b; sc_c] end_outer (ask false) plane0 None half sc_wide CodesModel.Gray8 Gray8 1 sc_pic (fun _ => None) (dst9 6 2) same_scene /\
  seen [fst (view sort_m by_zoom_m by_zoom end_outer sc_doc (ask false) (QScale plane0 None half sc_wide) CodesModel.Gray8 None (dst9 6 2))] = [Ok [10; 11; 100; 101; 102; 103; 14; 15; 104; 105; 106; 107]].
Proof.
  split; [|split; [reflexivity|split; [|split; [apply sc_call; [|lia|lia]|vm_compute; reflexivity]]]].
  - exists 0, 1. split; [exists (mkRect 0 0 8 4), (mkRect 0 0 (-1) (-1))|split; [exists (mkRect 4 0 8 4), (mkRect 4 0 8 4)|lia]]; (split; [rewrite sc_scenes; cbn; tauto|split; [discriminate|cbn; lia]]).
  - intros a Ia _. destruct Ia as [<-|[<-|[<-|[]]]]; discriminate.
  - intros a Ia _. destruct Ia as [<-|[<-|[<-|[]]]]; split; closed.
Qed.
