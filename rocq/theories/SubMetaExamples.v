(** Concrete metadata of sub-blocks. *)
From Coq Require Import String Floats.SpecFloat QArith.
From Verif Require Import Base CodecModel TextModel XmlModel XmlSpec PugiModel PugiSpec FloatProofs SFloatProofs ScaleNum NumModel NumSpec CopyModel BitonalModel BitonalExamples ChunkModel ChunkProofs ChunkExamples.
From Verif Require Import WriterModel WriterSpec WriterLimits WriterExamples SubMetaModel SubMetaSpec SubMetaProofs.
Open Scope Z_scope.

Definition ex_x : spec_float := S754_finite false 7036874417766400 (-49).
Definition ex_tags : list (str * str) :=
  [(txt "StageXPosition", dbl_text ex_x); (txt "StageYPosition", txt "-3e+02"); (txt "Name", txt "first"); (txt "Name", txt "a < b & c")].
Definition ex_msub (text att : bytes) : addinfo := mkAdd (ex_geo 0) true (full_src text) (full_src [1; 2; 3; 4]) (full_src att).
Definition ex_mops (text att : bytes) : list wop := [OpSub (ex_msub text att) (Some 0%nat); OpSub ex_sub2 (Some 0%nat)].
Definition ex_root : xml := match create_sub_metadata ex_tags with Ok r => r | _ => Text [] end.
Definition ex_text : bytes := builder_get_xml true [ex_root].
Definition ex_ctext : bytes := builder_get_xml true [container_document [Elem (txt "Tags") [] []]].

Lemma ex_tags_ok : Forall tag_ok ex_tags.
Proof.
  assert (N : forall s, forallb (fun c => (97 <=? c) && (c <=? 122) || (65 <=? c) && (c <=? 90)) s = true -> s <> [] -> proper_name s).
  { intros s H E. rewrite forallb_forall in H. split; [|split].
    - apply Forall_forall. intros c I. specialize (H c I). lia.
    - apply Forall_forall. intros c I. specialize (H c I). unfold name_char, letter. lia.
    - destruct s as [|c s]; [easy|]. specialize (H c (or_introl eq_refl)). unfold letter. lia. }
  assert (V : forall s, forallb (fun c => (32 <=? c) && (c <? 128)) s = true -> blank s = false -> chars s /\ blank s = false /\ ~ In 13 s).
  { intros s H B. rewrite forallb_forall in H. split; [|split; [exact B|]].
    - apply Forall_forall. intros c I. specialize (H c I). lia.
    - intros I. specialize (H 13 I). lia. }
  unfold ex_tags. repeat (apply Forall_cons; [split; [apply N; [reflexivity|discriminate]|apply V; vm_compute; reflexivity]|]). apply Forall_nil.
Qed.
Lemma ex_mops_ok text att : (text = ex_text /\ att = [] \/ text = ex_ctext /\ att = ex_mask) -> Forall (request_ok INT_MAX) (ex_mops text att).
Proof.
  intros C. constructor; [|constructor; [exact ex_sub2_ok|constructor]].
  split; [apply ex_geo_ok; unfold in_i32, INT_MIN, INT_MAX; lia|]. split; [apply full_src_ok|]. split; [apply full_src_ok|]. split; [apply full_src_ok|].
  destruct C as [(-> & ->)|(-> & ->)]; vm_compute; intuition discriminate.
Qed.
Definition ran (text att : bytes) : bool :=
  let '(ws, rs, r) := session ex_info (ex_mops text att) in
  match rs, r with [Ok _; Ok _], Ok _ => file_size ws <? 2 ^ 63 | _, _ => false end.
Lemma ex_ran : ran ex_text [] = true /\ ran ex_ctext ex_mask = true. Proof. split; vm_compute; reflexivity. Qed.
Lemma ran_session text att : ran text att = true -> exists ws, session ex_info (ex_mops text att) = (ws, [Ok tt; Ok tt], Ok tt) /\ file_size ws < 2 ^ 63 /\
  In (ex_msub text att) (added (ex_mops text att) [Ok tt; Ok tt]).
Proof.
  unfold ran. destruct (session ex_info (ex_mops text att)) as [[ws rs] r]. destruct rs as [|[[]| | |] [|[[]| | |] [|]]]; try discriminate.
  destruct r as [[]| | |]; try discriminate. intros H. exists ws. split; [reflexivity|]. split; [lia|]. now left.
Qed.
Lemma ex_written : Forall tag_ok ex_tags /\ create_sub_metadata ex_tags = Ok ex_root /\ src_bytes (ai_meta (ex_msub ex_text [])) = builder_get_xml true [ex_root] /\
  Forall (request_ok INT_MAX) (ex_mops ex_text []) /\
  (exists ws, session ex_info (ex_mops ex_text []) = (ws, [Ok tt; Ok tt], Ok tt) /\ file_size ws < 2 ^ 63 /\
    In (ex_msub ex_text []) (added (ex_mops ex_text []) [Ok tt; Ok tt])) /\
  last_given ex_tags (txt "Name") (txt "a < b & c") /\ last_given ex_tags (txt "StageXPosition") (dbl_text ex_x) /\
  fin64 ex_x /\ moderate (sfQ ex_x) /\ (sfQ ex_x == 25 # 2)%Q.
Proof.
  split; [exact ex_tags_ok|]. split; [vm_compute; reflexivity|]. split; [vm_compute; reflexivity|]. split; [apply ex_mops_ok; left; split; reflexivity|].
  split; [apply ran_session, ex_ran|].
  split; [exists (firstn 3 ex_tags), []; split; [reflexivity|intros ? []]|].
  split; [exists [], (skipn 1 ex_tags); split; [reflexivity|intros t [<-|[<-|[<-|[]]]]; discriminate]|].
  vm_compute. repeat split; discriminate.
Qed.
Lemma ex_masked : let a := ex_msub ex_ctext ex_mask in let d := [container_document [Elem (txt "Tags") [] []]] in
  load (src_bytes (ai_meta a)) = Ok d /\
  (exists c, goes_to [txt "METADATA"; txt "AttachmentSchema"; txt "DataFormat"] d c /\ has_text c (txt "CHUNKCONTAINER")) /\
  src_bytes (ai_att a) = container ([(g1, []); (g2, [])] ++ [(GUID_MASK, enc_mask 11 3 2 [170; 85; 255; 255; 0; 1])]) ++ [9; 9] /\
  Forall (request_ok INT_MAX) (ex_mops ex_ctext ex_mask) /\
  (exists ws, session ex_info (ex_mops ex_ctext ex_mask) = (ws, [Ok tt; Ok tt], Ok tt) /\ file_size ws < 2 ^ 63 /\ In a (added (ex_mops ex_ctext ex_mask) [Ok tt; Ok tt])).
Proof.
  cbv zeta. split; [vm_compute; reflexivity|]. split.
  - exists (Elem (txt "DataFormat") [] [Text (txt "CHUNKCONTAINER")]). split; [|split; [discriminate|now exists (txt "DataFormat"), [], []]].
    unfold container_document. eapply goes_on; [exists [], []; split; [reflexivity|]; split; [eexists; eexists; split; [reflexivity|intros ? ? []]|intros ? []]|].
    cbn [kids_of]. eapply goes_on; [eexists [], _; split; [reflexivity|]; split; [eexists; eexists; split; [reflexivity|intros ? ? []]|intros ? []]|].
    cbn [kids_of]. constructor. eexists [], _; split; [reflexivity|]; split; [eexists; eexists; split; [reflexivity|intros ? ? []]|intros ? []].
  - split; [vm_compute; reflexivity|]. split; [apply ex_mops_ok; right; split; reflexivity|apply ran_session, ex_ran].
Qed.

(** what a client may write: the numbers on lines of their own *)
Definition own_lines : bytes := txt "<METADATA><Tags><StageXPosition>12.5
</StageXPosition><StageYPosition>7</StageYPosition></Tags></METADATA>".
Lemma own_lines_hang : exists d, load own_lines = Ok d /\
  (forall fuel, stage_position fuel (Some d) = OutOfFuel) /\ (forall fuel, tag_double fuel (Some d) (txt "StageXPosition") = OutOfFuel).
Proof.
  eexists. split; [vm_compute; reflexivity|].
  assert (H : forall fuel, as_double strtod fuel (Elem (txt "StageXPosition") [] [Text (txt "12.5
")]) = OutOfFuel).
  { intros fuel. apply (double_hangs fuel _ (txt "12.5
") 10 []); vm_compute; reflexivity. }
  assert (T : forall d, tag_of (Some d) (txt "StageXPosition") = Ok (Some (Elem (txt "StageXPosition") [] [Text (txt "12.5
")])) -> tag_of (Some d) (txt "StageYPosition") = Ok (Some (Elem (txt "StageYPosition") [] [Text (txt "7")])) ->
    (forall fuel, stage_position fuel (Some d) = OutOfFuel) /\ (forall fuel, tag_double fuel (Some d) (txt "StageXPosition") = OutOfFuel)).
  { intros d X Y. split; intros fuel; [rewrite stage_tags|unfold tag_double]; rewrite X; [rewrite Y|]; cbn [bind]; rewrite H; reflexivity. }
  apply T; vm_compute; reflexivity.
Qed.
Lemma wide_text_ub : exists text d, load text = Ok d /\ forall fuel, tag_double fuel (Some d) (txt "ExposureTime") = UB.
Proof.
  exists (txt "<METADATA><Tags><ExposureTime>12.5" ++ [226; 130; 172] ++ txt "</ExposureTime></Tags></METADATA>"). eexists. split; [vm_compute; reflexivity|].
  intros [|fuel]; vm_compute; reflexivity.
Qed.
Lemma no_mask_ub : try_get_mask ex_ctext (container [(g1, [5])]) = UB.
Proof. vm_compute. reflexivity. Qed.
Lemma declared_without : exists text att, Forall is_byte att /\ try_get_mask text att = UB.
Proof. exists ex_ctext, (container [(g1, [5])]). split; [repeat constructor; unfold is_byte; lia|exact no_mask_ub]. Qed.
