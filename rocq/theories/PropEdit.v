(** Property theorems: the in-place editor. *)
From Verif Require Import Base CodecModel WriterModel WriterSpec WriterExamples EditModel EditSpec EditOpen EditExamples.

(** C08: a session on a sound document leaves a sound document with the
    intended contents.  Missing: attachments replaced by longer ones, and the
    constellations of [close_safe] in which Close destroys a directory, see the
    refutations below; requests whose source fails; I/O errors. *)
Theorem C08_edit_partial : forall strict force guid f h d os,
  document strict f h d -> reopened d = d -> length guid = 16%nat -> Forall edit_ok os -> no_growth d os -> close_safe f h d os ->
  (strict = false \/ d_subs (fst (drun d os)) <> []) -> counts_fit (fst (drun d os)) ->
  exists f' rs r, edit strict force guid f os = Ok (f', rs, r)
    /\ (f_size f' < 2 ^ 63 ->
        rs = map outcome (snd (drun d os)) /\ r = Ok tt
        /\ exists h', document strict f' h' (reopened (fst (drun d os))) /\ fh_guid h' = if force then guid else fh_guid h).
Proof. exact edit_document. Qed.
Print Assumptions C08_edit_partial.

(** A session of nine calls (three of them refused) to which it applies. *)
Example C08_edit_case : document false file2 (header_of file2) doc2 /\ reopened doc2 = doc2 /\ Forall edit_ok ops_e
  /\ exists f' h', edit false true (repeat 5 16) file2 ops_e
       = Ok (f', [Ok tt; Ok tt; Ok tt; Ok tt; Throw; Ok tt; Ok tt; Throw; Throw], Ok tt)
     /\ document false f' h' (reopened (fst (drun doc2 ops_e))) /\ fh_guid h' = repeat 5 16
     /\ d_subs (fst (drun doc2 ops_e)) = [(1, expected sub3)] /\ d_atts (fst (drun doc2 ops_e)) = [(0, ex_att 1); (1, ex_att 4)]
     /\ d_meta (fst (drun doc2 ops_e)) = Some (repeat 60 400, [1]).
Proof. split; [exact document2|]. split; [apply reopened_twice|]. split; [exact ops_e_ok|]. exact ops_e_session. Qed.

(** C08: the same for a document created by the editor, without attachments. *)
Theorem C08_new_document_partial : forall strict force guid f os,
  f_size f < 544 -> (strict = false \/ 0 < f_size f) -> 0 <= f_size f -> length guid = 16%nat -> Forall edit_ok os ->
  forallb (fun o => negb (att_op o)) os = true -> 0 < d_subn (fst (drun no_doc os)) ->
  (strict = false \/ d_subs (fst (drun no_doc os)) <> []) -> counts_fit (fst (drun no_doc os)) ->
  exists f' rs r, edit strict force guid f os = Ok (f', rs, r)
    /\ (f_size f' < 2 ^ 63 ->
        rs = map outcome (snd (drun no_doc os)) /\ r = Ok tt
        /\ exists h', document strict f' h' (reopened (fst (drun no_doc os))) /\ fh_guid h' = guid).
Proof. exact edit_new. Qed.
Print Assumptions C08_new_document_partial.

Example C08_new_document_case : document false file1 (header_of file1) doc1 /\ d_subs doc1 = [(0, expected ex_sub1)]
  /\ d_meta doc1 = Some ([60; 62], []).
Proof. split; [exact document1|]. split; reflexivity. Qed.

(** C08: what a reader makes of a sound document: exactly its contents.  Since
    the contents after reopening are those of a reopened document, sessions can
    follow one another. *)
Theorem C08_document_shows : forall strict f h d, document strict f h d ->
  exists o, shows strict f d o /\ op_guid o = fh_guid h.
Proof. exact document_shows. Qed.
Print Assumptions C08_document_shows.
Theorem C08_sessions_chain : forall d, reopened (reopened d) = reopened d.
Proof. exact reopened_twice. Qed.
Print Assumptions C08_sessions_chain.

Example C08_document_shows_case : exists o, shows false file2 doc2 o /\ length (op_dir o) = 1%nat /\ length (op_atts o) = 2%nat.
Proof.
  destruct (document_shows _ _ _ _ document2) as (o & H & _). exists o. split; [exact H|]. destruct H as (_ & H1 & H2 & _).
  apply forall2_len in H1. apply forall2_len in H2. rewrite H1, H2. split; reflexivity.
Qed.

(** C08, refuted: an attachment replaced by a longer one is overwritten by the
    next addition; every call and Close succeed. *)
Theorem C08_replaced_attachment_refuted : spoilt file2 ops_a (edited file2 ops_a)
  /\ att_view false (edited file2 ops_a) = Ok [Throw; Ok [2; 2; 2]].
Proof. exact spoilt_a. Qed.
Print Assumptions C08_replaced_attachment_refuted.
(** C08, refuted: one sub-block and one attachment added; the attachment
    directory overwrites the end of the sub-block directory, the file cannot be
    opened any more. *)
Theorem C08_both_directories_refuted : spoilt file1 ops_b (edited file1 ops_b)
  /\ open_file false popts_lax (edited file1 ops_b) = Throw.
Proof. exact spoilt_b. Qed.
Print Assumptions C08_both_directories_refuted.
(** C08, refuted: removing one of two attachments loses both. *)
Theorem C08_removed_attachment_refuted : spoilt file2 ops_c (edited file2 ops_c)
  /\ att_view false (edited file2 ops_c) = Ok [].
Proof. exact spoilt_c. Qed.
Print Assumptions C08_removed_attachment_refuted.
(** C08, refuted: a sub-block whose addition failed stays in the directory, at
    the position where the next one is put. *)
Theorem C08_failed_addition_refuted : exists o e1 e2 e3,
  edit false false (repeat 9 16) file1 ops_d = Ok (edited file1 ops_d, [Throw; Ok tt], Ok tt)
  /\ open_file false popts_lax (edited file1 ops_d) = Ok o /\ op_dir o = [e1; e2; e3] /\ e_pos e2 = e_pos e3 /\ e_x e2 = 3.
Proof. exact spoilt_d. Qed.
Print Assumptions C08_failed_addition_refuted.
(** C08, refuted: new documents with attachments, or without sub-blocks, cannot
    be opened although all calls succeeded. *)
Theorem C08_new_document_refuted : forall os, In os [[EAdd ex_sub1; EAdd sub3; EAddAtt (ex_att 1)]; [EMeta [60; 62] []]; []] ->
  edit false false (repeat 9 16) empty_file os = Ok (edited empty_file os, map (fun _ => Ok tt) os, Ok tt)
  /\ open_file false popts_lax (edited empty_file os) = Throw.
Proof. exact new_spoilt. Qed.
Print Assumptions C08_new_document_refuted.
