(** C45: attachments are told apart by identifier, name and type. *)
From Verif Require Import Base StatModel CodecModel MemProofs WriterModel WriterProofs WriterSpec WriterExamples EditModel EditSpec EditOpen EditExamples AttIdProofs.
Open Scope Z_scope.

(** C45, the writer: after any history an attachment whose identity is among those added is refused, nothing is written and the
    writer is unchanged; any other is added. *)
Theorem C45_refused_iff_present : forall i ops a ws0 s0 ws1 s1 rs,
  creation_ok i -> Forall att_sizes (OpAtt a :: ops) -> create i = (ws0, s0) -> wrun s0 ops = (ws1, s1, rs) ->
  if existsb (fun x => same_attachment x a) (attached ops rs) then wstep s1 (OpAtt a) = ([], s1, Throw)
  else exists ws s2, wstep s1 (OpAtt a) = (ws, s2, Ok tt).
Proof. exact identity_step. Qed.
Print Assumptions C45_refused_iff_present.
(** Hence those added have pairwise distinct identities. *)
Theorem C45_distinct : forall i ops ws rs r, creation_ok i -> Forall att_sizes ops -> session i ops = (ws, rs, r) -> distinct (attached ops rs).
Proof. exact identity_session. Qed.
Print Assumptions C45_distinct.

Example C45_example : creation_ok ex_info /\ Forall (request_ok INT_MAX) ex_ops
  /\ attached ex_ops [Ok tt; Ok tt; Ok tt; Ok tt; Throw; Ok tt; Ok tt] = [ex_att 1; ex_att 2].
Proof. exact (conj ex_info_ok (conj ex_ops_ok (proj1 (proj2 ex_added)))). Qed.

(** In the re-opened document this is false: two names of 80 characters which differ in the last are both accepted, and both are
    read as their first 79 characters. *)
Theorem C45_reopened_refuted : exists ws a b, session twin_info twin_ops = (ws, [Ok tt; Ok tt; Ok tt], Ok tt) /\ same_attachment (long_name 67) (long_name 68) = false
  /\ seen_atts ws = Ok [a; b] /\ same_attachment a b = true.
Proof. exact twins. Qed.
Print Assumptions C45_reopened_refuted.
(** It holds if the names are terminated within their field. *)
Theorem C45_reopened_partial : forall m0 strict po i ops ws rs r,
  session i ops = (ws, rs, r) -> creation_ok i -> Forall (request_ok INT_MAX) ops ->
  file_size ws < 2 ^ 63 -> Z.of_nat (length ops) <= INT_MAX -> strict = false \/ added ops rs <> [] ->
  Forall (fun a => Z.of_nat (length (at_data a)) <= INT_MAX /\ In 0 (at_name a)) (attached ops rs) ->
  match wi_ratt i with Some k => (if k =? 0 then 10 else k) <= Z.of_nat (length (attached ops rs)) | None => True end ->
  exists o, open_file strict po (file_of m0 ws) = Ok o /\ length (op_atts o) = length (attached ops rs) /\ distinct (map as_att (op_atts o)).
Proof. exact identity_reopened. Qed.
Print Assumptions C45_reopened_partial.

(** Editing in place: replacing an attachment is not checked - it can take the identity of another one. *)
Theorem C45_replace_refuted : exists a b, edit false false (repeat 9 16) file2 [EReplaceAtt 1 (ex_att 1)] = Ok (edited file2 [EReplaceAtt 1 (ex_att 1)], [Ok tt], Ok tt)
  /\ distinct (map snd (d_atts doc2))
  /\ (let* o := open_file false popts_lax (edited file2 [EReplaceAtt 1 (ex_att 1)]) in Ok (map as_att (op_atts o))) = Ok [a; b] /\ same_attachment a b = true.
Proof. exact replaced_twin. Qed.
Print Assumptions C45_replace_refuted.
(** All other calls keep identities distinct (conditions of C08; names terminated). *)
Theorem C45_edit_partial : forall strict force guid f h d os,
  document strict f h d -> reopened d = d -> length guid = 16%nat -> Forall edit_ok os -> no_growth d os -> close_safe f h d os ->
  (strict = false \/ d_subs (fst (drun d os)) <> []) -> counts_fit (fst (drun d os)) ->
  distinct (map snd (d_atts d)) -> Forall keeps_identities os ->
  exists f' rs r, edit strict force guid f os = Ok (f', rs, r)
    /\ (f_size f' < 2 ^ 63 -> exists h' d', document strict f' h' d' /\ distinct (map snd (d_atts d'))).
Proof. exact identity_edit. Qed.
Print Assumptions C45_edit_partial.
