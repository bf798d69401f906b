(** C121: asking and reading in the middle of an editing session. *)
From Verif Require Import Base StatModel CodecModel WriterModel WriterSpec WriterExamples EditModel EditSpec EditOpen EditExamples ReaderModel ReaderSpec AskModel AskSpec AskProofs AskExamples.
Open Scope Z_scope.

(** Full statement: at any moment of an editing session, after any sequence of calls to add, replace and remove, accepted or refused, the questions answered by
    the session tell of the document as edited so far: the sub-blocks and attachments with their keys (all, or those of a type and a name, up to where the
    caller's function says to stop), the one of a key and its contents, how many attachments there are, the metadata written last. A key which was removed is
    never given to another attachment. *)

(** all questions at any moment; missing for the full statement: attachments replaced by longer ones, names which fill their array, and enumerating by a type
    of eight characters where the attachments' types have no NUL *)
Theorem C121_asked_partial : forall strict force guid f d os,
  started_on strict f d -> length guid = 16%nat -> Forall edit_ok os -> no_growth d os ->
  exists s0, ed_create strict force guid f = Ok s0 /\
  let s := fst (erun strict s0 os) in let now := fst (drun d os) in
  f_size (ed_f s) < 2 ^ 63 ->
  (forall go, ask_subs go s = Ok (walked go (with_told sub_told (d_subs now)))) /\
  (forall k, ask_sub s k = found sub_told k (d_subs now)) /\
  (forall k, ask_read strict s k = Ok (found sub_read k (d_subs now))) /\
  (Z.of_nat (length (d_atts now)) <= INT_MAX -> ask_count s = Z.of_nat (length (d_atts now))) /\
  (forall k, (forall v, lookup k (d_atts now) = Some v -> name_ends (snd v)) ->
     ask_att s k = Ok (found (told9 0) k (d_atts now)) /\ ask_data strict s k = Ok (found (fun a => (told9 0 a, at_data a)) k (d_atts now))) /\
  (Forall (fun x => name_ends (snd x)) (d_atts now) ->
     (forall junk go, ask_atts junk go s = Ok (walked go (with_told (told9 junk) (d_atts now)))) /\
     (forall t n go, text t -> text n -> (forall w, t = Some w -> (length w < 8)%nat \/ Forall (fun x => In 0 (at_type (snd x))) (d_atts now)) ->
        ask_subset t n go s = Ok (walked go (with_told (told9 0) (filter (fun x => selected t n (snd x)) (d_atts now)))))) /\
  ask_meta strict s = Ok (d_meta now).
Proof. exact asked_any. Qed.
Print Assumptions C121_asked_partial.
Example C121_asked_ex1 : started_on false file2 doc2 /\ Forall edit_ok m_ops /\ no_growth doc2 m_ops /\ (f_size (ed_f (middle file2 m_ops)) <? 2 ^ 63) = true /\
  map fst (d_atts (fst (drun doc2 m_ops))) = [1; 2] /\ Forall (fun x => name_ends (snd x)) (d_atts (fst (drun doc2 m_ops))).
Proof. exact m_meets. Qed.
Example C121_asked_ex2 : let s := middle file2 m_ops in ask_count s = 2 /\ ask_att s 0 = Ok None /\
  ask_att s 1 = Ok (Some (repeat 6 16, [84; 84; 0; 0; 0; 0; 0; 0; 0], [78])) /\
  ask_data false s 2 = Ok (Some (repeat 5 16, repeat 65 8 ++ [0], repeat 66 79, [5; 5; 5])) /\
  ask_subset (Some [84; 84]) None (fun _ _ => true) s = Ok [(1, (repeat 6 16, [84; 84; 0; 0; 0; 0; 0; 0; 0], [78]))] /\
  ask_meta false s = Ok (Some ([60; 47; 62], [])).
Proof. exact m_seen. Qed.
Example C121_asked_ex3 : started_on false empty_file no_doc.
Proof. exact n_meets. Qed.

(** a key which answered once and then does not, never answers again *)
Theorem C121_gone : forall strict force guid f d os1 os2 os3 s0 k i,
  started_on strict f d -> length guid = 16%nat -> Forall edit_ok (os1 ++ os2 ++ os3) -> no_growth d (os1 ++ os2 ++ os3) ->
  ed_create strict force guid f = Ok s0 -> f_size (ed_f (fst (erun strict s0 (os1 ++ os2 ++ os3)))) < 2 ^ 63 ->
  ask_att (fst (erun strict s0 os1)) k = Ok (Some i) -> ask_att (fst (erun strict s0 (os1 ++ os2))) k = Ok None ->
  ask_att (fst (erun strict s0 (os1 ++ os2 ++ os3))) k = Ok None.
Proof. exact key_gone. Qed.
Print Assumptions C121_gone.
Example C121_gone_ex : exists i, ask_att (middle file2 []) 0 = Ok (Some i) /\ ask_att (middle file2 ([] ++ [ERemoveAtt 0])) 0 = Ok None /\
  ask_att (middle file2 ([] ++ [ERemoveAtt 0] ++ [EReplaceAtt 1 short_att; EAddAtt (ex_att 5); EAdd ex_sub2; EMeta [60; 47; 62] []])) 0 = Ok None /\
  ask_count (middle file2 m_ops) = ask_count (middle file2 []).
Proof. exact m_gone. Qed.

(** a type of eight characters is handed out without the NUL which is to end it: the ninth byte is whatever the memory held *)
Theorem C121_type_refuted : exists i j, ask_atts 65 (fun _ _ => true) (middle file2 []) = Ok [(0, i); (1, j)] /\ snd (fst i) = repeat 65 9 /\ ~ In 0 (snd (fst i)).
Proof. exact type_refuted. Qed.
Print Assumptions C121_type_refuted.

(** an attachment accepted with a name filling its array: asking for it, reading it and enumerating read behind the array *)
Theorem C121_name_refuted : Forall edit_ok [EAddAtt full_att] /\ snd (drun doc2 [EAddAtt full_att]) = [true] /\
  let s := middle file2 [EAddAtt full_att] in ask_att s 2 = UB /\ ask_data false s 2 = UB /\ (forall junk, ask_atts junk (fun _ _ => true) s = UB).
Proof. exact name_refuted. Qed.
Print Assumptions C121_name_refuted.

(** an attachment replaced by a longer one, then a sub-block added: both accepted, the attachment can not be read any more *)
Theorem C121_grown_refuted : Forall edit_ok ops_a /\ snd (drun doc2 ops_a) = [true; true] /\ lookup 0 (d_atts (fst (drun doc2 ops_a))) = Some (0, long_att) /\
  ask_data false (middle file2 ops_a) 0 = Throw.
Proof. exact grown_refuted. Qed.
Print Assumptions C121_grown_refuted.
