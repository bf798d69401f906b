(** Concrete sessions asked in their middle. *)
From Verif Require Import Base StatModel CodecModel WriterModel WriterSpec WriterExamples EditModel EditSpec EditOpen EditExamples ReaderModel ReaderSpec AskModel AskSpec AskProofs.
Open Scope Z_scope.

Definition middle (f : file) (os : list eop) : ed :=
  match ed_create false false (repeat 9 16) f with Ok s => fst (erun false s os) | _ => mkEd f (mkFh [] 0 0 0) 0 None [] 0 false [] 0 false None None None end.
(** a document with one sub-block and two attachments: the first is removed, the second replaced, one added, a sub-block added, metadata written *)
Definition short_att : attinfo := mkAtt (repeat 6 16) [84; 84; 0; 0; 0; 0; 0; 0] (78 :: repeat 0 79) [7; 7].
Definition m_ops : list eop := [ERemoveAtt 0; EReplaceAtt 1 short_att; EAddAtt (ex_att 5); EAdd ex_sub2; EMeta [60; 47; 62] []].
Lemma m_ops_ok : Forall edit_ok m_ops.
Proof.
  repeat apply Forall_cons; try apply Forall_nil; try exact Logic.I; [|apply att_fine|exact ex_sub2_ok|vm_compute; intuition discriminate].
  split; [repeat split|]. cbn. unfold INT_MAX. lia.
Qed.
Lemma m_growth : no_growth doc2 m_ops.
Proof.
  cbn [no_growth m_ops]. split; [exact Logic.I|]. split; [|now repeat split].
  intros v H. vm_compute in H. destruct H as [H|[]]. injection H as <-. vm_compute. lia.
Qed.
Lemma m_meets : started_on false file2 doc2 /\ Forall edit_ok m_ops /\ no_growth doc2 m_ops /\ (f_size (ed_f (middle file2 m_ops)) <? 2 ^ 63) = true /\
  map fst (d_atts (fst (drun doc2 m_ops))) = [1; 2] /\ Forall (fun x => name_ends (snd x)) (d_atts (fst (drun doc2 m_ops))).
Proof.
  split; [left; exists (header_of file2); split; [exact document2|apply reopened_twice]|]. split; [exact m_ops_ok|]. split; [exact m_growth|].
  split; [vm_compute; reflexivity|]. split; [vm_compute; reflexivity|]. apply Forall_forall. intros (k, v) H. vm_compute in H. unfold name_ends. cbn [snd].
  destruct H as [H|[H|[]]]; injection H as <- <-; cbn [at_name]; [now right; left|]. do 79 right. now left.
Qed.
Lemma m_seen : let s := middle file2 m_ops in ask_count s = 2 /\ ask_att s 0 = Ok None /\
  ask_att s 1 = Ok (Some (repeat 6 16, [84; 84; 0; 0; 0; 0; 0; 0; 0], [78])) /\
  ask_data false s 2 = Ok (Some (repeat 5 16, repeat 65 8 ++ [0], repeat 66 79, [5; 5; 5])) /\
  ask_subset (Some [84; 84]) None (fun _ _ => true) s = Ok [(1, (repeat 6 16, [84; 84; 0; 0; 0; 0; 0; 0; 0], [78]))] /\
  ask_meta false s = Ok (Some ([60; 47; 62], [])).
Proof. cbv zeta. split; [vm_compute; reflexivity|]. split; [vm_compute; reflexivity|]. split; [vm_compute; reflexivity|]. split; [vm_compute; reflexivity|]. split; vm_compute; reflexivity. Qed.
(** a new document, attachments as well *)
Lemma n_meets : started_on false empty_file no_doc. Proof. right. split; [vm_compute; split; [discriminate|reflexivity]|]. split; [now left|reflexivity]. Qed.

(** the type is not ended *)
Lemma type_refuted : exists i j, ask_atts 65 (fun _ _ => true) (middle file2 []) = Ok [(0, i); (1, j)] /\ snd (fst i) = repeat 65 9 /\ ~ In 0 (snd (fst i)).
Proof.
  eexists _, _. split; [vm_compute; reflexivity|]. cbn [fst snd]. split; [reflexivity|]. intro H. repeat (destruct H as [H|H]; [discriminate H|]). exact H.
Qed.
(** a name filling its array *)
Definition full_att : attinfo := mkAtt (repeat 8 16) (repeat 65 8) (repeat 66 80) [1].
Lemma name_refuted : Forall edit_ok [EAddAtt full_att] /\ snd (drun doc2 [EAddAtt full_att]) = [true] /\
  let s := middle file2 [EAddAtt full_att] in ask_att s 2 = UB /\ ask_data false s 2 = UB /\ (forall junk, ask_atts junk (fun _ _ => true) s = UB).
Proof.
  split; [apply Forall_cons; [|apply Forall_nil]; split; [repeat split|]; cbn; unfold INT_MAX; lia|]. split; [vm_compute; reflexivity|]. cbv zeta.
  split; [vm_compute; reflexivity|]. split; [vm_compute; reflexivity|]. intro junk.
  assert (E : exists a b n, ed_at (middle file2 [EAddAtt full_att]) = [a; b; (n, mkAttEntry (repeat 8 16) (repeat 65 8) (repeat 66 80) (ae_pos (snd (nth 2 (ed_at (middle file2 [EAddAtt full_att])) (0, mkAttEntry [] [] [] 0)))))] /\
    info9 junk (snd a) = Ok (ae_guid (snd a), ae_type (snd a) ++ [junk], repeat 66 79) /\ info9 junk (snd b) = Ok (ae_guid (snd b), ae_type (snd b) ++ [junk], repeat 66 79)).
  { eexists (0, _), (1, _), 2. split; [vm_compute; reflexivity|]. cbn [snd]. split; reflexivity. }
  destruct E as ((ka, a) & (kb, b) & n & E & Ia & Ib). unfold ask_atts. rewrite E. cbn [visit snd] in *. rewrite Ia. cbn [bind]. rewrite Ib. cbn [bind]. reflexivity.
Qed.
(** an attachment replaced by a longer one *)
Lemma grown_refuted : Forall edit_ok ops_a /\ snd (drun doc2 ops_a) = [true; true] /\ lookup 0 (d_atts (fst (drun doc2 ops_a))) = Some (0, long_att) /\
  ask_data false (middle file2 ops_a) 0 = Throw.
Proof. split; [exact ops_a_ok|]. split; [vm_compute; reflexivity|]. split; vm_compute; reflexivity. Qed.
(** the first attachment is there, is removed, and does not come back although others are added *)
Lemma m_gone : exists i, ask_att (middle file2 []) 0 = Ok (Some i) /\ ask_att (middle file2 ([] ++ [ERemoveAtt 0])) 0 = Ok None /\
  ask_att (middle file2 ([] ++ [ERemoveAtt 0] ++ [EReplaceAtt 1 short_att; EAddAtt (ex_att 5); EAdd ex_sub2; EMeta [60; 47; 62] []])) 0 = Ok None /\
  ask_count (middle file2 m_ops) = ask_count (middle file2 []).
Proof. eexists. split; [vm_compute; reflexivity|]. split; [vm_compute; reflexivity|]. split; vm_compute; reflexivity. Qed.
