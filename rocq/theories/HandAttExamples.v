(** Concrete sessions: attachments and metadata through the C API. *)
From Verif Require Import Base CodecModel WriterModel WriterSpec WriterExamples AddModel CapiModel HandAttModel HandAttSpec HandAttProofs.
Open Scope Z_scope.

Definition h_att (n : Z) (name : bytes) : iatt := mkIAtt (repeat n 16) (repeat 65 8) (name ++ repeat 0 (80 - length name)) 3 (Some [n; n + 1; n + 2; 99]).
(** two attachments, one without memory, one given twice, and metadata *)
Definition h_calls : list icall :=
  [IOther (OpSub ex_sub1 (Some 0%nat)); IAtt (h_att 1 [72; 105]); IAtt (mkIAtt (repeat 2 16) (repeat 65 8) (repeat 0 80) 4 None); IMeta 2 (Some [60; 47; 62]);
   IAtt (h_att 1 [72; 105]); IAtt (h_att 3 [72]); IMeta 1 None].
Definition h_list : list (icall * wop) := match handed h_calls with Ok l => l | _ => [] end.
Definition h_run := session ex_info (map snd h_list).
Definition h_ws := fst (fst h_run).
Definition h_rs := snd (fst h_run).
Definition h_file : file := file_of m_zero h_ws.

Lemma h_creation : creation_ok ex_info. Proof. exact ex_info_ok. Qed.
Lemma h_att_ok n name : length (name ++ repeat 0 (80 - length name)) = 80%nat -> call_ok (IAtt (h_att n name)).
Proof. intro L. cbn [call_ok h_att ia_guid ia_type ia_name ia_bytes ia_mem memory_ok length]. rewrite !repeat_length. unfold INT_MAX. split; [reflexivity|]. split; [reflexivity|]. split; [exact L|]. lia. Qed.
Lemma h_calls_ok : Forall call_ok h_calls /\ Forall through_api h_calls.
Proof.
  split; repeat apply Forall_cons; try apply Forall_nil; try exact Logic.I.
  - exact ex_sub1_ok.
  - apply h_att_ok. reflexivity.
  - cbn [call_ok ia_guid ia_type ia_name ia_bytes ia_mem memory_ok]. rewrite !repeat_length. unfold INT_MAX. lia.
  - cbn [call_ok memory_ok length]. unfold INT_MAX. lia.
  - apply h_att_ok. reflexivity.
  - apply h_att_ok. reflexivity.
  - cbn [call_ok memory_ok]. unfold INT_MAX. lia.
Qed.
Lemma h_meets : Forall call_ok h_calls /\ Forall through_api h_calls /\ handed h_calls = Ok h_list /\ session ex_info (map snd h_list) = (h_ws, h_rs, Ok tt) /\
  creation_ok ex_info /\ file_size h_ws < 2 ^ 63 /\ Z.of_nat (length h_calls) <= INT_MAX /\ added (map snd h_list) h_rs <> [] /\
  reserved_ok ex_info (Z.of_nat (length (accepted h_list h_rs))) /\ accepted h_list h_rs = [h_att 1 [72; 105]; h_att 3 [72]] /\
  last_written None h_list h_rs = Some (2, Some [60; 47; 62]).
Proof.
  split; [exact (proj1 h_calls_ok)|]. split; [exact (proj2 h_calls_ok)|]. split; [vm_compute; reflexivity|]. split; [vm_compute; reflexivity|]. split; [exact h_creation|].
  split; [vm_compute; reflexivity|]. split; [vm_compute; discriminate|]. split; [vm_compute; discriminate|]. split; [exact Logic.I|]. split; vm_compute; reflexivity.
Qed.

(** a name of eighty characters *)
Definition h_long : iatt := mkIAtt (repeat 1 16) (repeat 65 8) (repeat 66 80) 1 (Some [5]).
Definition l_calls : list icall := [IOther (OpSub ex_sub1 (Some 0%nat)); IAtt h_long; IMeta 0 (Some [])].
Definition l_list : list (icall * wop) := match handed l_calls with Ok l => l | _ => [] end.
Definition l_ws := fst (fst (session ex_info (map snd l_list))).
Definition l_rs := snd (fst (session ex_info (map snd l_list))).
Lemma l_meets : Forall call_ok l_calls /\ Forall through_api l_calls /\ handed l_calls = Ok l_list /\ session ex_info (map snd l_list) = (l_ws, l_rs, Ok tt) /\
  creation_ok ex_info /\ file_size l_ws < 2 ^ 63 /\ Z.of_nat (length l_calls) <= INT_MAX /\ added (map snd l_list) l_rs <> [] /\
  reserved_ok ex_info (Z.of_nat (length (accepted l_list l_rs))) /\ accepted l_list l_rs = [h_long] /\ last_written None l_list l_rs = Some (0, Some []).
Proof.
  split; [|split].
  - repeat apply Forall_cons; try apply Forall_nil; [exact ex_sub1_ok| |cbn [call_ok memory_ok length]; unfold INT_MAX; lia].
    cbn [call_ok h_long ia_guid ia_type ia_name ia_bytes ia_mem memory_ok length]. rewrite !repeat_length. unfold INT_MAX. lia.
  - repeat apply Forall_cons; try apply Forall_nil; exact Logic.I.
  - split; [vm_compute; reflexivity|]. split; [vm_compute; reflexivity|]. split; [exact h_creation|].
    split; [vm_compute; reflexivity|]. split; [vm_compute; discriminate|]. split; [vm_compute; discriminate|]. split; [exact Logic.I|]. split; vm_compute; reflexivity.
Qed.
Lemma long_refuted : forall m0 po, exists o, open_file false po (file_of m0 l_ws) = Ok o /\
  (forall junk, length junk = 255%nat -> exists x, capi_att_info junk o 0 = Ok (Some x) /\ firstn 80 (ii_name x) = repeat 66 79 ++ [0]) /\
  capi_metadata false (file_of m0 l_ws) o = Throw.
Proof.
  intros m0 po. destruct l_meets as (A & B & C & D & E & F & G & _ & K & L & M).
  destruct (api_way m0 false po _ _ _ _ _ _ A B C D E F G (or_introl eq_refl) K) as (o & O & _ & P & _ & Q). exists o. split; [exact O|]. rewrite M in Q. split; [|exact Q].
  intros junk J. rewrite L in P. destruct (P 0%nat h_long eq_refl) as (R & _). destruct (R junk J) as (x & X & (_ & _ & (t & r & T1 & T2 & r' & T3) & _) & _). exists x. split; [exact X|].
  rewrite T1. cbn [name_cut ia_name h_long] in T3.
  assert (U : forall (a b : bytes) c d, ~ In 0 a -> ~ In 0 b -> a ++ 0 :: c = b ++ 0 :: d -> a = b /\ c = d).
  { clear. induction a as [|p a IH]; intros [|q b] c d X Y H; cbn [app] in H.
    - injection H as H. now split.
    - injection H as H1 H2. elim Y. subst. now left.
    - injection H as H1 H2. elim X. subst. now left.
    - injection H as H1 H2. destruct (IH b c d) as (V & W); [intro; apply X; now right|intro; apply Y; now right|exact H2|]. subst. now split. }
  change (firstn 79 (repeat 66 80) ++ [0]) with (repeat 66 79 ++ 0 :: []) in T3.
  destruct (U (repeat 66 79) t [] r') as (<- & _); [intro I; apply repeat_spec in I; discriminate I|exact T2|exact T3|].
  rewrite firstn_app. rewrite firstn_all2 by (rewrite repeat_length; lia). rewrite repeat_length. reflexivity.
Qed.
Lemma negative_refuted : forall m0 po, exists o, open_file false po (file_of m0 h_ws) = Ok o /\ att_count o = 2 /\ forall junk, capi_att_info junk o (-1) = Throw.
Proof.
  intros m0 po. destruct h_meets as (A & B & C & D & E & F & G & _ & K & L & _).
  destruct (api_way m0 false po _ _ _ _ _ _ A B C D E F G (or_introl eq_refl) K) as (o & O & P & _). rewrite L in P. exists o. split; [exact O|]. split; [exact P|].
  intro junk. unfold capi_att_info, at_index. rewrite P. reflexivity.
Qed.
Lemma h_seen : exists o x, open_file true popts_lax h_file = Ok o /\ capi_att_info (repeat 255 255) o 1 = Ok (Some x) /\ ii_name x = 72 :: 0 :: repeat 255 253 /\
  capi_att_data true h_file o 0 2 (Some [7; 7; 7]) = Ok (Some (3, Some [1; 2; 7])) /\ capi_metadata true h_file o = Ok ([60; 47; 0], 2).
Proof.
  destruct (open_file true popts_lax h_file) as [o| | |] eqn:EO; [|vm_compute in EO; discriminate EO..]. exists o. vm_compute in EO. injection EO as <-.
  eexists. split; [reflexivity|]. split; [vm_compute; reflexivity|]. split; [vm_compute; reflexivity|]. split; vm_compute; reflexivity.
Qed.
