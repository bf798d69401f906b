(** Examples for reserved space. *)
From Coq Require Import String.
From Verif Require Import Base CodecModel TextModel RectModel CoordModel CoordSpec CoordProofs CoordExamples MemProofs WriterModel WriterSpec WriterExamples DocSpec GuidModel GuidSpec GuidProofs ReserveModel ReserveSpec ReserveMain.
Open Scope Z_scope.

Definition res_info (n : Z) : winfo := mkWInfo (repeat 7 16) (Some n) (Some 2) (Some 3).
Definition beyond_of (n : Z) (ops : list wop) : list wr := beyond (w_next (snd (create (res_info n)))) (fst (fst (wrun (snd (create (res_info n))) ops))).
Lemma ex_reserved : creation_ok (res_info 250) /\ Forall (request_ok (2 ^ 64)) ex_ops /\ Forall (meta_fits (meta_room 250)) ex_ops /\ calls is_sub ex_ops = 2 /\ calls is_att ex_ops = 3 /\
  w_next (snd (create (res_info 250))) = 3584 /\ length (beyond_of 250 ex_ops) = length (beyond_of 250 (without_meta ex_ops)) /\
  length (beyond_of 100 ex_ops) <> length (beyond_of 100 (without_meta ex_ops)).
Proof.
  split; [unfold creation_ok; cbn; lia|]. split.
  { eapply Forall_impl; [|exact ex_ops_ok]. intros [a s|a|x y]; cbn [request_ok]; try tauto. unfold INT_MAX. intuition lia. }
  split; [unfold ex_ops; repeat (apply Forall_cons; [cbn [meta_fits meta_room length Z.of_nat]; try exact Logic.I; vm_compute; discriminate|]); apply Forall_nil|].
  split; [reflexivity|]. split; [reflexivity|]. split; [reflexivity|]. split; [vm_compute; reflexivity|vm_compute; discriminate].
Qed.
Definition res_params : jdoc := Some [(txt "reserved_size_subblock_directory", JInt 2); (txt "reserved_size_metadata_segment", JInt 250); (txt "reserved_size_attachments_directory", JInt 0)].
Lemma ex_reserved_capi : number_given res_params "reserved_size_metadata_segment" 0 (2 ^ 32) 250 /\ number_given res_params "reserved_size_subblock_directory" 0 (2 ^ 32) 2 /\
  number_given res_params "reserved_size_attachments_directory" 0 (2 ^ 32) 0 /\ att_room 0 = 10.
Proof.
  split; [apply uint_found_iff; vm_compute; reflexivity|]. split; [apply uint_found_iff; vm_compute; reflexivity|]. split; [apply uint_found_iff; vm_compute; reflexivity|reflexivity].
Qed.
Definition res_box : bounds := tset (tset empty_table 1 (0, 4)) 2 (10, 3).
Lemma ex_estimate : box_ok res_box /\ box_size res_box * m_size (Some (0, 9)) = 120 /\ dir_count 0 (Some res_box) (Some (0, 9)) = Ok 120 /\
  expected_sub res_box (Some (0, 9)) (tset (tset empty_table 1 3) 2 12, Some 9) /\ dir_count 0 None None = Ok 10 /\ dir_count 0 None (Some (0, 9)) = Ok 10.
Proof.
  split.
  { split; [reflexivity|]. intros d st sz I. unfold dims in I. cbn [In] in I.
    destruct I as [<-|[<-|[<-|[<-|[<-|[<-|[<-|[<-|[<-|[]]]]]]]]]]; intros H; vm_compute in H; try discriminate H; injection H as <- <-; unfold in_i32, INT_MIN, INT_MAX; lia. }
  split; [reflexivity|]. split; [reflexivity|]. split; [|split; reflexivity]. split.
  - split; [reflexivity|]. intros d I. unfold dims in I. cbn [In] in I. destruct I as [<-|[<-|[<-|[<-|[<-|[<-|[<-|[<-|[<-|[]]]]]]]]]]; vm_compute; try exact Logic.I; split; reflexivity || discriminate.
  - exists 9. split; [reflexivity|lia].
Qed.
(** a document with M from 0 without upper limit *)
Lemma range_overflow : exists d, number_given d "reserved_size_subblock_directory" 0 (2 ^ 32) 0 /\ number_given d "minimum_m_index" (- 2 ^ 31) (2 ^ 31) 0 /\
  number_given d "maximum_m_index" (- 2 ^ 31) (2 ^ 31) INT_MAX /\ forall fresh,
  creation (pr_guid (in_force fresh d)) (pr_rmeta (in_force fresh d)) (pr_rdir (in_force fresh d)) (pr_ratt (in_force fresh d)) None (pr_m (in_force fresh d)) = UB.
Proof.
  exists (Some [(txt "reserved_size_subblock_directory", JInt 0); (txt "minimum_m_index", JInt 0); (txt "maximum_m_index", JInt INT_MAX)]).
  split; [apply uint_found_iff; vm_compute; reflexivity|]. split; [apply int_found_iff; vm_compute; reflexivity|]. split; [apply int_found_iff; vm_compute; reflexivity|].
  intros fresh. reflexivity.
Qed.
