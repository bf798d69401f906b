(** Concrete sessions used as witnesses. *)
From Coq Require Import Permutation.
From Verif Require Import Base CodecModel CodecProofs WriterModel WriterProofs WriterSpec WriterLimits.

Definition m_zero : mem := fun _ => 0.
Definition full_src (b : bytes) : source := mkSrc (Z.of_nat (length b)) [Some b].
Definition chunked_src (a b : bytes) : source := mkSrc (Z.of_nat (length (a ++ b))) [Some a; Some b].

Definition ex_geo (x : Z) : sbe := mkSbe [None; Some 1; None; None; None; None; None; None; None] 3 x (-4) 2 2 2 2 0 0 0 0.
Definition ex_sub1 : addinfo := mkAdd (ex_geo 0) true (full_src [60; 47; 62]) (chunked_src [1; 2] [3; 4]) (full_src []).
Definition ex_sub2 : addinfo := mkAdd (ex_geo 7) false (full_src []) (full_src [9; 8; 7; 6]) (full_src [5]).
Definition ex_att (n : Z) : attinfo := mkAtt (repeat n 16) (repeat 65 8) (repeat 66 79 ++ [0]) [n; n; n].
Definition ex_info : winfo := mkWInfo (repeat 7 16) (Some 100) (Some 5) None.
Definition ex_ops : list wop :=
  [OpSub ex_sub1 (Some 0%nat); OpMeta [1; 2; 3] [4]; OpAtt (ex_att 1); OpSub ex_sub2 (Some 0%nat); OpAtt (ex_att 1); OpAtt (ex_att 2);
   OpMeta (repeat 5 200) []].

Lemma full_src_ok b : source_ok (full_src b).
Proof. split; [unfold full_src; cbn [src_size src_chunks flat_map]; rewrite app_nil_r; lia|intros [Q|[]]; discriminate Q]. Qed.
Lemma chunked_src_ok a b : source_ok (chunked_src a b).
Proof.
  split; [unfold chunked_src; cbn [src_size src_chunks flat_map]; rewrite app_nil_r; lia|].
  intros [Q|[Q|[]]]; discriminate Q.
Qed.
Lemma ex_geo_ok x : in_i32 x -> geometry_ok (ex_geo x).
Proof.
  intros Hx. unfold geometry_ok, ex_geo, sbe_wf, coord_wf, with_pos.
  cbn [e_coord e_m e_x e_y e_w e_h e_sw e_sh e_pt e_pos e_comp e_pyr].
  split; [split; [reflexivity|repeat (apply Forall_cons; [cbn; unfold in_i32, INT_MIN, INT_MAX; try lia; exact I|]); apply Forall_nil]|].
  change (2 ^ 64) with 18446744073709551616. unfold in_i32, INT_MIN, INT_MAX in *. lia.
Qed.
Lemma ex_sub1_ok : request_ok INT_MAX (OpSub ex_sub1 (Some 0%nat)).
Proof.
  split; [apply ex_geo_ok; unfold in_i32, INT_MIN, INT_MAX; lia|]. split; [apply full_src_ok|].
  split; [apply chunked_src_ok|]. split; [apply full_src_ok|]. vm_compute. intuition discriminate.
Qed.
Lemma ex_sub2_ok : request_ok INT_MAX (OpSub ex_sub2 (Some 0%nat)).
Proof.
  split; [apply ex_geo_ok; unfold in_i32, INT_MIN, INT_MAX; lia|]. split; [apply full_src_ok|].
  split; [apply full_src_ok|]. split; [apply full_src_ok|]. vm_compute. intuition discriminate.
Qed.
Lemma ex_ops_ok : Forall (request_ok INT_MAX) ex_ops.
Proof.
  unfold ex_ops. repeat apply Forall_cons; try apply Forall_nil; try exact ex_sub1_ok; try exact ex_sub2_ok;
    vm_compute; intuition discriminate.
Qed.
Lemma ex_info_ok : creation_ok ex_info.
Proof. unfold creation_ok. cbn. lia. Qed.

(** A session with two sub-blocks, two attachments (one duplicate is refused)
    and metadata, once rewritten in place and once relocated. *)
Lemma ex_session : exists ws, session ex_info ex_ops = (ws, [Ok tt; Ok tt; Ok tt; Ok tt; Throw; Ok tt; Ok tt], Ok tt)
  /\ file_size ws < 2 ^ 63 /\ (10 < length ws)%nat.
Proof.
  destruct (session ex_info ex_ops) as [[ws rs] r] eqn:E. exists ws.
  assert (E1 : rs = [Ok tt; Ok tt; Ok tt; Ok tt; Throw; Ok tt; Ok tt]) by
    (change rs with (snd (fst (ws, rs, r))); rewrite <- E; vm_compute; reflexivity).
  assert (E2 : r = Ok tt) by (change r with (snd (ws, rs, r)); rewrite <- E; vm_compute; reflexivity).
  assert (E3 : (file_size ws <? 2 ^ 63) = true) by (change ws with (fst (fst (ws, rs, r))); rewrite <- E; vm_compute; reflexivity).
  assert (E4 : (10 <? length ws)%nat = true) by (change ws with (fst (fst (ws, rs, r))); rewrite <- E; vm_compute; reflexivity).
  split; [now rewrite E1, E2|]. split; [lia|]. now apply Nat.ltb_lt.
Qed.

Lemma ex_added : added ex_ops [Ok tt; Ok tt; Ok tt; Ok tt; Throw; Ok tt; Ok tt] = [ex_sub1; ex_sub2]
  /\ attached ex_ops [Ok tt; Ok tt; Ok tt; Ok tt; Throw; Ok tt; Ok tt] = [ex_att 1; ex_att 2]
  /\ last_meta None ex_ops [Ok tt; Ok tt; Ok tt; Ok tt; Throw; Ok tt; Ok tt] = Some (repeat 5 200, []).
Proof. repeat split. Qed.

(** A source which announces 16384 bytes and delivers none. *)
Definition lazy_sub : addinfo := mkAdd (ex_geo 0) true (full_src []) (mkSrc 16384 []) (full_src []).
Definition lazy_ops : list wop := [OpSub lazy_sub (Some 0%nat); OpSub ex_sub2 (Some 1%nat)].
(** Allocated size of the segment at [p] as recorded in the file. *)
Definition recorded_alloc (f : file) (p : Z) : Z := unle (mread (f_mem f) (p + 16) 8).

Definition lazy_check : bool :=
  let '(ws, rs, r) := session big_info lazy_ops in
  match rs, r, open_file true popts_lax (file_of m_zero ws) with
  | [Ok _; Ok _], Ok _, Ok o =>
      match op_dir o with
      | [e1; e2] => (e_pos e1 <? e_pos e2) && (e_pos e2 <? e_pos e1 + 32 + recorded_alloc (file_of m_zero ws) (e_pos e1))
      | _ => false
      end
  | _, _, _ => false
  end.
Lemma lazy_overlap : exists ws o e1 e2, session big_info lazy_ops = (ws, [Ok tt; Ok tt], Ok tt)
  /\ open_file true popts_lax (file_of m_zero ws) = Ok o /\ op_dir o = [e1; e2]
  /\ e_pos e1 < e_pos e2 < e_pos e1 + 32 + recorded_alloc (file_of m_zero ws) (e_pos e1).
Proof.
  assert (C : lazy_check = true) by (vm_compute; reflexivity). unfold lazy_check in C.
  destruct (session big_info lazy_ops) as [[ws rs] r].
  destruct rs as [|[[]| | |] [|[[]| | |] [|? ?]]]; try discriminate C. destruct r as [[]| | |]; try discriminate C.
  destruct (open_file true popts_lax (file_of m_zero ws)) as [o| | |] eqn:Eo; try discriminate C.
  destruct (op_dir o) as [|e1 [|e2 [|? ?]]] eqn:Ed; try discriminate C.
  exists ws, o, e1, e2. split; [reflexivity|]. split; [exact Eo|]. split; [exact Ed|]. apply andb_prop in C. lia.
Qed.

(** Room for three attachments reserved, one added. *)
Definition res_info : winfo := mkWInfo (repeat 7 16) None None (Some 3).
Definition res_ops : list wop := [OpSub ex_sub2 (Some 0%nat); OpAtt (ex_att 1)].
Lemma res_session : exists ws, session res_info res_ops = (ws, [Ok tt; Ok tt], Ok tt) /\ file_size ws < 2 ^ 63.
Proof.
  destruct (session res_info res_ops) as [[ws rs] r] eqn:E. exists ws.
  assert (E1 : rs = [Ok tt; Ok tt]) by (change rs with (snd (fst (ws, rs, r))); rewrite <- E; vm_compute; reflexivity).
  assert (E2 : r = Ok tt) by (change r with (snd (ws, rs, r)); rewrite <- E; vm_compute; reflexivity).
  assert (E3 : (file_size ws <? 2 ^ 63) = true) by (change ws with (fst (fst (ws, rs, r))); rewrite <- E; vm_compute; reflexivity).
  split; [now rewrite E1, E2|]. lia.
Qed.
Lemma res_info_ok : creation_ok res_info.
Proof. unfold creation_ok. cbn. lia. Qed.
Lemma res_ops_ok : Forall (request_ok INT_MAX) res_ops.
Proof.
  unfold res_ops. apply Forall_cons; [exact ex_sub2_ok|]. apply Forall_cons; [|apply Forall_nil]. vm_compute; intuition discriminate.
Qed.

(** A getter which fails: the call throws but the directory keeps an entry. *)
Definition bad_sub : addinfo := mkAdd (ex_geo 0) true (full_src []) (mkSrc 4 [None]) (full_src []).
Definition bad_ops : list wop := [OpSub bad_sub (Some 0%nat); OpSub ex_sub2 (Some 1%nat)].
Definition bad_check : bool :=
  let '(ws, rs, r) := session big_info bad_ops in
  match rs, r, open_file true popts_lax (file_of m_zero ws) with
  | [Throw; Ok _], Ok _, Ok o => (length (op_dir o) =? 2)%nat
  | _, _, _ => false
  end.
Lemma bad_dangling : exists ws o, session big_info bad_ops = (ws, [Throw; Ok tt], Ok tt)
  /\ open_file true popts_lax (file_of m_zero ws) = Ok o /\ length (op_dir o) = 2%nat.
Proof.
  assert (C : bad_check = true) by (vm_compute; reflexivity). unfold bad_check in C.
  destruct (session big_info bad_ops) as [[ws rs] r].
  destruct rs as [|[[]| | |] [|[[]| | |] [|? ?]]]; try discriminate C. destruct r as [[]| | |]; try discriminate C.
  destruct (open_file true popts_lax (file_of m_zero ws)) as [o| | |] eqn:Eo; try discriminate C.
  exists ws, o. split; [reflexivity|]. split; [exact Eo|]. now apply Nat.eqb_eq.
Qed.

(** Nothing added, file read through the in-memory stream. *)
Lemma empty_doc : exists ws, session big_info [] = (ws, [], Ok tt) /\ open_file true popts_lax (file_of m_zero ws) = Throw
  /\ exists o, open_file false popts_lax (file_of m_zero ws) = Ok o.
Proof.
  destruct (session big_info []) as [[ws rs] r] eqn:E. exists ws.
  assert (E1 : rs = []) by (change rs with (snd (fst (ws, rs, r))); rewrite <- E; reflexivity).
  assert (E2 : r = Ok tt) by (change r with (snd (ws, rs, r)); rewrite <- E; vm_compute; reflexivity).
  split; [now rewrite E1, E2|].
  assert (Ew : ws = fst (fst (session big_info []))) by now rewrite E. rewrite Ew. clear. split; [vm_compute; reflexivity|].
  destruct (open_file false popts_lax (file_of m_zero (fst (fst (session big_info []))))) as [o| | |] eqn:Eo; [eauto|vm_compute in Eo; discriminate..].
Qed.
