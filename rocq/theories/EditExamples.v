(** Concrete documents, and sessions which damage them. *)
From Coq Require Import Permutation.
From Verif Require Import Base StatModel CodecModel CodecProofs WriterModel WriterProofs WriterSpec WriterLimits WriterExamples EditModel EditSpec EditOpen.

Definition edited (f : file) (os : list eop) : file :=
  match edit false false (repeat 9 16) f os with Ok (f', _, _) => f' | _ => f end.
Definition header_of (f : file) : fheader := match read_file_header false f with Ok h => h | _ => mkFh [] 0 0 0 end.

(** A new document with one sub-block and metadata; then with two attachments. *)
Definition empty_file : file := mkFile m_zero 0.
Definition ops1 : list eop := [EAdd ex_sub1; EMeta [60; 62] []].
Definition file1 : file := edited empty_file ops1.
Definition doc1 : doc := reopened (fst (drun no_doc ops1)).
Definition ops2 : list eop := [EAddAtt (ex_att 1); EAddAtt (ex_att 2)].
Definition file2 : file := edited file1 ops2.
Definition doc2 : doc := reopened (fst (drun doc1 ops2)).

Lemma ops1_ok : Forall edit_ok ops1.
Proof. repeat apply Forall_cons; try apply Forall_nil; [exact ex_sub1_ok|]. vm_compute. intuition discriminate. Qed.
Lemma att_fine n : edit_ok (EAddAtt (ex_att n)).
Proof. split; [repeat split|]. cbn. unfold INT_MAX. lia. Qed.
Lemma ops2_ok : Forall edit_ok ops2.
Proof. repeat apply Forall_cons; try apply Forall_nil; apply att_fine. Qed.

Lemma document_header strict f h d : document strict f h d -> read_file_header strict f = Ok h.
Proof. intros (es & ats & _ & H & _). exact H. Qed.
Lemma header_known f h d : document false f h d -> h = header_of f.
Proof. intros D. apply document_header in D. unfold header_of. now rewrite D. Qed.

Lemma size1 : f_size file1 <? 2 ^ 63 = true.
Proof. vm_compute. reflexivity. Qed.
Lemma document1 : document false file1 (header_of file1) doc1.
Proof.
  destruct (edit_new false false (repeat 9 16) empty_file ops1) as (f' & rs & r & E & H);
    [cbn; lia|left; reflexivity|cbn; lia|reflexivity|exact ops1_ok|reflexivity|vm_compute; reflexivity|left; reflexivity|split; vm_compute; intuition discriminate|].
  assert (Ef : f' = file1) by (unfold file1, edited; now rewrite E). subst f'.
  destruct H as (_ & _ & h & D & _); [pose proof size1; lia|]. rewrite <- (header_known _ _ _ D). exact D.
Qed.
Lemma size2 : f_size file2 <? 2 ^ 63 = true.
Proof. vm_compute. reflexivity. Qed.
Lemma document2 : document false file2 (header_of file2) doc2.
Proof.
  destruct (edit_document false false (repeat 9 16) file1 (header_of file1) doc1 ops2) as (f' & rs & r & E & H);
    [exact document1|apply reopened_twice|reflexivity|exact ops2_ok|repeat split| |left; reflexivity|split; vm_compute; intuition discriminate|].
  { right; right. split; [vm_compute; reflexivity|]. left. reflexivity. }
  assert (Ef : f' = file2) by (unfold file2, edited; now rewrite E). subst f'.
  destruct H as (_ & _ & h & D & _); [pose proof size2; lia|]. rewrite <- (header_known _ _ _ D). exact D.
Qed.

(** ** What a reader gets to see *)
Definition sub_view (strict : bool) (f : file) : res (list (res observed)) :=
  let* o := open_file strict popts_lax f in Ok (map (observe strict f) (op_dir o)).
Definition att_view (strict : bool) (f : file) : res (list (res bytes)) :=
  let* o := open_file strict popts_lax f in Ok (map (fun e => read_attachment strict f (ae_pos e)) (op_atts o)).

Lemma views strict f h d : document strict f h d ->
  sub_view strict f = Ok (map (fun v => Ok (snd v)) (d_subs d)) /\ att_view strict f = Ok (map (fun v => Ok (at_data (snd v))) (d_atts d)).
Proof.
  intros D. destruct (document_shows _ _ _ _ D) as (o & (H1 & H2 & H3 & _) & _). unfold sub_view, att_view. rewrite H1. cbn [bind]. split; f_equal.
  - clear -H2. induction H2; cbn [map]; congruence.
  - clear -H3. induction H3 as [|e v l m (_ & _ & _ & H) H3 IH]; cbn [map]; congruence.
Qed.

(** ** Sessions which go wrong although every call and Close succeed *)
Definition long_att : attinfo := mkAtt (repeat 1 16) (repeat 65 8) (repeat 66 79 ++ [0]) (repeat 8 300).
Definition ops_a : list eop := [EReplaceAtt 0 long_att; EAdd ex_sub2].
Definition geo3 : sbe := mkSbe [None; Some 2; None; None; None; None; None; None; None] 4 7 (-4) 2 2 2 2 0 0 0 0.
Definition sub3 : addinfo := mkAdd geo3 true (full_src []) (full_src [9; 8; 7; 6]) (full_src []).
Definition ops_b : list eop := [EAdd sub3; EAddAtt (ex_att 3)].
Definition ops_c : list eop := [ERemoveAtt 0].
Lemma ops_a_ok : Forall edit_ok ops_a.
Proof.
  repeat apply Forall_cons; try apply Forall_nil; [|exact ex_sub2_ok]. split; [repeat split|]. cbn. unfold INT_MAX. lia.
Qed.
Lemma ops_b_ok : Forall edit_ok ops_b.
Proof. repeat apply Forall_cons; try apply Forall_nil; [|apply att_fine].
  split; [|split; [apply full_src_ok|split; [apply full_src_ok|split; [apply full_src_ok|vm_compute; intuition discriminate]]]].
  unfold geometry_ok, sub3, geo3, sbe_wf, coord_wf, with_pos. cbn [ai_e e_coord e_m e_x e_y e_w e_h e_sw e_sh e_pt e_pos e_comp e_pyr].
  split; [split; [reflexivity|repeat (apply Forall_cons; [cbn; unfold in_i32, INT_MIN, INT_MAX; try lia; exact I|]); apply Forall_nil]|].
  change (2 ^ 64) with 18446744073709551616. unfold in_i32, INT_MIN, INT_MAX in *. lia.
Qed.
Lemma ops_c_ok : Forall edit_ok ops_c.
Proof. repeat constructor. Qed.

(** The outcome of a session does not show the expected document. *)
Definition spoilt (f : file) (os : list eop) (f' : file) : Prop :=
  exists h d, document false f h d /\ reopened d = d /\ Forall edit_ok os
    /\ edit false false (repeat 9 16) f os = Ok (f', map (fun _ => Ok tt) os, Ok tt)
    /\ snd (drun d os) = map (fun _ => true) os
    /\ ~ exists h', document false f' h' (reopened (fst (drun d os))).

Lemma edited_eq f os rs r : match edit false false (repeat 9 16) f os with Ok (_, rs', r') => Ok (rs', r') | Throw => Throw | UB => UB | OutOfFuel => OutOfFuel end = Ok (rs, r) ->
  edit false false (repeat 9 16) f os = Ok (edited f os, rs, r).
Proof. unfold edited. destruct (edit false false (repeat 9 16) f os) as [[[f' rs'] r']| | |]; try discriminate. intros H. injection H as <- <-. reflexivity. Qed.

Lemma spoilt_a : spoilt file2 ops_a (edited file2 ops_a) /\ att_view false (edited file2 ops_a) = Ok [Throw; Ok [2; 2; 2]].
Proof.
  assert (V : att_view false (edited file2 ops_a) = Ok [Throw; Ok [2; 2; 2]]) by (vm_compute; reflexivity).
  split; [|exact V]. exists (header_of file2), doc2. split; [exact document2|]. split; [apply reopened_twice|]. split; [exact ops_a_ok|].
  split; [apply edited_eq; vm_compute; reflexivity|]. split; [vm_compute; reflexivity|].
  intros (h' & D). apply views in D. destruct D as [_ D]. rewrite V in D. discriminate D.
Qed.
Lemma spoilt_b : spoilt file1 ops_b (edited file1 ops_b) /\ open_file false popts_lax (edited file1 ops_b) = Throw.
Proof.
  assert (V : open_file false popts_lax (edited file1 ops_b) = Throw) by (vm_compute; reflexivity).
  split; [|exact V]. exists (header_of file1), doc1. split; [exact document1|]. split; [apply reopened_twice|]. split; [exact ops_b_ok|].
  split; [apply edited_eq; vm_compute; reflexivity|]. split; [vm_compute; reflexivity|].
  intros (h' & D). destruct (document_shows _ _ _ _ D) as (o & (H & _) & _). rewrite V in H. discriminate H.
Qed.
Lemma spoilt_c : spoilt file2 ops_c (edited file2 ops_c) /\ att_view false (edited file2 ops_c) = Ok [].
Proof.
  assert (V : att_view false (edited file2 ops_c) = Ok []) by (vm_compute; reflexivity).
  split; [|exact V]. exists (header_of file2), doc2. split; [exact document2|]. split; [apply reopened_twice|]. split; [exact ops_c_ok|].
  split; [apply edited_eq; vm_compute; reflexivity|]. split; [vm_compute; reflexivity|].
  intros (h' & D). apply views in D. destruct D as [_ D]. rewrite V in D. discriminate D.
Qed.

(** A refused call leaves its directory entry behind: two entries with the same
    position, the first one describing something which is not there. *)
Definition bad_sub1 : addinfo := mkAdd (ex_geo 3) false (full_src []) (mkSrc 4 [None]) (full_src []).
Definition ops_d : list eop := [EAdd bad_sub1; EAdd sub3].
Lemma spoilt_d : exists o e1 e2 e3,
  edit false false (repeat 9 16) file1 ops_d = Ok (edited file1 ops_d, [Throw; Ok tt], Ok tt)
  /\ open_file false popts_lax (edited file1 ops_d) = Ok o /\ op_dir o = [e1; e2; e3] /\ e_pos e2 = e_pos e3 /\ e_x e2 = 3.
Proof.
  assert (C : match open_file false popts_lax (edited file1 ops_d) with
              | Ok o => match op_dir o with [e1; e2; e3] => (e_pos e2 =? e_pos e3) && (e_x e2 =? 3) | _ => false end | _ => false end = true) by (vm_compute; reflexivity).
  destruct (open_file false popts_lax (edited file1 ops_d)) as [o| | |]; try discriminate C. destruct (op_dir o) as [|e1 [|e2 [|e3 [|]]]] eqn:E; try discriminate C.
  apply andb_prop in C. destruct C as [C1 C2].
  exists o, e1, e2, e3. split; [apply edited_eq; vm_compute; reflexivity|]. split; [reflexivity|]. split; [exact E|]. lia.
Qed.

(** New documents: with attachments, or without sub-blocks. *)
Lemma new_spoilt os : In os [[EAdd ex_sub1; EAdd sub3; EAddAtt (ex_att 1)]; [EMeta [60; 62] []]; []] ->
  edit false false (repeat 9 16) empty_file os = Ok (edited empty_file os, map (fun _ => Ok tt) os, Ok tt)
  /\ open_file false popts_lax (edited empty_file os) = Throw.
Proof.
  intros [<-|[<-|[<-|[]]]]; (split; [apply edited_eq; vm_compute; reflexivity|vm_compute; reflexivity]).
Qed.

(** A session covered by the theorem: add, replace in place, replace by a longer one, remove, attachments and metadata. *)
Definition sub4 : addinfo := mkAdd (ex_geo 11) true (full_src (repeat 60 500)) (full_src (repeat 3 700)) (full_src [1]).
Definition ops_e : list eop :=
  [EMeta (repeat 60 400) [1]; EReplaceAtt 1 (ex_att 4); EReplace 0 ex_sub1; EReplace 0 sub4; EReplace 5 ex_sub2; EAdd sub3; ERemove 0; EAddAtt (ex_att 1); ERemove 7].
Lemma ops_e_ok : Forall edit_ok ops_e.
Proof.
  assert (S3 : edit_ok (EAdd sub3)) by (apply (Forall_inv ops_b_ok)).
  repeat apply Forall_cons; try apply Forall_nil; try exact ex_sub1_ok; try exact ex_sub2_ok; try exact S3; try exact I; try apply att_fine.
  - vm_compute. intuition discriminate.
  - split; [apply ex_geo_ok; unfold in_i32, INT_MIN, INT_MAX; lia|]. split; [apply full_src_ok|]. split; [apply full_src_ok|]. split; [apply full_src_ok|].
    vm_compute. intuition discriminate.
Qed.
Lemma ops_e_session : exists f' h', edit false true (repeat 5 16) file2 ops_e
    = Ok (f', [Ok tt; Ok tt; Ok tt; Ok tt; Throw; Ok tt; Ok tt; Throw; Throw], Ok tt)
  /\ document false f' h' (reopened (fst (drun doc2 ops_e))) /\ fh_guid h' = repeat 5 16
  /\ d_subs (fst (drun doc2 ops_e)) = [(1, expected sub3)] /\ d_atts (fst (drun doc2 ops_e)) = [(0, ex_att 1); (1, ex_att 4)]
  /\ d_meta (fst (drun doc2 ops_e)) = Some (repeat 60 400, [1]).
Proof.
  destruct (edit_document false true (repeat 5 16) file2 (header_of file2) doc2 ops_e) as (f' & rs & r & E & H);
    [exact document2|apply reopened_twice|reflexivity|exact ops_e_ok| | |left; reflexivity|split; vm_compute; intuition discriminate|].
  { vm_compute. repeat split. intros v [Q|[Q|[]]]; [discriminate Q|]. injection Q as <-. vm_compute. lia. }
  { right; left. vm_compute. reflexivity. }
  assert (Hs : f_size f' <? 2 ^ 63 = true).
  { assert (C : match edit false true (repeat 5 16) file2 ops_e with Ok (f', _, _) => f_size f' <? 2 ^ 63 | _ => false end = true) by (vm_compute; reflexivity).
    now rewrite E in C. }
  destruct H as (R1 & R2 & h' & D & G); [lia|]. exists f', h'. split; [rewrite E, R1, R2; vm_compute; reflexivity|].
  split; [exact D|]. split; [exact G|]. vm_compute. repeat split.
Qed.

Lemma forall2_len {A B} (R : A -> B -> Prop) l m : Forall2 R l m -> length l = length m.
Proof. induction 1; cbn [length]; congruence. Qed.
