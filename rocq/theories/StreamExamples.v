From Verif Require Import Base CopyModel MemProofs HiLoModel HiLoProofs StreamModel StreamProofs.

(** two threads, one block each *)
Definition ex_todo (t : nat) : list wcall := match t with O => [(0, [1; 2; 3])] | 1%nat => [(10, [7; 8])] | _ => [] end.
Lemma ex_todo_disjoint : disjoint_calls ex_todo.
Proof.
  intros t i t' j c c' H1 H2 N a. unfold covers.
  destruct t as [|[|t]]; cbn in H1; [| |destruct i; discriminate H1];
    (destruct i as [|[|i]]; cbn in H1; [|discriminate H1|discriminate H1]); injection H1 as <-;
  (destruct t' as [|[|t']]; cbn in H2; [| |destruct j; discriminate H2]);
    (destruct j as [|[|j]]; cbn in H2; [|discriminate H2|discriminate H2]); injection H2 as <-;
  cbn [fst snd length]; try congruence; lia.
Qed.
Lemma stdio_race : exists todo sched, disjoint_calls todo /\
  let s := oexec (ostart (fun _ => 0) todo) sched in
  (forall t, o_todo s t = []) /\ ~ all_stored todo (fun _ => 0) (o_file s).
Proof.
  exists ex_todo, [0; 1; 0; 1]%nat. split; [exact ex_todo_disjoint|]. split.
  - intros [|[|t]]; reflexivity.
  - intros [H _]. specialize (H O (0, [1; 2; 3]) (or_introl eq_refl) 1).
    assert (C : covers (0, [1; 2; 3]) 1) by (unfold covers; cbn; lia). specialize (H C). vm_compute in H. discriminate H.
Qed.
Lemma ex_serial : let s := oexec (ostart (fun _ => 0) ex_todo) (serial [1; 0]%nat) in
  (forall t, o_todo s t = []) /\ map (o_file s) [0; 1; 2; 3; 10; 11] = [1; 2; 3; 0; 7; 8].
Proof. split; [intros [|[|t]]; reflexivity|reflexivity]. Qed.
Lemma ex_pwrite : let s := pexec (mkP (fun _ => 0) ex_todo) [1; 0]%nat in
  (forall t, p_todo s t = []) /\ map (p_file s) [0; 1; 2; 3; 10; 11] = [1; 2; 3; 0; 7; 8].
Proof. split; [intros [|[|t]]; reflexivity|reflexivity]. Qed.

(** two threads reading *)
Definition ex_reads (t : nat) : list rcall := match t with O => [(1, 2); (9223372036854775808, 1)] | 1%nat => [(3, 10)] | _ => [] end.
Lemma ex_reads_run : let s := iexec [10; 11; 12; 13; 14] (istart ex_reads) [0; 1; 0; 1; 0; 1; 0; 1; 1; 0; 1; 0; 1; 1; 0; 0; 0; 0]%nat in
  i_log s O = [((1, 2), Some [11; 12]); ((9223372036854775808, 1), None)] /\ i_log s 1%nat = [((3, 10), Some [13; 14])].
Proof. split; vm_compute; reflexivity. Qed.

(** a piece of 23 bytes too much is dropped silently *)
Lemma curl_23 : exists pieces size m', 0 < size < Z.of_nat (length (concat pieces)) /\
  curl_read pieces size (fun _ => 0) = Ok (m', size).
Proof. exists [[1; 2; 3]; repeat 9 23], 3. eexists. split; [cbn; lia|]. reflexivity. Qed.

(** an attachment used as information about the document *)
Lemma handles_confused : exists ops, hrun (fun _ => None) ops = (fst (hrun (fun _ => None) ops), [HOk 5%nat; HConfused]) /\
  snd (ideal_run (fun _ => None) ops) = [HOk 5%nat; HInvalidHandle].
Proof. exists [HCreate KAttachment 1 5; HUse KDocInfo 1]. split; reflexivity. Qed.
Definition ex_session : list hop :=
  [HCreate KReader 1 5; HCreate KStream 2 6; HUse KReader 1; HUse KStream 1; HRelease KStream 2; HUse KReader 1; HCreate KBitmap 2 7; HUse KStream 2].
Lemma ex_session_ok : unmixed (fun _ => None) ex_session /\
  snd (hrun (fun _ => None) ex_session) = [HOk 5; HOk 6; HOk 5; HInvalidHandle; HOk 6; HOk 5; HOk 7; HInvalidHandle]%nat.
Proof.
  split; [|reflexivity]. unfold ex_session. cbn [unmixed mixed ideal_step fst].
  repeat split; try (intros H; exact H); intros (s & E & H);
    cbn in E; (injection E as <- || discriminate E); cbn [h_kind] in H; destruct H as [[H1 H2]|[H1 H2]]; discriminate.
Qed.
