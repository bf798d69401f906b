(** C43, C52, C53, C62-C64: streams and handles *)
From Verif Require Import Base CopyModel MemProofs HiLoModel HiLoProofs StreamModel StreamProofs StreamExamples.

(** C43.  Attachments and document information carry the same tag. *)
Theorem C43_tags_refuted : exists ops, hrun (fun _ => None) ops = (fst (hrun (fun _ => None) ops), [HOk 5%nat; HConfused]) /\
  snd (ideal_run (fun _ => None) ops) = [HOk 5%nat; HInvalidHandle].
Proof. exact handles_confused. Qed.
Print Assumptions C43_tags_refuted.
(** all other kinds have a tag of their own, and every session in which these two are not mixed up behaves as if the
    kinds of the objects themselves were checked *)
Theorem C43_tags_partial : forall a b, magic a = magic b -> a <> KAttachment -> a <> KDocInfo -> a = b.
Proof. exact tags_distinct. Qed.
Print Assumptions C43_tags_partial.
Theorem C43_session_partial : forall ops, unmixed (fun _ => None) ops -> hrun (fun _ => None) ops = ideal_run (fun _ => None) ops.
Proof. exact handles_session. Qed.
Print Assumptions C43_session_partial.
Example C43_example : unmixed (fun _ => None) ex_session /\
  snd (hrun (fun _ => None) ex_session) = [HOk 5; HOk 6; HOk 5; HInvalidHandle; HOk 6; HOk 5; HOk 7; HInvalidHandle]%nat.
Proof. exact ex_session_ok. Qed.

(** C64: releasing a handle (or trying to) does not change what any other handle gives. *)
Theorem C64_release_others : forall h k a x k', x <> a -> hcheck (fst (hstep h (HRelease k a))) k' x = hcheck h k' x.
Proof. exact release_others. Qed.
Print Assumptions C64_release_others.

(** C52 *)
Theorem C52_mem_read : forall buf offset size m dsz, 0 <= offset < Z.of_nat (length buf) -> 0 <= size -> size <= dsz ->
  let n := Z.min size (Z.of_nat (length buf) - offset) in
  exists m', mem_read buf offset size (Some m) dsz = Ok (m', n) /\
    (forall i, 0 <= i < n -> m' i = nth (Z.to_nat (offset + i)) buf 0) /\
    (forall i, i < 0 \/ n <= i -> m' i = m i).
Proof. exact mem_read_ok. Qed.
Print Assumptions C52_mem_read.
Theorem C52_rejects : forall buf offset size dst dsz, dst = None \/ Z.of_nat (length buf) <= offset ->
  mem_read buf offset size dst dsz = Throw.
Proof. exact mem_read_throws. Qed.
Print Assumptions C52_rejects.
Example C52_example : exists m, mem_read [5; 6; 7; 8] 2 18446744073709551615 (Some (fun _ => 0)) 18446744073709551615 = Ok (m, 2) /\ map m [0; 1; 2] = [7; 8; 0].
Proof. exact (ex_intro _ _ (conj eq_refl eq_refl)). Qed.

(** C53.  fseeko and fwrite of two threads interleave. *)
Theorem C53_stdio_refuted : exists todo sched, disjoint_calls todo /\
  let s := oexec (ostart (fun _ => 0) todo) sched in
  (forall t, o_todo s t = []) /\ ~ all_stored todo (fun _ => 0) (o_file s).
Proof. exact stdio_race. Qed.
Print Assumptions C53_stdio_refuted.
(** calls which do not overlap in time are fine *)
Theorem C53_stdio_partial : forall todo m ts, disjoint_calls todo ->
  let s := oexec (ostart m todo) (serial ts) in
  (forall t, o_todo s t = []) -> all_stored todo m (o_file s).
Proof. exact stdio_serial. Qed.
Print Assumptions C53_stdio_partial.
(** and so is the stream based on pwrite, for every interleaving of any number of threads *)
Theorem C53_pwrite : forall todo m sched, disjoint_calls todo ->
  let s := pexec (mkP m todo) sched in
  (forall t, p_todo s t = []) -> all_stored todo m (p_file s).
Proof. exact pwrite_all. Qed.
Print Assumptions C53_pwrite.
Example C53_example : disjoint_calls ex_todo /\
  (let s := oexec (ostart (fun _ => 0) ex_todo) (serial [1; 0]%nat) in
   (forall t, o_todo s t = []) /\ map (o_file s) [0; 1; 2; 3; 10; 11] = [1; 2; 3; 0; 7; 8]) /\
  (let s := pexec (mkP (fun _ => 0) ex_todo) [1; 0]%nat in
   (forall t, p_todo s t = []) /\ map (p_file s) [0; 1; 2; 3; 10; 11] = [1; 2; 3; 0; 7; 8]).
Proof. exact (conj ex_todo_disjoint (conj ex_serial ex_pwrite)). Qed.

(** C62: concurrent reads through the stream on a FILE: under every schedule of any number of threads each call gets the
    bytes at its own offset, and no deadlock occurs. *)
Theorem C62_reads : forall file todo sched t,
  let s := iexec file (istart todo) sched in
  exists made, todo t = made ++ i_todo s t /\ i_log s t = map (fun c => (c, answer file c)) made.
Proof. exact reads_ok. Qed.
Print Assumptions C62_reads.
Theorem C62_progress : forall file todo sched,
  let s := iexec file (istart todo) sched in
  (exists t, i_todo s t <> []) -> exists t, i_pc (istep file s t) t <> i_pc s t.
Proof. exact reads_progress. Qed.
Print Assumptions C62_progress.
Example C62_example : let s := iexec [10; 11; 12; 13; 14] (istart ex_reads) [0; 1; 0; 1; 0; 1; 0; 1; 1; 0; 1; 0; 1; 1; 0; 0; 0; 0]%nat in
  i_log s O = [((1, 2), Some [11; 12]); ((9223372036854775808, 1), None)] /\ i_log s 1%nat = [((3, 10), Some [13; 14])].
Proof. exact ex_reads_run. Qed.

(** C63: data received from a server.  The error code returned by the callback is 23, which libcurl takes for the number
    of bytes: an excess piece of 23 bytes is dropped silently. *)
Theorem C63_receive_refuted : exists pieces size m', 0 < size < Z.of_nat (length (concat pieces)) /\
  curl_read pieces size (fun _ => 0) = Ok (m', size).
Proof. exact curl_23. Qed.
Print Assumptions C63_receive_refuted.
Theorem C63_receive_partial : forall pieces size m, 0 < size -> (forall p, In p pieces -> Z.of_nat (length p) <> 23) ->
  let n := Z.of_nat (length (concat pieces)) in
  if n <=? size
  then exists m', curl_read pieces size m = Ok (m', n) /\
         (forall a, 0 <= a < n -> m' a = nth (Z.to_nat a) (concat pieces) 0) /\ (forall a, a < 0 \/ n <= a -> m' a = m a)
  else curl_read pieces size m = Throw.
Proof. exact curl_exact. Qed.
Print Assumptions C63_receive_partial.
Theorem C63_safe : forall pieces size m, 0 <= size ->
  match curl_read pieces size m with
  | Ok (m', n) => 0 <= n <= size /\ forall a, a < 0 \/ n <= a -> m' a = m a
  | Throw => True
  | _ => False
  end.
Proof. exact curl_safe. Qed.
Print Assumptions C63_safe.
Example C63_example : exists m, curl_read [[1; 2]; []; [3]] 5 (fun _ => 0) = Ok (m, 3) /\ map m [0; 1; 2; 3] = [1; 2; 3; 0].
Proof. exact (ex_intro _ _ (conj eq_refl eq_refl)). Qed.
