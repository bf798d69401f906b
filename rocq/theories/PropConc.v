(** C78: reading while another thread closes the reader. *)
From Verif Require Import Base LockModel ConcModel ConcProofs.

(** C78: in every interleaving of any number of threads which read parts and call Close - no stream is used after it was
    destroyed; what is delivered is the part asked for, of the document, from its stream; once Close has returned and all calls
    are done, the reader's reference to the stream is gone; and no call is stuck: some thread can always go on. *)
Theorem C78_close_while_reading : forall ext n tr c, (forall s, 0 <= ext s) -> no_open tr -> crun (cstart ext n) tr = Some c ->
  c_bad c = false /\
  (forall i e, In e (logs c i) -> match e with EData d k s => d = 0%nat /\ s = 0%nat | EOpened _ => False | _ => True end) /\
  (forall i, In EClosed (logs c i) -> at_rest c -> c_cnt c 0%nat = ext 0%nat) /\
  (forall i, (i < length (c_thr c))%nat -> ~ idle c i -> exists j c', cstep c j AGo = Some c').
Proof. exact close_safe_run. Qed.
Print Assumptions C78_close_while_reading.
(** Calls begun after a Close has returned all throw. *)
Theorem C78_after_close : forall ext n tr1 c1 j i tr2 c2, (forall s, 0 <= ext s) -> no_open tr1 -> no_open tr2 ->
  crun (cstart ext n) tr1 = Some c1 -> In EClosed (logs c1 j) -> idle c1 i -> crun c1 tr2 = Some c2 ->
  exists l, logs c2 i = logs c1 i ++ l /\ Forall (fun e => e = EThrow) l.
Proof. exact closed_throws_run. Qed.
Print Assumptions C78_after_close.

Example C78_example : exists c, crun (cstart (fun _ => 0) 2) overlap_trace = Some c /\ no_open overlap_trace
  /\ logs c 0 = [EData 0 5 0] /\ logs c 1 = [EClosed; EThrow] /\ c_cnt c 0%nat = 0 /\ at_rest c.
Proof. exact overlap. Qed.

(** This does not extend to re-opening: a read overtaken by Close and Open delivers bytes of the second document at the position
    of a part of the first; and Open modifies the member without the mutex. *)
Theorem C78_reopen_mixes_documents : exists c, crun (cstart (fun _ => 1) 2) wrong_trace = Some c /\ c_bad c = false
  /\ logs c 0 = [EData 0 5 1] /\ logs c 1 = [EClosed; EOpened 1].
Proof. exact wrong_stream. Qed.
Print Assumptions C78_reopen_mixes_documents.
Theorem C78_reopen_races : exists c, crun (cstart (fun _ => 1) 2) race_trace = Some c /\ c_bad c = true.
Proof. exact open_race. Qed.
Print Assumptions C78_reopen_races.
