(** C13, C59: lock counting of bitmaps. *)
From Verif Require Import Base LockModel LockProofs.

(** C13 in full would say in addition that a thread which only unlocks what it locked never sees an exception whatever
    other threads do.  That is false: *)
Theorem C13_surplus_unlock_disturbs_refuted :
  exists tr s t1, lrun (lstart 2) tr s /\
    (forall a b, tr = a ++ b -> calls AUnlock 1 a <= calls ALock 1 a) /\ calls AUnlock 1 tr = calls ALock 1 tr /\
    nth_error (lk_thr s) 1 = Some t1 /\ threw t1 = 1 /\ lk_cnt s = 1 /\ pending (lk_thr s) = 0.
Proof. exact surplus_disturbs. Qed.
Print Assumptions C13_surplus_unlock_disturbs_refuted.

(** C13: if no thread ever unlocks more often than it has locked, then under every interleaving nobody throws and the
    count is the number of Lock calls minus the number of Unlock calls. *)
Theorem C13_balanced_partial : forall n tr s, lrun (lstart n) tr s -> balanced tr ->
  (forall t, In t (lk_thr s) -> threw t = 0 /\ lt_pc t = LOut) /\
  lk_cnt s = fold_right Z.add 0 (map (fun i => calls ALock i tr - calls AUnlock i tr) (seq 0 n)).
Proof. exact balanced_locks. Qed.
Print Assumptions C13_balanced_partial.

(** C13: in any execution whatsoever the count is the number of outstanding locks less the violations being undone. *)
Theorem C13_count_exact_partial : forall n tr s, lrun (lstart n) tr s ->
  lk_cnt s = outstanding (lk_thr s) - pending (lk_thr s).
Proof. exact count_exact. Qed.
Print Assumptions C13_count_exact_partial.

(** C13: a surplus Unlock which is not interrupted throws and restores the count. *)
Theorem C13_surplus_unlock_partial : forall n tr s i t, lrun (lstart n) tr s -> nth_error (lk_thr s) i = Some t ->
  lk_cnt s = 0 -> pending (lk_thr s) = 0 ->
  forall s1 s2, lstep s i AUnlock s1 -> lstep s1 i AUndo s2 ->
  lk_cnt s2 = lk_cnt s /\ nth_error (lk_thr s2) i = Some (mkLThread LOut (held t) (threw t + 1)).
Proof. exact surplus_unlock_alone. Qed.
Print Assumptions C13_surplus_unlock_partial.

Theorem C13_surplus_unlock_throws_partial : forall s i s1, lstep s i AUnlock s1 -> lk_cnt s = 0 ->
  exists h w, nth_error (lk_thr s1) i = Some (mkLThread LUndo h w).
Proof. exact surplus_unlock_throws. Qed.
Print Assumptions C13_surplus_unlock_throws_partial.

Example C13_example : lrun (lstart 2) [(0%nat, ALock); (1%nat, ALock); (0%nat, AUnlock)]
  (mkLState 1 [mkLThread LOut 0 0; mkLThread LOut 1 0]).
Proof. exact ex_balanced_run. Qed.
Example C13_example_balanced : balanced [(0%nat, ALock); (1%nat, ALock); (0%nat, AUnlock)].
Proof. exact ex_balanced. Qed.

(** C59: whatever a program does with scope guards - create, copy, move, assign, destroy - no Unlock throws and the lock
    count of every bitmap is the number of guards which refer to it. *)
Theorem C59_scope_guards : forall ops, exists s, grun gstart ops = Ok s /\ forall b, g_cnt s b = guards b (g_vars s).
Proof. exact guards_exact. Qed.
Print Assumptions C59_scope_guards.

Example C59_example : exists s, grun gstart [GNew 1 5; GCopy 2 1; GNew 3 6; GAssign 3 2; GMoveAssign 1 3; GDestroy 2] = Ok s /\
  g_cnt s 5%nat = 1 /\ g_cnt s 6%nat = 0.
Proof. exact ex_guards. Qed.
