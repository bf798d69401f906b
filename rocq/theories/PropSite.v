(** C123: one site object for the whole program, one decoder of each kind for everybody. *)
From Verif Require Import Base LockModel SiteModel SiteSpec SiteProofs SiteExamples.
Open Scope Z_scope.

(** Calls one after the other: an object is accepted only as long as none was accepted or used, and all uses get it - or the default. *)
Theorem C123_alone : forall l c, real_sets l -> srun (sinit None 1) l = Some c -> exists pc h s, s_thr c = [(pc, h)] /\ history h s.
Proof. exact used_alone. Qed.
Print Assumptions C123_alone.
Example C123_alone_case : real_sets orderly /\ option_map s_thr (srun (sinit None 1) orderly) =
  Some [(SIdle, [ESet (Some 7%nat) true; EGot (Some 7%nat); ESet (Some 8%nat) false; EGot (Some 7%nat)])].
Proof. split; [intros i J; repeat (destruct J as [J|J]; [discriminate J|]); exact J|vm_compute; reflexivity]. Qed.

(** What such a history says: every use got the object decided for; an object accepted is that one, and it was set by the very first call. *)
Theorem C123_history : forall h s, history h s -> (s = None -> h = []) /\ (forall x, In (EGot x) h -> x = s) /\
  (forall p b, In (ESet p b) h -> if b then p = s /\ exists r, h = ESet p true :: r else True).
Proof. exact history_end. Qed.
Print Assumptions C123_history.
Example C123_history_case : history [ESet (Some 7%nat) true; EGot (Some 7%nat)] (Some 7%nat).
Proof. exact (HGot [ESet (Some 7%nat) true] 7%nat (HSet [] 7%nat HNone)). Qed.

(** Any number of threads, in any order: if the object was set before - or is never set -, all of them get the same object, and nobody can set another. *)
Theorem C123_threads : forall g n l c, (g = None -> no_sets l) -> srun (sinit g n) l = Some c ->
  (forall x, happened c (EGot x) -> x = Some (decided g)) /\ (forall p b, happened c (ESet p b) -> b = false).
Proof. exact used_one. Qed.
Print Assumptions C123_threads.
Example C123_threads_case : no_sets both /\ option_map s_thr (srun (sinit None 2) both) = Some [(SIdle, [EGot (Some 0%nat)]); (SIdle, [EGot (Some 0%nat)])] /\
  srun (sinit None 2) [(0%nat, AGet); (1%nat, AGet)] = None.
Proof. split; [intros i p J; repeat (destruct J as [J|J]; [discriminate J|]); exact J|split; vm_compute; reflexivity]. Qed.

(** Any number of threads, objects being set at any time: whoever uses the library gets an object, and a call to set one made after the first use is refused. *)
Theorem C123_late_partial : forall n l c x, real_sets l -> srun (sinit None n) l = Some c -> happened c (EGot x) ->
  x <> None /\ forall i p c', sstep c i (ASet p) = Some c' -> s_g c' = s_g c /\ happened c' (ESet p false) /\ (forall b, happened c' (ESet p b) -> b = true -> happened c (ESet p b)).
Proof. exact used_late. Qed.
Print Assumptions C123_late_partial.
Example C123_late_case : exists c c', srun (sinit None 2) both = Some c /\ sstep c 1 (ASet (Some 4%nat)) = Some c' /\ s_g c' = Some 0%nat.
Proof. eexists. eexists. split; [vm_compute; reflexivity|]. split; vm_compute; reflexivity. Qed.

(** Waiting for the site object is for a call of another thread which can go on. *)
Theorem C123_wait : forall g n l c i, srun (sinit g n) l = Some c -> (exists es, nth_error (s_thr c) i = Some (SIdle, es)) ->
  (exists c', sstep c i AGet = Some c') \/ (exists j c', j <> i /\ sstep c j AStep = Some c').
Proof. exact site_wait. Qed.
Print Assumptions C123_wait.
Example C123_wait_case : exists c, srun (sinit None 2) [(0%nat, AGet)] = Some c /\ sstep c 1 AGet = None /\ nth_error (s_thr c) 1 = Some (SIdle, []).
Proof. eexists. split; [vm_compute; reflexivity|]. split; vm_compute; reflexivity. Qed.

(** The decoders: any number of threads, in any order, creations failing at will: everybody gets the same decoder for the same type, different ones for different
    types, none exactly for the types unknown, and no more than three are ever created. *)
Theorem C123_decoders : forall n l c, drun (dinit n) l = Some c ->
  (forall t x y, received c (EDec t x) -> received c (EDec t y) -> x = y) /\
  (forall t x, received c (EDec t x) -> (x = None <-> (3 <= t)%nat)) /\
  (forall t u d, received c (EDec t (Some d)) -> received c (EDec u (Some d)) -> t = u) /\
  (d_next c <= 3)%nat.
Proof. exact decoders. Qed.
Print Assumptions C123_decoders.
Example C123_decoders_case : option_map d_thr (drun (dinit 3) asking) =
  Some [(DIdle, [EFail 1; EDec 1 (Some 0)]); (DIdle, [EDec 0 (Some 1)]); (DIdle, [EDec 1 (Some 0); EDec 5 None])]%nat.
Proof. vm_compute. reflexivity. Qed.

Theorem C123_decoders_wait : forall n l c i t, drun (dinit n) l = Some c -> (exists es, nth_error (d_thr c) i = Some (DIdle, es)) ->
  (exists c', dstep c i (DGet t) = Some c') \/ (exists j, j <> i /\ forall ok, exists c', dstep c j (DGo ok) = Some c').
Proof. exact decoders_wait. Qed.
Print Assumptions C123_decoders_wait.
Example C123_decoders_wait_case : exists c, drun (dinit 2) [(0%nat, DGet 1%nat)] = Some c /\ dstep c 1 (DGet 1) = None /\ nth_error (d_thr c) 1 = Some (DIdle, []).
Proof. eexists. split; [vm_compute; reflexivity|]. split; vm_compute; reflexivity. Qed.

(** Refuted: a call setting an object while another thread uses the library for the first time is accepted although the default was used already, and uses differ. *)
Theorem C123_race_refuted : exists l c, real_sets l /\ srun (sinit None 2) l = Some c /\
  happened c (EGot (Some 0%nat)) /\ happened c (EGot (Some 5%nat)) /\ happened c (ESet (Some 5%nat) true).
Proof. exact set_lost. Qed.
Print Assumptions C123_race_refuted.

(** Refuted: two threads setting different objects at the same time are both told to have succeeded. *)
Theorem C123_twice_refuted : exists l c, real_sets l /\ srun (sinit None 2) l = Some c /\
  happened c (ESet (Some 5%nat) true) /\ happened c (ESet (Some 6%nat) true) /\ forall x, happened c (EGot x) -> x = Some 6%nat.
Proof. exact set_twice. Qed.
Print Assumptions C123_twice_refuted.

(** Refuted: a null pointer - what GetDefaultSiteObject returns for a decoder which is not available - is accepted; in a race the library then works with it. *)
Theorem C123_null_refuted : (exists c, srun (sinit None 1) null_set = Some c /\ s_thr c = [(SIdle, [ESet None true; ESet (Some 3%nat) true])]) /\
  (exists c, srun (sinit None 2) null_race = Some c /\ happened c (EGot None)).
Proof. exact set_null. Qed.
Print Assumptions C123_null_refuted.
