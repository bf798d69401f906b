(** The site object: the cases behind the examples and the refutations. *)
From Verif Require Import Base LockModel SiteModel SiteSpec.
Open Scope Z_scope.

(** one thread sets its object 7, uses it, tries to set another one and uses it again *)
Definition orderly : list (nat * sact) := [(0, ASet (Some 7)); (0, AStep); (0, AGet); (0, AStep); (0, AStep); (0, AStep); (0, ASet (Some 8)); (0, AGet); (0, AStep)]%nat.
(** two threads use the library at the same time, nothing having been set; one waits for the other *)
Definition both : list (nat * sact) := [(0, AGet); (0, AStep); (0, AStep); (0, AStep); (1, AGet); (1, AStep); (0, AStep)]%nat.
(** an object is set while another thread starts using the library: the test of SetSiteObject comes before, its assignment behind the first use *)
Definition racing : list (nat * sact) :=
  [(0, ASet (Some 5)); (1, AGet); (1, AStep); (1, AStep); (1, AStep); (1, AStep); (0, AStep); (1, AGet); (1, AStep)]%nat.
(** two threads set objects at the same time *)
Definition two_sets : list (nat * sact) := [(0, ASet (Some 5)); (1, ASet (Some 6)); (0, AStep); (0, AGet); (1, AStep); (0, AStep); (0, AStep); (0, AStep)]%nat.
(** what GetDefaultSiteObject returns for a decoder not available, handed on *)
Definition null_set : list (nat * sact) := [(0, ASet None); (0, AStep); (0, ASet (Some 3)); (0, AStep)]%nat.
Definition null_race : list (nat * sact) := [(0, ASet None); (1, AGet); (1, AStep); (1, AStep); (1, AStep); (0, AStep); (1, AStep)]%nat.
(** threads asking for decoders: the first creation of type 1 fails, the other thread's succeeds; type 0; a type unknown *)
Definition asking : list (nat * dact) :=
  [(0, DGet 1); (1, DGet 0); (0, DGo false); (2, DGet 1); (2, DGo true); (1, DGo true); (2, DGo true); (0, DGet 1); (0, DGo true); (2, DGo true); (1, DGo true); (1, DGo true); (2, DGet 5)]%nat.

Lemma set_lost : exists l c, real_sets l /\ srun (sinit None 2) l = Some c /\ happened c (EGot (Some 0%nat)) /\ happened c (EGot (Some 5%nat)) /\ happened c (ESet (Some 5%nat) true).
Proof.
  exists racing. eexists. split; [intros i J; repeat (destruct J as [J|J]; [discriminate J|]); exact J|]. split; [vm_compute; reflexivity|].
  split; [|split].
  - exists 1%nat, SIdle, [EGot (Some 0%nat); EGot (Some 5%nat)]. split; [reflexivity|]. now left.
  - exists 1%nat, SIdle, [EGot (Some 0%nat); EGot (Some 5%nat)]. split; [reflexivity|]. right. now left.
  - exists 0%nat, SIdle, [ESet (Some 5%nat) true]. split; [reflexivity|]. now left.
Qed.
Lemma set_twice : exists l c, real_sets l /\ srun (sinit None 2) l = Some c /\ happened c (ESet (Some 5%nat) true) /\ happened c (ESet (Some 6%nat) true) /\ forall x, happened c (EGot x) -> x = Some 6%nat.
Proof.
  exists two_sets. eexists. split; [intros i J; repeat (destruct J as [J|J]; [discriminate J|]); exact J|]. split; [vm_compute; reflexivity|].
  split; [|split].
  - exists 0%nat, SIdle, [ESet (Some 5%nat) true; EGot (Some 6%nat)]. split; [reflexivity|]. now left.
  - exists 1%nat, SIdle, [ESet (Some 6%nat) true]. split; [reflexivity|]. now left.
  - intros x (i & pc & es & N & J). destruct i as [|[|[|i]]]; cbn in N; try discriminate N; injection N as <- <-; repeat (destruct J as [J|J]; [now inversion J|]); contradiction.
Qed.
Lemma set_null : (exists c, srun (sinit None 1) null_set = Some c /\ s_thr c = [(SIdle, [ESet None true; ESet (Some 3%nat) true])]) /\
  (exists c, srun (sinit None 2) null_race = Some c /\ happened c (EGot None)).
Proof.
  split; eexists; (split; [vm_compute; reflexivity|]); [reflexivity|]. exists 1%nat, SIdle, [EGot None]. split; [reflexivity|]. now left.
Qed.
