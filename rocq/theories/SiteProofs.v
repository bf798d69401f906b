(** The site object: proofs. *)
From Verif Require Import Base LockModel LockProofs SiteModel SiteSpec.
Open Scope Z_scope.

Ltac step_cases H := unfold sstep in H; match type of H with context [nth_error ?t ?i] => destruct (nth_error t i) as [(pc, l)|] eqn:N; [|discriminate H] end.

(** ** All uses after the decision *)
Definition t_one (g0 g : option nat) (x : spc * list sev) : Prop :=
  (match fst x with SAssign _ => False | GAssign => g0 = None | GLeave | GRead => g = Some (decided g0) | _ => True end) /\
  Forall (fun e => match e with ESet _ b => b = false | EGot y => y = Some (decided g0) end) (snd x).
Definition one (g0 : option nat) (c : sstate) : Prop :=
  (s_g c = g0 \/ s_g c = Some (decided g0)) /\ (s_once c = Done -> s_g c = Some (decided g0)) /\ Forall (t_one g0 (s_g c)) (s_thr c).
Lemma t_one_g g0 g g' x : (g = Some (decided g0) -> g' = Some (decided g0)) -> t_one g0 g x -> t_one g0 g' x.
Proof. intros H (A & B). split; [|exact B]. destruct (fst x); auto. Qed.
Lemma one_step g0 c i a c' : one g0 c -> (g0 = None -> forall p, a <> ASet p) -> sstep c i a = Some c' -> one g0 c'.
Proof.
  intros (G & O & F) Q H. destruct c as (g, o, thr). cbn [s_g s_once s_thr] in *. step_cases H. pose proof (forall_nth _ _ _ _ F N) as (T & E). cbn [fst snd] in T, E.
  assert (K : forall q, t_one g0 g (q, l) -> Forall (t_one g0 g) (set_nth i (q, l) thr)) by (intros q J; now apply set_nth_forall).
  assert (R : forall e, match e with ESet _ b => b = false | EGot y => y = Some (decided g0) end -> Forall (t_one g0 g) (set_nth i (SIdle, l ++ [e]) thr)).
  { intros e J. apply set_nth_forall; [exact F|]. split; [exact Logic.I|]. cbn [snd]. apply Forall_app. split; [exact E|]. constructor; [exact J|constructor]. }
  destruct pc as [|p| | | |], a as [p'| |]; cbn [fst snd] in *; try discriminate H; try contradiction.
  - destruct g as [s|]; injection H as <-; unfold one; cbn [s_g s_once s_thr]; [split; [exact G|split; [exact O|now apply R]]|].
    destruct G as [G|G]; [|discriminate G]. subst g0. elim (Q eq_refl p'). reflexivity.
  - destruct o; try discriminate H; injection H as <-; unfold one; cbn [s_g s_once s_thr].
    + split; [exact G|]. split; [discriminate|]. apply K. split; [exact Logic.I|exact E].
    + split; [exact G|]. split; [exact O|]. apply K. split; [exact (O eq_refl)|exact E].
  - injection H as <-. destruct g as [s|]; unfold one; cbn [s_g s_once s_thr]; (split; [exact G|]; split; [exact O|]; apply K; split; [cbn [fst]|exact E]).
    + destruct G as [G|G]; [|exact G]. subst g0. reflexivity.
    + destruct G as [G|G]; [now symmetry|discriminate G].
  - injection H as <-. unfold one; cbn [s_g s_once s_thr].
    subst g0. split; [now right|]. split; [reflexivity|]. apply set_nth_forall; [|split; [reflexivity|exact E]]. eapply Forall_impl; [|exact F]. intros x. now apply t_one_g.
  - injection H as <-. unfold one; cbn [s_g s_once s_thr]. split; [exact G|]. split; [intros _; exact T|]. apply K. split; [exact T|exact E].
  - injection H as <-. unfold one; cbn [s_g s_once s_thr]. split; [exact G|]. split; [exact O|]. apply R. exact T.
Qed.
Lemma one_run g0 l : forall c c', one g0 c -> (g0 = None -> no_sets l) -> srun c l = Some c' -> one g0 c'.
Proof.
  induction l as [|(i, a) l IH]; intros c c' I Q H; cbn [srun] in H; [injection H as <-; exact I|]. destruct (sstep c i a) as [c1|] eqn:E; [|discriminate H].
  refine (IH c1 c' (one_step g0 c i a c1 I _ E) _ H); [intros Z p ->; exact (Q Z i p (or_introl eq_refl))|intros Z j p J; exact (Q Z j p (or_intror J))].
Qed.
Theorem used_one g0 n l c : (g0 = None -> no_sets l) -> srun (sinit g0 n) l = Some c ->
  (forall x, happened c (EGot x) -> x = Some (decided g0)) /\ (forall p b, happened c (ESet p b) -> b = false).
Proof.
  intros Q H. assert (I : one g0 (sinit g0 n)).
  { split; [now left|]. split; [discriminate|]. apply Forall_forall. intros x J. apply repeat_spec in J. subst x. split; [exact Logic.I|constructor]. }
  apply (one_run g0 l _ _ I Q) in H as (_ & _ & F).
  split; [intros x|intros p b]; intros (i & pc & es & N & J); pose proof (forall_nth _ _ _ _ F N) as (_ & E); rewrite Forall_forall in E; exact (E _ J).
Qed.

(** ** One thread *)
Definition alone (c : sstate) : Prop := exists pc h s, s_thr c = [(pc, h)] /\ history h s /\
  match pc with
  | SIdle => s_g c = s /\ s_once c <> Running /\ (s_once c = Done -> s <> None)
  | SAssign (Some _) => s_g c = None /\ s = None /\ s_once c = Free
  | SAssign None => False
  | GTest => s_g c = s
  | GAssign => s = None
  | GLeave => s_g c = Some (decided s)
  | GRead => s_g c = Some (decided s) /\ s_once c = Done
  end.
Lemma alone_step c i a c' : alone c -> a <> ASet None -> sstep c i a = Some c' -> alone c'.
Proof.
  intros (pc & h & s & T & Hh & P) Q H. destruct c as (g, o, thr). cbn [s_g s_once s_thr] in *. subst thr. unfold sstep in H.
  destruct i as [|i]; [|destruct i; discriminate H]. cbn [nth_error] in H. change (set_nth 0 ?x [?y]) with [x] in H. unfold set_nth in H. cbn [firstn skipn app] in H.
  destruct pc as [|[p|]| | | |], a as [p'| |]; try discriminate H; try contradiction.
  - destruct P as (-> & P1 & P2). destruct s as [s|]; injection H as <-.
    + exists SIdle, (h ++ [ESet p' false]), (Some s). cbn [s_g s_once s_thr]. split; [reflexivity|]. split; [now constructor|auto].
    + destruct p' as [p'|]; [|congruence]. exists (SAssign (Some p')), h, None. cbn [s_g s_once s_thr]. split; [reflexivity|]. split; [exact Hh|]. split; [reflexivity|]. split; [reflexivity|].
      destruct o; [reflexivity|congruence|elim (P2 eq_refl eq_refl)].
  - destruct P as (-> & P1 & P2). destruct o; try discriminate H; injection H as <-.
    + exists GTest, h, s. auto.
    + exists GRead, h, s. split; [reflexivity|]. split; [exact Hh|]. cbn [s_g s_once]. split; [|reflexivity]. destruct s; [reflexivity|elim (P2 eq_refl eq_refl)].
  - injection H as <-. destruct P as (-> & -> & ->). exists SIdle, (h ++ [ESet (Some p) true]), (Some p). split; [reflexivity|]. split; [now constructor|]. cbn [s_g s_once]. split; [reflexivity|split; discriminate].
  - injection H as <-. subst g. destruct s as [s|]; [exists GLeave, h, (Some s)|exists GAssign, h, None]; auto.
  - injection H as <-. subst s. exists GLeave, h, None. auto.
  - injection H as <-. exists GRead, h, s. auto.
  - injection H as <-. destruct P as (-> & ->). exists SIdle, (h ++ [EGot (Some (decided s))]), (Some (decided s)). split; [reflexivity|].
    split; [destruct s as [s|]; now constructor|]. cbn [s_g s_once]. split; [reflexivity|split; discriminate].
Qed.
Theorem used_alone l c : real_sets l -> srun (sinit None 1) l = Some c -> exists pc h s, s_thr c = [(pc, h)] /\ history h s.
Proof.
  intros Q H. assert (I : alone (sinit None 1)).
  { exists SIdle, [], None. split; [reflexivity|]. split; [constructor|]. cbn [s_g s_once sinit]. split; [reflexivity|split; discriminate]. }
  revert Q I H. generalize (sinit None 1) as c0. induction l as [|(i, a) l IH]; intros c0 Q I H; cbn [srun] in H.
  - injection H as <-. destruct I as (pc & h & s & T & Hh & _). eauto.
  - destruct (sstep c0 i a) as [c1|] eqn:E; [|discriminate H]. apply (IH c1); [intros j J; exact (Q j (or_intror J))| |exact H].
    refine (alone_step c0 i a c1 I _ E). intros ->. exact (Q i (or_introl eq_refl)).
Qed.
(** what the documentation's history means *)
Lemma history_end h s : history h s -> (s = None -> h = []) /\ (forall x, In (EGot x) h -> x = s) /\
  (forall p b, In (ESet p b) h -> if b then p = s /\ exists r, h = ESet p true :: r else True).
Proof.
  induction 1 as [|h s H (A & B & C)|h s p H (A & B & C)|h H (A & B & C)|h s H (A & B & C)].
  - split; [reflexivity|]. split; intros; contradiction.
  - specialize (A eq_refl). subst h. cbn [app]. split; [discriminate|]. split; [intros x [E|[]]; discriminate E|]. intros p b [E|[]]. injection E as <- <-. eauto.
  - split; [discriminate|]. split; [intros x J; apply in_app_or in J as [J|[E|[]]]; [auto|discriminate E]|]. intros q b J. apply in_app_or in J as [J|[E|[]]].
    + specialize (C q b J). destruct b; [|exact Logic.I]. destruct C as (C1 & r & ->). split; [exact C1|]. eexists. reflexivity.
    + injection E as <- <-. exact Logic.I.
  - specialize (A eq_refl). subst h. cbn [app]. split; [discriminate|]. split; [intros x [E|[]]; now injection E as <-|]. intros p b [E|[]]. discriminate E.
  - split; [discriminate|]. split; [intros x J; apply in_app_or in J as [J|[E|[]]]; [auto|now injection E as <-]|]. intros q b J. apply in_app_or in J as [J|[E|[]]]; [|discriminate E].
    specialize (C q b J). destruct b; [|exact Logic.I]. destruct C as (C1 & r & ->). split; [exact C1|]. eexists. reflexivity.
Qed.

(** ** Any threads: after a use, calls of SetSiteObject are refused *)
Definition t_late (g : option nat) (o : once) (x : spc * list sev) : Prop :=
  (match fst x with SAssign p => p <> None | GLeave | GRead => g <> None | _ => True end) /\
  Forall (fun e => match e with ESet _ _ => True | EGot y => y <> None /\ g <> None end) (snd x).
Definition late (c : sstate) : Prop := (s_once c = Done -> s_g c <> None) /\ Forall (t_late (s_g c) (s_once c)) (s_thr c).
Lemma t_late_g g o g' o' x : (g <> None -> g' <> None) -> t_late g o x -> t_late g' o' x.
Proof. intros H (A & B). split; [destruct (fst x); auto|]. eapply Forall_impl; [|exact B]. intros [p b|y]; [trivial|]. intros (Y & Z). auto. Qed.
Lemma late_step c i a c' : late c -> a <> ASet None -> sstep c i a = Some c' -> late c'.
Proof.
  intros (O & F) Q H. destruct c as (g, o, thr). cbn [s_g s_once s_thr] in *. step_cases H. pose proof (forall_nth _ _ _ _ F N) as (T & E). cbn [fst snd] in T, E.
  assert (K : forall (g' : option nat) o' q, (g <> None -> g' <> None) -> t_late g' o' (q, l) -> Forall (t_late g' o') (set_nth i (q, l) thr)).
  { intros g' o' q M J. apply set_nth_forall; [|exact J]. eapply Forall_impl; [|exact F]. intros x. now apply t_late_g. }
  assert (EE : forall g' : option nat, (g <> None -> g' <> None) -> Forall (fun e => match e with ESet _ _ => True | EGot y => y <> None /\ g' <> None end) l).
  { intros g' M. eapply Forall_impl; [|exact E]. intros [p b|y]; [trivial|]. intros (Y & Z). auto. }
  assert (R : forall (g' : option nat) o' e, (g <> None -> g' <> None) -> match e with ESet _ _ => True | EGot y => y <> None /\ g' <> None end -> Forall (t_late g' o') (set_nth i (SIdle, l ++ [e]) thr)).
  { intros g' o' e M J. apply set_nth_forall; [eapply Forall_impl; [|exact F]; intros x; now apply t_late_g|]. split; [exact Logic.I|]. cbn [snd]. apply Forall_app. split; [now apply EE|]. constructor; [exact J|constructor]. }
  destruct pc as [|p| | | |], a as [p'| |]; cbn [fst snd] in *; try discriminate H.
  - destruct g as [s|]; injection H as <-; (split; cbn [s_g s_once s_thr]; [exact O|]); [apply R; trivial|]. apply K; [trivial|]. split; [cbn [fst]; congruence|exact E].
  - destruct o; try discriminate H; injection H as <-; (split; cbn [s_g s_once s_thr]; [first [exact O|discriminate]|]); apply K; trivial; (split; [first [exact Logic.I|exact (O eq_refl)]|exact E]).
  - injection H as <-. split; cbn [s_g s_once s_thr]; [auto|]. apply R; trivial.
  - injection H as <-. destruct g as [s|]; (split; cbn [s_g s_once s_thr]; [exact O|]); apply K; trivial; (split; [cbn [fst]; first [exact Logic.I|discriminate]|exact E]).
  - injection H as <-. split; cbn [s_g s_once s_thr]; [discriminate|]. apply K; [discriminate|]. split; [discriminate|]. apply EE. discriminate.
  - injection H as <-. split; cbn [s_g s_once s_thr]; [auto|]. apply K; trivial. split; [exact T|exact E].
  - injection H as <-. split; cbn [s_g s_once s_thr]; [exact O|]. apply R; trivial. auto.
Qed.
Theorem used_late n l c x : real_sets l -> srun (sinit None n) l = Some c -> happened c (EGot x) ->
  x <> None /\ forall i p c', sstep c i (ASet p) = Some c' -> s_g c' = s_g c /\ happened c' (ESet p false) /\ (forall b, happened c' (ESet p b) -> b = true -> happened c (ESet p b)).
Proof.
  intros Q H (j & pc & es & N & J). assert (I : late (sinit None n)).
  { split; [discriminate|]. apply Forall_forall. intros y K. apply repeat_spec in K. subst y. split; [exact Logic.I|constructor]. }
  assert (L : late c).
  { revert Q I H. generalize (sinit None n) as c0. clear. induction l as [|(i, a) l IH]; intros c0 Q I H; cbn [srun] in H; [injection H as <-; exact I|].
    destruct (sstep c0 i a) as [c1|] eqn:E; [|discriminate H]. apply (IH c1); [intros k K; exact (Q k (or_intror K))| |exact H].
    refine (late_step c0 i a c1 I _ E). intros ->. exact (Q i (or_introl eq_refl)). }
  destruct L as (O & F). pose proof (forall_nth _ _ _ _ F N) as (_ & E). cbn [snd] in E. rewrite Forall_forall in E. destruct (E _ J) as (X & G). split; [exact X|].
  intros i p c' S. destruct c as (g, o, thr). cbn [s_g s_once s_thr] in *. clear N pc. rename l into sch. step_cases S. rename N into N0, l into l0, pc into pc0. destruct pc0; try discriminate S. destruct g as [s|]; [|congruence]. injection S as <-. cbn [s_g].
  split; [reflexivity|]. split.
  - exists i, SIdle, (l0 ++ [ESet p false]). cbn [s_thr]. rewrite (nth_set_nth _ _ _ _ i N0), Nat.eqb_refl. split; [reflexivity|]. apply in_or_app. right. now left.
  - intros b (k & q & es' & M & Z) ->. cbn [s_thr] in M. rewrite (nth_set_nth _ _ _ _ k N0) in M. destruct (Nat.eqb_spec k i) as [->|D]; [|exists k, q, es'; auto].
    injection M as <- <-. apply in_app_or in Z as [Z|[Z|[]]]; [exists i, SIdle, l0; auto|discriminate Z].
Qed.

(** ** The decoders *)
Definition dbusy (pc : dpc) : option nat := match pc with DMake t | DLeave t => Some t | _ => None end.
Record dinv (c : dstate) : Prop := {
  di_pc : forall i pc l, nth_error (d_thr c) i = Some (pc, l) ->
    match pc with
    | DIdle => True
    | DMake t => (t < 3)%nat /\ d_once c t = Running /\ d_ptr c t = None
    | DLeave t => (t < 3)%nat /\ d_once c t = Running /\ d_ptr c t <> None
    | DRead t => (t < 3)%nat /\ d_once c t = Done
    end;
  di_uni : forall i j pc l pc' l' t, nth_error (d_thr c) i = Some (pc, l) -> nth_error (d_thr c) j = Some (pc', l') -> dbusy pc = Some t -> dbusy pc' = Some t -> i = j;
  di_done : forall t, d_once c t = Done -> d_ptr c t <> None;
  di_free : forall t, d_once c t = Free -> d_ptr c t = None;
  di_none : forall t, (3 <= t)%nat -> d_ptr c t = None;
  di_next : forall t d, d_ptr c t = Some d -> (d < d_next c)%nat;
  di_inj : forall t t' d, d_ptr c t = Some d -> d_ptr c t' = Some d -> t = t';
  di_count : d_next c = (length (filter (fun t => match d_ptr c t with Some _ => true | None => false end) [0%nat; 1%nat; 2%nat]));
  di_ev : forall i pc l t x, nth_error (d_thr c) i = Some (pc, l) -> In (EDec t x) l -> x = d_ptr c t /\ ((t < 3)%nat -> x <> None) }.
Lemma fset_eq {A} (f : nat -> A) t x u : fset f t x u = if (u =? t)%nat then x else f u.
Proof. reflexivity. Qed.
Lemma dinv_init n : dinv (dinit n).
Proof.
  assert (R : forall i pc l, nth_error (repeat (DIdle, @nil dev) n) i = Some (pc, l) -> pc = DIdle /\ l = []).
  { intros i pc l H. apply nth_error_In, repeat_spec in H. now injection H as -> ->. }
  constructor; cbn [dinit d_once d_ptr d_next d_thr]; try discriminate; try reflexivity.
  - intros i pc l H. apply R in H as (-> & _). exact Logic.I.
  - intros i j pc l pc' l' t H _ B. apply R in H as (-> & _). discriminate B.
  - intros i pc l t x H J. apply R in H as (_ & ->). contradiction.
Qed.

Lemma dinv_step c i a c' : dinv c -> dstep c i a = Some c' -> dinv c'.
Proof.
  intros [Pc Un Do Fr No Ne In_ Co Ev] H. destruct c as (o, p, n, thr). cbn [d_once d_ptr d_next d_thr] in *. unfold dstep in H.
  destruct (nth_error thr i) as [(pc, l)|] eqn:N; [|discriminate H].
  assert (U : forall pc1 l1, (forall t, dbusy pc1 = Some t -> dbusy pc = Some t \/ o t <> Running) ->
    forall k j q m q' m' t, nth_error (set_nth i (pc1, l1) thr) k = Some (q, m) -> nth_error (set_nth i (pc1, l1) thr) j = Some (q', m') -> dbusy q = Some t -> dbusy q' = Some t -> k = j).
  { intros pc1 l1 Hb k j q m q' m' t A B X Y. assert (Rn : forall k q m, nth_error thr k = Some (q, m) -> dbusy q = Some t -> o t = Running).
    { intros k0 q0 m0 M Z. specialize (Pc _ _ _ M). destruct q0; try discriminate Z; injection Z as ->; tauto. }
    rewrite (nth_set_nth _ _ _ _ k N) in A. rewrite (nth_set_nth _ _ _ _ j N) in B. destruct (Nat.eqb_spec k i) as [->|Dk], (Nat.eqb_spec j i) as [->|Dj]; [reflexivity| | |].
    - injection A as <- <-. destruct (Hb t X) as [Z|Z]; [exact (Un _ _ _ _ _ _ t N B Z Y)|elim Z; exact (Rn _ _ _ B Y)].
    - injection B as <- <-. destruct (Hb t Y) as [Z|Z]; [exact (Un _ _ _ _ _ _ t A N X Z)|elim Z; exact (Rn _ _ _ A X)].
    - exact (Un _ _ _ _ _ _ t A B X Y). }
  pose proof (Pc _ _ _ N) as Hpc.
  destruct pc as [|t|t|t], a as [u|ok]; try discriminate H.
  - destruct (Nat.ltb_spec u 3) as [Lu|Lu].
    + destruct (o u) eqn:Eo; try discriminate H; injection H as <-; constructor; cbn [d_once d_ptr d_next d_thr]; auto.
      * intros k q m M. rewrite (nth_set_nth _ _ _ _ k N) in M. destruct (Nat.eqb_spec k i) as [->|Dk].
        -- injection M as <- <-. rewrite fset_eq, Nat.eqb_refl. auto.
        -- specialize (Pc _ _ _ M). destruct q; rewrite ?fset_eq; try exact Logic.I; destruct (Nat.eqb_spec t u) as [->|]; auto; exfalso; intuition congruence.
      * apply U. intros t X. injection X as ->. right. congruence.
      * intros t. rewrite fset_eq. destruct (Nat.eqb_spec t u) as [->|]; [discriminate|auto].
      * intros t. rewrite fset_eq. destruct (Nat.eqb_spec t u) as [->|]; [discriminate|auto].
      * intros k q m t x M J. rewrite (nth_set_nth _ _ _ _ k N) in M. destruct (Nat.eqb_spec k i) as [->|Dk]; [injection M as <- <-; exact (Ev _ _ _ _ _ N J)|exact (Ev _ _ _ _ _ M J)].
      * intros k q m M. rewrite (nth_set_nth _ _ _ _ k N) in M. destruct (Nat.eqb_spec k i) as [->|Dk]; [injection M as <- <-; auto|exact (Pc _ _ _ M)].
      * apply U. discriminate.
      * intros k q m t x M J. rewrite (nth_set_nth _ _ _ _ k N) in M. destruct (Nat.eqb_spec k i) as [->|Dk]; [injection M as <- <-; exact (Ev _ _ _ _ _ N J)|exact (Ev _ _ _ _ _ M J)].
    + injection H as <-; constructor; cbn [d_once d_ptr d_next d_thr]; auto.
      * intros k q m M. rewrite (nth_set_nth _ _ _ _ k N) in M. destruct (Nat.eqb_spec k i) as [->|Dk]; [injection M as <- <-; exact Logic.I|exact (Pc _ _ _ M)].
      * apply U. discriminate.
      * intros k q m t x M J. rewrite (nth_set_nth _ _ _ _ k N) in M. destruct (Nat.eqb_spec k i) as [->|Dk]; [injection M as <- <-|exact (Ev _ _ _ _ _ M J)].
        apply in_app_or in J as [J|[J|[]]]; [exact (Ev _ _ _ _ _ N J)|]. injection J as <- <-. split; [symmetry; now apply No|lia].
  - destruct Hpc as (Lt & Ho & Hp). assert (Alone : forall k q m, nth_error thr k = Some (q, m) -> k <> i -> q <> DMake t /\ q <> DLeave t /\ q <> DRead t).
    { intros k q m M D. split; [|split]; intros ->; [elim D; exact (Un _ _ _ _ _ _ t M N eq_refl eq_refl)|elim D; exact (Un _ _ _ _ _ _ t M N eq_refl eq_refl)|]. destruct (Pc _ _ _ M) as (_ & Z). congruence. }
    destruct ok; injection H as <-; constructor; cbn [d_once d_ptr d_next d_thr]; auto.
    + intros k q m M. rewrite (nth_set_nth _ _ _ _ k N) in M. destruct (Nat.eqb_spec k i) as [->|Dk].
      * injection M as <- <-. rewrite fset_eq, Nat.eqb_refl. split; [exact Lt|]. split; [exact Ho|discriminate].
      * destruct (Alone _ _ _ M Dk) as (A1 & A2 & A3). specialize (Pc _ _ _ M). destruct q as [|w|w|w]; rewrite ?fset_eq; auto; destruct (Nat.eqb_spec w t) as [->|]; auto; congruence.
    + apply U. intros w X. left. exact X.
    + intros w. rewrite fset_eq. destruct (Nat.eqb_spec w t) as [->|]; [discriminate|auto].
    + intros w. rewrite fset_eq. destruct (Nat.eqb_spec w t) as [->|]; [congruence|auto].
    + intros w L. rewrite fset_eq. destruct (Nat.eqb_spec w t) as [->|]; [lia|auto].
    + intros w d. rewrite fset_eq. destruct (Nat.eqb_spec w t) as [->|]; [intros X; injection X as <-; lia|]. intros X. specialize (Ne _ _ X). lia.
    + intros w v d. rewrite !fset_eq. destruct (Nat.eqb_spec w t) as [->|], (Nat.eqb_spec v t) as [->|]; intros X Y; auto.
      * injection X as <-. specialize (Ne _ _ Y). lia.
      * injection Y as <-. specialize (Ne _ _ X). lia.
      * exact (In_ _ _ _ X Y).
    + rewrite Co. destruct t as [|[|[|t]]]; [| | |lia]; cbn [filter]; rewrite !fset_eq; cbn [Nat.eqb]; rewrite Hp; destruct (p 0%nat), (p 1%nat), (p 2%nat); reflexivity.
    + intros k q m w x M J. assert (J' : (x = p w /\ ((w < 3)%nat -> x <> None)) /\ True).
      { split; [|trivial]. rewrite (nth_set_nth _ _ _ _ k N) in M. destruct (Nat.eqb_spec k i) as [->|Dk]; [injection M as <- <-; exact (Ev _ _ _ _ _ N J)|exact (Ev _ _ _ _ _ M J)]. }
      destruct J' as ((J1 & J2) & _). split; [|exact J2]. rewrite fset_eq. destruct (Nat.eqb_spec w t) as [->|]; [|exact J1]. elim (J2 Lt). congruence.
    + intros k q m M. rewrite (nth_set_nth _ _ _ _ k N) in M. destruct (Nat.eqb_spec k i) as [->|Dk]; [injection M as <- <-; exact Logic.I|].
      destruct (Alone _ _ _ M Dk) as (A1 & A2 & A3). specialize (Pc _ _ _ M). destruct q as [|w|w|w]; rewrite ?fset_eq; auto; destruct (Nat.eqb_spec w t) as [->|]; auto; congruence.
    + intros k j q m q' m' w A B X Y. rewrite (nth_set_nth _ _ _ _ k N) in A. rewrite (nth_set_nth _ _ _ _ j N) in B.
      destruct (Nat.eqb_spec k i) as [->|], (Nat.eqb_spec j i) as [->|]; [reflexivity|injection A as <- <-; discriminate X|injection B as <- <-; discriminate Y|exact (Un _ _ _ _ _ _ w A B X Y)].
    + intros w. rewrite fset_eq. destruct (Nat.eqb_spec w t) as [->|]; [discriminate|auto].
    + intros w. rewrite fset_eq. destruct (Nat.eqb_spec w t) as [->|]; [auto|auto].
    + intros k q m w x M J. rewrite (nth_set_nth _ _ _ _ k N) in M. destruct (Nat.eqb_spec k i) as [->|Dk]; [injection M as <- <-|exact (Ev _ _ _ _ _ M J)].
      apply in_app_or in J as [J|[J|[]]]; [exact (Ev _ _ _ _ _ N J)|discriminate J].
  - destruct Hpc as (Lt & Ho & Hp). injection H as <-; constructor; cbn [d_once d_ptr d_next d_thr]; auto.
    + intros k q m M. rewrite (nth_set_nth _ _ _ _ k N) in M. destruct (Nat.eqb_spec k i) as [->|Dk].
      * injection M as <- <-. rewrite fset_eq, Nat.eqb_refl. auto.
      * assert (A : dbusy q <> Some t) by (intros Z; elim Dk; exact (Un _ _ _ _ _ _ t M N Z eq_refl)). specialize (Pc _ _ _ M).
        destruct q as [|w|w|w]; rewrite ?fset_eq; auto; destruct (Nat.eqb_spec w t) as [->|]; auto; cbn [dbusy] in A; first [congruence|tauto].
    + apply U. discriminate.
    + intros w. rewrite fset_eq. destruct (Nat.eqb_spec w t) as [->|]; [auto|auto].
    + intros w. rewrite fset_eq. destruct (Nat.eqb_spec w t) as [->|]; [discriminate|auto].
    + intros k q m w x M J. rewrite (nth_set_nth _ _ _ _ k N) in M. destruct (Nat.eqb_spec k i) as [->|Dk]; [injection M as <- <-; exact (Ev _ _ _ _ _ N J)|exact (Ev _ _ _ _ _ M J)].
  - destruct Hpc as (Lt & Ho). injection H as <-; constructor; cbn [d_once d_ptr d_next d_thr]; auto.
    + intros k q m M. rewrite (nth_set_nth _ _ _ _ k N) in M. destruct (Nat.eqb_spec k i) as [->|Dk]; [injection M as <- <-; exact Logic.I|exact (Pc _ _ _ M)].
    + apply U. discriminate.
    + intros k q m w x M J. rewrite (nth_set_nth _ _ _ _ k N) in M. destruct (Nat.eqb_spec k i) as [->|Dk]; [injection M as <- <-|exact (Ev _ _ _ _ _ M J)].
      apply in_app_or in J as [J|[J|[]]]; [exact (Ev _ _ _ _ _ N J)|]. injection J as <- <-. split; [reflexivity|]. intros _. exact (Do _ Ho).
Qed.
Lemma dinv_run l : forall c c', dinv c -> drun c l = Some c' -> dinv c'.
Proof.
  induction l as [|(i, a) l IH]; intros c c' I H; cbn [drun] in H; [injection H as <-; exact I|]. destruct (dstep c i a) as [c1|] eqn:E; [|discriminate H].
  exact (IH c1 c' (dinv_step c i a c1 I E) H).
Qed.
Theorem decoders n l c : drun (dinit n) l = Some c ->
  (forall t x y, received c (EDec t x) -> received c (EDec t y) -> x = y) /\
  (forall t x, received c (EDec t x) -> (x = None <-> (3 <= t)%nat)) /\
  (forall t u d, received c (EDec t (Some d)) -> received c (EDec u (Some d)) -> t = u) /\
  (d_next c <= 3)%nat.
Proof.
  intros H. destruct (dinv_run l _ _ (dinv_init n) H) as [Pc Un Do Fr No Ne In_ Co Ev].
  assert (R : forall t x, received c (EDec t x) -> x = d_ptr c t /\ ((t < 3)%nat -> x <> None)) by (intros t x (i & pc & es & N & J); exact (Ev _ _ _ _ _ N J)).
  split; [|split; [|split]].
  - intros t x y A B. apply R in A as (-> & _). apply R in B as (-> & _). reflexivity.
  - intros t x A. apply R in A as (A & B). split; [intros ->; destruct (Nat.lt_ge_cases t 3) as [L|L]; [elim (B L); reflexivity|exact L]|]. intros L. rewrite A. now apply No.
  - intros t u d A B. apply R in A as (A & _). apply R in B as (B & _). exact (In_ t u d (eq_sym A) (eq_sym B)).
  - rewrite Co. cbn [filter]. destruct (d_ptr c 0%nat), (d_ptr c 1%nat), (d_ptr c 2%nat); cbn [length]; lia.
Qed.

(** ** Waiting is for another call in progress only *)
Definition dwait (c : dstate) : Prop := forall t, d_once c t = Running -> exists j q m, nth_error (d_thr c) j = Some (q, m) /\ dbusy q = Some t.
Lemma dwait_step c i a c' : dwait c -> dstep c i a = Some c' -> dwait c'.
Proof.
  intros W H. destruct c as (o, p, n, thr). unfold dwait in W. cbn [d_once d_thr] in W. unfold dstep in H.
  destruct (nth_error thr i) as [(pc, l)|] eqn:N; [|discriminate H].
  assert (Old : forall t x, dbusy pc <> Some t -> o t = Running -> exists j q m, nth_error (set_nth i x thr) j = Some (q, m) /\ dbusy q = Some t).
  { intros t x B R. destruct (W t R) as (j & q & m & M & Z). exists j, q, m. rewrite (nth_set_nth _ _ _ _ j N). destruct (Nat.eqb_spec j i) as [->|]; [congruence|auto]. }
  assert (New : forall t q m, dbusy q = Some t -> exists j q' m', nth_error (set_nth i (q, m) thr) j = Some (q', m') /\ dbusy q' = Some t).
  { intros t q m B. exists i, q, m. rewrite (nth_set_nth _ _ _ _ i N), Nat.eqb_refl. auto. }
  destruct pc as [|t|t|t], a as [u|ok]; try discriminate H; cbn [dbusy] in Old.
  - destruct (u <? 3)%nat.
    + destruct (o u) eqn:Eo; try discriminate H; injection H as <-; intros w; cbn [d_once d_thr]; rewrite ?fset_eq; [|intros R; now apply Old].
      destruct (Nat.eqb_spec w u) as [->|]; intros R; [now apply New|now apply Old].
    + injection H as <-; intros w R; cbn [d_once d_thr] in *. now apply Old.
  - destruct ok; injection H as <-; intros w; cbn [d_once d_thr]; rewrite ?fset_eq; destruct (Nat.eqb_spec w t) as [->|D]; intros R; try discriminate R; try (apply Old; [congruence|exact R]); now apply New.
  - injection H as <-; intros w; cbn [d_once d_thr]; rewrite fset_eq; destruct (Nat.eqb_spec w t) as [->|D]; intros R; [discriminate R|]. apply Old; [congruence|exact R].
  - injection H as <-; intros w R; cbn [d_once d_thr] in *. now apply Old.
Qed.
Theorem decoders_wait n l c i t : drun (dinit n) l = Some c -> (exists es, nth_error (d_thr c) i = Some (DIdle, es)) ->
  (exists c', dstep c i (DGet t) = Some c') \/ (exists j, j <> i /\ forall ok, exists c', dstep c j (DGo ok) = Some c').
Proof.
  intros H (es & N). assert (I : dwait (dinit n)) by (intros u R; discriminate R).
  assert (W : dwait c).
  { revert I H. generalize (dinit n) as c0. clear. induction l as [|(i, a) l IH]; intros c0 I H; cbn [drun] in H; [injection H as <-; exact I|].
    destruct (dstep c0 i a) as [c1|] eqn:E; [|discriminate H]. exact (IH c1 (dwait_step c0 i a c1 I E) H). }
  destruct c as (o, p, m, thr). unfold dwait in W. cbn [d_once d_thr] in *. unfold dstep. rewrite N. destruct (t <? 3)%nat; [|left; eexists; reflexivity].
  destruct (o t) eqn:Eo; [left; eexists; reflexivity| |left; eexists; reflexivity]. right. destruct (W t Eo) as (j & q & ms & M & Z). exists j. rewrite M.
  destruct q; try discriminate Z; (split; [intros ->; congruence|]); intros ok; destruct ok; eexists; reflexivity.
Qed.
Definition swait (c : sstate) : Prop := s_once c = Running -> exists j q m, nth_error (s_thr c) j = Some (q, m) /\ (q = GTest \/ q = GAssign \/ q = GLeave).
Lemma swait_step c i a c' : swait c -> sstep c i a = Some c' -> swait c'.
Proof.
  intros W H. destruct c as (g, o, thr). unfold swait in W. cbn [s_once s_thr] in W. step_cases H.
  assert (Old : forall x, ~ (pc = GTest \/ pc = GAssign \/ pc = GLeave) -> o = Running -> exists j q m, nth_error (set_nth i x thr) j = Some (q, m) /\ (q = GTest \/ q = GAssign \/ q = GLeave)).
  { intros x B R. destruct (W R) as (j & q & m & M & Z). exists j, q, m. rewrite (nth_set_nth _ _ _ _ j N). destruct (Nat.eqb_spec j i) as [->|]; [|auto]. rewrite N in M. injection M as -> ->. contradiction. }
  assert (New : forall q m, q = GTest \/ q = GAssign \/ q = GLeave -> exists j q' m', nth_error (set_nth i (q, m) thr) j = Some (q', m') /\ (q' = GTest \/ q' = GAssign \/ q' = GLeave)).
  { intros q m B. exists i, q, m. rewrite (nth_set_nth _ _ _ _ i N), Nat.eqb_refl. auto. }
  destruct pc as [|p| | | |], a as [p'| |]; try discriminate H.
  - destruct g as [s|]; injection H as <-; intros R; cbn [s_once s_thr] in *; (apply Old; [intuition discriminate|exact R]).
  - destruct o; try discriminate H; injection H as <-; intros R; cbn [s_once s_thr] in *; [apply New; auto|discriminate R].
  - injection H as <-; intros R; cbn [s_once s_thr] in *. apply Old; [intuition discriminate|exact R].
  - injection H as <-; destruct g as [s|]; intros R; cbn [s_once s_thr] in *; apply New; auto.
  - injection H as <-; intros R; cbn [s_once s_thr] in *; apply New; auto.
  - injection H as <-; intros R; discriminate R.
  - injection H as <-; intros R; cbn [s_once s_thr] in *. apply Old; [intuition discriminate|exact R].
Qed.
Theorem site_wait g n l c i : srun (sinit g n) l = Some c -> (exists es, nth_error (s_thr c) i = Some (SIdle, es)) ->
  (exists c', sstep c i AGet = Some c') \/ (exists j c', j <> i /\ sstep c j AStep = Some c').
Proof.
  intros H (es & N). assert (I : swait (sinit g n)) by (intros R; discriminate R).
  assert (W : swait c).
  { revert I H. generalize (sinit g n) as c0. clear. induction l as [|(i, a) l IH]; intros c0 I H; cbn [srun] in H; [injection H as <-; exact I|].
    destruct (sstep c0 i a) as [c1|] eqn:E; [|discriminate H]. exact (IH c1 (swait_step c0 i a c1 I E) H). }
  destruct c as (g', o, thr). unfold swait in W. cbn [s_once s_thr] in *. unfold sstep. rewrite N.
  destruct o; [left; eexists; reflexivity| |left; eexists; reflexivity]. right. destruct (W eq_refl) as (j & q & ms & M & Z). exists j. rewrite M.
  destruct Z as [->|[->| ->]]; eexists; (split; [intros ->; congruence|reflexivity]).
Qed.
