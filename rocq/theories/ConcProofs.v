(** Reads and Close at the same time. *)
From Verif Require Import Base LockModel LockProofs ConcModel.

Definition no_open (tr : list (nat * cact)) : Prop := Forall (fun x => match snd x with AOpen _ => False | _ => True end) tr.
Definition logs (c : cstate) (i : nat) : list ev := match nth_error (c_thr c) i with Some (_, l) => l | None => [] end.
Definition idle (c : cstate) (i : nat) : Prop := exists l, nth_error (c_thr c) i = Some (PIdle, l).

Definition critical (p : cpc) : bool := match p with PIn _ _ | PLoad _ _ _ | PHave _ _ _ | CIn | CTook _ | CLeave => true | _ => false end.
Definition eqo (p : option nat) (s : nat) : Z := match p with Some t => if (t =? s)%nat then 1 else 0 | None => 0 end.
Definition holds (s : nat) (x : cpc * list ev) : Z :=
  match fst x with PHave _ _ p | PUse _ _ p | CTook p => eqo p s | PDrop _ _ t => eqo (Some t) s | _ => 0 end.
Definition holders (s : nat) (thr : list (cpc * list ev)) : Z := fold_right Z.add 0 (map (holds s) thr).
Definition first_doc (p : option nat) : Prop := p = None \/ p = Some 0%nat.
Definition ev_ok (e : ev) : Prop := match e with EData d _ s => d = 0%nat /\ s = 0%nat | EOpened _ => False | _ => True end.
Definition thread_ok (op : bool) (ptr : option nat) (x : cpc * list ev) : Prop :=
  Forall ev_ok (snd x) /\ (In EClosed (snd x) -> op = false /\ ptr = None) /\
  match fst x with
  | PIdle | CFlag => True
  | PWant d _ | PIn d _ => d = 0%nat
  | PLoad d _ p => d = 0%nat /\ p = ptr
  | PHave d _ p | PUse d _ p => d = 0%nat /\ first_doc p
  | PDrop d _ s => d = 0%nat /\ s = 0%nat
  | CWant | CIn => op = false
  | CTook p => op = false /\ ptr = None /\ first_doc p
  | CLeave => op = false /\ ptr = None
  | OAssign _ | OPtr _ | OFlag _ => False
  end.
Record cinv (ext : nat -> Z) (c : cstate) : Prop := {
  i_bad : c_bad c = false; i_dir : c_dir c = 0%nat; i_ptr : first_doc (c_ptr c);
  i_cnt : forall s, c_cnt c s = ext s + eqo (c_ptr c) s + holders s (c_thr c);
  i_thr : Forall (thread_ok (c_op c) (c_ptr c)) (c_thr c);
  i_crit : forall j x, nth_error (c_thr c) j = Some x -> critical (fst x) = true -> c_lock c = Some j;
  i_lock : forall j, c_lock c = Some j -> exists x, nth_error (c_thr c) j = Some x /\ critical (fst x) = true }.

Lemma eqo_nonneg p s : 0 <= eqo p s <= 1.
Proof. unfold eqo. destruct p as [t|]; [destruct (t =? s)%nat|]; lia. Qed.
Lemma holders_nonneg s thr : 0 <= holders s thr.
Proof.
  unfold holders. induction thr as [|x thr IH]; cbn [map fold_right]; [lia|]. assert (0 <= holds s x); [|lia]. unfold holds.
  destruct (fst x); try lia; apply eqo_nonneg.
Qed.
Lemma holders_in s thr i x : nth_error thr i = Some x -> holds s x <= holders s thr.
Proof.
  revert i. induction thr as [|y thr IH]; intros [|i] H; cbn [nth_error] in H; try discriminate; unfold holders in *; cbn [map fold_right].
  - injection H as ->. pose proof (holders_nonneg s thr). unfold holders in *. lia.
  - specialize (IH _ H). assert (0 <= holds s y); [|lia]. unfold holds. destruct (fst y); try lia; apply eqo_nonneg.
Qed.
Lemma thread_at op ptr thr i x : Forall (thread_ok op ptr) thr -> nth_error thr i = Some x -> thread_ok op ptr x.
Proof. intros F H. rewrite Forall_forall in F. apply F. eapply nth_error_In. exact H. Qed.

(** the general pattern of a step of thread [i] *)
Lemma cinv_step ext c c' i pc l pc' l' : (forall s, 0 <= ext s) -> cinv ext c -> nth_error (c_thr c) i = Some (pc, l) ->
  c_thr c' = set_nth i (pc', l') (c_thr c) -> c_bad c' = false -> c_dir c' = c_dir c -> first_doc (c_ptr c') ->
  (forall s, c_cnt c' s - c_cnt c s = eqo (c_ptr c') s - eqo (c_ptr c) s + holds s (pc', l') - holds s (pc, l)) ->
  (c_ptr c' = c_ptr c \/ (critical pc = true /\ c_ptr c' = None)) -> (c_op c' = c_op c \/ c_op c' = false) ->
  thread_ok (c_op c') (c_ptr c') (pc', l') ->
  (critical pc' = critical pc /\ c_lock c' = c_lock c \/ critical pc = false /\ critical pc' = true /\ c_lock c = None /\ c_lock c' = Some i
   \/ critical pc = true /\ critical pc' = false /\ c_lock c' = None) ->
  cinv ext c'.
Proof.
  intros X [Ib Id Ip Ic It Icr Il] N Et Eb Ed Ep Ec Eq Eo Ok Lk. split; trivial.
  - congruence.
  - intros s. specialize (Ic s). specialize (Ec s). rewrite Et. unfold holders in *. rewrite (set_nth_sum (holds s) _ _ _ _ N). lia.
  - rewrite Et. apply Forall_forall. intros x Hx. apply In_nth_error in Hx as (j & Hj). rewrite (nth_set_nth _ _ _ _ j N) in Hj.
    destruct (j =? i)%nat eqn:Ej; [injection Hj as <-; exact Ok|]. pose proof (thread_at _ _ _ _ _ It Hj) as T. destruct x as [p m]. unfold thread_ok in *. cbn [fst snd] in *.
    destruct T as (T1 & T2 & T3). split; [assumption|].
    assert (Nc : critical pc = true -> critical p = false).
    { intros C. destruct (critical p) eqn:E; [|reflexivity]. pose proof (Icr _ _ N C) as A. pose proof (Icr _ _ Hj E) as B. rewrite A in B. injection B as ->. now rewrite Nat.eqb_refl in Ej. }
    split.
    + intros I. destruct (T2 I) as [A B]. split; [destruct Eo; congruence|]. destruct Eq as [E|[_ E]]; congruence.
    + destruct Eq as [E|[C E]].
      * rewrite E. destruct p; trivial; destruct Eo as [F|F]; rewrite F; tauto.
      * specialize (Nc C). destruct p; cbn [critical] in Nc; try discriminate; trivial. destruct Eo as [F|F]; rewrite F; tauto.
  - intros j x Hj Cx. rewrite Et, (nth_set_nth _ _ _ _ j N) in Hj. destruct (j =? i)%nat eqn:Ej.
    + apply Nat.eqb_eq in Ej. subst j. injection Hj as <-. cbn [fst] in Cx. destruct Lk as [[A B]|[(A & _ & _ & B)|(_ & A & _)]]; [|assumption|congruence].
      rewrite B. apply (Icr i (pc, l) N). cbn [fst]. congruence.
    + pose proof (Icr _ _ Hj Cx) as B. destruct Lk as [[A E]|[(_ & _ & A & _)|(A & _ & _)]]; [congruence|congruence|].
      pose proof (Icr _ _ N A) as B2. rewrite B in B2. injection B2 as ->. now rewrite Nat.eqb_refl in Ej.
  - intros j Hl. rewrite Et. setoid_rewrite (nth_set_nth _ _ _ _ j N). destruct Lk as [[A E]|[(_ & A & _ & E)|(_ & _ & E)]].
    + rewrite E in Hl. destruct (Il j Hl) as (x & Hx & Cx). destruct (j =? i)%nat eqn:Ej; [|eauto]. apply Nat.eqb_eq in Ej. subst j. rewrite N in Hx. injection Hx as <-.
      exists (pc', l'). split; [reflexivity|]. cbn [fst] in *. congruence.
    + rewrite E in Hl. injection Hl as <-. rewrite Nat.eqb_refl. exists (pc', l'). tauto.
    + congruence.
Qed.
Lemma bump_eqo f s x t : bump f s x t = f t + x * eqo (Some s) t.
Proof. unfold bump, eqo. rewrite (Nat.eqb_sym s t). destruct (t =? s)%nat; lia. Qed.
Lemma ev_snoc l e : Forall ev_ok l -> ev_ok e -> Forall ev_ok (l ++ [e]).
Proof. intros F E. apply Forall_app. split; [assumption|]. constructor; [assumption|constructor]. Qed.
Lemma closed_snoc (P : Prop) l e : (In EClosed l -> P) -> (e = EClosed -> P) -> In EClosed (l ++ [e]) -> P.
Proof. intros A B I. apply in_app_or in I as [I|[I|[]]]; auto. Qed.
Lemma cinv_pres ext c i a c' : (forall s, 0 <= ext s) -> cinv ext c -> (match a with AOpen _ => False | _ => True end) -> cstep c i a = Some c' -> cinv ext c'.
Proof.
  intros X I NA. pose proof I as [Ib Id Ip Ic It Icr Il]. destruct c as [op dir ptr lock cnt bad thr]. cbn [c_op c_dir c_ptr c_lock c_cnt c_bad c_thr] in *. unfold cstep.
  destruct (nth_error thr i) as [[pc l]|] eqn:N; [|discriminate]. pose proof (thread_at _ _ _ _ _ It N) as (T1 & T2 & T3). cbn [fst snd] in *.
  assert (G : forall s, 1 <= holds s (pc, l) + eqo ptr s -> gone (mkC op dir ptr lock cnt bad thr) s = false).
  { intros s H. unfold gone. cbn [c_cnt]. specialize (Ic s). specialize (X s). pose proof (holders_in s thr i _ N). pose proof (holders_nonneg s thr). pose proof (eqo_nonneg ptr s).
    destruct (cnt s <=? 0) eqn:E; [|reflexivity].
    assert (0 <= holds s (pc, l)) by (unfold holds; cbn [fst]; destruct pc; try lia; apply eqo_nonneg). lia. }
  assert (B : forall s (x : bool), gone (mkC op dir ptr lock cnt bad thr) s = false -> bad || gone (mkC op dir ptr lock cnt bad thr) s = false) by (intros s _ ->; rewrite Ib; reflexivity).
  set (c0 := mkC op dir ptr lock cnt bad thr) in *.
  destruct pc as [|d k|d k|d k p|d k p|d k p|d k s| | | |p| |d|d|d], a as [k'| |d'|]; try discriminate; try (destruct p; discriminate); try (destruct NA; fail); try (destruct T3; fail).
  - destruct op; intros E; cbv beta iota zeta in E; injection E as <-.
    + refine (cinv_step ext c0 _ i (PIdle) l (PWant dir k') (l) X I N _ _ _ _ _ _ _ _ _); cbn [c_op c_dir c_ptr c_lock c_cnt c_bad c_thr c0].
    { reflexivity. } { exact Ib. } { reflexivity. } { exact Ip. } { intros t; unfold holds; cbn [fst]; rewrite ?bump_eqo; cbn [eqo]; lia. } { left; reflexivity. } { left; reflexivity. } { split; [assumption|]; split; [assumption|]; cbn [fst]; exact Id. } { left; split; reflexivity. }
    + refine (cinv_step ext c0 _ i (PIdle) l (PIdle) (l ++ [EThrow]) X I N _ _ _ _ _ _ _ _ _); cbn [c_op c_dir c_ptr c_lock c_cnt c_bad c_thr c0].
    { reflexivity. } { exact Ib. } { reflexivity. } { exact Ip. } { intros t; unfold holds; cbn [fst]; rewrite ?bump_eqo; cbn [eqo]; lia. } { left; reflexivity. } { left; reflexivity. } { split; [now apply ev_snoc|]; split; [|exact Logic.I]; intros J; revert J; apply closed_snoc; [assumption|discriminate]. } { left; split; reflexivity. }
  - destruct op; intros E; cbv beta iota zeta in E; injection E as <-.
    + refine (cinv_step ext c0 _ i (PIdle) l (CFlag) (l) X I N _ _ _ _ _ _ _ _ _); cbn [c_op c_dir c_ptr c_lock c_cnt c_bad c_thr c0].
    { reflexivity. } { exact Ib. } { reflexivity. } { exact Ip. } { intros t; unfold holds; cbn [fst]; rewrite ?bump_eqo; cbn [eqo]; lia. } { left; reflexivity. } { left; reflexivity. } { split; [assumption|]; split; [assumption|]; cbn [fst]; exact Logic.I. } { left; split; reflexivity. }
    + refine (cinv_step ext c0 _ i (PIdle) l (PIdle) (l ++ [EThrow]) X I N _ _ _ _ _ _ _ _ _); cbn [c_op c_dir c_ptr c_lock c_cnt c_bad c_thr c0].
    { reflexivity. } { exact Ib. } { reflexivity. } { exact Ip. } { intros t; unfold holds; cbn [fst]; rewrite ?bump_eqo; cbn [eqo]; lia. } { left; reflexivity. } { left; reflexivity. } { split; [now apply ev_snoc|]; split; [|exact Logic.I]; intros J; revert J; apply closed_snoc; [assumption|discriminate]. } { left; split; reflexivity. }
  - destruct lock; [discriminate|]. intros E; cbv beta iota zeta in E; injection E as <-. refine (cinv_step ext c0 _ i (PWant d k) l (PIn d k) (l) X I N _ _ _ _ _ _ _ _ _); cbn [c_op c_dir c_ptr c_lock c_cnt c_bad c_thr c0].
    { reflexivity. } { exact Ib. } { reflexivity. } { exact Ip. } { intros t; unfold holds; cbn [fst]; rewrite ?bump_eqo; cbn [eqo]; lia. } { left; reflexivity. } { left; reflexivity. } { split; [assumption|]; split; [assumption|]; cbn [fst]; exact T3. } { right; left; repeat split. }
  - intros E; cbv beta iota zeta in E; injection E as <-. refine (cinv_step ext c0 _ i (PIn d k) l (PLoad d k ptr) (l) X I N _ _ _ _ _ _ _ _ _); cbn [c_op c_dir c_ptr c_lock c_cnt c_bad c_thr c0].
    { reflexivity. } { exact Ib. } { reflexivity. } { exact Ip. } { intros t; unfold holds; cbn [fst]; rewrite ?bump_eqo; cbn [eqo]; lia. } { left; reflexivity. } { left; reflexivity. } { split; [assumption|]; split; [assumption|]; cbn [fst]; split; [exact T3|reflexivity]. } { left; split; reflexivity. }
  - destruct T3 as [T3 Tp]. destruct p as [s|]; intros E; cbv beta iota zeta in E; injection E as <-.
    + refine (cinv_step ext c0 _ i (PLoad d k (Some s)) l (PHave d k (Some s)) (l) X I N _ _ _ _ _ _ _ _ _); cbn [c_op c_dir c_ptr c_lock c_cnt c_bad c_thr c0].
    { reflexivity. } { apply B; [exact true|]; apply G; rewrite <- Tp; unfold holds; cbn; rewrite Nat.eqb_refl; lia. } { reflexivity. } { exact Ip. } { intros t; unfold holds; cbn [fst]; rewrite ?bump_eqo; cbn [eqo]; lia. } { left; reflexivity. } { left; reflexivity. } { split; [assumption|]; split; [assumption|]; cbn [fst]; split; [exact T3|rewrite Tp; exact Ip]. } { left; split; reflexivity. }
    + refine (cinv_step ext c0 _ i (PLoad d k None) l (PHave d k None) (l) X I N _ _ _ _ _ _ _ _ _); cbn [c_op c_dir c_ptr c_lock c_cnt c_bad c_thr c0].
    { reflexivity. } { exact Ib. } { reflexivity. } { exact Ip. } { intros t; unfold holds; cbn [fst]; rewrite ?bump_eqo; cbn [eqo]; lia. } { left; reflexivity. } { left; reflexivity. } { split; [assumption|]; split; [assumption|]; cbn [fst]; split; [exact T3|now left]. } { left; split; reflexivity. }
  - intros E; cbv beta iota zeta in E; injection E as <-. refine (cinv_step ext c0 _ i (PHave d k p) l (PUse d k p) (l) X I N _ _ _ _ _ _ _ _ _); cbn [c_op c_dir c_ptr c_lock c_cnt c_bad c_thr c0].
    { reflexivity. } { exact Ib. } { reflexivity. } { exact Ip. } { intros t; unfold holds; cbn [fst]; rewrite ?bump_eqo; cbn [eqo]; lia. } { left; reflexivity. } { left; reflexivity. } { split; [assumption|]; split; [assumption|]; cbn [fst]; exact T3. } { right; right; repeat split. }
  - destruct T3 as [T3 Tp]. destruct p as [s|]; intros E; cbv beta iota zeta in E; injection E as <-.
    + refine (cinv_step ext c0 _ i (PUse d k (Some s)) l (PDrop d k s) (l) X I N _ _ _ _ _ _ _ _ _); cbn [c_op c_dir c_ptr c_lock c_cnt c_bad c_thr c0].
    { reflexivity. } { apply B; [exact true|]; apply G; unfold holds; cbn; rewrite Nat.eqb_refl; pose proof (eqo_nonneg ptr s); lia. } { reflexivity. } { exact Ip. } { intros t; unfold holds; cbn [fst]; rewrite ?bump_eqo; cbn [eqo]; lia. } { left; reflexivity. } { left; reflexivity. } { split; [assumption|]; split; [assumption|]; cbn [fst]; split; [exact T3|destruct Tp as [Tp|Tp]; [discriminate|now injection Tp]]. } { left; split; reflexivity. }
    + refine (cinv_step ext c0 _ i (PUse d k None) l (PIdle) (l ++ [EThrow]) X I N _ _ _ _ _ _ _ _ _); cbn [c_op c_dir c_ptr c_lock c_cnt c_bad c_thr c0].
    { reflexivity. } { exact Ib. } { reflexivity. } { exact Ip. } { intros t; unfold holds; cbn [fst]; rewrite ?bump_eqo; cbn [eqo]; lia. } { left; reflexivity. } { left; reflexivity. } { split; [now apply ev_snoc|]; split; [|exact Logic.I]; intros J; revert J; apply closed_snoc; [assumption|discriminate]. } { left; split; reflexivity. }
  - intros E; cbv beta iota zeta in E; injection E as <-. refine (cinv_step ext c0 _ i (PDrop d k s) l (PIdle) (l ++ [EData d k s]) X I N _ _ _ _ _ _ _ _ _); cbn [c_op c_dir c_ptr c_lock c_cnt c_bad c_thr c0].
    { reflexivity. } { apply B; [exact true|]; apply G; unfold holds; cbn; rewrite Nat.eqb_refl; pose proof (eqo_nonneg ptr s); lia. } { reflexivity. } { exact Ip. } { intros t; unfold holds; cbn [fst]; rewrite ?bump_eqo; cbn [eqo]; lia. } { left; reflexivity. } { left; reflexivity. } { split; [now apply ev_snoc|]; split; [|exact Logic.I]; intros J; revert J; apply closed_snoc; [assumption|discriminate]. } { left; split; reflexivity. }
  - intros E; cbv beta iota zeta in E; injection E as <-. refine (cinv_step ext c0 _ i (CFlag) l (CWant) (l) X I N _ _ _ _ _ _ _ _ _); cbn [c_op c_dir c_ptr c_lock c_cnt c_bad c_thr c0].
    { reflexivity. } { exact Ib. } { reflexivity. } { exact Ip. } { intros t; unfold holds; cbn [fst]; rewrite ?bump_eqo; cbn [eqo]; lia. } { left; reflexivity. } { right; reflexivity. } { split; [assumption|]; split; [intros J; destruct (T2 J); split; [reflexivity|assumption]|reflexivity]. } { left; split; reflexivity. }
  - destruct lock; [discriminate|]. intros E; cbv beta iota zeta in E; injection E as <-. refine (cinv_step ext c0 _ i (CWant) l (CIn) (l) X I N _ _ _ _ _ _ _ _ _); cbn [c_op c_dir c_ptr c_lock c_cnt c_bad c_thr c0].
    { reflexivity. } { exact Ib. } { reflexivity. } { exact Ip. } { intros t; unfold holds; cbn [fst]; rewrite ?bump_eqo; cbn [eqo]; lia. } { left; reflexivity. } { left; reflexivity. } { split; [assumption|]; split; [assumption|]; cbn [fst]; exact T3. } { right; left; repeat split. }
  - intros E; cbv beta iota zeta in E; injection E as <-. refine (cinv_step ext c0 _ i (CIn) l (CTook ptr) (l) X I N _ _ _ _ _ _ _ _ _); cbn [c_op c_dir c_ptr c_lock c_cnt c_bad c_thr c0].
    { reflexivity. } { exact Ib. } { reflexivity. } { now left. } { intros t; unfold holds; cbn [fst]; change (eqo None t) with 0; lia. } { right; split; reflexivity. } { left; reflexivity. } { split; [assumption|]; split; [intros J; destruct (T2 J); split; [assumption|reflexivity]|]; split; [exact T3|split; [reflexivity|exact Ip]]. } { left; split; reflexivity. }
  - destruct T3 as (T3 & Tq & Tp). destruct p as [s|]; intros E; cbv beta iota zeta in E; injection E as <-.
    + refine (cinv_step ext c0 _ i (CTook (Some s)) l (CLeave) (l) X I N _ _ _ _ _ _ _ _ _); cbn [c_op c_dir c_ptr c_lock c_cnt c_bad c_thr c0].
    { reflexivity. } { apply B; [exact true|]; apply G; unfold holds; cbn; rewrite Nat.eqb_refl; pose proof (eqo_nonneg ptr s); lia. } { reflexivity. } { exact Ip. } { intros t; unfold holds; cbn [fst]; rewrite ?bump_eqo; cbn [eqo]; lia. } { left; reflexivity. } { left; reflexivity. } { split; [assumption|]; split; [assumption|]; cbn [fst]; split; assumption. } { left; split; reflexivity. }
    + refine (cinv_step ext c0 _ i (CTook None) l (CLeave) (l) X I N _ _ _ _ _ _ _ _ _); cbn [c_op c_dir c_ptr c_lock c_cnt c_bad c_thr c0].
    { reflexivity. } { exact Ib. } { reflexivity. } { exact Ip. } { intros t; unfold holds; cbn [fst]; rewrite ?bump_eqo; cbn [eqo]; lia. } { left; reflexivity. } { left; reflexivity. } { split; [assumption|]; split; [assumption|]; cbn [fst]; split; assumption. } { left; split; reflexivity. }
  - intros E; cbv beta iota zeta in E; injection E as <-. refine (cinv_step ext c0 _ i (CLeave) l (PIdle) (l ++ [EClosed]) X I N _ _ _ _ _ _ _ _ _); cbn [c_op c_dir c_ptr c_lock c_cnt c_bad c_thr c0].
    { reflexivity. } { exact Ib. } { reflexivity. } { exact Ip. } { intros t; unfold holds; cbn [fst]; rewrite ?bump_eqo; cbn [eqo]; lia. } { left; reflexivity. } { left; reflexivity. } { split; [now apply ev_snoc|]; split; [|exact Logic.I]; intros _; exact T3. } { right; right; repeat split. }
Qed.

Lemma cinv_start ext n : cinv ext (cstart ext n).
Proof.
  assert (H0 : forall s, holders s (repeat (PIdle, []) n) = 0) by (intros s; unfold holders; induction n; cbn [repeat map fold_right]; unfold holds in *; cbn [fst] in *; lia).
  assert (Hn : forall j x, nth_error (repeat (PIdle, @nil ev) n) j = Some x -> x = (PIdle, [])) by (intros j x H; apply nth_error_In in H; now apply repeat_spec in H).
  split; unfold cstart; cbn [c_op c_dir c_ptr c_lock c_cnt c_bad c_thr]; trivial.
  - now right.
  - intros s. rewrite bump_eqo, H0. lia.
  - apply Forall_forall. intros x I. apply repeat_spec in I. subst x. repeat split; [constructor|destruct H|destruct H].
  - intros j x H C. apply Hn in H. subst x. discriminate C.
  - discriminate.
Qed.
Lemma crun_app c a b : crun c (a ++ b) = match crun c a with Some c1 => crun c1 b | None => None end.
Proof. revert c. induction a as [|[i x] a IH]; intros c; cbn [app crun]; [reflexivity|]. destruct (cstep c i x); auto. Qed.
Lemma cinv_run ext tr : forall c c', (forall s, 0 <= ext s) -> cinv ext c -> no_open tr -> crun c tr = Some c' -> cinv ext c'.
Proof.
  induction tr as [|[i a] tr IH]; intros c c' X I N; cbn [crun]; [now injection 1 as <-|]. inversion N as [|? ? N1 N2]; subst. destruct (cstep c i a) as [c1|] eqn:E; [|discriminate].
  apply IH; trivial. eapply cinv_pres; eauto.
Qed.
Definition at_rest (c : cstate) : Prop := forall i, (i < length (c_thr c))%nat -> idle c i.

Lemma close_safe_run : forall ext n tr c, (forall s, 0 <= ext s) -> no_open tr -> crun (cstart ext n) tr = Some c ->
  c_bad c = false /\
  (forall i e, In e (logs c i) -> match e with EData d k s => d = 0%nat /\ s = 0%nat | EOpened _ => False | _ => True end) /\
  (forall i, In EClosed (logs c i) -> at_rest c -> c_cnt c 0%nat = ext 0%nat) /\
  (forall i, (i < length (c_thr c))%nat -> ~ idle c i -> exists j c', cstep c j AGo = Some c').
Proof.
  intros ext n tr c X N R. pose proof (cinv_run ext tr _ _ X (cinv_start ext n) N R) as I. split; [apply (i_bad _ _ I)|]. split; [|split].
  - intros i e. unfold logs. destruct (nth_error (c_thr c) i) as [[p l]|] eqn:E; [|intros []]. intros H. pose proof (thread_at _ _ _ _ _ (i_thr _ _ I) E) as (F & _).
    cbn [snd] in F. rewrite Forall_forall in F. exact (F e H).
  - intros i H A. rewrite (i_cnt _ _ I). unfold logs in H. destruct (nth_error (c_thr c) i) as [[p l]|] eqn:E; [|destruct H].
    pose proof (thread_at _ _ _ _ _ (i_thr _ _ I) E) as (_ & F & _). cbn [snd] in F. destruct (F H) as [_ ->]. cbn [eqo].
    assert (Z0 : holders 0 (c_thr c) = 0); [|lia]. unfold holders. unfold at_rest, idle in A. clear -A. induction (c_thr c) as [|x l IH]; [reflexivity|]. cbn [map fold_right].
    destruct (A 0%nat) as (y & Hy); [cbn; lia|]. cbn [nth_error] in Hy. injection Hy as ->. rewrite IH; [reflexivity|]. intros i Hi. apply (A (S i)). cbn. lia.
  - intros i Hi Ni. destruct (nth_error (c_thr c) i) as [[pc l]|] eqn:E; [|apply nth_error_None in E; lia].
    assert (G : forall j y, nth_error (c_thr c) j = Some y -> critical (fst y) = true -> exists c', cstep c j AGo = Some c').
    { intros j [p m] Hj C. destruct c as [op dir ptr lock cnt bad thr]. cbn [c_thr] in Hj. unfold cstep. rewrite Hj. cbn [fst] in C.
      destruct p as [|d k|d k|d k q|d k q|d k q|d k s| | | |q| |d|d|d]; try discriminate C; try (destruct q); eauto. }
    destruct (critical pc) eqn:C; [exists i; exact (G i _ E C)|].
    pose proof (thread_at _ _ _ _ _ (i_thr _ _ I) E) as (_ & _ & T). cbn [fst] in T.
    destruct (c_lock c) as [j|] eqn:L.
    + destruct (i_lock _ _ I j L) as (x & Hx & Cx). exists j. exact (G j x Hx Cx).
    + exists i. destruct c as [op dir ptr lock cnt bad thr]. cbn [c_thr c_lock] in *. subst lock. unfold cstep. rewrite E.
      destruct pc as [|d k|d k|d k q|d k q|d k q|d k s| | | |q| |d|d|d]; try discriminate C; try (destruct q); eauto; try destruct T.
      all: try (exfalso; apply Ni; exists l; exact E).
Qed.
Lemma op_stays c i a c' : (match a with AOpen _ => False | _ => True end) -> Forall (thread_ok (c_op c) (c_ptr c)) (c_thr c) -> c_op c = false -> cstep c i a = Some c' -> c_op c' = false.
Proof.
  intros NA F O. destruct c as [op dir ptr lock cnt bad thr]. cbn [c_op c_thr c_ptr] in *. subst op. unfold cstep. destruct (nth_error thr i) as [[pc l]|] eqn:N; [|discriminate].
  pose proof (thread_at _ _ _ _ _ F N) as (_ & _ & T). cbn [fst] in T.
  destruct pc as [|d k|d k|d k q|d k q|d k q|d k s| | | |q| |d|d|d], a; try discriminate; try (destruct q; discriminate); try (destruct NA; fail); try (destruct T; fail); try (destruct q); try (destruct lock; [discriminate|]);
    intros E; cbv beta iota zeta in E; injection E as <-; reflexivity.
Qed.
Lemma idle_throws c i a c' j : (match a with AOpen _ => False | _ => True end) -> c_op c = false -> idle c i -> cstep c j a = Some c' ->
  idle c' i /\ (logs c' i = logs c i \/ logs c' i = logs c i ++ [EThrow]).
Proof.
  intros NA O (l & L) E. destruct c as [op dir ptr lock cnt bad thr]. cbn [c_op c_thr] in *. subst op. unfold cstep in E. destruct (nth_error thr j) as [[pc m]|] eqn:N; [|discriminate].
  unfold idle, logs. cbn [c_thr]. rewrite L. destruct (Nat.eq_dec j i) as [->|D].
  - rewrite L in N. injection N as <- <-. destruct a; try discriminate; try (destruct NA; fail); injection E as <-; cbn [c_thr];
      rewrite (nth_set_nth _ _ _ _ i L), Nat.eqb_refl; (split; [eauto|now right]).
  - assert (K : nth_error (c_thr c') i = Some (PIdle, l)); [|rewrite K; split; [eauto|now left]].
    assert (S : forall p q, nth_error (set_nth j (p, q) thr) i = Some (PIdle, l)) by (intros p q; rewrite (nth_set_nth _ _ _ _ i N); destruct (i =? j)%nat eqn:B; [apply Nat.eqb_eq in B; congruence|exact L]).
    destruct pc as [|d k|d k|d k q|d k q|d k q|d k s| | | |q| |d|d|d], a; try discriminate; try (destruct q; discriminate); try (destruct q); try (destruct lock; try discriminate);
      cbv beta iota zeta in E; injection E as <-; cbn [c_thr]; apply S.
Qed.
Lemma closed_throws_run : forall ext n tr1 c1 j i tr2 c2, (forall s, 0 <= ext s) -> no_open tr1 -> no_open tr2 ->
  crun (cstart ext n) tr1 = Some c1 -> In EClosed (logs c1 j) -> idle c1 i -> crun c1 tr2 = Some c2 ->
  exists l, logs c2 i = logs c1 i ++ l /\ Forall (fun e => e = EThrow) l.
Proof.
  intros ext n tr1 c1 j i tr2 c2 X N1 N2 R1 H Id. pose proof (cinv_run ext tr1 _ _ X (cinv_start ext n) N1 R1) as I.
  assert (O : c_op c1 = false).
  { unfold logs in H. destruct (nth_error (c_thr c1) j) as [[p l]|] eqn:E; [|destruct H]. pose proof (thread_at _ _ _ _ _ (i_thr _ _ I) E) as (_ & F & _). apply F. exact H. }
  clear R1 H. revert c1 I O Id. induction tr2 as [|[m a] tr2 IH]; intros c1 I O Id; cbn [crun].
  - injection 1 as <-. exists []. split; [now rewrite app_nil_r|constructor].
  - inversion N2 as [|? ? M1 M2]; subst. destruct (cstep c1 m a) as [c|] eqn:E; [|discriminate]. intros R. cbn [snd] in M1.
    destruct (idle_throws c1 i a c m M1 O Id E) as [Id' Lg]. destruct (IH M2 c (cinv_pres ext _ _ _ _ X I M1 E) (op_stays _ _ _ _ M1 (i_thr _ _ I) O E) Id' R) as (l & E1 & E2).
    destruct Lg as [Lg|Lg]; rewrite Lg in E1; [eauto|]. exists (EThrow :: l). split; [rewrite E1, <- app_assoc; reflexivity|]. constructor; trivial.
Qed.

(** ** Witnesses: opening another document while a read is on its way *)
Definition go (i : nat) (k : nat) : list (nat * cact) := repeat (i, AGo) k.
Definition wrong_trace : list (nat * cact) := [(0%nat, ARead 5); (1%nat, AClose)] ++ go 1 5 ++ [(1%nat, AOpen 1)] ++ go 1 3 ++ go 0 6.
Lemma wrong_stream : exists c, crun (cstart (fun _ => 1) 2) wrong_trace = Some c /\ c_bad c = false /\ logs c 0 = [EData 0 5 1] /\ logs c 1 = [EClosed; EOpened 1].
Proof. eexists. split; [vm_compute; reflexivity|]. vm_compute. tauto. Qed.
Definition race_trace : list (nat * cact) := [(0%nat, ARead 5); (1%nat, AClose)] ++ go 1 5 ++ [(1%nat, AOpen 1)] ++ go 1 1 ++ go 0 1 ++ go 1 1.
Lemma open_race : exists c, crun (cstart (fun _ => 1) 2) race_trace = Some c /\ c_bad c = true.
Proof. eexists. split; [vm_compute; reflexivity|]. vm_compute. reflexivity. Qed.
(** a read and Close which overlap, the read being the first to lock *)
Definition overlap_trace : list (nat * cact) := [(0%nat, ARead 5); (1%nat, AClose)] ++ go 0 4 ++ go 1 5 ++ [(1%nat, ARead 2)] ++ go 0 2.
Lemma overlap : exists c, crun (cstart (fun _ => 0) 2) overlap_trace = Some c /\ no_open overlap_trace /\ logs c 0 = [EData 0 5 0] /\ logs c 1 = [EClosed; EThrow] /\ c_cnt c 0%nat = 0 /\ at_rest c.
Proof.
  eexists. split; [vm_compute; reflexivity|]. split; [repeat constructor|]. split; [reflexivity|]. split; [reflexivity|]. split; [reflexivity|].
  intros i Hi. cbn in Hi. destruct i as [|[|]]; [eexists; reflexivity|eexists; reflexivity|lia].
Qed.
