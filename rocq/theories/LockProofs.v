(** Proofs about lock counting. *)
From Verif Require Import Base LockModel.

Definition outstanding (ts : list lthread) : Z := fold_right Z.add 0 (map held ts).
Definition undoing (t : lthread) : Z := match lt_pc t with LUndo => 1 | LOut => 0 end.
Definition pending (ts : list lthread) : Z := fold_right Z.add 0 (map undoing ts).

Lemma set_nth_sum {A} (f : A -> Z) (ts : list A) i t t' : nth_error ts i = Some t ->
  fold_right Z.add 0 (map f (set_nth i t' ts)) = fold_right Z.add 0 (map f ts) - f t + f t'.
Proof.
  unfold set_nth. revert i. induction ts as [|x ts IH]; intros [|i] H; try discriminate; cbn [nth_error] in H.
  - inversion H; subst. cbn [firstn skipn app map fold_right]. lia.
  - specialize (IH _ H). cbn [firstn skipn app map fold_right] in *. lia.
Qed.
Lemma set_nth_forall {A} (P : A -> Prop) (ts : list A) i t' : Forall P ts -> P t' -> Forall P (set_nth i t' ts).
Proof.
  intros F H. unfold set_nth. apply Forall_app. split.
  - apply Forall_forall. intros x I. rewrite Forall_forall in F. apply F. rewrite <- (firstn_skipn i ts). apply in_or_app. auto.
  - constructor; auto. apply Forall_forall. intros x I. rewrite Forall_forall in F. apply F. rewrite <- (firstn_skipn (S i) ts).
    apply in_or_app. auto.
Qed.

(** In every state of every execution: the counter is the number of outstanding locks less the number of
    violations which are about to be undone. *)
Lemma count_exact_step s i a s' : lstep s i a s' ->
  lk_cnt s = outstanding (lk_thr s) - pending (lk_thr s) -> lk_cnt s' = outstanding (lk_thr s') - pending (lk_thr s').
Proof.
  unfold outstanding, pending. destruct 1; cbn [lk_cnt lk_thr]; intros E;
    match goal with H : nth_error _ _ = Some _ |- _ =>
      rewrite (set_nth_sum held _ _ _ _ H), (set_nth_sum undoing _ _ _ _ H) end; cbn [held undoing lt_pc]; lia.
Qed.
Lemma start_sums n : outstanding (lk_thr (lstart n)) = 0 /\ pending (lk_thr (lstart n)) = 0.
Proof. unfold outstanding, pending, lstart; cbn [lk_thr]. induction n; cbn [repeat map fold_right held undoing lt_pc]; lia. Qed.

Lemma count_exact_run s tr s' : lrun s tr s' ->
  lk_cnt s = outstanding (lk_thr s) - pending (lk_thr s) -> lk_cnt s' = outstanding (lk_thr s') - pending (lk_thr s').
Proof. induction 1; auto. intros E. apply IHlrun. eapply count_exact_step; eauto. Qed.

Theorem count_exact n tr s : lrun (lstart n) tr s -> lk_cnt s = outstanding (lk_thr s) - pending (lk_thr s).
Proof. intros R. apply (count_exact_run _ _ _ R). destruct (start_sums n) as [-> ->]. reflexivity. Qed.

(** A schedule is balanced if in every prefix no thread has called Unlock more often than Lock. *)
Definition calls (a : lact) (i : nat) (tr : list (nat * lact)) : Z :=
  Z.of_nat (length (filter (fun x => (fst x =? i)%nat && match snd x, a with ALock, ALock => true | AUnlock, AUnlock => true | _, _ => false end) tr)).
Definition balanced (tr : list (nat * lact)) : Prop :=
  forall a b, tr = a ++ b -> forall i, calls AUnlock i a <= calls ALock i a.

Definition calm (t : lthread) : Prop := lt_pc t = LOut /\ threw t = 0 /\ 0 <= held t.

Lemma lrun_app s a b s' : lrun s (a ++ b) s' <-> exists s1, lrun s a s1 /\ lrun s1 b s'.
Proof.
  revert s. induction a as [|[i x] a IH]; intros s; cbn [app].
  - split; [intros R; exists s; split; [constructor|auto]|]. intros (s1 & R1 & R2). inversion R1; subst. auto.
  - split.
    + intros R. inversion R; subst. apply IH in H5. destruct H5 as (s3 & R1 & R2). exists s3. split; auto. econstructor; eauto.
    + intros (s3 & R1 & R2). inversion R1; subst. econstructor; eauto. apply IH. eauto.
Qed.

Lemma calls_app a i x y : calls a i (x ++ y) = calls a i x + calls a i y.
Proof. unfold calls. rewrite filter_app, app_length. lia. Qed.

Lemma balanced_prefix a b : balanced (a ++ b) -> balanced a.
Proof. intros B x y E i. apply (B x (y ++ b)). rewrite E, app_assoc. reflexivity. Qed.

Lemma nth_set_nth {A} (ts : list A) i t t' j : nth_error ts i = Some t ->
  nth_error (set_nth i t' ts) j = if (j =? i)%nat then Some t' else nth_error ts j.
Proof.
  unfold set_nth. revert i j. induction ts as [|x ts IH]; intros [|i] [|j] H; try discriminate; cbn [nth_error] in H; cbn; auto.
  apply (IH _ _ H).
Qed.

Lemma forall_nth {A} (P : A -> Prop) ts i t : Forall P ts -> nth_error ts i = Some t -> P t.
Proof. intros F H. rewrite Forall_forall in F. apply F. eapply nth_error_In; eauto. Qed.

Theorem balanced_calm n tr s : lrun (lstart n) tr s -> balanced tr ->
  Forall calm (lk_thr s) /\ (forall i t, nth_error (lk_thr s) i = Some t -> held t = calls ALock i tr - calls AUnlock i tr).
Proof.
  revert s. induction tr as [|[i a] tr IH] using rev_ind; intros s R B.
  - inversion R; subst. unfold lstart; cbn [lk_thr]. split.
    + apply Forall_forall. intros t I. apply repeat_spec in I. subst. repeat split; cbn; lia.
    + intros i t H. apply nth_error_In in H. apply repeat_spec in H. subst. reflexivity.
  - apply lrun_app in R. destruct R as (s1 & R1 & R2). inversion R2 as [|? ? ? ? ? ? ST R3]; subst. inversion R3; subst. clear R2 R3.
    destruct (IH _ R1 (balanced_prefix _ _ B)) as [F Hh].
    pose proof (count_exact _ _ _ R1) as CE.
    assert (P0 : pending (lk_thr s1) = 0).
    { clear - F. unfold pending. induction F as [|t ts [E _] F IH]; cbn [map fold_right]; auto.
      unfold undoing at 1. rewrite E. lia. }
    pose proof (B _ _ (eq_sym (app_nil_r (tr ++ [(i, a)]))) i) as Bal. rewrite !calls_app in Bal.
    assert (Gen : forall t t' ts' c c', nth_error (lk_thr s1) i = Some t -> s1 = mkLState c (lk_thr s1) -> s = mkLState c' ts' ->
              ts' = set_nth i t' (lk_thr s1) -> calm t' -> held t' = held t + calls ALock i [(i, a)] - calls AUnlock i [(i, a)] ->
              (Forall calm (lk_thr s) /\ (forall j u, nth_error (lk_thr s) j = Some u ->
                 held u = calls ALock j (tr ++ [(i, a)]) - calls AUnlock j (tr ++ [(i, a)])))).
    { intros t t' ts' c c' N E1 E2 E3 Ct Eh. subst s ts'. cbn [lk_thr]. split; [apply set_nth_forall; auto|].
      intros j u. rewrite (nth_set_nth _ _ _ _ j N). destruct (j =? i)%nat eqn:Eji.
      - apply Nat.eqb_eq in Eji. subst j. intros X. inversion X; subst u. rewrite Eh, !calls_app, (Hh _ _ N). lia.
      - intros X. rewrite (Hh _ _ X), !calls_app. unfold calls. cbn [filter fst snd].
        rewrite Nat.eqb_sym, Eji. cbn [andb length]. lia. }
    destruct ST; cbn [lk_thr lk_cnt] in *; pose proof (forall_nth _ _ _ _ F H) as [C1 [C2 C3]]; cbn [lt_pc threw held] in C1, C2, C3.
    + eapply Gen; eauto.
      * repeat split; cbn; lia.
      * cbn [held]. unfold calls. cbn [filter fst snd]. rewrite Nat.eqb_refl. cbn. lia.
    + assert (Q1 : calls ALock i [(i, AUnlock)] = 0) by (unfold calls; cbn [filter fst snd]; rewrite Nat.eqb_refl; reflexivity).
      assert (Q2 : calls AUnlock i [(i, AUnlock)] = 1) by (unfold calls; cbn [filter fst snd]; rewrite Nat.eqb_refl; reflexivity).
      pose proof (Hh _ _ H) as Hi. cbn [held] in Hi. eapply Gen; eauto.
      * repeat split; cbn [lt_pc threw held]; lia.
      * cbn [held]. lia.
    + exfalso.
      assert (Q1 : calls ALock i [(i, AUnlock)] = 0) by (unfold calls; cbn [filter fst snd]; rewrite Nat.eqb_refl; reflexivity).
      assert (Q2 : calls AUnlock i [(i, AUnlock)] = 1) by (unfold calls; cbn [filter fst snd]; rewrite Nat.eqb_refl; reflexivity).
      pose proof (Hh _ _ H) as Hi. cbn [held] in Hi.
      assert (O : held (mkLThread LOut h w) <= outstanding ts).
      { clear - F H. unfold outstanding. revert i H. induction F as [|t ts [_ [_ E]] F IH]; intros [|i] H; try discriminate; cbn [nth_error] in H.
        - inversion H; subst. cbn [map fold_right].
          assert (0 <= fold_right Z.add 0 (map held ts)); [|lia].
          clear - F. induction F as [|t ts [_ [_ E]] F IH]; cbn [map fold_right]; lia.
        - specialize (IH _ H). cbn [map fold_right]. lia. }
      cbn [held] in O. lia.
    + discriminate.
Qed.

(** Balanced use: nobody throws and the count is the number of outstanding locks. *)
Theorem balanced_locks n tr s : lrun (lstart n) tr s -> balanced tr ->
  (forall t, In t (lk_thr s) -> threw t = 0 /\ lt_pc t = LOut) /\
  lk_cnt s = fold_right Z.add 0 (map (fun i => calls ALock i tr - calls AUnlock i tr) (seq 0 n)).
Proof.
  intros R B. destruct (balanced_calm _ _ _ R B) as [F Hh]. split.
  - intros t I. rewrite Forall_forall in F. destruct (F _ I) as (A & Bq & _). auto.
  - rewrite (count_exact _ _ _ R).
    assert (P0 : pending (lk_thr s) = 0).
    { clear - F. unfold pending. induction F as [|t ts [E _] F IH]; cbn [map fold_right]; auto.
      unfold undoing at 1. rewrite E. lia. }
    rewrite P0. unfold outstanding.
    assert (L : length (lk_thr s) = n).
    { clear - R. assert (G : forall s0 tr s, lrun s0 tr s -> length (lk_thr s) = length (lk_thr s0)).
      { induction 1; auto. rewrite IHlrun. clear - H. destruct H; cbn [lk_thr]; unfold set_nth;
        assert (X : (i < length ts)%nat) by (apply nth_error_Some; congruence);
        rewrite app_length, firstn_length; cbn [length]; rewrite skipn_length; lia. }
      rewrite (G _ _ _ R). unfold lstart; cbn [lk_thr]. apply repeat_length. }
    rewrite <- L. clear L. rewrite Z.sub_0_r. f_equal.
    apply nth_ext with (d := 0) (d' := 0); [now rewrite !map_length, seq_length|].
    intros k Hk. rewrite map_length in Hk.
    destruct (nth_error (lk_thr s) k) as [t|] eqn:E; [|apply nth_error_None in E; lia].
    rewrite (nth_error_nth _ _ _ (map_nth_error held _ _ E)).
    assert (E2 : nth_error (seq 0 (length (lk_thr s))) k = Some k).
    { rewrite (nth_error_nth' _ 0%nat) by (rewrite seq_length; lia). rewrite seq_nth by lia. reflexivity. }
    rewrite (nth_error_nth _ _ _ (map_nth_error (fun i => calls ALock i tr - calls AUnlock i tr) _ _ E2)).
    apply Hh. exact E.
Qed.

(** Alone: a surplus Unlock throws and leaves the count unchanged. *)
Theorem surplus_unlock_alone n tr s i t : lrun (lstart n) tr s -> nth_error (lk_thr s) i = Some t ->
  lk_cnt s = 0 -> pending (lk_thr s) = 0 ->
  forall s1 s2, lstep s i AUnlock s1 -> lstep s1 i AUndo s2 ->
  lk_cnt s2 = lk_cnt s /\ nth_error (lk_thr s2) i = Some (mkLThread LOut (held t) (threw t + 1)).
Proof.
  intros R N C P s1 s2 S1 S2. inversion S1; subst; cbn [lk_thr lk_cnt] in *; [lia|].
  rewrite H in N. inversion N; subst t. inversion S2 as [| | |c2 ts2 i2 h2 w2 H2]; subst. cbn [lk_cnt lk_thr] in *.
  rewrite (nth_set_nth _ _ _ _ i H), Nat.eqb_refl in H2. inversion H2; subst. split; [lia|].
  rewrite (nth_set_nth _ _ (mkLThread LUndo h2 w2)).
  - rewrite Nat.eqb_refl. reflexivity.
  - rewrite (nth_set_nth _ _ _ _ i H), Nat.eqb_refl. reflexivity.
Qed.

(** Such an Unlock cannot do anything else. *)
Lemma surplus_unlock_throws s i s1 : lstep s i AUnlock s1 -> lk_cnt s = 0 ->
  exists h w, nth_error (lk_thr s1) i = Some (mkLThread LUndo h w).
Proof.
  intros S C. inversion S; subst; cbn [lk_cnt lk_thr] in *; [lia|].
  exists h, w. rewrite (nth_set_nth _ _ _ _ i H), Nat.eqb_refl. reflexivity.
Qed.

(** Thread 0 unlocks without having locked; thread 1 locks and unlocks; thread 1's Unlock throws. *)
Definition bad_trace : list (nat * lact) := [(0%nat, AUnlock); (1%nat, ALock); (1%nat, AUnlock); (0%nat, AUndo); (1%nat, AUndo)].
Lemma bad_run : lrun (lstart 2) bad_trace (mkLState 1 [mkLThread LOut 0 1; mkLThread LOut 1 1]).
Proof.
  unfold bad_trace, lstart; cbn [repeat].
  eapply LRcons; [apply LBad; [reflexivity|lia]|]. cbn.
  eapply LRcons; [apply LLock; reflexivity|]. cbn.
  eapply LRcons; [apply LBad; [reflexivity|lia]|]. cbn.
  eapply LRcons; [apply LThrow; reflexivity|]. cbn.
  eapply LRcons; [apply LThrow; reflexivity|]. cbn.
  constructor.
Qed.
Lemma surplus_disturbs :
  exists tr s t1, lrun (lstart 2) tr s /\
    (forall a b, tr = a ++ b -> calls AUnlock 1 a <= calls ALock 1 a) /\ calls AUnlock 1 tr = calls ALock 1 tr /\
    nth_error (lk_thr s) 1 = Some t1 /\ threw t1 = 1 /\ lk_cnt s = 1 /\ pending (lk_thr s) = 0.
Proof.
  exists bad_trace, (mkLState 1 [mkLThread LOut 0 1; mkLThread LOut 1 1]), (mkLThread LOut 1 1).
  split; [exact bad_run|]. split; [|repeat split].
  intros a b E.
  assert (X : a = firstn (length a) bad_trace) by (rewrite E, firstn_app, Nat.sub_diag, firstn_all, firstn_O, app_nil_r; reflexivity).
  assert (L : (length a <= 5)%nat) by (apply (f_equal (@length _)) in E; rewrite app_length in E; cbn in E; lia).
  rewrite X. clear X E. destruct (length a) as [|[|[|[|[|[|?]]]]]]; try lia; vm_compute; discriminate.
Qed.

(** ** Scope guards *)
Definition guards (b : nat) (l : list (nat * option nat)) : Z :=
  Z.of_nat (length (filter (fun x => match snd x with Some c => (c =? b)%nat | None => false end) l)).
Definition one (ob : option nat) (b : nat) : Z := match ob with Some c => if (c =? b)%nat then 1 else 0 | None => 0 end.

Lemma guards_cons v ob l b : guards b ((v, ob) :: l) = one ob b + guards b l.
Proof. unfold guards, one. cbn [filter snd]. destruct ob as [c|]; [destruct (c =? b)%nat|]; cbn [length]; lia. Qed.
Lemma guards_gset v ob oa l b : gfind v l = Some oa -> guards b (gset v ob l) = guards b l - one oa b + one ob b.
Proof.
  induction l as [|[w c] l IH]; cbn [gfind gset]; [discriminate|].
  destruct (w =? v)%nat.
  - intros H. inversion H; subst. rewrite !guards_cons. lia.
  - intros H. rewrite !guards_cons, IH by auto. lia.
Qed.
Lemma guards_gdel v oa l b : gfind v l = Some oa -> guards b (gdel v l) = guards b l - one oa b.
Proof.
  induction l as [|[w c] l IH]; cbn [gfind gdel]; [discriminate|].
  destruct (w =? v)%nat.
  - intros H. inversion H; subst. rewrite guards_cons. lia.
  - intros H. rewrite !guards_cons, IH by auto. lia.
Qed.
Lemma guards_pos v b l : gfind v l = Some (Some b) -> 1 <= guards b l.
Proof.
  induction l as [|[w c] l IH]; cbn [gfind]; [discriminate|]. rewrite guards_cons.
  destruct (w =? v)%nat.
  - intros H. inversion H; subst. unfold one. rewrite Nat.eqb_refl. unfold guards. lia.
  - intros H. specialize (IH H). unfold one. destruct c as [d|]; [destruct (d =? b)%nat|]; lia.
Qed.
Lemma gfind_gset_other v w ob l : v <> w -> gfind w (gset v ob l) = gfind w l.
Proof.
  intros D. induction l as [|[x c] l IH]; cbn [gset gfind]; auto.
  destruct (x =? v)%nat eqn:E; cbn [gfind].
  - apply Nat.eqb_eq in E. subst x. destruct (v =? w)%nat eqn:F; auto. apply Nat.eqb_eq in F. congruence.
  - destruct (x =? w)%nat; auto.
Qed.

Definition ginv (s : gstate) : Prop := forall b, g_cnt s b = guards b (g_vars s).

Lemma b_lock_spec ob f b : b_lock ob f b = f b + one ob b.
Proof. destruct ob as [c|]; cbn [b_lock one]; [|lia]. rewrite Nat.eqb_sym. destruct (c =? b)%nat eqn:E; lia. Qed.
Lemma b_unlock_spec oa f : (forall b, oa = Some b -> 1 <= f b) -> exists g, b_unlock oa f = Ok g /\ forall b, g b = f b - one oa b.
Proof.
  intros H. destruct oa as [c|]; cbn [b_unlock one].
  - specialize (H _ eq_refl). destruct (f c <? 1) eqn:E; [lia|]. eexists. split; [reflexivity|]. intros b. cbn beta.
    rewrite Nat.eqb_sym. destruct (c =? b)%nat; lia.
  - exists f. split; auto. intros; lia.
Qed.

Lemma gstep_inv s o : ginv s -> exists s', gstep s o = Ok s' /\ ginv s'.
Proof.
  intros I. assert (U : forall v oa, gfind v (g_vars s) = Some oa -> exists g, b_unlock oa (g_cnt s) = Ok g /\ forall b, g b = g_cnt s b - one oa b).
  { intros v oa H. apply b_unlock_spec. intros b ->. rewrite I. eapply guards_pos; eauto. }
  destruct o as [v b|v w|v w|v w|v w|v]; cbn [gstep].
  - destruct (gfind v (g_vars s)); [eauto|]. eexists. split; [reflexivity|]. intros x. cbn [g_cnt g_vars].
    rewrite b_lock_spec, guards_cons, I. lia.
  - destruct (gfind v (g_vars s)); [eauto|]. destruct (gfind w (g_vars s)) as [ob|]; [|eauto].
    eexists. split; [reflexivity|]. intros x. cbn [g_cnt g_vars]. rewrite b_lock_spec, guards_cons, I. lia.
  - destruct (gfind v (g_vars s)); [eauto|]. destruct (gfind w (g_vars s)) as [ob|] eqn:W; [|eauto].
    eexists. split; [reflexivity|]. intros x. cbn [g_cnt g_vars]. rewrite guards_cons, (guards_gset _ _ _ _ _ W), I. cbn [one]. lia.
  - destruct (gfind v (g_vars s)) as [oa|] eqn:V; [|eauto]. destruct (gfind w (g_vars s)) as [ob|] eqn:W; [|eauto].
    destruct (v =? w)%nat; [eauto|]. destruct (U _ _ V) as (g & -> & G). cbn [bind].
    eexists. split; [reflexivity|]. intros x. cbn [g_cnt g_vars].
    rewrite b_lock_spec, (guards_gset _ _ _ _ _ V), G, I. lia.
  - destruct (gfind v (g_vars s)) as [oa|] eqn:V; [|eauto]. destruct (gfind w (g_vars s)) as [ob|] eqn:W; [|eauto].
    destruct (v =? w)%nat eqn:E; [eauto|]. destruct (U _ _ V) as (g & -> & G). cbn [bind].
    eexists. split; [reflexivity|]. intros x. cbn [g_cnt g_vars]. apply Nat.eqb_neq in E.
    rewrite (guards_gset w None ob), (guards_gset _ _ _ _ _ V), G, I; [cbn [one]; lia|].
    rewrite gfind_gset_other; auto.
  - destruct (gfind v (g_vars s)) as [oa|] eqn:V; [|eauto]. destruct (U _ _ V) as (g & -> & G). cbn [bind].
    eexists. split; [reflexivity|]. intros x. cbn [g_cnt g_vars]. rewrite (guards_gdel _ _ _ _ V), G, I. lia.
Qed.

Theorem guards_exact ops : exists s, grun gstart ops = Ok s /\ forall b, g_cnt s b = guards b (g_vars s).
Proof.
  assert (G : forall s, ginv s -> exists s', grun s ops = Ok s' /\ ginv s').
  { induction ops as [|o ops IH]; intros s I; cbn [grun]; [eauto|].
    destruct (gstep_inv s o I) as (s1 & -> & I1). cbn [bind]. auto. }
  apply G. intros b. reflexivity.
Qed.

(** Concrete cases. *)
Lemma ex_balanced_run : lrun (lstart 2) [(0%nat, ALock); (1%nat, ALock); (0%nat, AUnlock)]
  (mkLState 1 [mkLThread LOut 0 0; mkLThread LOut 1 0]).
Proof.
  unfold lstart; cbn [repeat].
  eapply LRcons; [apply LLock; reflexivity|]. cbn.
  eapply LRcons; [apply LLock; reflexivity|]. cbn.
  eapply LRcons; [apply LUnlock; [reflexivity|lia]|]. cbn.
  constructor.
Qed.
Lemma ex_balanced : balanced [(0%nat, ALock); (1%nat, ALock); (0%nat, AUnlock)].
Proof.
  intros a b E i.
  assert (X : a = firstn (length a) (a ++ b)) by (rewrite firstn_app, Nat.sub_diag, firstn_all, firstn_O, app_nil_r; reflexivity).
  assert (L : (length a <= 3)%nat) by (apply (f_equal (@length _)) in E; rewrite app_length in E; cbn in E; lia).
  rewrite X, <- E. clear X E. destruct (length a) as [|[|[|[|?]]]]; try lia; cbn [firstn]; unfold calls; cbn [filter fst snd];
    destruct (0 =? i)%nat, (1 =? i)%nat; cbn; lia.
Qed.
Lemma ex_guards : exists s, grun gstart [GNew 1 5; GCopy 2 1; GNew 3 6; GAssign 3 2; GMoveAssign 1 3; GDestroy 2] = Ok s /\
  g_cnt s 5%nat = 1 /\ g_cnt s 6%nat = 0.
Proof. eexists. split; [vm_compute; reflexivity|]. split; reflexivity. Qed.
