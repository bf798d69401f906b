(** The sub-block cache used by any number of threads. *)
From Verif Require Import Base CacheModel CacheProofs.
From Coq Require Import Permutation.

(** Inside the critical section? *)
Definition holds (p : pc) : bool :=
  match p with
  | Idle | GetWait _ | AddStart _ _ | AddWait _ _ _ | PruneWait _ _ | StatMem | StatCount | StatWait => false
  | StatDone _ _ b => b
  | _ => true
  end.

(** What the counters lack while a critical section is being executed. *)
Definition dsize (p : pc) : Z :=
  match p with
  | AddSize i => - item_size i
  | AddStore _ _ _ old => - item_size (en_item old)
  | AddPlus i _ => - item_size i
  | PruneDec _ _ _ e | PruneErase _ _ _ e => - item_size (en_item e)
  | _ => 0
  end.
Definition dcount (p : pc) : Z :=
  match p with AddSize _ | AddCount | PruneErase _ _ _ _ => -1 | _ => 0 end.
Definition local (p : pc) (s : cache) : Prop :=
  match p with
  | GetCount k e | GetStamp k e _ => mfind k (c_map s) = Some e
  | AddSub k _ _ e | AddStore k _ _ e => mfind k (c_map s) = Some e
  | PruneSub _ _ k e | PruneDec _ _ k e | PruneErase _ _ k e => mfind k (c_map s) = Some e
  | StatBothCount m => m = u64 (total (c_map s))
  | StatDone m c true => m = Some (u64 (total (c_map s))) /\ c = Some (u32 (len (c_map s)))
  | _ => True
  end.

Definition good (log : list event) : Prop :=
  forall l1 k r l2, log = l1 ++ EvGet k r :: l2 -> forall i, r = Some i <-> In (k, i) (replay l1).

Record core (s : cache) (p : pc) (log : list event) : Prop := {
  co_nodup : NoDup (keys (c_map s));
  co_size : c_size s = u64 (total (c_map s) + dsize p);
  co_count : c_count s = u32 (len (c_map s) + dcount p);
  co_local : local p s;
  co_perm : Permutation (contents (c_map s)) (replay log);
  co_good : good log }.

Lemma replay_app a b : replay (a ++ b) = fold_left replay1 b (replay a).
Proof. apply fold_left_app. Qed.

Lemma good_nil log : good log -> good (log ++ []).
Proof. now rewrite app_nil_r. Qed.
Lemma snoc_split {A} (l : list A) x a y b : l ++ [x] = a ++ y :: b ->
  (b = [] /\ a = l /\ y = x) \/ exists b', b = b' ++ [x] /\ l = a ++ y :: b'.
Proof.
  induction b as [|z b _] using rev_ind; intros H.
  - apply app_inj_tail in H. destruct H; subst. auto.
  - right. exists b. rewrite app_comm_cons, app_assoc in H. apply app_inj_tail in H. destruct H as [-> ->]. auto.
Qed.
Lemma good_snoc log ev : good log ->
  (forall k r, ev = EvGet k r -> forall i, r = Some i <-> In (k, i) (replay log)) -> good (log ++ [ev]).
Proof.
  intros G H l1 k r l2 E. apply snoc_split in E. destruct E as [(-> & -> & E)|(b & -> & ->)].
  - apply H. congruence.
  - eapply G. reflexivity.
Qed.

Lemma in_contents k i c : NoDup (keys c) -> (In (k, i) (contents c) <-> exists e, mfind k c = Some e /\ en_item e = i).
Proof.
  intros N. unfold contents. rewrite in_map_iff. split.
  - intros ([j e] & E & I). cbn [fst snd] in E. inversion E; subst. exists e. split; auto. now apply mfind_in.
  - intros (e & F & <-). exists (k, e). split; auto. now apply mfind_in.
Qed.

Lemma without_perm k a b : Permutation a b -> Permutation (without k a) (without k b).
Proof.
  unfold without. induction 1; cbn [filter]; auto.
  - destruct (negb _); auto.
  - destruct (negb (fst x =? k)), (negb (fst y =? k)); auto. apply perm_swap.
  - etransitivity; eauto.
Qed.
Lemma without_absent k c : ~ In k (keys c) -> without k (contents c) = contents c.
Proof.
  induction c as [|[j e] c IH]; cbn [keys map fst contents without filter In]; auto.
  intros H. destruct (j =? k) eqn:E; [exfalso; apply H; left; lia|]. cbn [negb snd]. f_equal. apply IH. tauto.
Qed.
Lemma contents_app a b : contents (a ++ b) = contents a ++ contents b.
Proof. apply map_app. Qed.
Lemma without_split k a e b : NoDup (keys (a ++ (k, e) :: b)) ->
  without k (contents (a ++ (k, e) :: b)) = contents a ++ contents b.
Proof.
  intros N. rewrite keys_app in N. cbn [keys map fst] in N. apply NoDup_remove_2 in N.
  unfold without. rewrite contents_app, filter_app. cbn [contents map filter fst snd].
  rewrite Z.eqb_refl. cbn [negb]. fold (contents b). fold (without k (contents a)). fold (without k (contents b)).
  fold (keys b) in N. rewrite !without_absent; auto; intros X; apply N; apply in_or_app; auto.
Qed.

Ltac same := constructor; cbn [dsize dcount local c_map c_size c_count c_lru en_item]; auto.
Ltac counters := rewrite ?u64_add, ?u64_sub, ?u32_add, ?u32_sub; f_equal; cbn [dsize dcount]; lia.

Lemma core_step t s l p s' l' p' evs log : tstep t s l p s' l' p' evs -> holds p = true -> core s p log ->
  core s' (if holds p' then p' else Idle) (log ++ evs).
Proof.
  intros T H [N S C L P G]. destruct T; cbn [holds] in H; try discriminate; cbn [holds]; rewrite ?app_nil_r;
    try (destruct b; [|discriminate]); cbn [dsize dcount local] in *.
  - same.
  - same.
    + rewrite replay_app. exact P.
    + apply good_snoc; auto. intros k' r' E i. inversion E; subst. split; [discriminate|].
      intros I. apply (Permutation_in _ (Permutation_sym P)) in I. apply (in_contents _ _ _ N) in I.
      destruct I as (e & F & _). congruence.
  - same.
  - destruct (mreplace_facts k (mkEntry (en_item e) v) e _ L) as (K & T1 & T2).
    destruct (mfind_split _ _ _ L) as (a & b & E & R & _).
    same.
    + now rewrite K.
    + rewrite S, T1. cbn [en_item]. f_equal; lia.
    + rewrite C, T2. reflexivity.
    + rewrite replay_app. cbn [fold_left replay1]. rewrite <- P, R, E, !contents_app. reflexivity.
    + apply good_snoc; auto. intros k' r' X i. inversion X; subst k' r'. split.
      * intros Y. apply (Permutation_in _ P). apply (in_contents _ _ _ N). exists e. split; auto. congruence.
      * intros I. apply (Permutation_in _ (Permutation_sym P)) in I. apply (in_contents _ _ _ N) in I.
        destruct I as (f & F & <-). rewrite L in F. congruence.
  - same.
  - destruct (minsert_facts k (mkEntry i v) _ H0) as (K & T1 & T2).
    same.
    + rewrite S, T1. cbn [en_item]. f_equal; lia.
    + rewrite C, T2. f_equal; lia.
    + rewrite replay_app. cbn [fold_left replay1].
      rewrite <- (without_perm k _ _ P), without_absent by now apply mfind_none.
      exact (Permutation_map _ (minsert_perm k (mkEntry i v) (c_map s))).
    + apply good_snoc; auto. discriminate.
  - same.
  - same. rewrite S. counters.
  - same. rewrite C. counters.
  - same. rewrite S. counters.
  - destruct (mreplace_facts k (mkEntry i v) old _ L) as (K & T1 & T2).
    destruct (mfind_split _ _ _ L) as (a & b & E & R & _).
    same.
    + now rewrite K.
    + rewrite S, T1. cbn [en_item]. f_equal; lia.
    + rewrite C, T2. f_equal; lia.
    + rewrite replay_app. cbn [fold_left replay1]. rewrite <- (without_perm k _ _ P).
      rewrite R, E. rewrite E in N. rewrite (without_split _ _ _ _ N), contents_app. symmetry. apply Permutation_middle.
    + apply good_snoc; auto. discriminate.
  - same. rewrite S. counters.
  - same.
  - destruct (m <? c_size s); same.
  - destruct (n <? c_count s); same.
  - destruct (oldest_spec _ _ _ H0) as [I M]. same. now apply mfind_in.
  - same.
  - same. rewrite S. counters.
  - same. rewrite C. counters.
  - destruct (merase_facts k e _ L) as (K & T1 & T2 & PP).
    destruct (mfind_split _ _ _ L) as (a & b & E & _ & R).
    same.
    + rewrite S, T1. f_equal; lia.
    + rewrite C, T2. f_equal; lia.
    + rewrite replay_app. cbn [fold_left replay1]. rewrite <- (without_perm k _ _ P).
      rewrite R, E. rewrite E in N. rewrite (without_split _ _ _ _ N), contents_app. reflexivity.
    + apply good_snoc; auto. discriminate.
  - same.
  - same. rewrite S. f_equal; lia.
  - same. split; [congruence|]. rewrite C. do 2 f_equal. lia.
  - same.
Qed.

(** A step outside the critical section leaves everything but the LRU counter alone. *)
Lemma outside_step t s l p s' l' p' evs : tstep t s l p s' l' p' evs -> holds p = false ->
  c_map s' = c_map s /\ c_size s' = c_size s /\ c_count s' = c_count s /\ evs = [] /\
  ((l = None /\ l' = Some t /\ holds p' = true /\ (forall s, local p' s) /\ dsize p' = 0 /\ dcount p' = 0) \/
   (l' = l /\ holds p' = false)).
Proof.
  intros T H. destruct T; cbn [holds] in H; try discriminate;
    (split; [reflexivity|split; [reflexivity|split; [reflexivity|split; [reflexivity|]]]]);
    try (right; split; reflexivity); try (left; repeat split; fail).
  destruct b; [discriminate|]. right. auto.
Qed.

Definition holder (K : conc) : pc := match k_lock K with Some t => k_thr K t | None => Idle end.

Record kinv (K : conc) : Prop := {
  ki_lock : forall t, holds (k_thr K t) = true <-> k_lock K = Some t;
  ki_core : core (k_cache K) (holder K) (k_log K) }.

Lemma core_outside s s' p log : c_map s' = c_map s -> c_size s' = c_size s -> c_count s' = c_count s ->
  core s p log -> core s' p log.
Proof.
  intros M S C [c1 c2 c3 c4 c5 c6]. constructor; rewrite ?M, ?S, ?C; auto.
  destruct p; cbn [local] in *; rewrite ?M; auto.
Qed.

Lemma inside_lock t s l p s' l' p' evs : tstep t s l p s' l' p' evs -> holds p = true ->
  (holds p' = true /\ l' = l) \/ (holds p' = false /\ l' = None).
Proof.
  intros T H. destruct T; cbn [holds] in H; try discriminate; cbn [holds]; auto.
  - left. destruct (m <? c_size s); auto.
  - left. destruct (n <? c_count s); auto.
  - destruct b; [auto|discriminate].
Qed.

Lemma kinv_step K K' : kstep K K' -> kinv K -> kinv K'.
Proof.
  intros T [L C]. destruct T as [t s l f log s' l' p' evs T]. unfold holder in C. cbn [k_cache k_lock k_thr k_log] in *.
  destruct (holds (f t)) eqn:H.
  - pose proof (proj1 (L t) H) as E. rewrite E in C.
    pose proof (core_step _ _ _ _ _ _ _ _ _ T H C) as C'.
    destruct (inside_lock _ _ _ _ _ _ _ _ T H) as [(H' & EL)|(H' & EL)]; rewrite H' in C'.
    + constructor; cbn [k_cache k_lock k_thr k_log holder].
      * intros u. unfold set_thr. destruct (u =? t)%nat eqn:U.
        -- apply Nat.eqb_eq in U. subst u. rewrite EL, E. tauto.
        -- rewrite EL. apply L.
      * unfold holder; cbn [k_lock k_thr]. rewrite EL, E. unfold set_thr. rewrite Nat.eqb_refl. exact C'.
    + constructor; cbn [k_cache k_lock k_thr k_log holder].
      * intros u. unfold set_thr. destruct (u =? t)%nat eqn:U.
        -- rewrite H', EL. split; discriminate.
        -- rewrite EL. split; [|discriminate]. intros X. apply L in X. apply Nat.eqb_neq in U. congruence.
      * unfold holder; cbn [k_lock]. rewrite EL. exact C'.
  - destruct (outside_step _ _ _ _ _ _ _ _ T H) as (M & S & Cn & -> & D). rewrite app_nil_r.
    destruct D as [(-> & -> & H' & Lo & Ds & Dc)|(-> & H')].
    + constructor; cbn [k_cache k_lock k_thr k_log holder].
      * intros u. unfold set_thr. destruct (u =? t)%nat eqn:U.
        -- apply Nat.eqb_eq in U. subst u. rewrite H'. tauto.
        -- rewrite L. apply Nat.eqb_neq in U. split; congruence.
      * unfold holder; cbn [k_lock k_thr]. unfold set_thr. rewrite Nat.eqb_refl.
        apply (core_outside s); auto. destruct C as [c1 c2 c3 c4 c5 c6]. constructor; auto; rewrite ?Ds, ?Dc; auto.
    + constructor; cbn [k_cache k_lock k_thr k_log holder].
      * intros u. unfold set_thr. destruct (u =? t)%nat eqn:U; [|apply L].
        apply Nat.eqb_eq in U. subst u. rewrite <- L, H, H'. tauto.
      * unfold holder; cbn [k_lock k_thr]. apply (core_outside s); auto.
        destruct l as [u|]; auto. unfold set_thr. destruct (u =? t)%nat eqn:U; auto.
        apply Nat.eqb_eq in U. subst u. rewrite (proj2 (L t) eq_refl) in H. discriminate.
Qed.

Lemma reach_kinv K : reach K -> kinv K.
Proof.
  induction 1 as [|a b R IH T].
  - constructor.
    + cbn. split; discriminate.
    + constructor; cbn; auto.
      * constructor.
      * intros l1 k r l2 E. destruct l1; discriminate.
  - now apply (kinv_step a b).
Qed.

Lemma idle_exact K : reach K -> (forall t, k_thr K t = Idle) ->
  c_size (k_cache K) = u64 (total (c_map (k_cache K))) /\ c_count (k_cache K) = u32 (len (c_map (k_cache K))).
Proof.
  intros R I. destruct (reach_kinv _ R) as [L [N S C _ _ _]]. unfold holder in *.
  assert (E : k_lock K = None).
  { destruct (k_lock K) as [t|] eqn:E; auto. pose proof (proj2 (L t) eq_refl) as X. rewrite I in X. discriminate. }
  rewrite E in S, C. cbn [dsize dcount] in *. rewrite S, C. split; f_equal; lia.
Qed.

Theorem conc_accounting K : reach K -> (forall t, k_thr K t = Idle) ->
  total (c_map (k_cache K)) < 2 ^ 64 -> len (c_map (k_cache K)) < 2 ^ 32 ->
  c_size (k_cache K) = total (c_map (k_cache K)) /\ c_count (k_cache K) = len (c_map (k_cache K)).
Proof.
  intros R I Ht Hl. destruct (idle_exact _ R I) as [S C]. rewrite S, C. split.
  - apply u64_small. pose proof (total_nonneg (c_map (k_cache K))). lia.
  - apply u32_small. unfold len in *. lia.
Qed.

(** The content of the map is what additions and evictions made of it. *)
Theorem conc_contents K : reach K -> Permutation (contents (c_map (k_cache K))) (replay (k_log K)).
Proof. intros R. apply (reach_kinv _ R). Qed.

Theorem conc_stats K t m c : reach K -> k_thr K t = StatDone m c true ->
  total (c_map (k_cache K)) < 2 ^ 64 -> len (c_map (k_cache K)) < 2 ^ 32 ->
  m = Some (total (c_map (k_cache K))) /\ c = Some (len (c_map (k_cache K))).
Proof.
  intros R I Ht Hl. destruct (reach_kinv _ R) as [L [N S C Lo _ _]]. unfold holder in *.
  pose proof (proj1 (L t)) as E. rewrite I in E. rewrite (E eq_refl), I in Lo. destruct Lo as [-> ->]. split; f_equal.
  - apply u64_small. pose proof (total_nonneg (c_map (k_cache K))). lia.
  - apply u32_small. unfold len in *. lia.
Qed.

(** ** Results of Get *)
Definition about (k : Z) (ev : event) : bool :=
  match ev with EvAdd j _ => j =? k | EvEvict j => j =? k | EvGet _ _ => false end.

Lemma replay_in log k i : In (k, i) (replay log) <->
  exists a b, log = a ++ EvAdd k i :: b /\ existsb (about k) b = false.
Proof.
  assert (W : forall l j, In (k, i) (without j l) <-> In (k, i) l /\ j <> k).
  { intros l j. unfold without. rewrite filter_In. cbn [fst]. split; intros [H1 H2]; split; auto; lia. }
  induction log as [|ev log IH] using rev_ind.
  - cbn. split; [tauto|]. intros (a & b & E & _). destruct a; discriminate.
  - rewrite replay_app. cbn [fold_left].
    assert (Keep : about k ev = false -> ((exists a b, log = a ++ EvAdd k i :: b /\ existsb (about k) b = false) <->
             (exists a b, log ++ [ev] = a ++ EvAdd k i :: b /\ existsb (about k) b = false))).
    { intros Ab. split.
      - intros (a & b & -> & F). exists a, (b ++ [ev]). rewrite <- app_assoc. split; auto.
        rewrite existsb_app, F. cbn. rewrite Ab. reflexivity.
      - intros (a & b & E & F). apply snoc_split in E. destruct E as [(_ & _ & E)|(b' & -> & ->)].
        + subst ev. cbn [about] in Ab. lia.
        + exists a, b'. split; auto. rewrite existsb_app in F. apply orb_false_iff in F. tauto. }
    assert (Lose : about k ev = true -> (exists a b, log ++ [ev] = a ++ EvAdd k i :: b /\ existsb (about k) b = false) ->
             ev = EvAdd k i).
    { intros Ab (a & b & E & F). apply snoc_split in E. destruct E as [(_ & _ & E)|(b' & -> & ->)]; [auto|].
      rewrite existsb_app in F. cbn in F. rewrite Ab in F. destruct (existsb _ b'); discriminate. }
    destruct ev as [j i0|j|j r]; cbn [replay1 about] in *.
    + cbn [In]. rewrite W, IH. destruct (j =? k) eqn:E.
      * apply Z.eqb_eq in E. subst j. split.
        -- intros [X|[_ X]]; [|congruence]. inversion X; subst. exists log, []. split; reflexivity.
        -- intros X. left. specialize (Lose eq_refl X). congruence.
      * rewrite <- (Keep eq_refl). split; [intros [X|[X _]]; [inversion X; lia|auto]|]. intros X. right. split; [auto|lia].
    + rewrite W, IH. destruct (j =? k) eqn:E.
      * split; [intros [_ X]; lia|]. intros X. specialize (Lose eq_refl X). discriminate.
      * rewrite <- (Keep eq_refl). split; [tauto|]. intros X. split; [auto|lia].
    + rewrite IH. apply Keep. reflexivity.
Qed.

Theorem conc_get K l1 k r l2 : reach K -> k_log K = l1 ++ EvGet k r :: l2 -> forall i,
  r = Some i <-> exists a b, l1 = a ++ EvAdd k i :: b /\ existsb (about k) b = false.
Proof. intros R E i. rewrite <- replay_in. destruct (reach_kinv _ R) as [_ [_ _ _ _ _ G]]. eapply G. exact E. Qed.

(** What a thread's Get returns has been logged. *)
Theorem conc_get_logged K t k r : reach K -> k_thr K t = GetDone k r -> In (EvGet k r) (k_log K).
Proof.
  intros R. revert t k r. induction R as [|a b R IH T]; intros t k r H; [discriminate|].
  destruct T as [u s l f log s' l' p' evs T]. cbn [k_thr k_log] in *. unfold set_thr in H.
  apply in_or_app. destruct (t =? u)%nat eqn:E; [|left; eapply IH; exact H].
  subst p'. inversion T; subst; try (right; now left); repeat match goal with H : context [if ?b then _ else _] |- _ => destruct b end; try discriminate.
Qed.

(** The lock holder can always go on; so can everybody once the lock is free. *)
Theorem conc_progress K t : reach K -> (k_lock K = Some t \/ (k_lock K = None /\ k_thr K t <> Idle)) ->
  exists K', kstep K K' /\ k_thr K' t <> k_thr K t.
Proof.
  intros R H. destruct (reach_kinv _ R) as [L _]. destruct K as [s l f log]. cbn [k_lock k_thr] in *.
  assert (X : exists s' l' p' evs, tstep t s l (f t) s' l' p' evs /\ p' <> f t).
  { destruct (f t) eqn:E.
    - exfalso. destruct H as [H|[_ H]]; [|congruence]. apply L in H. rewrite E in H. discriminate.
    - destruct H as [H|[H _]]; [apply L in H; rewrite E in H; discriminate|]. subst l. repeat eexists; [apply TGetLock|discriminate].
    - destruct (mfind k (c_map s)) eqn:F; repeat eexists; try (eapply TGetHit; exact F); try (eapply TGetMiss; exact F); discriminate.
    - repeat eexists; [apply TGetCount|discriminate].
    - repeat eexists; [apply TGetStamp|discriminate].
    - repeat eexists; [apply TGetDone|discriminate].
    - repeat eexists; [apply TAddLru|discriminate].
    - destruct H as [H|[H _]]; [apply L in H; rewrite E in H; discriminate|]. subst l. repeat eexists; [apply TAddLock|discriminate].
    - destruct (mfind k (c_map s)) eqn:F; repeat eexists; try (eapply TAddOld; exact F); try (eapply TAddNew; exact F); discriminate.
    - repeat eexists; [apply TAddSize|discriminate].
    - repeat eexists; [apply TAddCount|discriminate].
    - repeat eexists; [apply TAddSub|discriminate].
    - repeat eexists; [apply TAddStore|discriminate].
    - repeat eexists; [apply TAddPlus|discriminate].
    - repeat eexists; [apply TAddDone|discriminate].
    - destruct H as [H|[H _]]; [apply L in H; rewrite E in H; discriminate|]. subst l. repeat eexists; [apply TPruneLock|discriminate].
    - repeat eexists; [apply TPruneSize|]. destruct (m <? c_size s); discriminate.
    - repeat eexists; [apply TPruneCount|]. destruct (n <? c_count s); discriminate.
    - destruct (oldest (c_map s)) as [[k e]|] eqn:F; repeat eexists; try (eapply TPruneFind; exact F); try (eapply TPruneNone; exact F); discriminate.
    - repeat eexists; [apply TPruneSub|discriminate].
    - repeat eexists; [apply TPruneDec|discriminate].
    - repeat eexists; [apply TPruneErase|discriminate].
    - repeat eexists; [apply TPruneDone|discriminate].
    - repeat eexists; [apply TStatMem2|discriminate].
    - repeat eexists; [apply TStatCount2|discriminate].
    - destruct H as [H|[H _]]; [apply L in H; rewrite E in H; discriminate|]. subst l. repeat eexists; [apply TStatLock|discriminate].
    - repeat eexists; [apply TStatBoth|discriminate].
    - repeat eexists; [apply TStatBoth2|discriminate].
    - repeat eexists; [apply TStatDone|discriminate]. }
  destruct X as (s' & l' & p' & evs & T & D). eexists. split; [constructor; exact T|].
  cbn [k_thr]. unfold set_thr. rewrite Nat.eqb_refl. exact D.
Qed.
