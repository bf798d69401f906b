(** Proofs about the sub-block cache. *)
From Verif Require Import Base CacheModel.
From Coq Require Import Permutation.

(** ** Specification vocabulary *)

(** Number of bytes of a set of cached elements. *)
Definition total (c : cmap) : Z := fold_right Z.add 0 (map (fun x => item_size (en_item (snd x))) c).
Definition len (c : cmap) : Z := Z.of_nat (length c).
Definition keys (c : cmap) : list Z := map fst c.
Definition contents (c : cmap) : list (Z * item) := map (fun x => (fst x, en_item (snd x))) c.

(** Position (from one) of the last operation which mentions key [k]; zero if none does. *)
Definition mentions (k : Z) (o : cop) : bool :=
  match o with CGet j => j =? k | CAdd j _ => j =? k | CPrune _ _ => false end.
Fixpoint last_touch_from (i : nat) (acc : nat) (ops : list cop) (k : Z) : nat :=
  match ops with
  | [] => acc
  | o :: ops' => last_touch_from (S i) (if mentions k o then i else acc) ops' k
  end.
Definition last_touch (ops : list cop) (k : Z) : nat := last_touch_from 1 0 ops k.

(** Elements present after a sequence of logged events. *)
Definition without (k : Z) (l : list (Z * item)) : list (Z * item) := filter (fun x => negb (fst x =? k)) l.
Definition replay1 (l : list (Z * item)) (ev : event) : list (Z * item) :=
  match ev with
  | EvAdd k i => (k, i) :: without k l
  | EvEvict k => without k l
  | EvGet _ _ => l
  end.
Definition replay (log : list event) : list (Z * item) := fold_left replay1 log [].

(** ** Maps *)
Lemma total_app a b : total (a ++ b) = total a + total b.
Proof. unfold total. rewrite map_app. induction a; cbn [map app fold_right]; lia. Qed.
Lemma total_perm a b : Permutation a b -> total a = total b.
Proof. unfold total; induction 1; cbn [map fold_right]; lia. Qed.
Lemma total_cons k e c : total ((k, e) :: c) = item_size (en_item e) + total c.
Proof. reflexivity. Qed.
Lemma u64_range z : 0 <= u64 z < 2 ^ 64.
Proof. apply Z.mod_pos_bound. reflexivity. Qed.
Lemma item_size_range i : 0 <= item_size i < 2 ^ 64.
Proof. apply u64_range. Qed.
Lemma total_nonneg c : 0 <= total c.
Proof. induction c as [|[k e] c IH]; [cbn; lia|]. rewrite total_cons. pose proof (item_size_range (en_item e)). lia. Qed.

Lemma minsert_perm k e c : Permutation (minsert k e c) ((k, e) :: c).
Proof.
  induction c as [|[j f] c IH]; cbn [minsert]; [reflexivity|].
  destruct (k <? j); [reflexivity|]. rewrite IH. apply perm_swap.
Qed.

Lemma mfind_split k c e : mfind k c = Some e ->
  exists a b, c = a ++ (k, e) :: b /\ (forall e', mreplace k e' c = a ++ (k, e') :: b) /\ merase k c = a ++ b.
Proof.
  induction c as [|[j f] c IH]; cbn [mfind mreplace merase]; intros H; [discriminate|].
  destruct (j =? k) eqn:E.
  - apply Z.eqb_eq in E. subst j. inversion H; subst f. exists [], c. repeat split.
  - destruct (IH H) as (a & b & -> & R & M). exists ((j, f) :: a), b.
    repeat split; cbn [app]; [intros e'; rewrite R; reflexivity|rewrite M; reflexivity].
Qed.

Lemma mfind_none k c : mfind k c = None <-> ~ In k (keys c).
Proof.
  induction c as [|[j f] c IH]; cbn [mfind keys map fst In]; [tauto|].
  fold (keys c). destruct (j =? k) eqn:E.
  - apply Z.eqb_eq in E. split; [discriminate|]. intros H. exfalso. apply H. now left.
  - apply Z.eqb_neq in E. rewrite IH. tauto.
Qed.

Lemma mfind_in k e c : NoDup (keys c) -> (mfind k c = Some e <-> In (k, e) c).
Proof.
  induction c as [|[j f] c IH]; cbn [mfind keys map fst In]; intros N; [split; [discriminate|tauto]|].
  fold (keys c) in N. inversion N as [|? ? N1 N2]; subst. specialize (IH N2).
  destruct (j =? k) eqn:E.
  - apply Z.eqb_eq in E. subst j. split.
    + intros H. inversion H. now left.
    + intros [H|H]; [congruence|]. exfalso. apply N1. change k with (fst (k, e)). now apply in_map.
  - apply Z.eqb_neq in E. rewrite IH. split; [tauto|]. intros [H|H]; [congruence|tauto].
Qed.

Lemma keys_app a b : keys (a ++ b) = keys a ++ keys b.
Proof. apply map_app. Qed.

Lemma oldest_from_spec c : forall b, In (oldest_from b c) (b :: c) /\
  forall x, In x (b :: c) -> en_lru (snd (oldest_from b c)) <= en_lru (snd x).
Proof.
  induction c as [|x c IH]; intros b; cbn [oldest_from].
  - split; [now left|]. intros x [->|[]]. lia.
  - destruct (IH (if en_lru (snd x) <? en_lru (snd b) then x else b)) as [I M].
    destruct (en_lru (snd x) <? en_lru (snd b)) eqn:E.
    + split; [destruct I as [I|I]; [right; left; auto|right; right; auto]|].
      intros y [<-|[<-|Y]].
      * pose proof (M x (or_introl eq_refl)). lia.
      * apply M. now left.
      * apply M. now right.
    + split; [destruct I as [I|I]; [left; auto|right; right; auto]|].
      intros y [<-|[<-|Y]].
      * apply M. now left.
      * pose proof (M b (or_introl eq_refl)). lia.
      * apply M. now right.
Qed.

Lemma oldest_spec c k e : oldest c = Some (k, e) ->
  In (k, e) c /\ forall x, In x c -> en_lru e <= en_lru (snd x).
Proof.
  destruct c as [|x c]; [discriminate|]. cbn [oldest]. intros H. assert (H1 : oldest_from x c = (k, e)) by congruence. clear H.
  destruct (oldest_from_spec c x) as [I M]. rewrite H1 in I, M. split; [exact I|exact M].
Qed.
Lemma oldest_none c : oldest c = None -> c = [].
Proof. destruct c; [auto|discriminate]. Qed.

(** ** Sequential invariant *)
Definition acct (s : cache) : Prop :=
  NoDup (keys (c_map s)) /\ c_size s = u64 (total (c_map s)) /\ c_count s = u32 (len (c_map s)).

Lemma u64_add a b : u64 (u64 a + b) = u64 (a + b).
Proof. unfold u64. apply Zplus_mod_idemp_l. Qed.
Lemma u64_sub a b : u64 (u64 a - b) = u64 (a - b).
Proof. unfold u64. apply Zminus_mod_idemp_l. Qed.
Lemma u32_add a b : u32 (u32 a + b) = u32 (a + b).
Proof. unfold u32. apply Zplus_mod_idemp_l. Qed.
Lemma u32_sub a b : u32 (u32 a - b) = u32 (a - b).
Proof. unfold u32. apply Zminus_mod_idemp_l. Qed.
Lemma u64_small z : 0 <= z < 2 ^ 64 -> u64 z = z.
Proof. apply Z.mod_small. Qed.
Lemma u32_small z : 0 <= z < 2 ^ 32 -> u32 z = z.
Proof. apply Z.mod_small. Qed.

Lemma len_app a b : len (a ++ b) = len a + len b.
Proof. unfold len. rewrite app_length. lia. Qed.
Lemma len_cons x c : len (x :: c) = 1 + len c.
Proof. unfold len. cbn [length]. lia. Qed.
Lemma len_perm a b : Permutation a b -> len a = len b.
Proof. intros P. unfold len. now rewrite (Permutation_length P). Qed.

(** Effects of the three map updates on keys, sizes, contents. *)
Lemma minsert_facts k e c : mfind k c = None ->
  (NoDup (keys c) -> NoDup (keys (minsert k e c))) /\ total (minsert k e c) = total c + item_size (en_item e) /\
  len (minsert k e c) = len c + 1.
Proof.
  intros F. pose proof (minsert_perm k e c) as P. split; [|split].
  - intros N. eapply Permutation_NoDup; [symmetry; apply Permutation_map; exact P|].
    cbn [map fst]. constructor; [now apply mfind_none|exact N].
  - rewrite (total_perm _ _ P), total_cons. lia.
  - rewrite (len_perm _ _ P), len_cons. lia.
Qed.
Lemma mreplace_facts k e old c : mfind k c = Some old ->
  keys (mreplace k e c) = keys c /\ total (mreplace k e c) = total c - item_size (en_item old) + item_size (en_item e) /\
  len (mreplace k e c) = len c.
Proof.
  intros F. destruct (mfind_split _ _ _ F) as (a & b & -> & R & _). rewrite R.
  rewrite !keys_app, !total_app, !len_app, !total_cons, !len_cons. repeat split; lia.
Qed.
Lemma merase_facts k old c : mfind k c = Some old ->
  (NoDup (keys c) -> NoDup (keys (merase k c))) /\ total (merase k c) = total c - item_size (en_item old) /\
  len (merase k c) = len c - 1 /\ Permutation c ((k, old) :: merase k c).
Proof.
  intros F. destruct (mfind_split _ _ _ F) as (a & b & -> & _ & R). rewrite R. split; [|split; [|split]].
  - rewrite !keys_app. cbn [keys map fst]. apply NoDup_remove_1.
  - rewrite !total_app, total_cons. lia.
  - rewrite !len_app, len_cons. lia.
  - symmetry. apply Permutation_middle.
Qed.

Lemma cache_add_acct s k i : acct s -> acct (cache_add s k i).
Proof.
  intros (N & S & C). unfold cache_add. destruct (mfind k (c_map s)) as [old|] eqn:F.
  - destruct (mreplace_facts k (mkEntry i (c_lru s)) old _ F) as (K & T & L).
    split; [|split]; cbn [c_map c_size c_count].
    + now rewrite K.
    + rewrite S, u64_sub, u64_add, T. cbn [en_item]. f_equal; lia.
    + now rewrite C, L.
  - destruct (minsert_facts k (mkEntry i (c_lru s)) _ F) as (K & T & L).
    split; [|split]; cbn [c_map c_size c_count].
    + auto.
    + now rewrite S, u64_add, T.
    + now rewrite C, u32_add, L.
Qed.

Lemma cache_get_acct s k : acct s -> acct (snd (cache_get s k)).
Proof.
  intros (N & S & C). unfold cache_get. destruct (mfind k (c_map s)) as [old|] eqn:F; [|split; auto].
  destruct (mreplace_facts k (mkEntry (en_item old) (c_lru s)) old _ F) as (K & T & L).
  split; [|split]; cbn [snd c_map c_size c_count].
  - now rewrite K.
  - rewrite S, T. cbn [en_item]. f_equal; lia.
  - now rewrite C, L.
Qed.

(** Pruning: evicted elements in order of eviction. *)
Definition fits (c : cmap) (m n : Z) : Prop := total c <= m /\ len c <= n.

Definition pruned (s s' : cache) (m n : Z) (ev : cmap) : Prop :=
    acct s' /\ c_lru s' = c_lru s /\
    Permutation (c_map s) (ev ++ c_map s') /\ fits (c_map s') m n /\
    (forall x y, In x ev -> In y (c_map s') -> en_lru (snd x) <= en_lru (snd y)) /\
    (forall a x b, ev = a ++ x :: b ->
       ~ fits (x :: b ++ c_map s') m n /\ forall y, In y b -> en_lru (snd x) <= en_lru (snd y)) /\
    (forall y, In y (c_map s') -> In y (c_map s)).
Lemma pruned_nil s m n : acct s -> fits (c_map s) m n -> pruned s s m n [].
Proof.
  intros A F. unfold pruned. split; [exact A|]. split; [reflexivity|]. split; [reflexivity|]. split; [exact F|].
  split; [intros x y []|]. split; [intros a; destruct a; discriminate|auto].
Qed.

Lemma prune_loop_spec fuel : forall s m n,
  (length (c_map s) <= fuel)%nat -> acct s -> total (c_map s) < 2 ^ 64 -> len (c_map s) < 2 ^ 32 -> 0 <= m -> 0 <= n ->
  exists s' ev, prune_loop fuel s m n = Ok s' /\ pruned s s' m n ev.
Proof.
  induction fuel as [|fuel IH]; intros s m n Hf A Ht Hl Hm Hn.
  - destruct (c_map s) as [|x c] eqn:E; [|cbn in Hf; lia].
    assert (P : prune_loop 0 s m n = Ok s).
    { cbn [prune_loop]. rewrite E. cbn [oldest].
      destruct (_ || _); reflexivity. }
    exists s, []. split; [exact P|]. apply pruned_nil; auto. rewrite E. split; cbn; lia.
  - pose proof A as A0. destruct A as (N & S & C).
    assert (C' : c_count s = len (c_map s)) by (rewrite C; apply u32_small; unfold len in *; lia).
    assert (S' : c_size s = total (c_map s)) by (rewrite S; apply u64_small; pose proof (total_nonneg (c_map s)); lia).
    cbn [prune_loop]. destruct ((m <? c_size s) || (n <? c_count s)) eqn:T.
    2:{ exists s, []. split; [reflexivity|]. apply pruned_nil; auto. split; lia. }
    destruct (oldest (c_map s)) as [[k e]|] eqn:O.
    2:{ apply oldest_none in O. exists s, []. split; [reflexivity|]. apply pruned_nil; auto. rewrite O. split; cbn; lia. }
    destruct (oldest_spec _ _ _ O) as [I M].
    pose proof (proj2 (mfind_in k e _ N) I) as F.
    destruct (merase_facts k e _ F) as (N' & T' & L' & P').
    specialize (N' N).
    edestruct (IH (mkCache (merase k (c_map s)) (c_lru s) (u64 (c_size s - item_size (en_item e))) (u32 (c_count s - 1))) m n)
      as (s' & ev & R & A' & Q & P & Fi & Lr & Mi & Sub); cbn [c_map c_lru c_size c_count]; auto.
    + pose proof (Permutation_length P') as PL. cbn [length] in PL. lia.
    + split; [|split]; cbn [c_map c_size c_count]; auto.
      * rewrite S', T'. reflexivity.
      * rewrite C', L'. reflexivity.
    + pose proof (item_size_range (en_item e)). lia.
    + lia.
    + cbn [c_map c_lru] in *. exists s', ((k, e) :: ev). rewrite R. split; [reflexivity|].
      assert (PP : Permutation (c_map s) ((k, e) :: ev ++ c_map s')) by (rewrite P', P; reflexivity).
      split; [exact A'|]. split; [exact Q|]. split; [exact PP|]. split; [exact Fi|]. split; [|split].
      * intros x y [<-|X] Y; [|now apply Lr]. apply M. apply (Permutation_in _ (Permutation_sym P')). right. auto.
      * intros a x b H. split.
        -- intros FF. destruct a as [|z a]; cbn [app] in H; inversion H; subst.
           ++ destruct FF as [F1 F2]. rewrite <- (total_perm _ _ PP) in F1. rewrite <- (len_perm _ _ PP) in F2. lia.
           ++ destruct (Mi _ _ _ eq_refl) as [Mi' _]. exact (Mi' FF).
        -- intros y Y. destruct a as [|z a]; cbn [app] in H; inversion H; subst.
           ++ apply M. apply (Permutation_in _ (Permutation_sym PP)). right. apply in_or_app. now left.
           ++ destruct (Mi _ _ _ eq_refl) as [_ Mi']. auto.
      * intros y Y. apply (Permutation_in _ (Permutation_sym P')). right. auto.
Qed.

(** Pruning never runs out of fuel, in any state. *)
Lemma prune_loop_ok fuel : forall s m n, (length (c_map s) <= fuel)%nat -> NoDup (keys (c_map s)) ->
  exists s', prune_loop fuel s m n = Ok s'.
Proof.
  induction fuel as [|fuel IH]; intros s m n Hf N; cbn [prune_loop]; destruct (_ || _); eauto.
  - destruct (c_map s) as [|x c]; [|cbn in Hf; lia]. cbn [oldest]. eauto.
  - destruct (oldest (c_map s)) as [[k e]|] eqn:O; eauto.
    destruct (oldest_spec _ _ _ O) as [I M].
    destruct (merase_facts k e _ (proj2 (mfind_in k e _ N) I)) as (N' & T' & L' & P').
    apply IH; cbn [c_map]; auto. unfold len in L'. lia.
Qed.

Lemma prune_loop_acct fuel : forall s m n s', acct s -> prune_loop fuel s m n = Ok s' ->
  acct s' /\ c_lru s' = c_lru s /\ (forall y, In y (c_map s') -> In y (c_map s)).
Proof.
  induction fuel as [|fuel IH]; intros s m n s' A H; cbn [prune_loop] in H; destruct (_ || _);
    try (inversion H; subst; auto; fail).
  - destruct (oldest (c_map s)) as [[k e]|]; [discriminate|]. inversion H; subst; auto.
  - destruct (oldest (c_map s)) as [[k e]|] eqn:O; [|inversion H; subst; auto].
    destruct A as (N & S & C). destruct (oldest_spec _ _ _ O) as [I M].
    destruct (merase_facts k e _ (proj2 (mfind_in k e _ N) I)) as (N' & T' & L' & P').
    apply IH in H.
    + cbn [c_map c_lru] in H. destruct H as (A' & Q & Sub). split; [exact A'|split; [exact Q|]].
      intros y Y. apply (Permutation_in _ (Permutation_sym P')). right. auto.
    + split; [|split]; cbn [c_map c_size c_count]; auto.
      * rewrite S, u64_sub, T'. reflexivity.
      * rewrite C, u32_sub, L'. reflexivity.
Qed.

Lemma cache_prune_acct s m n s' : acct s -> cache_prune s m n = Ok s' ->
  acct s' /\ c_lru s' = c_lru s /\ (forall y, In y (c_map s') -> In y (c_map s)).
Proof.
  unfold cache_prune. destruct (_ || _); [apply prune_loop_acct|]. intros A H; inversion H; subst; auto.
Qed.

(** ** Recency *)
Lemma last_touch_from_app ops1 ops2 k : forall i acc,
  last_touch_from i acc (ops1 ++ ops2) k = last_touch_from (i + length ops1) (last_touch_from i acc ops1 k) ops2 k.
Proof.
  induction ops1 as [|o ops1 IH]; intros i acc; cbn [app last_touch_from length]; [now rewrite Nat.add_0_r|].
  rewrite IH. f_equal. lia.
Qed.
Lemma last_touch_snoc ops o k : last_touch (ops ++ [o]) k = if mentions k o then S (length ops) else last_touch ops k.
Proof. unfold last_touch. rewrite last_touch_from_app. reflexivity. Qed.
Lemma last_touch_from_le ops k : forall i acc, (acc <= i)%nat -> (last_touch_from i acc ops k <= i + length ops)%nat.
Proof.
  induction ops as [|o ops IH]; intros i acc H; cbn [last_touch_from length]; [lia|].
  specialize (IH (S i) (if mentions k o then i else acc)). destruct (mentions k o); lia.
Qed.
Lemma last_touch_le ops k : (last_touch ops k <= length ops)%nat.
Proof.
  induction ops as [|o ops IH] using rev_ind; [unfold last_touch; cbn; lia|].
  rewrite last_touch_snoc, app_length. cbn [length]. destruct (mentions k o); lia.
Qed.

Definition recency (ops : list cop) (s : cache) : Prop :=
  (forall k e, In (k, e) (c_map s) -> en_lru e < c_lru s /\ (0 < last_touch ops k)%nat) /\
  (forall k1 e1 k2 e2, In (k1, e1) (c_map s) -> In (k2, e2) (c_map s) -> k1 <> k2 ->
     ((last_touch ops k1 < last_touch ops k2)%nat <-> en_lru e1 < en_lru e2)).

Lemma recency_sub ops o s s' : (forall k, mentions k o = false) -> c_lru s' = c_lru s ->
  (forall y, In y (c_map s') -> In y (c_map s)) -> recency ops s -> recency (ops ++ [o]) s'.
Proof.
  intros Hm L Sub (R1 & R2). split.
  - intros k e I. rewrite last_touch_snoc, Hm, L. auto.
  - intros. rewrite !last_touch_snoc, !Hm. eauto.
Qed.

Lemma recency_touch ops o k s s' i : (forall j, mentions j o = (k =? j)) ->
  NoDup (keys (c_map s')) -> c_lru s' = c_lru s + 1 -> In (k, mkEntry i (c_lru s)) (c_map s') ->
  (forall j e, j <> k -> In (j, e) (c_map s') -> In (j, e) (c_map s)) ->
  recency ops s -> recency (ops ++ [o]) s'.
Proof.
  intros Hm N L K Sub (R1 & R2).
  assert (U : forall e, In (k, e) (c_map s') -> en_lru e = c_lru s).
  { intros e I. apply (mfind_in _ _ _ N) in I, K. rewrite I in K. inversion K. reflexivity. }
  split.
  - intros j e I. rewrite last_touch_snoc, Hm. destruct (Z.eq_dec k j) as [<-|D].
    + rewrite Z.eqb_refl. rewrite (U _ I). lia.
    + rewrite (proj2 (Z.eqb_neq k j) D). destruct (R1 j e); [apply Sub; auto|]. lia.
  - intros k1 e1 k2 e2 I1 I2 D. rewrite !last_touch_snoc, !Hm.
    pose proof (last_touch_le ops k1). pose proof (last_touch_le ops k2).
    destruct (Z.eq_dec k k1) as [<-|D1].
    + rewrite Z.eqb_refl, (proj2 (Z.eqb_neq k k2) D), (U _ I1).
      destruct (R1 k2 e2); [apply Sub; auto|]. lia.
    + rewrite (proj2 (Z.eqb_neq k k1) D1). destruct (Z.eq_dec k k2) as [<-|D2].
      * rewrite Z.eqb_refl, (U _ I2). destruct (R1 k1 e1); [apply Sub; auto|]. lia.
      * rewrite (proj2 (Z.eqb_neq k k2) D2). apply R2; auto.
Qed.

Lemma mreplace_in k e c : NoDup (keys c) -> In k (keys c) ->
  In (k, e) (mreplace k e c) /\ forall j f, j <> k -> (In (j, f) (mreplace k e c) <-> In (j, f) c).
Proof.
  intros N I. destruct (mfind k c) as [old|] eqn:F; [|apply mfind_none in F; tauto].
  destruct (mfind_split _ _ _ F) as (a & b & E & R & _). rewrite R, E. split.
  - apply in_or_app. right. now left.
  - intros j f D. rewrite !in_app_iff. cbn [In]. assert (forall x, (k, x) <> (j, f)) by congruence.
    pose proof (H e). pose proof (H old). tauto.
Qed.
Lemma minsert_in k e c x : In x (minsert k e c) <-> x = (k, e) \/ In x c.
Proof.
  split; intros H.
  - apply (Permutation_in _ (minsert_perm k e c)) in H. destruct H; auto.
  - apply (Permutation_in _ (Permutation_sym (minsert_perm k e c))). destruct H; [left|right]; auto.
Qed.
Lemma mfind_keys k c e : mfind k c = Some e -> In k (keys c).
Proof. intros F. destruct (in_dec Z.eq_dec k (keys c)) as [I|I]; auto. apply mfind_none in I. congruence. Qed.

Lemma crun_snoc ops o : forall s, crun s (ops ++ [o]) = let* s1 := crun s ops in cstep s1 o.
Proof.
  induction ops as [|p ops IH]; intros s; cbn [app crun].
  - cbn [bind]. destruct (cstep s o); reflexivity.
  - destruct (cstep s p); cbn [bind]; auto.
Qed.

Lemma acct_empty : acct cache_empty.
Proof. split; [constructor|split; reflexivity]. Qed.

(** Get on a miss leaves the state, but "mentions" the key: recency still holds because the key is absent. *)
Lemma recency_miss ops k s : mfind k (c_map s) = None -> recency ops s -> recency (ops ++ [CGet k]) s.
Proof.
  intros F (R1 & R2). apply mfind_none in F.
  assert (D : forall j e, In (j, e) (c_map s) -> (k =? j) = false).
  { intros j e I. apply Z.eqb_neq. intros ->. apply F. change j with (fst (j, e)). now apply in_map. }
  split.
  - intros j e I. rewrite last_touch_snoc. cbn [mentions]. rewrite (D _ _ I). auto.
  - intros k1 e1 k2 e2 I1 I2 DD. rewrite !last_touch_snoc. cbn [mentions]. rewrite (D _ _ I1), (D _ _ I2). eauto.
Qed.

Lemma seq_inv ops : forall s, crun cache_empty ops = Ok s -> acct s /\ recency ops s.
Proof.
  induction ops as [|o ops IH] using rev_ind; intros s H.
  - inversion H; subst. split; [exact acct_empty|]. split; cbn; tauto.
  - rewrite crun_snoc in H. apply bind_ok in H. destruct H as (s1 & H1 & H2).
    destruct (IH _ H1) as [A R]. destruct o as [k|k i|m n]; cbn [cstep] in H2.
    + inversion H2; subst s; clear H2. split; [now apply cache_get_acct|].
      pose proof (cache_get_acct s1 k A) as A2. destruct A as (N & _ & _). destruct A2 as (N2 & _ & _).
      unfold cache_get in *. destruct (mfind k (c_map s1)) as [e|] eqn:F; cbn [snd] in *; [|now apply recency_miss].
      destruct (mreplace_in k (mkEntry (en_item e) (c_lru s1)) _ N (mfind_keys _ _ _ F)) as [I1 I2].
      eapply (recency_touch ops (CGet k) k s1 _ (en_item e)); cbn [c_map c_lru]; auto.
      intros j f D. apply (I2 j f D).
    + inversion H2; subst s; clear H2. split; [now apply cache_add_acct|].
      pose proof (cache_add_acct s1 k i A) as A2. destruct A as (N & _ & _). destruct A2 as (N2 & _ & _).
      unfold cache_add in *. destruct (mfind k (c_map s1)) as [e|] eqn:F.
      * destruct (mreplace_in k (mkEntry i (c_lru s1)) _ N (mfind_keys _ _ _ F)) as [I1 I2].
        eapply (recency_touch ops (CAdd k i) k s1 _ i); cbn [c_map c_lru]; auto.
        intros j f D. apply (I2 j f D).
      * eapply (recency_touch ops (CAdd k i) k s1 _ i); cbn [c_map c_lru]; auto.
        -- apply minsert_in. now left.
        -- intros j f D X. apply minsert_in in X. destruct X as [X|X]; [congruence|auto].
    + destruct (cache_prune_acct _ _ _ _ A H2) as (A' & L & Sub). split; auto.
      apply (recency_sub ops (CPrune m n) s1); auto.
Qed.

Lemma crun_total ops : exists s, crun cache_empty ops = Ok s.
Proof.
  induction ops as [|o ops [s H]] using rev_ind; [eexists; reflexivity|].
  rewrite crun_snoc, H. cbn [bind]. destruct o as [k|k i|m n]; cbn [cstep]; eauto.
  unfold cache_prune. destruct (_ || _); eauto. apply prune_loop_ok; auto.
  apply (seq_inv _ _ H).
Qed.

(** C11 *)
Theorem prune_limits ops m n s :
  crun cache_empty ops = Ok s -> 0 <= m <= U64_MAX -> 0 <= n <= UINT_MAX ->
  total (c_map s) < 2 ^ 64 -> len (c_map s) < 2 ^ 32 ->
  exists s' ev, cache_prune s m n = Ok s' /\
    Permutation (c_map s) (ev ++ c_map s') /\
    (total (c_map s') <= m /\ len (c_map s') <= n) /\
    (forall x y, In x ev -> In y (c_map s') -> (last_touch ops (fst x) < last_touch ops (fst y))%nat) /\
    (forall a x b, ev = a ++ x :: b ->
       (m < total (x :: b ++ c_map s') \/ n < len (x :: b ++ c_map s')) /\
       forall y, In y b -> (last_touch ops (fst x) < last_touch ops (fst y))%nat).
Proof.
  intros H Hm Hn Ht Hl. destruct (seq_inv _ _ H) as [A R].
  unfold cache_prune. destruct (negb (m =? U64_MAX) || negb (n =? UINT_MAX)) eqn:E.
  - destruct (prune_loop_spec (length (c_map s)) s m n (le_n _) A Ht Hl (proj1 Hm) (proj1 Hn))
      as (s' & ev & P & A' & Q & Pm & Fi & Lr & Mi & Sub).
    assert (N : NoDup (keys (ev ++ c_map s'))).
    { eapply Permutation_NoDup; [apply Permutation_map; exact Pm|apply A]. }
    assert (In1 : forall x, In x ev -> In x (c_map s)).
    { intros x X. apply (Permutation_in _ (Permutation_sym Pm)). apply in_or_app. auto. }
    assert (In2 : forall x, In x (c_map s') -> In x (c_map s)).
    { intros x X. apply (Permutation_in _ (Permutation_sym Pm)). apply in_or_app. auto. }
    assert (LT : forall x y, In x (c_map s) -> In y (c_map s) -> fst x <> fst y -> en_lru (snd x) <= en_lru (snd y) ->
                (last_touch ops (fst x) < last_touch ops (fst y))%nat).
    { intros [k1 e1] [k2 e2] I1 I2 D Le. cbn [fst snd] in *. destruct R as [R1 R2].
      pose proof (R2 _ _ _ _ I1 I2 D) as X. pose proof (R2 _ _ _ _ I2 I1 (not_eq_sym D)) as Y.
      destruct (lt_eq_lt_dec (last_touch ops k1) (last_touch ops k2)) as [[Z|Z]|Z]; [exact Z| |].
      - exfalso. clear - Z H I1 I2 D R1. revert Z. apply not_eq_sym in D.
        assert (T : forall ops k1 k2, k1 <> k2 -> (0 < last_touch ops k1)%nat -> last_touch ops k1 <> last_touch ops k2).
        { clear. induction ops as [|o ops IH] using rev_ind; intros k1 k2 D; [unfold last_touch; cbn; lia|].
          rewrite !last_touch_snoc. pose proof (last_touch_le ops k1). pose proof (last_touch_le ops k2).
          destruct (mentions k1 o) eqn:M1, (mentions k2 o) eqn:M2; try lia.
          - destruct o; cbn [mentions] in *; lia.
          - apply IH; auto. }
        apply T; auto. apply (R1 _ _ I1).
      - lia. }
    exists s', ev. split; [exact P|]. split; [exact Pm|]. split; [exact Fi|]. split.
    + intros x y X Y. apply LT; auto.
      rewrite keys_app in N. intros EQ. clear - N X Y EQ.
      induction ev as [|z ev IH]; [destruct X|]. cbn [keys map app] in N. inversion N as [|? ? N1 N2]; subst.
      destruct X as [->|X]; [|auto]. apply N1. apply in_or_app. right. rewrite EQ. now apply in_map.
    + intros a x b E2. destruct (Mi _ _ _ E2) as [M1 M2]. split.
      * unfold fits in M1. lia.
      * intros y Y. subst ev. apply LT; auto.
        -- apply In1. apply in_or_app. right. now left.
        -- apply In1. apply in_or_app. right. now right.
        -- intros EQ. rewrite <- app_assoc in N.
           clear - N Y EQ. induction a as [|z a IH]; cbn [keys map app] in N; inversion N as [|? ? N1 N2]; subst; auto.
           apply N1. rewrite map_app. apply in_or_app. left. rewrite EQ. now apply in_map.
  - exists s, []. cbn [app]. split; [reflexivity|]. split; [reflexivity|]. split; [unfold U64_MAX, UINT_MAX, len in *; lia|].
    split; [intros x y []|]. intros a x b E2. destruct a; discriminate.
Qed.

(** C12, one thread. *)
Definition adds (k : Z) (o : cop) : bool := match o with CAdd j _ => j =? k | _ => false end.
Definition prunes (o : cop) : bool := match o with CPrune _ _ => true | _ => false end.

Lemma cache_get_spec s k : NoDup (keys (c_map s)) -> forall j i,
  (exists e, In (j, e) (c_map (snd (cache_get s k))) /\ en_item e = i) <-> (exists e, In (j, e) (c_map s) /\ en_item e = i).
Proof.
  intros N j i. unfold cache_get. destruct (mfind k (c_map s)) as [old|] eqn:F; cbn [snd c_map]; [|tauto].
  destruct (mreplace_in k (mkEntry (en_item old) (c_lru s)) _ N (mfind_keys _ _ _ F)) as [I1 I2].
  destruct (Z.eq_dec j k) as [->|D].
  - split; intros (e & I & E).
    + exists old. split; [now apply mfind_in|].
      assert (N' : NoDup (keys (mreplace k (mkEntry (en_item old) (c_lru s)) (c_map s)))).
      { destruct (mreplace_facts k (mkEntry (en_item old) (c_lru s)) old _ F) as (K & _). now rewrite K. }
      apply (mfind_in _ _ _ N') in I, I1. rewrite I in I1. inversion I1; subst. reflexivity.
    + exists (mkEntry (en_item old) (c_lru s)). split; auto. cbn [en_item].
      apply (mfind_in _ _ _ N) in I. rewrite F in I. inversion I; subst; auto.
  - split; intros (e & I & E); exists e; (split; [apply (I2 j e D); exact I|exact E]).
Qed.

Lemma cache_add_spec s k i0 : NoDup (keys (c_map s)) -> forall j i,
  (exists e, In (j, e) (c_map (cache_add s k i0)) /\ en_item e = i) <->
  (j = k /\ i = i0 \/ j <> k /\ exists e, In (j, e) (c_map s) /\ en_item e = i).
Proof.
  intros N j i. pose (e0 := mkEntry i0 (c_lru s)).
  assert (IN : In (k, e0) (c_map (cache_add s k i0)) /\
    (forall f, j <> k -> (In (j, f) (c_map (cache_add s k i0)) <-> In (j, f) (c_map s))) /\ NoDup (keys (c_map (cache_add s k i0)))).
  { unfold cache_add. destruct (mfind k (c_map s)) as [old|] eqn:F; cbn [c_map].
    - destruct (mreplace_in k e0 _ N (mfind_keys _ _ _ F)) as [I1 I2]. split; [exact I1|]. split; [intros f D; exact (I2 j f D)|].
      destruct (mreplace_facts k e0 old _ F) as (K & _). fold e0. now rewrite K.
    - split; [apply minsert_in; now left|]. split.
      + intros f D. rewrite minsert_in. split; [|auto]. intros [X|X]; [congruence|auto].
      + now apply minsert_facts. }
  destruct IN as (I1 & I2 & N').
  destruct (Z.eq_dec j k) as [->|D].
  - split.
    + intros (e & I & E). left. split; auto. apply (mfind_in _ _ _ N') in I, I1. rewrite I in I1. inversion I1; subst. reflexivity.
    + intros [[_ ->]|[X _]]; [|congruence]. exists e0. auto.
  - split.
    + intros (e & I & E). right. split; auto. exists e. split; [now apply I2|auto].
    + intros [[X _]|[_ (e & I & E)]]; [congruence|]. exists e. split; [now apply I2|auto].
Qed.

Definition holds_item (s : cache) (k : Z) (i : item) : Prop := exists e, In (k, e) (c_map s) /\ en_item e = i.

Lemma get_holds s k i : NoDup (keys (c_map s)) -> (fst (cache_get s k) = Some i <-> holds_item s k i).
Proof.
  intros N. unfold cache_get, holds_item. destruct (mfind k (c_map s)) as [old|] eqn:F; cbn [fst].
  - split.
    + intros H. inversion H; subst. exists old. split; auto. now apply mfind_in.
    + intros (e & I & <-). apply (mfind_in _ _ _ N) in I. rewrite F in I. inversion I. reflexivity.
  - split; [discriminate|]. intros (e & I & _). apply (mfind_in _ _ _ N) in I. congruence.
Qed.

Theorem get_sound ops s k i : crun cache_empty ops = Ok s -> fst (cache_get s k) = Some i ->
  exists ops1 ops2, ops = ops1 ++ CAdd k i :: ops2 /\ existsb (adds k) ops2 = false.
Proof.
  intros H G. assert (N : NoDup (keys (c_map s))) by apply (seq_inv _ _ H).
  apply (get_holds _ _ _ N) in G. clear N. revert s H G.
  induction ops as [|o ops IH] using rev_ind; intros s H G.
  - inversion H; subst. destruct G as (e & [] & _).
  - rewrite crun_snoc in H. apply bind_ok in H. destruct H as (s1 & H1 & H2).
    destruct (seq_inv _ _ H1) as [(N1 & _ & _) _].
    assert (Step : holds_item s1 k i \/ o = CAdd k i).
    { destruct o as [j|j i0|m n]; cbn [cstep] in H2.
      - inversion H2; subst. left. now apply (cache_get_spec s1 j N1).
      - inversion H2; subst. apply (cache_add_spec s1 j i0 N1) in G. destruct G as [[-> ->]|[_ G]]; auto.
      - destruct (seq_inv _ _ H1) as [A _]. destruct (cache_prune_acct _ _ _ _ A H2) as (_ & _ & Sub).
        destruct G as (e & I & E). left. exists e. auto. }
    destruct (adds k o) eqn:Ad.
    + destruct o as [j|j i0|m n]; cbn [adds] in Ad; try discriminate. apply Z.eqb_eq in Ad. subst j.
      cbn [cstep] in H2. inversion H2; subst. apply (cache_add_spec s1 k i0 N1) in G.
      destruct G as [[_ ->]|[X _]]; [|congruence]. exists ops, []. split; reflexivity.
    + destruct Step as [Step| ->]; [|cbn [adds] in Ad; rewrite Z.eqb_refl in Ad; discriminate].
      destruct (IH _ H1 Step) as (o1 & o2 & -> & F). exists o1, (o2 ++ [o]). rewrite <- app_assoc. split; [reflexivity|].
      rewrite existsb_app, F. cbn. rewrite Ad. reflexivity.
Qed.

Theorem get_complete ops1 ops2 s k i : crun cache_empty (ops1 ++ CAdd k i :: ops2) = Ok s ->
  existsb (adds k) ops2 = false -> existsb prunes ops2 = false -> fst (cache_get s k) = Some i.
Proof.
  intros H A P. assert (N : NoDup (keys (c_map s))) by apply (seq_inv _ _ H).
  apply (get_holds _ _ _ N). clear N. revert s H A P.
  induction ops2 as [|o ops2 IH] using rev_ind; intros s H A P.
  - rewrite crun_snoc in H. apply bind_ok in H. destruct H as (s1 & H1 & H2). cbn [cstep] in H2. inversion H2; subst.
    apply cache_add_spec; [apply (seq_inv _ _ H1)|]. auto.
  - rewrite existsb_app in A, P. apply orb_false_iff in A, P. destruct A as [A1 A2], P as [P1 P2].
    rewrite app_comm_cons, app_assoc, crun_snoc in H. apply bind_ok in H. destruct H as (s1 & H1 & H2).
    specialize (IH _ H1 A1 P1). destruct (seq_inv _ _ H1) as [(N1 & _ & _) _].
    destruct o as [j|j i0|m n]; cbn [cstep] in H2; cbn in A2, P2.
    + inversion H2; subst. now apply cache_get_spec.
    + inversion H2; subst. apply cache_add_spec; auto. right. split; [|exact IH]. lia.
    + discriminate.
Qed.

(** A Get changes nothing but the order of eviction. *)
Lemma get_keeps s k : NoDup (keys (c_map s)) -> contents (c_map (snd (cache_get s k))) = contents (c_map s).
Proof.
  intros N. unfold cache_get. destruct (mfind k (c_map s)) as [old|] eqn:F; [|reflexivity].
  cbn [snd c_map]. destruct (mfind_split _ _ _ F) as (a & b & E & R & _). rewrite R, E.
  unfold contents. rewrite !map_app. reflexivity.
Qed.

Lemma item_size_ok i : 0 <= it_w i -> 0 <= it_h i -> 0 < it_bpp i -> it_w i * it_h i * it_bpp i < 2 ^ 62 ->
  (it_mask i = None -> item_size i = it_w i * it_h i * it_bpp i) /\
  (forall mw mh, it_mask i = Some (mw, mh) -> 0 <= mw < 2 ^ 32 - 7 -> 0 <= mh < 2 ^ 32 ->
     exists row, item_size i = it_w i * it_h i * it_bpp i + row * mh /\ 8 * (row - 1) < mw <= 8 * row).
Proof.
  intros W H B L. assert (P1 : 0 <= it_w i * it_h i) by nia. assert (P2 : it_w i * it_h i <= it_w i * it_h i * it_bpp i) by nia.
  set (n := it_w i * it_h i) in *. set (m := n * it_bpp i) in *. unfold item_size. fold n. rewrite (u64_small n) by lia. fold m. rewrite (u64_small m) by lia. split.
  - intros ->. rewrite Z.add_0_r. apply u64_small. lia.
  - intros mw mh -> Hw Hh. exists ((mw + 7) / 8). rewrite (u32_small (mw + 7)) by lia.
    assert (R : 0 <= (mw + 7) / 8 < 2 ^ 29) by lia. set (r := (mw + 7) / 8) in *.
    assert (0 <= r * mh < 2 ^ 61) by (change (2 ^ 61) with (2 ^ 29 * 2 ^ 32); nia).
    rewrite (u64_small (r * mh)) by lia. split; [apply u64_small; lia|]. subst r. lia.
Qed.
