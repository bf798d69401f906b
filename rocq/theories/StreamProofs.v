From Verif Require Import Base CopyModel MemProofs HiLoModel HiLoProofs StreamModel.

(** ** In memory *)
Lemma mem_read_ok buf offset size m dsz : 0 <= offset < Z.of_nat (length buf) -> 0 <= size -> size <= dsz ->
  let n := Z.min size (Z.of_nat (length buf) - offset) in
  exists m', mem_read buf offset size (Some m) dsz = Ok (m', n) /\
    (forall i, 0 <= i < n -> m' i = nth (Z.to_nat (offset + i)) buf 0) /\
    (forall i, i < 0 \/ n <= i -> m' i = m i).
Proof.
  intros Ho Hs Hd n. unfold mem_read. fold n.
  destruct (Z.leb_spec (Z.of_nat (length buf)) offset); [lia|].
  destruct ((0 <=? offset) && (offset + n <=? Z.of_nat (length buf))) eqn:E; [|lia].
  assert (L : length (slice buf (Z.to_nat offset) (Z.to_nat n)) = Z.to_nat n) by (apply slice_length; lia).
  rewrite st_ok by (rewrite ?L; lia). cbn [bind]. eexists. split; [reflexivity|]. split; intros i Hi.
  - rewrite mwrite_in by (rewrite L; lia). unfold slice. rewrite nth_firstn_lt by lia. rewrite nth_skipn_add. f_equal. lia.
  - apply mwrite_out. rewrite L. lia.
Qed.

Lemma mem_read_throws buf offset size dst dsz : dst = None \/ Z.of_nat (length buf) <= offset ->
  mem_read buf offset size dst dsz = Throw.
Proof.
  intros [->|H]; [reflexivity|]. unfold mem_read. destruct dst; [|reflexivity].
  destruct (Z.leb_spec (Z.of_nat (length buf)) offset); [reflexivity|lia].
Qed.

(** ** Writes *)
Definition covers (c : wcall) (a : Z) : Prop := fst c <= a < fst c + Z.of_nat (length (snd c)).
Definition stored (m : mem) (c : wcall) : Prop := forall a, covers c a -> m a = nth (Z.to_nat (a - fst c)) (snd c) 0.
Definition disjoint_calls (todo : nat -> list wcall) : Prop :=
  forall t i t' j c c', nth_error (todo t) i = Some c -> nth_error (todo t') j = Some c' -> (t, i) <> (t', j) ->
  forall a, covers c a -> ~ covers c' a.
(** every block is at its place, nothing else is changed *)
Definition all_stored (todo : nat -> list wcall) (m m' : mem) : Prop :=
  (forall t c, In c (todo t) -> stored m' c) /\
  (forall a, (forall t c, In c (todo t) -> ~ covers c a) -> m' a = m a).

Lemma skipn_cons_nth {A} (l : list A) k c r : skipn k l = c :: r -> nth_error l k = Some c /\ skipn (S k) l = r.
Proof.
  revert l. induction k as [|k IH]; intros [|x l] H; cbn [skipn nth_error] in *; try discriminate.
  - injection H as -> ->. split; reflexivity.
  - apply IH in H. exact H.
Qed.

Definition pinv (todo : nat -> list wcall) (m : mem) (k : nat -> nat) (s : pstate) : Prop :=
  (forall t, p_todo s t = skipn (k t) (todo t)) /\
  (forall t i c, nth_error (todo t) i = Some c -> (i < k t)%nat -> stored (p_file s) c) /\
  (forall a, (forall t c, In c (todo t) -> ~ covers c a) -> p_file s a = m a).

Lemma pinv_step todo m k s t : disjoint_calls todo -> pinv todo m k s -> exists k', pinv todo m k' (pstep s t).
Proof.
  intros D (I1 & I2 & I3). unfold pstep. destruct (p_todo s t) as [|[off d] r] eqn:E; [exists k; repeat split; auto|].
  rewrite I1 in E. destruct (skipn_cons_nth _ _ _ _ E) as [N S1].
  exists (upd k t (S (k t))). split; [|split]; cbn [p_todo p_file].
  - intros x. unfold upd. destruct (Nat.eqb_spec x t) as [->|]; [now rewrite S1|apply I1].
  - intros x i c Hn Hi a Ha. unfold upd in Hi.
    assert (C : (x = t /\ i = k t) \/ ((i < k x)%nat /\ (x, i) <> (t, k t))).
    { destruct (Nat.eqb_spec x t) as [->|Hx]; [|right; split; [exact Hi|congruence]].
      destruct (Nat.eq_dec i (k t)); [left; auto|right; split; [lia|congruence]]. }
    destruct C as [[-> ->]|[C1 C2]].
    + rewrite N in Hn. injection Hn as <-. unfold covers in Ha. cbn [fst snd] in *. now apply mwrite_in.
    + rewrite mwrite_out; [exact (I2 x i c Hn C1 a Ha)|].
      intros Hc. apply (D x i t (k t) c (off, d) Hn N C2 a Ha). exact Hc.
  - intros a Ha. rewrite mwrite_out; [now apply I3|]. intros Hc. apply (Ha t (off, d)); [|exact Hc].
    eapply nth_error_In, N.
Qed.

Lemma pexec_inv todo m : disjoint_calls todo -> forall sched k s, pinv todo m k s -> exists k', pinv todo m k' (pexec s sched).
Proof.
  intros D. induction sched as [|t sched IH]; intros k s H; [exists k; exact H|].
  unfold pexec. cbn [fold_left]. destruct (pinv_step todo m k s t D H) as (k1 & H1). exact (IH k1 _ H1).
Qed.

Lemma pwrite_all todo m sched : disjoint_calls todo ->
  let s := pexec (mkP m todo) sched in
  (forall t, p_todo s t = []) -> all_stored todo m (p_file s).
Proof.
  intros D s F. destruct (pexec_inv todo m D sched (fun _ => O) (mkP m todo)) as (k & I1 & I2 & I3).
  { split; [|split]; cbn [p_todo p_file]; [reflexivity|intros; lia|reflexivity]. }
  fold s in I1, I2, I3. split; [|exact I3]. intros t c Hc. apply In_nth_error in Hc. destruct Hc as (i & Hi).
  apply (I2 t i c Hi). destruct (Nat.ltb_spec i (k t)) as [L|L]; [exact L|exfalso].
  pose proof (F t) as E. rewrite I1 in E. assert (L2 : length (skipn (k t) (todo t)) = O) by (rewrite E; reflexivity).
  rewrite skipn_length in L2. assert ((i < length (todo t))%nat) by (apply nth_error_Some; congruence). lia.
Qed.

(** calls which do not overlap in time *)
Definition serial (ts : list nat) : list nat := flat_map (fun t => [t; t]) ts.

Lemma serial_same ts : forall s p, (forall t, o_seeked s t = false) -> o_file s = p_file p -> (forall t, o_todo s t = p_todo p t) ->
  let s' := oexec s (serial ts) in let p' := pexec p ts in
  (forall t, o_seeked s' t = false) /\ o_file s' = p_file p' /\ (forall t, o_todo s' t = p_todo p' t).
Proof.
  induction ts as [|t ts IH]; intros s p H1 H2 H3; [cbn; auto|].
  unfold oexec, pexec, serial in *. cbn [flat_map app fold_left]. apply IH; clear IH.
  - intros x. unfold ostep. destruct (o_todo s t) as [|[off d] r] eqn:E; [now rewrite E|].
    rewrite (H1 t). cbn [o_todo o_seeked]. rewrite E. unfold upd at 1. rewrite Nat.eqb_refl. cbn [o_seeked].
    unfold upd. destruct (x =? t)%nat eqn:X; [reflexivity|]. apply H1.
  - unfold ostep, pstep. rewrite <- (H3 t). destruct (o_todo s t) as [|[off d] r] eqn:E; [now rewrite E|].
    rewrite (H1 t). cbn [o_todo o_seeked]. rewrite E. unfold upd at 1. rewrite Nat.eqb_refl. cbn [o_file o_pos p_file]. now rewrite H2.
  - intros x. unfold ostep, pstep. rewrite <- (H3 t). destruct (o_todo s t) as [|[off d] r] eqn:E; [rewrite E; apply H3|].
    rewrite (H1 t). cbn [o_todo o_seeked]. rewrite E. unfold upd at 1. rewrite Nat.eqb_refl. cbn [o_todo p_todo].
    unfold upd. destruct (x =? t)%nat; [reflexivity|apply H3].
Qed.

Lemma stdio_serial todo m ts : disjoint_calls todo ->
  let s := oexec (ostart m todo) (serial ts) in
  (forall t, o_todo s t = []) -> all_stored todo m (o_file s).
Proof.
  intros D s F. destruct (serial_same ts (ostart m todo) (mkP m todo)) as (_ & E2 & E3); try reflexivity.
  fold s in E2, E3. rewrite E2. apply pwrite_all; [exact D|]. intros t. rewrite <- E3. apply F.
Qed.

(** ** Reads under the mutex *)
Definition answer (file : bytes) (c : rcall) : option bytes :=
  if fst c <? 9223372036854775808 then Some (firstn (Z.to_nat (snd c)) (skipn (Z.to_nat (fst c)) file)) else None.

Definition iinv (file : bytes) (todo : nat -> list rcall) (s : istate) : Prop :=
  (forall t, i_pc s t <> RIdle <-> i_lock s = Some t) /\
  (forall t, i_pc s t = RLocked -> i_todo s t <> []) /\
  (forall t, i_pc s t = RSeeked -> exists n r, i_todo s t = (i_pos s, n) :: r /\ i_pos s < 9223372036854775808) /\
  (forall t, todo t = map fst (i_log s t) ++ i_todo s t) /\
  (forall t, Forall (fun e => snd e = answer file (fst e)) (i_log s t)).

Lemma iinv_step file todo s t : iinv file todo s -> iinv file todo (istep file s t).
Proof.
  intros (I1 & I2 & I3 & I4 & I5). unfold istep.
  destruct (i_pc s t) eqn:P.
  - destruct (i_todo s t) as [|c r] eqn:T; [repeat split; auto; apply I1|].
    destruct (i_lock s) as [q|] eqn:L; [repeat split; auto; rewrite <- L in *; apply I1|].
    assert (A : forall x, i_pc s x = RIdle).
    { intros x. destruct (i_pc s x) eqn:X; [reflexivity|..]; assert (N : i_pc s x <> RIdle) by congruence; apply I1 in N; discriminate N. }
    unfold iinv. cbn [i_pc i_lock i_todo i_pos i_log]. unfold upd.
    split; [|split; [|split; [|split; [exact I4|exact I5]]]]; intros x.
    + destruct (Nat.eqb_spec x t) as [->|N]; split; intros H; congruence.
    + destruct (Nat.eqb_spec x t) as [->|N]; [congruence|]. rewrite A. discriminate.
    + destruct (Nat.eqb_spec x t) as [->|N]; [discriminate|]. rewrite A. discriminate.
  - assert (L : i_lock s = Some t) by (apply I1; congruence).
    assert (A : forall x, x <> t -> i_pc s x = RIdle).
    { intros x Hx. destruct (i_pc s x) eqn:X; [reflexivity|..]; assert (N : i_pc s x <> RIdle) by congruence; apply I1 in N; congruence. }
    destruct (i_todo s t) as [|[off n] r] eqn:T; [exfalso; now apply (I2 t)|].
    destruct (Z.ltb_spec off 9223372036854775808) as [Ho|Ho];
      unfold iinv; cbn [i_pc i_lock i_todo i_pos i_log]; unfold upd;
      (split; [|split; [|split; [|split]]]); intros x; try (exact (I4 x)); try (exact (I5 x));
      destruct (Nat.eqb_spec x t) as [->|N]; try rewrite (A x N); try discriminate; try apply I4; try apply I5.
    + split; congruence.
    + split; congruence.
    + intros _. exists n, r. split; [exact T|exact Ho].
    + split; congruence.
    + split; congruence.
    + rewrite map_app, (I4 t), T, <- app_assoc. reflexivity.
    + apply Forall_app. split; [apply I5|]. constructor; [|constructor]. cbn [fst snd]. unfold answer. cbn [fst].
      destruct (Z.ltb_spec off 9223372036854775808); [lia|reflexivity].
  - assert (L : i_lock s = Some t) by (apply I1; congruence).
    assert (A : forall x, x <> t -> i_pc s x = RIdle).
    { intros x Hx. destruct (i_pc s x) eqn:X; [reflexivity|..]; assert (N : i_pc s x <> RIdle) by congruence; apply I1 in N; congruence. }
    destruct (I3 t P) as (n & r & T & Ho). rewrite T. cbv zeta.
    unfold iinv; cbn [i_pc i_lock i_todo i_pos i_log]; unfold upd.
    split; [|split; [|split; [|split]]]; intros x;
      destruct (Nat.eqb_spec x t) as [->|N]; try rewrite (A x N); try discriminate; try apply I4; try apply I5.
    + split; congruence.
    + split; congruence.
    + rewrite map_app, (I4 t), T, <- app_assoc. reflexivity.
    + apply Forall_app. split; [apply I5|]. constructor; [|constructor]. cbn [fst snd]. unfold answer. cbn [fst snd].
      destruct (Z.ltb_spec (i_pos s) 9223372036854775808); [reflexivity|lia].
  - assert (L : i_lock s = Some t) by (apply I1; congruence).
    assert (A : forall x, x <> t -> i_pc s x = RIdle).
    { intros x Hx. destruct (i_pc s x) eqn:X; [reflexivity|..]; assert (N : i_pc s x <> RIdle) by congruence; apply I1 in N; congruence. }
    unfold iinv; destruct (i_todo s t) eqn:T; cbn [i_pc i_lock i_todo i_pos i_log]; unfold upd;
    (split; [|split; [|split; [|split; [exact I4|exact I5]]]]; intros x;
      destruct (Nat.eqb_spec x t) as [->|N]; try rewrite (A x N); try discriminate); split; congruence.
Qed.

Lemma iexec_inv file todo sched : iinv file todo (iexec file (istart todo) sched).
Proof.
  assert (G : forall sched s, iinv file todo s -> iinv file todo (iexec file s sched)).
  { clear sched. induction sched as [|t sched IH]; intros s H; [exact H|]. unfold iexec. cbn [fold_left]. apply IH, iinv_step, H. }
  apply G. unfold iinv, istart. cbn [i_pc i_lock i_todo i_pos i_log].
  split; [|split; [|split; [|split]]]; intros t; try discriminate; try reflexivity; try constructor; congruence.
Qed.

(** after every schedule each thread got, for the calls it made so far, exactly the bytes of the file *)
Lemma reads_ok file todo sched t :
  let s := iexec file (istart todo) sched in
  exists made, todo t = made ++ i_todo s t /\ i_log s t = map (fun c => (c, answer file c)) made.
Proof.
  intros s. destruct (iexec_inv file todo sched) as (_ & _ & _ & I4 & I5). fold s in I4, I5.
  exists (map fst (i_log s t)). split; [apply I4|]. specialize (I5 t). clear - I5.
  induction I5 as [|[c a] l H _ IH]; [reflexivity|]. cbn [map fst snd] in *. congruence.
Qed.

(** as long as there is something left to do, some thread can go on *)
Lemma reads_progress file todo sched :
  let s := iexec file (istart todo) sched in
  (exists t, i_todo s t <> []) -> exists t, i_pc (istep file s t) t <> i_pc s t.
Proof.
  intros s (t & Ht). destruct (iexec_inv file todo sched) as (I1 & I2 & I3 & _). fold s in I1, I2, I3.
  destruct (i_lock s) as [q|] eqn:L.
  - exists q. assert (N : i_pc s q <> RIdle) by now apply I1. unfold istep.
    destruct (i_pc s q) eqn:P; [congruence|..].
    + destruct (i_todo s q) as [|[o n] r] eqn:T; [exfalso; now apply (I2 q)|].
      destruct (o <? 9223372036854775808); cbn [i_pc]; unfold upd; rewrite Nat.eqb_refl; discriminate.
    + destruct (I3 q P) as (n & r & T & _). rewrite T. cbn [i_pc]. unfold upd. rewrite Nat.eqb_refl. discriminate.
    + destruct (i_todo s q); cbn [i_pc]; unfold upd; rewrite Nat.eqb_refl; discriminate.
  - exists t. assert (P : i_pc s t = RIdle).
    { destruct (i_pc s t) eqn:X; [reflexivity|..]; assert (N : i_pc s t <> RIdle) by congruence; apply I1 in N; congruence. }
    unfold istep. rewrite P. destruct (i_todo s t) as [|c r]; [congruence|]. rewrite L. cbn [i_pc]. unfold upd. rewrite Nat.eqb_refl. discriminate.
Qed.

(** ** Receiving *)
Lemma perform_safe size pieces : forall m count, 0 <= count <= size ->
  match perform size pieces (m, count) with
  | Ok (m', n) => count <= n <= size /\ forall a, a < count \/ n <= a -> m' a = m a
  | Throw => True
  | _ => False
  end.
Proof.
  induction pieces as [|p ps IH]; intros m count Hc; cbn [perform]; [split; [lia|reflexivity]|].
  unfold write_data. destruct (Z.ltb_spec size (count + Z.of_nat (length p))).
  - cbn [bind]. destruct (CURLE_WRITE_ERROR =? Z.of_nat (length p)); [|exact Logic.I]. apply IH. exact Hc.
  - rewrite st_ok by lia. cbn [bind]. rewrite Z.eqb_refl.
    assert (G : 0 <= count + Z.of_nat (length p) <= size) by lia.
    specialize (IH (mwrite m count p) (count + Z.of_nat (length p)) G).
    destruct (perform size ps (mwrite m count p, count + Z.of_nat (length p))) as [[m' n]| | |]; auto.
    destruct IH as [I1 I2]. split; [lia|]. intros a Ha. rewrite I2 by lia. apply mwrite_out. lia.
Qed.

Lemma perform_exact size pieces : (forall p, In p pieces -> Z.of_nat (length p) <> 23) -> forall m count, 0 <= count <= size ->
  if count + Z.of_nat (length (concat pieces)) <=? size
  then exists m', perform size pieces (m, count) = Ok (m', count + Z.of_nat (length (concat pieces))) /\
         (forall a, 0 <= a < Z.of_nat (length (concat pieces)) -> m' (count + a) = nth (Z.to_nat a) (concat pieces) 0) /\
         (forall a, a < count \/ count + Z.of_nat (length (concat pieces)) <= a -> m' a = m a)
  else perform size pieces (m, count) = Throw.
Proof.
  induction pieces as [|p ps IH]; intros H m count Hc; cbn [perform concat].
  - cbn [length]. destruct (Z.leb_spec (count + Z.of_nat 0) size); [|lia]. exists m. rewrite Z.add_0_r. split; [reflexivity|]. split; [lia|reflexivity].
  - rewrite app_length. unfold write_data. destruct (Z.ltb_spec size (count + Z.of_nat (length p))) as [G|G].
    + destruct (Z.leb_spec (count + Z.of_nat (length p + length (concat ps))) size); [lia|]. cbn [bind].
      assert (N : Z.of_nat (length p) <> 23) by (apply H; left; reflexivity). unfold CURLE_WRITE_ERROR.
      destruct (Z.eqb_spec 23 (Z.of_nat (length p))); [lia|reflexivity].
    + rewrite st_ok by lia. cbn [bind]. rewrite Z.eqb_refl.
      assert (C : 0 <= count + Z.of_nat (length p) <= size) by lia.
      specialize (IH (fun q I => H q (or_intror I)) (mwrite m count p) _ C).
      destruct (Z.leb_spec (count + Z.of_nat (length p) + Z.of_nat (length (concat ps))) size);
        destruct (Z.leb_spec (count + Z.of_nat (length p + length (concat ps))) size); try lia; [|exact IH].
      destruct IH as (m' & E & I1 & I2). exists m'. split; [rewrite E; do 2 f_equal; lia|]. split.
      * intros a Ha. destruct (Z.ltb_spec a (Z.of_nat (length p))).
        -- rewrite I2 by lia. rewrite mwrite_in by lia. rewrite app_nth1 by lia. f_equal. lia.
        -- rewrite app_nth2 by lia. replace (count + a) with (count + Z.of_nat (length p) + (a - Z.of_nat (length p))) by lia.
           rewrite I1 by lia. f_equal. lia.
      * intros a Ha. rewrite I2 by lia. apply mwrite_out. lia.
Qed.

Lemma curl_exact pieces size m : 0 < size -> (forall p, In p pieces -> Z.of_nat (length p) <> 23) ->
  let n := Z.of_nat (length (concat pieces)) in
  if n <=? size
  then exists m', curl_read pieces size m = Ok (m', n) /\
         (forall a, 0 <= a < n -> m' a = nth (Z.to_nat a) (concat pieces) 0) /\ (forall a, a < 0 \/ n <= a -> m' a = m a)
  else curl_read pieces size m = Throw.
Proof.
  intros Hs H n. unfold curl_read. destruct (Z.eqb_spec size 0); [lia|].
  assert (C : 0 <= 0 <= size) by lia. pose proof (perform_exact size pieces H m 0 C) as P. rewrite Z.add_0_l in P. exact P.
Qed.

Lemma curl_safe pieces size m : 0 <= size ->
  match curl_read pieces size m with
  | Ok (m', n) => 0 <= n <= size /\ forall a, a < 0 \/ n <= a -> m' a = m a
  | Throw => True
  | _ => False
  end.
Proof.
  intros H. unfold curl_read. destruct (Z.eqb_spec size 0); [split; [lia|reflexivity]|]. apply perform_safe. lia.
Qed.

(** ** Handles *)
(** what the functions should do: the kind of the object decides *)
Definition ideal_check (h : heap) (k : kind) (a : nat) : hres :=
  if (a =? 0)%nat then HInvalidArgument
  else match h a with
       | None => HUB
       | Some s => if kind_eqb (h_kind s) k then HOk (h_obj s) else HInvalidHandle
       end.
Definition ideal_step (h : heap) (o : hop) : heap * hres :=
  match o with
  | HCreate k a obj => (upd h a (Some (mkSlot (magic k) k obj)), HOk obj)
  | HUse k a => (h, ideal_check h k a)
  | HRelease k a => match ideal_check h k a with HOk x => (upd h a None, HOk x) | r => (h, r) end
  end.
Fixpoint ideal_run (h : heap) (ops : list hop) : heap * list hres :=
  match ops with
  | [] => (h, [])
  | o :: os => let (h', r) := ideal_step h o in let (h'', rs) := ideal_run h' os in (h'', r :: rs)
  end.

(** the two kinds with the same tag are not mixed up *)
Definition mixed (h : heap) (o : hop) : Prop :=
  match o with
  | HCreate _ _ _ => False
  | HUse k a | HRelease k a =>
      exists s, h a = Some s /\ ((h_kind s = KAttachment /\ k = KDocInfo) \/ (h_kind s = KDocInfo /\ k = KAttachment))
  end.
Fixpoint unmixed (h : heap) (ops : list hop) : Prop :=
  match ops with
  | [] => True
  | o :: os => ~ mixed h o /\ unmixed (fst (ideal_step h o)) os
  end.

Lemma kind_eqb_eq a b : kind_eqb a b = true <-> a = b.
Proof. destruct a, b; cbn; split; intros H; try reflexivity; try discriminate. Qed.

Definition tagged (h : heap) : Prop := forall a s, h a = Some s -> h_magic s = magic (h_kind s).

Lemma magic_eq a b : magic a = magic b -> a = b \/ (a = KAttachment /\ b = KDocInfo) \/ (a = KDocInfo /\ b = KAttachment).
Proof. destruct a, b; cbn; intros H; try discriminate H; auto. Qed.

Lemma check_ideal h k a : tagged h -> ~ mixed h (HUse k a) -> hcheck h k a = ideal_check h k a.
Proof.
  intros T M. unfold hcheck, ideal_check. destruct (a =? 0)%nat; [reflexivity|]. destruct (h a) as [s|] eqn:E; [|reflexivity].
  rewrite (T a s E). destruct (kind_eqb (h_kind s) k) eqn:K.
  - apply kind_eqb_eq in K. rewrite K, Z.eqb_refl. reflexivity.
  - destruct (Z.eqb_spec (magic (h_kind s)) (magic k)) as [G|]; [|reflexivity].
    apply magic_eq in G. destruct G as [G|G]; [apply kind_eqb_eq in G; congruence|]. exfalso. apply M. cbn [mixed]. exists s. auto.
Qed.

Lemma tagged_step h o : tagged h -> tagged (fst (ideal_step h o)).
Proof.
  intros T. destruct o as [k a obj|k a|k a]; cbn [ideal_step fst]; auto.
  - intros x s. unfold upd. destruct (x =? a)%nat; [intros E; injection E as <-; reflexivity|apply T].
  - destruct (ideal_check h k a); cbn [fst]; auto. intros x s. unfold upd. destruct (x =? a)%nat; [discriminate|apply T].
Qed.

Lemma handles_ideal ops : forall h, tagged h -> unmixed h ops -> hrun h ops = ideal_run h ops.
Proof.
  induction ops as [|o ops IH]; intros h T U; [reflexivity|]. destruct U as [U1 U2].
  cbn [hrun ideal_run].
  assert (E : hstep h o = ideal_step h o).
  { destruct o as [k a obj|k a|k a]; cbn [hstep ideal_step]; [reflexivity|..].
    - rewrite check_ideal by assumption. reflexivity.
    - rewrite check_ideal by assumption. unfold ideal_check. destruct (a =? 0)%nat; [reflexivity|]. destruct (h a) as [s|]; [|reflexivity].
      destruct (kind_eqb (h_kind s) k); reflexivity. }
  rewrite E. pose proof (tagged_step h o T) as T2. destruct (ideal_step h o) as [h' r]. cbn [fst] in *.
  rewrite (IH h' T2 U2). reflexivity.
Qed.
Lemma tagged_empty : tagged (fun _ => None).
Proof. intros a s H. discriminate H. Qed.
Lemma handles_session ops : unmixed (fun _ => None) ops -> hrun (fun _ => None) ops = ideal_run (fun _ => None) ops.
Proof. apply handles_ideal, tagged_empty. Qed.

(** releasing a handle leaves all others usable *)
Lemma release_others h k a x k' : x <> a -> hcheck (fst (hstep h (HRelease k a))) k' x = hcheck h k' x.
Proof.
  intros N. cbn [hstep]. unfold hcheck at 1.
  assert (U : upd h a None x = h x) by (unfold upd; destruct (Nat.eqb_spec x a); congruence).
  destruct (hcheck h k a); cbn [fst]; rewrite ?U; reflexivity.
Qed.
Lemma tags_distinct a b : magic a = magic b -> a <> KAttachment -> a <> KDocInfo -> a = b.
Proof. intros H N1 N2. destruct (magic_eq a b H) as [E|[[E _]|[E _]]]; congruence. Qed.
