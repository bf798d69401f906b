(** Lists of writes to a byte memory, and for-loops. *)
From Verif Require Import Base CopyModel.

Definition wr := (Z * bytes)%type.
Definition apply_writes (m : mem) (ws : list wr) : mem :=
  fold_left (fun m w => mwrite m (fst w) (snd w)) ws m.

Definition in_wr (w : wr) (a : Z) : Prop := fst w <= a < fst w + Z.of_nat (length (snd w)).
Definition wr_disj (w1 w2 : wr) : Prop := forall a, in_wr w1 a -> in_wr w2 a -> False.

Lemma mwrite_out m off d a : ~ (off <= a < off + Z.of_nat (length d)) -> mwrite m off d a = m a.
Proof. intros H; unfold mwrite. destruct ((off <=? a) && (a <? off + Z.of_nat (length d))) eqn:E; [lia|reflexivity]. Qed.

Lemma mwrite_in m off d a :
  off <= a < off + Z.of_nat (length d) -> mwrite m off d a = nth (Z.to_nat (a - off)) d 0.
Proof. intros H; unfold mwrite. destruct ((off <=? a) && (a <? off + Z.of_nat (length d))) eqn:E; [reflexivity|lia]. Qed.

Lemma mwrite_ext m1 m2 off d : (forall a, m1 a = m2 a) -> forall a, mwrite m1 off d a = mwrite m2 off d a.
Proof. intros H a; unfold mwrite. now rewrite H. Qed.

Lemma apply_writes_app m w1 w2 : apply_writes m (w1 ++ w2) = apply_writes (apply_writes m w1) w2.
Proof. apply fold_left_app. Qed.

Lemma apply_writes_out ws : forall m a, (forall w, In w ws -> ~ in_wr w a) -> apply_writes m ws a = m a.
Proof.
  induction ws as [|w ws IH]; intros m a H; [reflexivity|]. cbn [apply_writes fold_left].
  fold (apply_writes (mwrite m (fst w) (snd w)) ws).
  rewrite IH by (intros; apply H; now right). apply mwrite_out. apply (H w); now left.
Qed.

Lemma apply_writes_in ws : forall m w,
  ForallOrdPairs wr_disj ws -> In w ws ->
  forall a, in_wr w a -> apply_writes m ws a = nth (Z.to_nat (a - fst w)) (snd w) 0.
Proof.
  induction ws as [|w0 ws IH]; intros m w Hd Hin a Ha; [destruct Hin|].
  inversion Hd as [|? ? Hf Hd']; subst. cbn [apply_writes fold_left].
  fold (apply_writes (mwrite m (fst w0) (snd w0)) ws).
  destruct Hin as [->|Hin].
  - rewrite apply_writes_out; [now apply mwrite_in|].
    intros w' Hw' Hc. rewrite Forall_forall in Hf. exact (Hf _ Hw' a Ha Hc).
  - now apply IH.
Qed.

Lemma apply_writes_read ws m w :
  ForallOrdPairs wr_disj ws -> In w ws -> mread (apply_writes m ws) (fst w) (length (snd w)) = snd w.
Proof.
  intros Hd Hin. apply (nth_ext _ _ 0 0); [now rewrite mread_length|].
  intros n Hn. rewrite mread_length in Hn. rewrite mread_nth by assumption.
  rewrite (apply_writes_in ws m w Hd Hin) by (unfold in_wr; lia). f_equal; lia.
Qed.

Lemma mread_same m1 m2 off n : (forall i, 0 <= i < Z.of_nat n -> m1 (off + i) = m2 (off + i)) -> mread m1 off n = mread m2 off n.
Proof. intros H; apply mread_ext. intros i Hi. apply H; lia. Qed.

Lemma mread_sub m1 m2 o1 o2 n k len :
  mread m1 o1 n = mread m2 o2 n -> 0 <= k -> (Z.to_nat k + len <= n)%nat ->
  mread m1 (o1 + k) len = mread m2 (o2 + k) len.
Proof.
  intros H Hk Hl. apply mread_ext. intros i Hi.
  assert (He : nth (Z.to_nat (k + i)) (mread m1 o1 n) 0 = nth (Z.to_nat (k + i)) (mread m2 o2 n) 0) by now rewrite H.
  rewrite !mread_nth in He by lia.
  replace (o1 + Z.of_nat (Z.to_nat (k + i))) with (o1 + k + i) in He by lia.
  replace (o2 + Z.of_nat (Z.to_nat (k + i))) with (o2 + k + i) in He by lia. exact He.
Qed.

(** for-loops which only issue writes *)
Fixpoint iota (i : Z) (n : nat) : list Z := match n with O => [] | S n' => i :: iota (i + 1) n' end.

Lemma in_iota i n x : In x (iota i n) <-> i <= x < i + Z.of_nat n.
Proof. revert i; induction n as [|n IH]; intros i; cbn [iota In]; [lia|]. rewrite IH. lia. Qed.

Lemma for_loop_writes n : forall i (f : Z -> mem -> res mem) (g : Z -> list wr) m,
  (forall j m, i <= j < i + Z.of_nat n -> f j m = Ok (apply_writes m (g j))) ->
  for_loop n i f m = Ok (apply_writes m (flat_map g (iota i n))).
Proof.
  induction n as [|n IH]; intros i f g m H; cbn [for_loop iota flat_map]; [reflexivity|].
  rewrite H by lia. cbn [bind]. rewrite (IH _ _ g) by (intros; apply H; lia). now rewrite apply_writes_app.
Qed.

Lemma fop_app {A} (R : A -> A -> Prop) l1 l2 :
  ForallOrdPairs R l1 -> ForallOrdPairs R l2 -> (forall a b, In a l1 -> In b l2 -> R a b) ->
  ForallOrdPairs R (l1 ++ l2).
Proof.
  induction 1 as [|a l Ha Hl IH]; cbn [app]; intros H2 Hx; [assumption|].
  constructor.
  - apply Forall_app; split; [assumption|]. apply Forall_forall; intros; apply Hx; [now left|assumption].
  - apply IH; [assumption|]. intros; apply Hx; [now right|assumption].
Qed.

Lemma fop_flat_map {A} (R : A -> A -> Prop) (g : Z -> list A) n : forall i,
  (forall j, i <= j < i + Z.of_nat n -> ForallOrdPairs R (g j)) ->
  (forall j k a b, i <= j < k -> k < i + Z.of_nat n -> In a (g j) -> In b (g k) -> R a b) ->
  ForallOrdPairs R (flat_map g (iota i n)).
Proof.
  induction n as [|n IH]; intros i H1 H2; cbn [iota flat_map]; [constructor|].
  apply fop_app.
  - apply H1; lia.
  - apply IH; [intros; apply H1; lia|]. intros j k a b Hj Hk Ha Hb. apply (H2 j k); auto; lia.
  - intros a b Ha Hb. apply in_flat_map in Hb. destruct Hb as (k & Hk & Hb). apply in_iota in Hk.
    apply (H2 i k); auto; lia.
Qed.
