(** The counted objects behave as the handles say (LifeModel, LifeSpec). *)
From Verif Require Import Base LifeModel LifeSpec.
Open Scope nat_scope.

(** ** Lists *)
Lemma put_length {A} (l : list A) i x : List.length (put l i x) = List.length l.
Proof. revert i. induction l as [|a l IH]; intros [|i]; cbn [put List.length]; auto. Qed.
Lemma put_same {A} (l : list A) i x : i < List.length l -> nth_error (put l i x) i = Some x.
Proof. revert i. induction l as [|a l IH]; intros [|i] H; cbn [put nth_error List.length] in *; try lia; auto. apply IH. lia. Qed.
Lemma put_other {A} (l : list A) i j x : i <> j -> nth_error (put l i x) j = nth_error l j.
Proof. revert i j. induction l as [|a l IH]; intros [|i] [|j] H; cbn [put nth_error]; auto; try lia. Qed.
Lemma put_get {A} (l : list A) i j x : i < List.length l -> nth_error (put l i x) j = if i =? j then Some x else nth_error l j.
Proof. intro H. destruct (Nat.eqb_spec i j) as [->|N]; [now apply put_same|now apply put_other]. Qed.
Lemma some_lt {A} (l : list A) i x : nth_error l i = Some x -> i < List.length l.
Proof. intro H. apply nth_error_Some. congruence. Qed.
Lemma lt_some {A} (l : list A) i : i < List.length l -> exists x, nth_error l i = Some x.
Proof. intro H. destruct (nth_error l i) eqn:E; [eauto|]. apply nth_error_None in E. lia. Qed.
Lemma app_get {A} (l : list A) x j : nth_error (l ++ [x]) j = if j =? List.length l then Some x else nth_error l j.
Proof.
  destruct (Nat.eqb_spec j (List.length l)) as [->|N]; [rewrite nth_error_app2, Nat.sub_diag by lia; reflexivity|].
  destruct (Nat.lt_ge_cases j (List.length l)); [now apply nth_error_app1|]. rewrite (proj2 (nth_error_None l j)) by lia. apply nth_error_None. rewrite app_length. cbn [List.length]. lia.
Qed.

(** ** References *)
Definition one (e : nat * obj) (i : nat) : nat :=
  match e with (S _, o) => match field o with Some j => if j =? i then 1 else 0 | None => 0 end | _ => 0 end.
Fixpoint held (l : list (nat * obj)) (i : nat) : nat := match l with [] => 0 | e :: l' => one e i + held l' i end.
Lemma held_app l m i : held (l ++ m) i = held l i + held m i.
Proof. induction l as [|e l IH]; cbn [held app]; lia. Qed.
Lemma held_put l k e e' i : nth_error l k = Some e -> held (put l k e') i + one e i = held l i + one e' i.
Proof. revert k. induction l as [|a l IH]; intros [|k] H; try discriminate; cbn [nth_error put held] in *; [injection H as ->; lia|]. specialize (IH k H). lia. Qed.
Lemma held_pos l i : 0 < held l i <-> exists k c o, nth_error l k = Some (S c, o) /\ field o = Some i.
Proof.
  induction l as [|e l IH]; cbn [held].
  - split; [lia|]. intros ([|k] & c & o & H & _); discriminate.
  - split.
    + intro H. destruct (Nat.eq_dec (one e i) 0) as [Z|Z].
      * destruct (proj1 IH) as (k & c & o & K & F); [lia|]. exists (S k), c, o. auto.
      * destruct e as ([|c], o); cbn [one] in Z; [lia|]. destruct (field o) as [j|] eqn:F; [|lia]. destruct (Nat.eqb_spec j i) as [->|]; [|lia].
        exists 0, c, o. auto.
    + intros ([|k] & c & o & H & F); cbn [nth_error] in H.
      * injection H as ->. cbn [one]. rewrite F, Nat.eqb_refl. lia.
      * assert (0 < held l i) by (apply IH; eauto). lia.
Qed.
Definition on (b : bool) : nat := if b then 1 else 0.
Definition hand (w : world) (i : nat) : bool := nth i (hands w) false.
Definition refs (w : world) (i : nat) : nat := on (hand w i) + held (heap w) i.
Definition content (w : world) (i : nat) : option obj := option_map snd (nth_error (heap w) i).
Definition aliveb (w : world) (i : nat) : bool := match nth_error (heap w) i with Some (S _, _) => true | _ => false end.
Definition typed (w : world) (o : obj) (j : nat) : Prop :=
  match o with
  | OReader _ => content w j = Some OIn
  | OWriter _ => content w j = Some OOut
  | OAccessor _ => exists s, content w j = Some (OReader (Some s))
  | _ => False
  end.
Definition none (i : nat) : nat := 0.
Definition just (i j : nat) : nat := if j =? i then 1 else 0.
Record good (w : world) (pend : nat -> nat) : Prop := {
  g_len : List.length (hands w) = List.length (heap w);
  g_cnt : forall i c o, nth_error (heap w) i = Some (c, o) -> c = refs w i + pend i;
  g_typ : forall i o j, content w i = Some o -> field o = Some j -> typed w o j }.
Definition stream_of (w : world) (i : nat) : option nat :=
  match content w i with
  | Some (OIn | OOut) => Some i
  | Some (OReader s | OWriter s) => s
  | Some (OAccessor r) => match content w r with Some (OReader s) => s | _ => None end
  | _ => None
  end.
Lemma content_some w i o : content w i = Some o -> exists c, nth_error (heap w) i = Some (c, o).
Proof. unfold content. destruct (nth_error (heap w) i) as [[c o']|]; [|discriminate]. intros [= <-]. eauto. Qed.
Lemma content_of w i c o : nth_error (heap w) i = Some (c, o) -> content w i = Some o.
Proof. unfold content. now intros ->. Qed.
Lemma alive_some w i : aliveb w i = true <-> exists c o, nth_error (heap w) i = Some (S c, o).
Proof.
  unfold aliveb. destruct (nth_error (heap w) i) as [[[|c] o]|]; split; intro H; try discriminate; eauto; destruct H as (? & ? & ?); discriminate.
Qed.
Lemma alive_refs w p i o : good w p -> content w i = Some o -> (aliveb w i = true <-> 0 < refs w i + p i).
Proof.
  intros G C. apply content_some in C as (c & C). pose proof (g_cnt w p G i c o C) as E. unfold aliveb. rewrite C. destruct c; split; intro; try discriminate; try lia.
Qed.
(** an object which is there keeps what it holds *)
Lemma alive_field w p i j : good w p -> aliveb w i = true -> (exists o, content w i = Some o /\ field o = Some j) -> aliveb w j = true.
Proof.
  intros G A (o & C & F). assert (T : exists o', content w j = Some o') by (pose proof (g_typ w p G i o j C F) as T; destruct o; cbn [typed] in T; try contradiction; try (destruct T as (? & T)); eexists; exact T).
  destruct T as (o' & T). apply (alive_refs w p j o' G T). assert (0 < held (heap w) j); [|unfold refs; lia]. apply held_pos.
  apply alive_some in A as (c & o2 & E). exists i, c, o. unfold content in C. rewrite E in *. injection C as ->. auto.
Qed.
Lemma alive_stream w p i s : good w p -> aliveb w i = true -> stream_of w i = Some s -> aliveb w s = true.
Proof.
  intros G A. unfold stream_of. destruct (content w i) as [o|] eqn:C; [|discriminate]. destruct o as [| |o|r|o|]; intro S; try discriminate.
  - now injection S as <-.
  - now injection S as <-.
  - subst o. apply (alive_field w p i s G A). eauto.
  - destruct (content w r) as [o|] eqn:R; [|discriminate]. destruct o as [| |o| | |]; try discriminate. subst o.
    assert (B : aliveb w r = true) by (apply (alive_field w p i r G A); eauto). apply (alive_field w p r s G B). eauto.
  - subst o. apply (alive_field w p i s G A). eauto.
Qed.

(** ** Destruction *)
Definition rank (o : obj) : nat := match o with OReader _ | OWriter _ => 1 | OAccessor _ => 2 | _ => 0 end.
Definition same_content (w w' : world) : Prop := forall i, content w' i = content w i.
Lemma same_stream w w' i : same_content w w' -> stream_of w' i = stream_of w i.
Proof. intro S. unfold stream_of. rewrite S. destruct (content w i) as [[]|]; auto. now rewrite S. Qed.
Lemma same_typed w w' o j : same_content w w' -> typed w o j -> typed w' o j.
Proof. intros S. destruct o; cbn [typed]; rewrite ?S; auto. Qed.
Definition ending (w : world) (s : option nat) : list event := match s with Some s => if aliveb w s then [] else [EClose s] | None => [] end.
Lemma put_content w i c o h t : content w i = Some o -> same_content w (mkW (put (heap w) i (c, o)) h t).
Proof.
  intros C j. unfold content in *. cbn [heap]. destruct (nth_error (heap w) i) as [[c0 o0]|] eqn:E; [|discriminate]. injection C as ->.
  rewrite put_get by (eapply some_lt; exact E). destruct (Nat.eqb_spec i j) as [<-|]; [|reflexivity]. now rewrite E.
Qed.
Lemma field_rank w p o i j : good w p -> content w i = Some o -> field o = Some j -> exists o', content w j = Some o' /\ rank o' < rank o /\ stream_of w i = stream_of w j.
Proof.
  intros G C F. pose proof (g_typ w p G i o j C F) as T. unfold stream_of. rewrite C. destruct o as [| |o|r|o|]; cbn [typed field] in *; try discriminate.
  - subst o. exists OIn. rewrite T. cbn [rank]. auto.
  - injection F as <-. destruct T as (s & T). exists (OReader (Some s)). rewrite T. cbn [rank]. auto.
  - subst o. exists OOut. rewrite T. cbn [rank]. auto.
Qed.
Lemma dropped : forall f w i o, good w (just i) -> content w i = Some o -> rank o < f ->
  exists w', drop f w i = Ok w' /\ good w' none /\ same_content w w' /\ hands w' = hands w /\ trace w' = trace w ++ ending w' (stream_of w i).
Proof.
  induction f as [|f IH]; intros w i o G C R; [lia|]. pose proof (content_some w i o C) as (c & E).
  pose proof (g_cnt _ _ G i c o E) as Q. unfold just in Q. rewrite Nat.eqb_refl in Q. destruct c as [|c]; [lia|]. cbn [drop]. rewrite E.
  assert (L : i < List.length (heap w)) by (eapply some_lt; exact E).
  set (w1 := mkW (put (heap w) i (c, o)) (hands w) (trace w)).
  assert (SC : same_content w w1) by now apply put_content.
  destruct c as [|c].
  - (* the last one *)
    assert (H1 : forall j, held (heap w1) j + one (1, o) j = held (heap w) j) by (intro j; pose proof (held_put (heap w) i _ (0, o) j E) as X; cbn [one] in X; cbn [w1 heap one]; lia).
    destruct (field o) as [j|] eqn:F.
    + assert (G1 : good w1 (just j)).
      { constructor; [cbn [w1 hands heap]; rewrite put_length; apply G| |intros; eapply same_typed; [exact SC|]; rewrite SC in *; eapply g_typ; eauto].
        intros k c' o' K. cbn [w1 heap] in K. rewrite put_get in K by exact L. unfold refs, hand in *. specialize (H1 k). cbn [one] in H1. rewrite F in H1.
        unfold just. rewrite (Nat.eqb_sym k j). destruct (Nat.eqb_spec i k) as [<-|N].
        - injection K as <- <-. cbn [w1 hands]. destruct (j =? i); lia.
        - pose proof (g_cnt _ _ G k c' o' K) as Y. unfold just, refs, hand in Y. apply not_eq_sym, Nat.eqb_neq in N. rewrite N in Y. cbn [w1 hands]. destruct (j =? k); lia. }
      destruct (field_rank w _ o i j G C F) as (o' & C' & R' & S').
      destruct (IH w1 j o' G1) as (w' & D & G' & SC' & Hh & T); [now rewrite SC|lia|]. exists w'. split; [exact D|]. split; [exact G'|].
      split; [intro k; now rewrite SC', SC|]. split; [exact Hh|]. rewrite T. cbn [w1 trace]. f_equal. rewrite (same_stream w w1 j SC). now rewrite S'.
    + assert (G1 : good w1 none).
      { constructor; [cbn [w1 hands heap]; rewrite put_length; apply G| |intros; eapply same_typed; [exact SC|]; rewrite SC in *; eapply g_typ; eauto].
        intros k c' o' K. cbn [w1 heap] in K. rewrite put_get in K by exact L. unfold refs, hand in *. specialize (H1 k). cbn [one] in H1. rewrite F in H1.
        unfold none. destruct (Nat.eqb_spec i k) as [<-|N].
        - injection K as <- <-. cbn [w1 hands]. lia.
        - pose proof (g_cnt _ _ G k c' o' K) as Y. unfold just, refs, hand in Y. apply not_eq_sym, Nat.eqb_neq in N. rewrite N in Y. cbn [w1 hands]. lia. }
      assert (A1 : aliveb w1 i = false) by (unfold aliveb; cbn [w1 heap]; now rewrite put_same).
      unfold stream_of. rewrite C. destruct o as [| |o|r|o|]; cbn [field is_stream] in *; try discriminate.
      * eexists. split; [reflexivity|]. split; [destruct G1; constructor; auto|]. split; [exact SC|]. split; [reflexivity|]. unfold ending. now replace (aliveb _ i) with false.
      * eexists. split; [reflexivity|]. split; [destruct G1; constructor; auto|]. split; [exact SC|]. split; [reflexivity|]. unfold ending. now replace (aliveb _ i) with false.
      * subst o. exists w1. split; [reflexivity|]. split; [exact G1|]. split; [exact SC|]. split; [reflexivity|]. cbn [ending]. now rewrite app_nil_r.
      * subst o. exists w1. split; [reflexivity|]. split; [exact G1|]. split; [exact SC|]. split; [reflexivity|]. cbn [ending]. now rewrite app_nil_r.
      * exists w1. split; [reflexivity|]. split; [exact G1|]. split; [exact SC|]. split; [reflexivity|]. cbn [ending]. now rewrite app_nil_r.
  - (* others are left *)
    assert (G1 : good w1 none).
    { constructor; [cbn [w1 hands heap]; rewrite put_length; apply G| |intros; eapply same_typed; [exact SC|]; rewrite SC in *; eapply g_typ; eauto].
      intros k c' o' K. cbn [w1 heap] in K. rewrite put_get in K by exact L. unfold refs, hand in *.
      pose proof (held_put (heap w) i _ (S c, o) k E) as X. cbn [one] in X. unfold none. destruct (Nat.eqb_spec i k) as [<-|N].
      - injection K as <- <-. cbn [w1 hands heap]. lia.
      - pose proof (g_cnt _ _ G k c' o' K) as Y. unfold just, refs, hand in Y. apply not_eq_sym, Nat.eqb_neq in N. rewrite N in Y. cbn [w1 hands heap]. lia. }
    exists w1. split; [reflexivity|]. split; [exact G1|]. split; [exact SC|]. split; [reflexivity|].
    assert (A1 : aliveb w1 i = true) by (unfold aliveb; cbn [w1 heap]; now rewrite put_same).
    unfold ending. destruct (stream_of w i) as [s|] eqn:S; [|now rewrite app_nil_r].
    rewrite (alive_stream w1 none i s G1 A1) by (rewrite (same_stream w w1 i SC); exact S). now rewrite app_nil_r.
Qed.
