(** Every function of the C API does to the counted objects what the handles say (LifeProofs, LifeSpec). *)
From Verif Require Import Base LifeModel LifeSpec LifeProofs.
Open Scope nat_scope.

Definition kind_of (o : obj) : kind :=
  match o with OIn => KIn | OOut => KOut | OReader _ => KReader | OAccessor _ => KAccessor | OWriter _ => KWriter | OPlain => KPlain end.
Record state (w : world) (hs : handles) : Prop := {
  st_good : good w none;
  st_len : List.length hs = List.length (heap w);
  st_rel : forall i o, content w i = Some o -> nth_error hs i = Some (if hand w i then Some (kind_of o, stream_of w i) else None) }.
Lemma content_lt w i : i < List.length (heap w) -> exists o, content w i = Some o.
Proof. intro H. apply lt_some in H as ((c, o) & E). exists o. unfold content. now rewrite E. Qed.
Lemma content_len w i o : content w i = Some o -> i < List.length (heap w).
Proof. intro H. apply content_some in H as (c & E). eapply some_lt; exact E. Qed.

(** ** Who keeps a stream *)
Lemma kept_keeps hs s : kept hs s = true <-> keeps hs s.
Proof.
  unfold kept, keeps. rewrite existsb_exists. split.
  - intros (e & I & H). destruct e as [[k [t|]]|]; try discriminate. apply Nat.eqb_eq in H as ->. apply In_nth_error in I as (h & I). eauto.
  - intros (h & k & H). apply nth_error_In in H. eexists. split; [exact H|]. cbn. apply Nat.eqb_refl.
Qed.
Lemma hand_alive w i o : good w none -> content w i = Some o -> hand w i = true -> aliveb w i = true.
Proof. intros G C H. apply (alive_refs w none i o G C). unfold refs. rewrite H. cbn [on]. lia. Qed.
Lemma alive_why w i o : good w none -> content w i = Some o -> aliveb w i = true ->
  hand w i = true \/ exists j o', content w j = Some o' /\ aliveb w j = true /\ field o' = Some i.
Proof.
  intros G C A. apply (alive_refs w none i o G C) in A. unfold refs, none in A. destruct (hand w i); [now left|right]. cbn [on] in A.
  assert (B : 0 < held (heap w) i) by lia. apply held_pos in B as (k & c & o' & K & F). exists k, o'. split; [eapply content_of; exact K|]. split; [|exact F].
  apply alive_some. eauto.
Qed.
Lemma kept_alive w hs s o : state w hs -> content w s = Some o -> is_stream o = true -> kept hs s = aliveb w s.
Proof.
  intros [G L R] C I. apply eq_true_iff_eq. rewrite kept_keeps. split.
  - intros (h & k & H). destruct (content_lt w h) as (o' & C'); [rewrite <- L; eapply some_lt; exact H|].
    rewrite (R h o' C') in H. destruct (hand w h) eqn:E; [|discriminate]. injection H as _ S.
    apply (alive_stream w none h s G); [|exact S]. now apply (hand_alive w h o').
  - intro A. assert (Q : forall j o', content w j = Some o' -> hand w j = true -> stream_of w j = Some s -> keeps hs s).
    { intros j o' C' H S. exists j, (kind_of o'). rewrite (R j o' C'), H, S. reflexivity. }
    destruct (alive_why w s o G C A) as [H|(j & o' & C' & A' & F)].
    + apply (Q s o C H). unfold stream_of. rewrite C. now destruct o.
    + pose proof (g_typ w none G j o' s C' F) as T. destruct o' as [| |f|f|f|]; cbn [typed field] in *; try contradiction; try discriminate.
      * subst f. destruct (alive_why w j _ G C' A') as [H|(k & o2 & C2 & A2 & F2)].
        -- apply (Q j _ C' H). unfold stream_of. now rewrite C'.
        -- pose proof (g_typ w none G k o2 j C2 F2) as T2. destruct o2 as [| |f|f|f|]; cbn [typed field] in *; try contradiction; try congruence.
           injection F2 as ->. destruct (alive_why w k _ G C2 A2) as [H|(m & o3 & C3 & A3 & F3)].
           ++ apply (Q k _ C2 H). unfold stream_of. now rewrite C2, C'.
           ++ pose proof (g_typ w none G m o3 k C3 F3) as T3. destruct o3; cbn [typed] in T3; try contradiction; try congruence. destruct T3; congruence.
      * destruct T as (t & T). rewrite T in C. injection C as <-. discriminate.
      * subst f. destruct (alive_why w j _ G C' A') as [H|(k & o2 & C2 & A2 & F2)].
        -- apply (Q j _ C' H). unfold stream_of. now rewrite C'.
        -- pose proof (g_typ w none G k o2 j C2 F2) as T2. destruct o2; cbn [typed] in T2; try contradiction; try congruence. destruct T2; congruence.
Qed.
Lemma stream_is w p i s : good w p -> stream_of w i = Some s -> exists o, content w s = Some o /\ is_stream o = true.
Proof.
  intros G. unfold stream_of. destruct (content w i) as [[| |o|r|o|]|] eqn:C; intro S; try discriminate.
  - injection S as <-. eauto.
  - injection S as <-. eauto.
  - subst o. pose proof (g_typ w p G i _ s C eq_refl) as T. eauto.
  - destruct (content w r) as [[| |o| | |]|] eqn:R; try discriminate. subst o. pose proof (g_typ w p G r _ s R eq_refl) as T. eauto.
  - subst o. pose proof (g_typ w p G i _ s C eq_refl) as T. eauto.
Qed.

(** ** The parts of a step *)
Lemma live_is w hs h k st : state w hs -> live hs h = Some (k, st) ->
  exists o, behind w h = Ok o /\ content w h = Some o /\ k = kind_of o /\ st = stream_of w h /\ hand w h = true /\ aliveb w h = true.
Proof.
  intros [G L R] H. unfold live in H. destruct (nth_error hs h) as [[e|]|] eqn:E; try discriminate. injection H as ->.
  destruct (content_lt w h) as (o & C); [rewrite <- L; eapply some_lt; exact E|]. exists o. rewrite (R h o C) in E. destruct (hand w h) eqn:D; [|discriminate]. injection E as <- <-.
  assert (A : aliveb w h = true) by now apply (hand_alive w h o). repeat split; auto.
  unfold behind. destruct (nth_error (hands w) h) as [b|] eqn:N.
  - unfold hand in D. rewrite (nth_error_nth _ _ false N) in D. subst b. unfold look. apply alive_some in A as (c & o' & A). unfold content in C. rewrite A in *. now injection C as ->.
  - unfold hand in D. rewrite nth_overflow in D by now apply nth_error_None. discriminate.
Qed.
Lemma look_alive w i o : content w i = Some o -> aliveb w i = true -> look w i = Ok o.
Proof. intros C A. unfold look. apply alive_some in A as (c & o' & A). unfold content in C. rewrite A in *. now injection C as ->. Qed.
(** only the trace has changed *)
Lemma state_trace w hs t : state w hs -> state (mkW (heap w) (hands w) t) hs.
Proof. intros [[G1 G2 G3] L R]. constructor; [constructor; auto|exact L|exact R]. Qed.
Lemma good_trace w p t : good w p -> good (mkW (heap w) (hands w) t) p.
Proof. intros [G1 G2 G3]. constructor; auto. Qed.
Lemma calls_state w hs s n o : state w hs -> content w s = Some o -> aliveb w s = true ->
  exists w', calls w s n = Ok w' /\ state w' hs /\ w' = mkW (heap w) (hands w) (trace w ++ repeat (ECall s) n).
Proof. intros S C A. eexists. unfold calls. rewrite (look_alive w s o C A). cbn [bind]. split; [reflexivity|]. split; [now apply state_trace|reflexivity]. Qed.
Lemma take_good w s : good w none -> aliveb w s = true ->
  exists w', take w s = Ok w' /\ good w' (just s) /\ same_content w w' /\ hands w' = hands w /\ trace w' = trace w /\ List.length (heap w') = List.length (heap w).
Proof.
  intros G A. apply alive_some in A as (c & o & E). unfold take. rewrite E. eexists. split; [reflexivity|].
  assert (SC : same_content w (mkW (put (heap w) s (S (S c), o)) (hands w) (trace w))) by (apply put_content; eapply content_of; exact E).
  split; [|split; [exact SC|repeat split; cbn [heap]; apply put_length]].
  constructor; [cbn [hands heap]; rewrite put_length; apply G| |intros; eapply same_typed; [exact SC|]; rewrite SC in *; eapply g_typ; eauto].
  intros k c' o' K. cbn [heap] in K. rewrite put_get in K by (eapply some_lt; exact E). unfold refs, hand. cbn [hands heap].
  pose proof (held_put (heap w) s _ (S (S c), o) k E) as X. cbn [one] in X. unfold just. destruct (Nat.eqb_spec s k) as [<-|N].
  - injection K as <- <-. pose proof (g_cnt _ _ G s (S c) o E) as Y. unfold refs, hand, none in Y. rewrite Nat.eqb_refl. lia.
  - pose proof (g_cnt _ _ G k c' o' K) as Y. unfold refs, hand, none in Y. apply not_eq_sym, Nat.eqb_neq in N. rewrite N. lia.
Qed.
(** a new object *)
Lemma nobody w p n : good w p -> List.length (heap w) <= n -> held (heap w) n = 0 /\ hand w n = false.
Proof.
  intros G H. split; [|unfold hand; apply nth_overflow; rewrite (g_len w p G); exact H].
  destruct (Nat.eq_dec (held (heap w) n) 0) as [|N]; [assumption|exfalso]. assert (P : 0 < held (heap w) n) by lia. apply held_pos in P as (k & c & o & K & F).
  pose proof (g_typ w p G k o n (content_of w k _ _ K) F) as T. assert (E : exists o', content w n = Some o') by (destruct o; cbn [typed] in T; try contradiction; try (destruct T as (? & T)); eexists; exact T).
  destruct E as (o' & E). apply content_len in E. lia.
Qed.
Lemma new_content w o i : content (new w o) i = if i =? List.length (heap w) then Some o else content w i.
Proof. unfold content, new. cbn [heap]. rewrite app_get. now destruct (i =? List.length (heap w)). Qed.
Lemma new_old w o i o' : content w i = Some o' -> content (new w o) i = Some o'.
Proof. intro C. rewrite new_content. pose proof (content_len w i o' C) as L. destruct (Nat.eqb_spec i (List.length (heap w))); [lia|exact C]. Qed.
Lemma new_typed w o o' j : typed w o' j -> typed (new w o) o' j.
Proof. destruct o'; cbn [typed]; auto; try apply new_old. intros (s & T). exists s. now apply new_old. Qed.
Lemma new_hand w o i : List.length (hands w) = List.length (heap w) -> hand (new w o) i = if i =? List.length (heap w) then true else hand w i.
Proof.
  intro L. unfold hand, new. cbn [hands]. destruct (Nat.eqb_spec i (List.length (heap w))) as [->|N]; [rewrite <- L, app_nth2, Nat.sub_diag by lia; reflexivity|].
  destruct (Nat.lt_ge_cases i (List.length (hands w))); [now apply app_nth1|]. rewrite !nth_overflow; [reflexivity|lia|rewrite app_length; cbn [List.length]; lia].
Qed.
Lemma new_good w o : good w (match field o with Some j => just j | None => none end) -> (forall j, field o = Some j -> typed w o j) -> good (new w o) none.
Proof.
  intros G T. pose proof (g_len _ _ G) as L. constructor.
  - unfold new. cbn [hands heap]. rewrite !app_length. cbn [List.length]. lia.
  - intros i c o' E. unfold refs. rewrite (new_hand w o i L). unfold new in E |- *. cbn [heap] in *. rewrite app_get in E. rewrite held_app. cbn [held one].
    destruct (Nat.eqb_spec i (List.length (heap w))) as [->|N].
    + injection E as <- <-. destruct (nobody w _ (List.length (heap w)) G (Nat.le_refl _)) as (-> & _). unfold none. cbn [on].
      destruct (field o) as [j|] eqn:F; [|lia]. specialize (T j eq_refl). destruct (Nat.eqb_spec j (List.length (heap w))) as [->|]; [|lia].
      destruct o; cbn [typed] in T; try contradiction; try (destruct T as (? & T)); apply content_len in T; lia.
    + pose proof (g_cnt _ _ G i c o' E) as Y. unfold refs, none in *. destruct (field o) as [j|]; [|lia]. unfold just in Y. rewrite (Nat.eqb_sym i j) in Y. lia.
  - intros i o' j C F. rewrite new_content in C. destruct (Nat.eqb_spec i (List.length (heap w))) as [->|N]; apply new_typed.
    + injection C as <-. now apply T.
    + eapply g_typ; eauto.
Qed.
Lemma new_stream w p o i : good w p -> i < List.length (heap w) -> stream_of (new w o) i = stream_of w i.
Proof.
  intros G H. destruct (content_lt w i H) as (o' & C). unfold stream_of. rewrite (new_old w o i o' C), C. destruct o' as [| |f|r|f|]; auto.
  destruct (g_typ w p G i _ r C eq_refl) as (s & T). now rewrite (new_old w o r _ T), T.
Qed.
Lemma new_state w w0 hs o : state w0 hs -> good w (match field o with Some j => just j | None => none end) -> (forall j, field o = Some j -> typed w o j) ->
  same_content w0 w -> hands w = hands w0 -> List.length (heap w) = List.length (heap w0) ->
  state (new w o) (fresh hs (kind_of o, stream_of (new w o) (List.length (heap w)))).
Proof.
  intros [G0 L0 R0] G T SC H L. constructor.
  - now apply new_good.
  - unfold fresh, new. cbn [heap]. rewrite !app_length. cbn [List.length]. lia.
  - intros i o' C. rewrite new_content in C. unfold fresh. rewrite app_get, L0, <- L. rewrite (new_hand w o i (g_len _ _ G)).
    destruct (Nat.eqb_spec i (List.length (heap w))) as [->|N].
    + now injection C as <-.
    + rewrite (new_stream w _ o i G) by (eapply content_len; exact C). rewrite (same_stream w0 w i SC). unfold hand. rewrite H. apply R0. now rewrite <- SC.
Qed.
Lemma made_state w hs s n ok o (G : state w hs) : content w s = Some o -> aliveb w s = true ->
  forall hs' ev c, result hs (repeat (ECall s) n) ok = Some (hs', ev, c) ->
  exists w', (let* w1 := calls w s n in Ok (made ok w1)) = Ok (w', c) /\ state w' hs' /\ trace w' = trace w ++ ev.
Proof.
  intros C A hs' ev c H. destruct (calls_state w hs s n o G C A) as (w1 & E & S1 & W). rewrite E. cbn [bind].
  unfold result in H. unfold made. destruct ok; injection H as <- <- <-.
  - exists (new w1 OPlain). split; [reflexivity|]. split.
    + replace (KPlain, None) with (kind_of OPlain, stream_of (new w1 OPlain) (List.length (heap w1))) by (unfold stream_of; rewrite new_content, Nat.eqb_refl; reflexivity).
      apply (new_state w1 w1 hs OPlain S1); try reflexivity; [apply S1|discriminate|intro; reflexivity].
    + unfold new. cbn [trace is_stream]. rewrite W. cbn [trace]. now rewrite app_nil_r.
  - exists w1. split; [reflexivity|]. split; [exact S1|]. rewrite W. reflexivity.
Qed.
Lemma plain_state w hs o : state w hs -> field o = None -> state (new w o) (fresh hs (kind_of o, stream_of (new w o) (List.length (heap w)))).
Proof. intros S F. apply (new_state w w hs o S); try reflexivity; rewrite ?F; [apply S|discriminate|intro; reflexivity]. Qed.
(** the member of an object changes *)
Lemma set_content w x o' i : x < List.length (heap w) -> content (set_obj w x o') i = if x =? i then Some o' else content w i.
Proof.
  intro H. unfold set_obj. apply lt_some in H as ((c, o) & E). rewrite E. unfold content. cbn [heap]. rewrite put_get by (eapply some_lt; exact E). now destruct (x =? i).
Qed.
Definition unused (o : obj) : Prop := match o with OReader None | OWriter _ => True | _ => False end.
Lemma set_typed w x o o' o2 j : content w x = Some o -> unused o -> typed w o2 j -> typed (set_obj w x o') o2 j.
Proof.
  intros C U T. assert (H : x < List.length (heap w)) by (eapply content_len; exact C).
  destruct o2; cbn [typed] in *; try contradiction; rewrite set_content by exact H; destruct (Nat.eqb_spec x j) as [<-|N]; auto.
  - rewrite T in C. injection C as <-. contradiction.
  - destruct T as (s & T). rewrite T in C. injection C as <-. contradiction.
  - rewrite T in C. injection C as <-. contradiction.
Qed.
Lemma set_good w p p' x o o' : good w p -> content w x = Some o -> unused o -> aliveb w x = true ->
  (forall k, p k + one (1, o) k = p' k + one (1, o') k) -> (forall j, field o' = Some j -> typed w o' j) -> good (set_obj w x o') p'.
Proof.
  intros G C U A P T. assert (H : x < List.length (heap w)) by (eapply content_len; exact C). constructor.
  - unfold set_obj. destruct (nth_error (heap w) x) as [[c ?]|]; [|apply G]. cbn [hands heap]. rewrite put_length. apply G.
  - intros i c o2 E. specialize (P i). apply alive_some in A as (c0 & o0 & A). assert (o0 = o) by (unfold content in C; rewrite A in C; now injection C as ->). subst o0.
    unfold set_obj, refs, hand in *. rewrite A in *. cbn [heap hands] in *. rewrite put_get in E by exact H. pose proof (held_put (heap w) x _ (S c0, o') i A) as X. cbn [one] in *.
    destruct (Nat.eqb_spec x i) as [<-|N].
    + injection E as <- <-. pose proof (g_cnt _ _ G x _ _ A) as Y. unfold refs, hand in Y. lia.
    + pose proof (g_cnt _ _ G i _ _ E) as Y. unfold refs, hand in Y. lia.
  - intros i o2 j C2 F. apply (set_typed w x o); auto. rewrite set_content in C2 by exact H. destruct (Nat.eqb_spec x i) as [<-|N].
    + injection C2 as <-. now apply T.
    + eapply g_typ; eauto.
Qed.
Lemma set_stream w p x o o' i : good w p -> content w x = Some o -> unused o -> x <> i -> stream_of (set_obj w x o') i = stream_of w i.
Proof.
  intros G C U N. assert (H : x < List.length (heap w)) by (eapply content_len; exact C). unfold stream_of. rewrite set_content by exact H.
  apply Nat.eqb_neq in N. rewrite N. destruct (content w i) as [[| |f|r|f|]|] eqn:C2; auto. rewrite set_content by exact H. destruct (Nat.eqb_spec x r) as [<-|]; auto.
  destruct (g_typ w p G i _ x C2 eq_refl) as (s & T). rewrite T in C. injection C as <-. contradiction.
Qed.
Lemma set_hands w x o : hands (set_obj w x o) = hands w.
Proof. unfold set_obj. now destruct (nth_error (heap w) x) as [[]|]. Qed.
Lemma set_trace w x o : trace (set_obj w x o) = trace w.
Proof. unfold set_obj. now destruct (nth_error (heap w) x) as [[]|]. Qed.
Lemma set_len w x o : List.length (heap (set_obj w x o)) = List.length (heap w).
Proof. unfold set_obj. destruct (nth_error (heap w) x) as [[]|]; auto. cbn [heap]. apply put_length. Qed.
(** handles and objects after the member has changed *)
Lemma set_rel w0 w hs p x o o' : state w0 hs -> good w p -> same_content w0 w -> hands w = hands w0 -> content w x = Some o -> unused o -> hand w x = true ->
  forall i o2, content (set_obj w x o') i = Some o2 ->
  nth_error (put hs x (Some (kind_of o', stream_of (set_obj w x o') x))) i = Some (if hand (set_obj w x o') i then Some (kind_of o2, stream_of (set_obj w x o') i) else None).
Proof.
  intros [G0 L0 R0] G SC H C U D i o2 C2. assert (X : x < List.length (heap w)) by (eapply content_len; exact C).
  assert (X0 : x < List.length hs) by (rewrite L0; apply (content_len w0 x o); now rewrite <- SC).
  rewrite put_get by exact X0. rewrite set_content in C2 by exact X. unfold hand in *. rewrite set_hands. destruct (Nat.eqb_spec x i) as [<-|N].
  - injection C2 as <-. now rewrite D.
  - rewrite (set_stream w p x o o' i G C U N). rewrite (same_stream w0 w i SC). rewrite H. apply R0. now rewrite <- SC.
Qed.
