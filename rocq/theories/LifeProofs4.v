(** What the handles say about the calls of the functions of the streams (LifeSpec); handles which were released (LifeProofs3). *)
From Verif Require Import Base LifeModel LifeSpec LifeProofs LifeProofs2 LifeProofs3.
Open Scope nat_scope.

Record tidy (P : list event) (hs : handles) : Prop := {
  t_old : forall s, opened P s -> s < List.length hs;
  t_kept : forall s, keeps hs s -> opened P s;
  t_closed : forall s, opened P s -> (closed P s <-> ~ keeps hs s);
  t_was : forall s, closed P s -> opened P s;
  t_self : forall h k t, nth_error hs h = Some (Some (k, t)) -> k = KIn \/ k = KOut -> t = Some h;
  t_proper : proper P }.
Lemma proper_snoc P e : proper P -> match e with
    | EOpen s => ~ opened P s /\ ~ closed P s
    | ECall s => opened P s /\ ~ closed P s
    | EClose s => opened P s /\ ~ closed P s
    end -> proper (P ++ [e]).
Proof.
  intros H E a x b Q. destruct b as [|y b'].
  - apply app_inj_tail in Q as (<- & <-). exact E.
  - destruct (@exists_last _ (y :: b')) as (c & z & Z); [discriminate|]. rewrite Z in Q. rewrite app_comm_cons, app_assoc in Q. apply app_inj_tail in Q as (Q & _). exact (H _ _ _ Q).
Qed.
Lemma tidy_calls P hs s n : tidy P hs -> keeps hs s -> tidy (P ++ repeat (ECall s) n) hs.
Proof.
  intros T K. revert P T. induction n as [|n IH]; intros P T; cbn [repeat]; [now rewrite app_nil_r|].
  replace (P ++ ECall s :: repeat (ECall s) n) with ((P ++ [ECall s]) ++ repeat (ECall s) n) by now rewrite <- app_assoc. apply IH.
  assert (O : forall t, opened (P ++ [ECall s]) t <-> opened P t) by (intro t; unfold opened; rewrite in_app_iff; cbn [In]; split; [intros [H|[H|[]]]; [exact H|discriminate]|now left]).
  assert (C : forall t, closed (P ++ [ECall s]) t <-> closed P t) by (intro t; unfold closed; rewrite in_app_iff; cbn [In]; split; [intros [H|[H|[]]]; [exact H|discriminate]|now left]).
  destruct T as [T1 T2 T3 T4 T5 T6]. constructor; auto.
  - intros t H. apply T1, O, H.
  - intros t H. apply O, T2, H.
  - intros t H. rewrite C. apply T3, O, H.
  - intros t H. apply O, T4, C, H.
  - apply proper_snoc; [exact T6|]. split; [now apply T2|]. intro H. apply (proj1 (T3 s (T2 s K)) H K).
Qed.
Lemma keeps_fresh hs e s : keeps (fresh hs e) s <-> keeps hs s \/ snd e = Some s.
Proof.
  unfold keeps, fresh. split.
  - intros (h & k & H). rewrite app_get in H. destruct (h =? List.length hs); [injection H as ->; right; reflexivity|left; eauto].
  - intros [(h & k & H)|H].
    + exists h, k. rewrite nth_error_app1; [exact H|eapply some_lt; exact H].
    + exists (List.length hs), (fst e). rewrite app_get, Nat.eqb_refl. destruct e as (k & t). cbn [snd fst] in *. now rewrite H.
Qed.
Lemma tidy_same P hs hs' : tidy P hs -> List.length hs <= List.length hs' -> (forall s, keeps hs' s <-> keeps hs s) ->
  (forall h k t, nth_error hs' h = Some (Some (k, t)) -> k = KIn \/ k = KOut -> t = Some h) -> tidy P hs'.
Proof.
  intros [T1 T2 T3 T4 T5 T6] L K S. constructor; auto.
  - intros s H. specialize (T1 s H). lia.
  - intros s H. apply T2, K, H.
  - intros s H. rewrite K. apply T3, H.
Qed.
Lemma fresh_len hs e : List.length (fresh hs e) = S (List.length hs).
Proof. unfold fresh. rewrite app_length. cbn [List.length]. lia. Qed.
Lemma self_fresh P hs k t : tidy P hs -> (k = KIn \/ k = KOut -> t = Some (List.length hs)) ->
  forall h k' t', nth_error (fresh hs (k, t)) h = Some (Some (k', t')) -> k' = KIn \/ k' = KOut -> t' = Some h.
Proof.
  intros T E h k' t' H. unfold fresh in H. rewrite app_get in H. destruct (Nat.eqb_spec h (List.length hs)) as [->|].
  - injection H as <- <-. exact E.
  - now apply (t_self P hs T).
Qed.
Lemma tidy_fresh P hs k t : tidy P hs -> (forall s, t = Some s -> keeps hs s) -> (k <> KIn /\ k <> KOut) -> tidy P (fresh hs (k, t)).
Proof.
  intros T E N. apply (tidy_same P hs); [exact T|rewrite fresh_len; lia| |].
  - intro s. rewrite keeps_fresh. cbn [snd]. split; [intros [H|H]; auto|now left].
  - apply (self_fresh P hs k t T). intros []; tauto.
Qed.
Lemma tidy_open P hs k : tidy P hs -> tidy (P ++ [EOpen (List.length hs)]) (fresh hs (k, Some (List.length hs))).
Proof.
  intros T. set (n := List.length hs).
  assert (O : forall t, opened (P ++ [EOpen n]) t <-> opened P t \/ t = n) by (intro t; unfold opened; rewrite in_app_iff; cbn [In]; intuition congruence).
  assert (C : forall t, closed (P ++ [EOpen n]) t <-> closed P t) by (intro t; unfold closed; rewrite in_app_iff; cbn [In]; split; [intros [H|[H|[]]]; [exact H|discriminate]|now left]).
  assert (F : ~ opened P n) by (intro H; apply (t_old P hs T) in H; unfold n in H; lia).
  destruct T as [T1 T2 T3 T4 T5 T6] eqn:ET. constructor.
  - intros s H. rewrite fresh_len. apply O in H as [H| ->]; [apply T1 in H; lia|unfold n; lia].
  - intros s H. apply O. apply keeps_fresh in H as [H|H]; [left; now apply T2|right; cbn [snd] in H; congruence].
  - intros s H. rewrite C, keeps_fresh. cbn [snd]. apply O in H as [H| ->].
    + rewrite (T3 s H). assert (s <> n) by congruence. intuition congruence.
    + split; [intro H; apply T4 in H; contradiction|intro H; exfalso; apply H; now right].
  - intros s H. apply O. left. apply T4, C, H.
  - apply (self_fresh P hs k (Some n) T). intros _. reflexivity.
  - apply proper_snoc; [exact T6|]. split; [exact F|]. intro H. apply F, T4, H.
Qed.
Lemma keeps_put hs h e s : h < List.length hs -> (keeps (put hs h e) s <-> (exists k, e = Some (k, Some s)) \/ exists h' k, h' <> h /\ nth_error hs h' = Some (Some (k, Some s))).
Proof.
  intro L. unfold keeps. split.
  - intros (h' & k & H). rewrite put_get in H by exact L. destruct (Nat.eqb_spec h h') as [<-|N]; [left; exists k; congruence|right; exists h', k; auto].
  - intros [(k & ->)|(h' & k & N & H)].
    + exists h, k. now apply put_same.
    + exists h', k. rewrite put_other by congruence. exact H.
Qed.
(** a handle stops keeping [s] *)
Lemma tidy_let_go P hs h e k s : tidy P hs -> nth_error hs h = Some (Some (k, s)) -> (e = None \/ e = Some (KWriter, None)) ->
  tidy (P ++ let_go (put hs h e) s) (put hs h e).
Proof.
  intros T N E. assert (L : h < List.length hs) by (eapply some_lt; exact N).
  assert (SELF : forall h0 k0 t0, nth_error (put hs h e) h0 = Some (Some (k0, t0)) -> k0 = KIn \/ k0 = KOut -> t0 = Some h0).
  { intros h0 k0 t0 H. rewrite put_get in H by exact L. destruct (h =? h0); [|now apply (t_self P hs T)]. destruct E as [->| ->]; [discriminate|]. injection H as <- <-. intros [|]; discriminate. }
  assert (K : forall t, keeps (put hs h e) t <-> exists h' k, h' <> h /\ nth_error hs h' = Some (Some (k, Some t))).
  { intro t. rewrite keeps_put by exact L. split; [intros [(k' & H)|H]; [destruct E as [->| ->]; discriminate|exact H]|now right]. }
  assert (KI : forall t, keeps (put hs h e) t -> keeps hs t) by (intros t H; apply K in H as (h' & k' & _ & H); exists h', k'; exact H).
  assert (KO : forall t, s <> Some t -> keeps hs t -> keeps (put hs h e) t).
  { intros t D (h' & k' & H). apply K. exists h', k'. split; [|exact H]. intros ->. rewrite N in H. injection H as _ ->. now apply D. }
  destruct s as [s|]; cbn [let_go].
  - assert (KS : keeps hs s) by (exists h, k; exact N). destruct (kept (put hs h e) s) eqn:Q.
    + rewrite app_nil_r. apply kept_keeps in Q. apply (tidy_same P hs); [exact T|rewrite put_length; lia| |exact SELF].
      intro t. split; [apply KI|]. intro H. destruct (Nat.eq_dec s t) as [<-|D]; [exact Q|apply KO; congruence].
    + assert (NK : ~ keeps (put hs h e) s) by (intro H; apply kept_keeps in H; congruence). clear Q.
      assert (O : forall t, opened (P ++ [EClose s]) t <-> opened P t) by (intro t; unfold opened; rewrite in_app_iff; cbn [In]; split; [intros [H|[H|[]]]; [exact H|discriminate]|now left]).
      assert (C : forall t, closed (P ++ [EClose s]) t <-> closed P t \/ t = s) by (intro t; unfold closed; rewrite in_app_iff; cbn [In]; intuition congruence).
      destruct T as [T1 T2 T3 T4 T5 T6]. constructor; auto.
      * intros t H. rewrite put_length. apply T1, O, H.
      * intros t H. apply O, T2, KI, H.
      * intros t H. apply O in H. rewrite C, (T3 t H). destruct (Nat.eq_dec s t) as [<-|D]; [tauto|].
        split; [intros [J|J]; [intro H2; apply J, KI, H2|congruence]|]. intro J. left. intro H2. apply J. apply KO; [congruence|exact H2].
      * intros t H. apply O. apply C in H as [H| ->]; [now apply T4|now apply T2].
      * apply proper_snoc; [exact T6|]. split; [now apply T2|]. intro H. exact (proj1 (T3 s (T2 s KS)) H KS).
  - rewrite app_nil_r. apply (tidy_same P hs); [exact T|rewrite put_length; lia| |exact SELF]. intro t. split; [apply KI|]. apply KO. discriminate.
Qed.
(** a reader or a writer starts to keep [s] *)
Lemma tidy_keep P hs h k s : tidy P hs -> live hs h = Some (k, None) -> (k = KReader \/ k = KWriter) -> keeps hs s -> tidy P (put hs h (Some (k, Some s))).
Proof.
  intros T V KD K. unfold live in V. destruct (nth_error hs h) as [[e|]|] eqn:N; try discriminate. injection V as ->. assert (L : h < List.length hs) by (eapply some_lt; exact N).
  apply (tidy_same P hs); [exact T|rewrite put_length; lia| |].
  - intro t. rewrite keeps_put by exact L. split.
    + intros [(k' & H)|(h' & k' & _ & H)]; [injection H as _ <-; exact K|exists h', k'; exact H].
    + intros (h' & k' & H). right. exists h', k'. split; [|exact H]. intros ->. rewrite N in H. discriminate.
  - intros h0 k0 t0 H. rewrite put_get in H by exact L. destruct (h =? h0); [|now apply (t_self P hs T)]. injection H as <- <-. destruct KD as [->| ->]; intros [|]; discriminate.
Qed.
Lemma live_nth hs h e : live hs h = Some e -> nth_error hs h = Some (Some e).
Proof. unfold live. destruct (nth_error hs h) as [[]|]; try discriminate. now intros [= ->]. Qed.
Lemma live_keeps hs h k s : live hs h = Some (k, Some s) -> keeps hs s.
Proof. intro H. apply live_nth in H. exists h, k. exact H. Qed.

Lemma tidy_step P hs o hs' ev c : tidy P hs -> spec_step hs o = Some (hs', ev, c) -> tidy (P ++ ev) hs'.
Proof.
  intros T E.
  assert (REF : forall c', refused hs c' = Some (hs', ev, c) -> tidy (P ++ ev) hs') by (intros c' H; injection H as <- <- <-; now rewrite app_nil_r).
  assert (RES : forall s n ok, keeps hs s -> result hs (repeat (ECall s) n) ok = Some (hs', ev, c) -> tidy (P ++ ev) hs').
  { intros s n ok K H. unfold result in H. destruct ok; injection H as <- <- <-; [apply tidy_fresh; [|discriminate|split; discriminate]|]; now apply tidy_calls. }
  destruct o as [| | | |r s n ok|r n ok|r|a n ok|h|x s n ok|x n ok|x n ok|h]; cbn [spec_step] in E.
  - injection E as <- <- <-. now apply tidy_open.
  - injection E as <- <- <-. now apply tidy_open.
  - injection E as <- <- <-. rewrite app_nil_r. apply tidy_fresh; [exact T|discriminate|split; discriminate].
  - injection E as <- <- <-. rewrite app_nil_r. apply tidy_fresh; [exact T|discriminate|split; discriminate].
  - destruct (live hs r) as [[k t]|] eqn:V; [|destruct (live hs s) as [[]|]; discriminate]. destruct (live hs s) as [[k' t']|] eqn:V'; [|destruct k as [], t; discriminate].
    destruct k, k', t; try exact (REF _ E).
    assert (K : keeps hs s) by (apply live_nth in V'; rewrite (t_self P hs T _ _ _ V' (or_introl eq_refl)) in V'; exists s, KIn; exact V').
    destruct ok; injection E as <- <- <-; [apply tidy_keep; auto|]. all: now apply tidy_calls.
  - destruct (live hs r) as [[k t]|] eqn:V; [|discriminate]. destruct k, t; try exact (REF _ E). exact (RES _ _ _ (live_keeps _ _ _ _ V) E).
  - destruct (live hs r) as [[k t]|] eqn:V; [|discriminate]. destruct k, t as [t|]; try exact (REF _ E). injection E as <- <- <-. rewrite app_nil_r.
    apply tidy_fresh; [exact T|intros s [= <-]; exact (live_keeps _ _ _ _ V)|split; discriminate].
  - destruct (live hs a) as [[k t]|] eqn:V; [|discriminate]. destruct k, t; try exact (REF _ E). exact (RES _ _ _ (live_keeps _ _ _ _ V) E).
  - destruct (live hs h) as [[k t]|] eqn:V; [|discriminate]. destruct k; try exact (REF _ E). injection E as <- <- <-. rewrite app_nil_r. apply tidy_fresh; [exact T|discriminate|split; discriminate].
  - destruct (live hs x) as [[k t]|] eqn:V; [|destruct (live hs s) as [[]|]; discriminate]. destruct (live hs s) as [[k' t']|] eqn:V'; [|destruct k as [], t; discriminate].
    destruct k, k', t; try exact (REF _ E).
    assert (K : keeps hs s) by (apply live_nth in V'; rewrite (t_self P hs T _ _ _ V' (or_intror eq_refl)) in V'; exists s, KOut; exact V').
    injection E as <- <- <-. apply tidy_keep; auto. now apply tidy_calls.
  - destruct (live hs x) as [[k t]|] eqn:V; [|discriminate]. destruct k, t as [t|]; try exact (REF _ E). injection E as <- <- <-. apply tidy_calls; [exact T|exact (live_keeps _ _ _ _ V)].
  - destruct (live hs x) as [[k t]|] eqn:V; [|discriminate]. destruct k, t as [t|]; try exact (REF _ E). pose proof (live_keeps _ _ _ _ V) as K. destruct ok; injection E as <- <- <-; [|now apply tidy_calls].
    rewrite app_assoc. apply (tidy_let_go _ hs x (Some (KWriter, None)) KWriter (Some t)); [now apply tidy_calls|now apply live_nth|now right].
  - destruct (live hs h) as [[k t]|] eqn:V; [|discriminate]. injection E as <- <- <-. apply (tidy_let_go P hs h None k t T); [now apply live_nth|now left].
Qed.
Lemma tidy_run os : forall P hs hs' ev cs, tidy P hs -> spec_run hs os = Some (hs', ev, cs) -> tidy (P ++ ev) hs'.
Proof.
  induction os as [|o os IH]; intros P hs hs' ev cs T E; cbn [spec_run] in E.
  - injection E as <- <- <-. now rewrite app_nil_r.
  - destruct (spec_step hs o) as [[[hs1 ev1] c]|] eqn:E1; [|discriminate]. destruct (spec_run hs1 os) as [[[hs2 ev2] cs2]|] eqn:E2; [|discriminate]. injection E as <- <- <-.
    rewrite app_assoc. apply (IH _ hs1 hs2 ev2 cs2); [|exact E2]. now apply (tidy_step P hs o hs1 ev1 c).
Qed.
Lemma tidy_start : tidy [] [].
Proof.
  constructor; try contradiction.
  - intros s (h & k & H). destruct h; discriminate.
  - intros h k t H. destruct h; discriminate.
  - intros a e b H. destruct a; discriminate.
Qed.
Lemma tidily os hs ev cs : spec_run [] os = Some (hs, ev, cs) -> proper ev /\ (forall s, keeps hs s -> opened ev s) /\ forall s, opened ev s -> (closed ev s <-> ~ keeps hs s).
Proof. intro E. pose proof (tidy_run os [] [] hs ev cs tidy_start E) as [T1 T2 T3 T4 T5 T6]. cbn [app] in *. auto. Qed.
Lemma all_released os hs ev cs : spec_run [] os = Some (hs, ev, cs) -> Forall (fun e => e = None) hs -> forall s, opened ev s -> closed ev s.
Proof.
  intros E F s O. destruct (tidily os hs ev cs E) as (_ & _ & T). apply (T s O). intros (h & k & H). rewrite Forall_forall in F. apply nth_error_In, F in H. discriminate.
Qed.

(** ** Handles which were released *)
Lemma dead_is w hs h : state w hs -> live hs h = None -> behind w h = UB.
Proof.
  intros S V. unfold behind. destruct (nth_error (hands w) h) as [[|]|] eqn:N; auto. exfalso.
  destruct (content_lt w h) as (o & C); [rewrite <- (g_len _ _ (st_good _ _ S)); eapply some_lt; exact N|]. pose proof (st_rel _ _ S h o C) as R.
  unfold hand in R. rewrite (nth_error_nth _ _ false N) in R. unfold live in V. rewrite R in V. discriminate.
Qed.
Lemma stuck w hs o : state w hs -> spec_step hs o = None -> step w o = UB.
Proof.
  intros S E.
  assert (ONE : forall h (f : obj -> res (world * code)), live hs h = None -> (let* a := behind w h in f a) = UB) by (intros h f V; now rewrite (dead_is w hs h S V)).
  assert (TWO : forall h h' (f : obj -> obj -> res (world * code)), live hs h = None \/ live hs h' = None -> (let* a := behind w h in let* b := behind w h' in f a b) = UB).
  { intros h h' f [V|V]; [now apply ONE|]. destruct (live hs h) as [[k t]|] eqn:V2; [|now apply ONE]. destruct (live_is w hs h _ _ S V2) as (o' & -> & _). cbn [bind]. now apply ONE. }
  destruct o as [| | | |r s n ok|r n ok|r|a n ok|h|x s n ok|x n ok|x n ok|h]; cbn [spec_step step] in *; try discriminate.
  - apply TWO. destruct (live hs r) as [[[] []]|], (live hs s) as [[[] ?]|]; auto; discriminate.
  - apply ONE. destruct (live hs r) as [[[] []]|]; auto; try discriminate; destruct ok; discriminate.
  - apply ONE. destruct (live hs r) as [[[] []]|]; auto; discriminate.
  - apply ONE. destruct (live hs a) as [[[] []]|]; auto; try discriminate; destruct ok; discriminate.
  - apply ONE. destruct (live hs h) as [[[] ?]|]; auto; discriminate.
  - apply TWO. destruct (live hs x) as [[[] []]|], (live hs s) as [[[] ?]|]; auto; discriminate.
  - apply ONE. destruct (live hs x) as [[[] []]|]; auto; discriminate.
  - apply ONE. destruct (live hs x) as [[[] []]|]; auto; discriminate.
  - rewrite (dead_is w hs h S); [reflexivity|]. destruct (live hs h) as [[]|]; auto; discriminate.
Qed.
Lemma stuck_run os : forall w hs, state w hs -> spec_run hs os = None -> run w os = UB.
Proof.
  induction os as [|o os IH]; intros w hs S E; cbn [spec_run run] in *; [discriminate|].
  destruct (spec_step hs o) as [[[hs1 ev1] c]|] eqn:E1; [|now rewrite (stuck w hs o S E1)]. destruct (stepped w hs o hs1 ev1 c S E1) as (w1 & R1 & S1 & _). rewrite R1. cbn [bind].
  destruct (spec_run hs1 os) as [[[hs2 ev2] cs2]|] eqn:E2; [discriminate|]. now rewrite (IH w1 hs1 S1 E2).
Qed.
Lemma after_release os : spec_run [] os = None -> run empty os = UB.
Proof. apply stuck_run, start. Qed.

(** ** Calls which fail *)
Lemma calls_same w s n w' : calls w s n = Ok w' -> heap w' = heap w /\ hands w' = hands w.
Proof. unfold calls, look. destruct (nth_error (heap w) s) as [[[|c] o]|]; try discriminate. cbn [bind]. intro E. injection E as <-. auto. Qed.
Lemma fail_same w o w' c : step w o = Ok (w', c) -> c <> COk -> (forall x s n ok, o <> Create x s n ok) -> heap w' = heap w /\ hands w' = hands w.
Proof.
  intros E N D.
  assert (CALL : forall s n (f : world -> res (world * code)), (let* w1 := calls w s n in f w1) = Ok (w', c) -> (forall w1, f w1 = Ok (w', c) -> w' = w1) -> heap w' = heap w /\ hands w' = hands w).
  { intros s n f H F. destruct (calls w s n) as [w1| | |] eqn:Q; try discriminate. cbn [bind] in H. apply F in H as ->. now apply (calls_same w s n). }
  assert (MADE : forall ok w1, Ok (made ok w1) = Ok (w', c) -> w' = w1) by (intros ok w1 H; unfold made in H; destruct ok; injection H as <- <-; congruence).
  assert (SAID : forall ok w1, Ok (said ok w1) = Ok (w', c) -> w' = w1) by (intros ok w1 H; unfold said in H; destruct ok; injection H as <- <-; congruence).
  destruct o as [| | | |r s n ok|r n ok|r|a n ok|h|x s n ok|x n ok|x n ok|h]; cbn [step] in E; try (injection E as <- <-; congruence); try (exfalso; eapply D; reflexivity).
  - destruct (behind w r) as [o| | |]; try discriminate. cbn [bind] in E. destruct (behind w s) as [o'| | |]; try discriminate. cbn [bind] in E.
    destruct o as [| |[f|]|q|f|], o'; try (injection E as <- <-; auto). apply (CALL _ _ _ E). intros w1 H.
    destruct ok; [destruct (take w1 s); try discriminate; cbn [bind] in H; injection H as <- <-; congruence|now injection H as <- <-].
  - destruct (behind w r) as [o| | |]; try discriminate. cbn [bind] in E. destruct o as [| |[f|]|q|f|]; try (injection E as <- <-; auto). apply (CALL _ _ _ E), MADE.
  - destruct (behind w r) as [o| | |]; try discriminate. cbn [bind] in E. destruct o as [| |[f|]|q|f|]; try (injection E as <- <-; auto).
    destruct (take w r); try discriminate. cbn [bind] in E. injection E as <- <-. congruence.
  - destruct (behind w a) as [o| | |]; try discriminate. cbn [bind] in E. destruct o as [| |f|q|f|]; try (injection E as <- <-; auto).
    destruct (look w q) as [o| | |]; try discriminate. cbn [bind] in E. destruct o as [| |[f|]|q'|f|]; try (injection E as <- <-; auto). apply (CALL _ _ _ E), MADE.
  - destruct (behind w h) as [o| | |]; try discriminate. cbn [bind] in E. destruct o as [| |f|q|f|]; try (injection E as <- <-; auto). congruence.
  - destruct (behind w x) as [o| | |]; try discriminate. cbn [bind] in E. destruct o as [| |f|q|[f|]|]; try (injection E as <- <-; auto). apply (CALL _ _ _ E), SAID.
  - destruct (behind w x) as [o| | |]; try discriminate. cbn [bind] in E. destruct o as [| |f|q|[f|]|]; try (injection E as <- <-; auto). apply (CALL _ _ _ E). intros w1 H.
    destruct ok; [destruct (drop 3 _ f); try discriminate; cbn [bind] in H; injection H as <- <-; congruence|now injection H as <- <-].
  - destruct (behind w h) as [o| | |]; try discriminate. cbn [bind] in E. destruct (drop 3 _ h); try discriminate. cbn [bind] in E. injection E as <- <-. congruence.
Qed.
Lemma life_tidy os hs ev cs : spec_run [] os = Some (hs, ev, cs) ->
  exists w, run empty os = Ok (w, cs) /\ trace w = ev /\ proper ev /\ (forall s, keeps hs s -> opened ev s) /\ forall s, opened ev s -> (closed ev s <-> ~ keeps hs s).
Proof. intro E. destruct (life os hs ev cs E) as (w & R & T). pose proof (tidily os hs ev cs E). exists w. tauto. Qed.
Lemma life_end os hs ev cs : spec_run [] os = Some (hs, ev, cs) -> Forall (fun e => e = None) hs ->
  exists w, run empty os = Ok (w, cs) /\ forall s, opened (trace w) s -> closed (trace w) s.
Proof. intros E F. destruct (life os hs ev cs E) as (w & R & T). exists w. split; [exact R|]. rewrite T. now apply (all_released os hs ev cs). Qed.

(** ** Examples *)
Definition ex_read : list op := [NewIn; NewReader; Open 1 0 2 true; Release 0; MakeAccessor 1; Release 1; Get 2 1 true; Release 2; Derive 3; Release 3; Release 4].
Definition ex_write : list op := [NewOut; NewWriter; NewWriter; Create 1 0 1 true; Create 2 0 1 true; Release 0; Close 1 1 true; Write 1 1 true; NewOut; Create 1 3 1 true; Close 2 1 true; Close 1 1 false; Release 3; Release 1].
