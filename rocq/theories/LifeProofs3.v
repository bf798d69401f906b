(** Runs: what the caller sees, and what it means for the streams (LifeProofs2). *)
From Verif Require Import Base LifeModel LifeSpec LifeProofs LifeProofs2.
Open Scope nat_scope.

Lemma just_one s o k : field o = Some s -> just s k = one (1, o) k.
Proof. intro F. unfold just. cbn [one]. rewrite F. now rewrite Nat.eqb_sym. Qed.
Lemma rel_same w w' hs : state w hs -> good w' none -> same_content w w' -> hands w' = hands w -> List.length (heap w') = List.length (heap w) -> state w' hs.
Proof.
  intros [G L R] G' SC H L'. constructor; [exact G'|lia|]. intros i o C. rewrite (same_stream w w' i SC). unfold hand. rewrite H. apply R. now rewrite <- SC.
Qed.
Lemma ending_let_go w hs i : state w hs -> ending w (stream_of w i) = let_go hs (stream_of w i).
Proof.
  intros S. unfold ending, let_go. destruct (stream_of w i) as [s|] eqn:E; [|reflexivity].
  destruct (stream_is w none i s (st_good w hs S) E) as (o & C & I). now rewrite (kept_alive w hs s o S C I).
Qed.
Lemma len_same w w' : same_content w w' -> List.length (heap w') = List.length (heap w).
Proof.
  intros SC. destruct (Nat.lt_trichotomy (List.length (heap w')) (List.length (heap w))) as [H|[H|H]]; [|exact H|]; exfalso.
  - destruct (content_lt w _ H) as (o & C). rewrite <- SC in C. apply content_len in C. lia.
  - destruct (content_lt w' _ H) as (o & C). rewrite SC in C. apply content_len in C. lia.
Qed.

Lemma release_state w hs h k st : state w hs -> live hs h = Some (k, st) ->
  exists w', step w (Release h) = Ok (w', COk) /\ state w' (put hs h None) /\ trace w' = trace w ++ let_go (put hs h None) st.
Proof.
  intros S V. destruct (live_is w hs h k st S V) as (o & B & C & _ & -> & D & A). cbn [step]. rewrite B. cbn [bind].
  set (w0 := mkW (heap w) (put (hands w) h false) (trace w)).
  assert (Hh : h < List.length (hands w)) by (rewrite (g_len _ _ (st_good _ _ S)); eapply content_len; exact C).
  assert (D0 : forall i, hand w0 i = if h =? i then false else hand w i).
  { intro i. unfold hand. cbn [w0 hands]. destruct (Nat.eqb_spec h i) as [<-|N].
    - apply nth_error_nth. now apply put_same.
    - destruct (nth_error (hands w) i) as [b|] eqn:E; [rewrite (nth_error_nth _ _ false E); apply nth_error_nth; now rewrite put_other|].
      apply nth_error_None in E. rewrite !nth_overflow; [reflexivity|exact E|now rewrite put_length]. }
  assert (G0 : good w0 (just h)).
  { destruct (st_good _ _ S) as [G1 G2 G3]. constructor; [cbn [w0 hands heap]; now rewrite put_length| |exact G3].
    intros i c o' E. specialize (G2 i c o' E). unfold refs, none in *. rewrite D0. cbn [w0 heap]. unfold just. rewrite (Nat.eqb_sym i h).
    destruct (Nat.eqb_spec h i) as [<-|N]; [rewrite D in G2|]; cbn [on] in *; lia. }
  destruct (dropped 3 w0 h o G0 C) as (w' & E & G' & SC & H' & T); [destruct o; cbn [rank]; lia|].
  rewrite E. cbn [bind]. exists w'. split; [reflexivity|].
  assert (SC' : same_content w w') by (intro i; now rewrite SC).
  assert (S' : state w' (put hs h None)).
  { constructor; [exact G'|rewrite put_length, (st_len _ _ S); symmetry; apply (len_same w w' SC')|].
    intros i o2 C2. rewrite SC' in C2. unfold hand. rewrite H'. fold (hand w0 i). rewrite D0. rewrite (same_stream w w' i SC').
    rewrite put_get by (rewrite (st_len _ _ S); eapply content_len; exact C). destruct (h =? i); [reflexivity|]. now apply (st_rel _ _ S). }
  split; [exact S'|]. rewrite T. cbn [w0 trace]. f_equal. change (stream_of w0 h) with (stream_of w h). rewrite <- (same_stream w w' h SC'). now apply ending_let_go.
Qed.
Lemma close_state w hs x s n ok : state w hs -> live hs x = Some (KWriter, Some s) ->
  exists w', step w (Close x n ok) = Ok (w', if ok then COk else CUnspecified) /\
    let hs' := if ok then put hs x (Some (KWriter, None)) else hs in
    state w' hs' /\ trace w' = trace w ++ repeat (ECall s) n ++ (if ok then let_go hs' (Some s) else []).
Proof.
  intros S V. destruct (live_is w hs x _ _ S V) as (o & B & C & K & T & D & A). cbn [step]. rewrite B. cbn [bind].
  destruct o as [| |f|r|f|]; try discriminate. unfold stream_of in T. rewrite C in T. subst f.
  pose proof (g_typ _ _ (st_good _ _ S) x _ s C eq_refl) as T. cbn [typed] in T.
  assert (As : aliveb w s = true) by (apply (alive_field w none x s (st_good _ _ S) A); eauto).
  destruct (calls_state w hs s n _ S T As) as (w1 & E & S1 & W). rewrite E. cbn [bind]. destruct ok.
  - assert (C1 : content w1 x = Some (OWriter (Some s))) by (rewrite W; exact C). assert (A1 : aliveb w1 x = true) by (rewrite W; exact A). assert (T1 : content w1 s = Some OOut) by (rewrite W; exact T).
    assert (D1 : hand w1 x = true) by (rewrite W; exact D).
    assert (X : x < List.length (heap w1)) by (eapply content_len; exact C1).
    set (w2 := set_obj w1 x (OWriter None)).
    assert (G2 : good w2 (just s)).
    { apply (set_good w1 none (just s) x _ (OWriter None) (st_good _ _ S1) C1); [exact Logic.I|exact A1| |discriminate]. intro k. rewrite (just_one s (OWriter (Some s)) k eq_refl). unfold none. cbn [one field]. lia. }
    assert (C2 : content w2 s = Some OOut). { unfold w2. rewrite set_content by exact X. destruct (Nat.eqb_spec x s) as [<-|]; [congruence|exact T1]. }
    destruct (dropped 3 w2 s OOut G2 C2) as (w' & E' & G' & SC & H' & Tr); [cbn [rank]; lia|]. rewrite E'. cbn [bind]. exists w'. split; [reflexivity|]. cbv zeta.
    assert (S' : state w' (put hs x (Some (KWriter, None)))).
    { assert (R2 := set_rel w1 w1 hs none x _ (OWriter None) S1 (st_good _ _ S1) (fun i => eq_refl) eq_refl C1 Logic.I D1). fold w2 in R2.
      replace (stream_of w2 x) with (@None nat) in R2 by (unfold stream_of, w2; rewrite set_content by exact X; now rewrite Nat.eqb_refl).
      constructor; [exact G'|rewrite put_length, (st_len _ _ S1), <- (set_len w1 x (OWriter None)); fold w2; symmetry; apply (len_same w2 w' SC)|].
      intros i o2 Co. rewrite SC in Co. unfold hand. rewrite H'. rewrite (same_stream w2 w' i SC). now apply R2. }
    assert (T2 : trace w2 = trace w ++ repeat (ECall s) n) by (unfold w2; rewrite set_trace, W; reflexivity).
    split; [exact S'|]. rewrite Tr, T2. rewrite <- app_assoc. f_equal. f_equal.
    rewrite <- (same_stream w2 w' s SC). rewrite (ending_let_go w' _ s S'). f_equal. rewrite (same_stream w2 w' s SC). unfold stream_of. now rewrite C2.
  - exists w1. split; [reflexivity|]. cbv zeta. split; [exact S1|]. rewrite W, app_nil_r. reflexivity.
Qed.
Lemma open_state w hs r s n ok : state w hs -> live hs r = Some (KReader, None) -> (exists t, live hs s = Some (KIn, t)) ->
  exists w', step w (Open r s n ok) = Ok (w', if ok then COk else CUnspecified) /\
    state w' (if ok then put hs r (Some (KReader, Some s)) else hs) /\ trace w' = trace w ++ repeat (ECall s) n.
Proof.
  intros S V (t & V'). destruct (live_is w hs r _ _ S V) as (o & B & C & K & T & D & A). destruct (live_is w hs s _ _ S V') as (o' & B' & C' & K' & T' & D' & A').
  cbn [step]. rewrite B. cbn [bind]. rewrite B'. cbn [bind]. destruct o as [| |f|q|f|]; try discriminate. destruct o' as [| | | | |]; try discriminate. clear K K'.
  unfold stream_of in T. rewrite C in T. subst f.
  destruct (calls_state w hs s n _ S C' A') as (w1 & E & S1 & W). rewrite E. cbn [bind]. destruct ok; [|exists w1; split; [reflexivity|]; split; [exact S1|]; now rewrite W].
  assert (A1 : aliveb w1 s = true) by (rewrite W; exact A').
  destruct (take_good w1 s (st_good _ _ S1) A1) as (w2 & E2 & G2 & SC & H2 & T2 & L2). rewrite E2. cbn [bind].
  assert (C2 : content w2 r = Some (OReader None)) by (rewrite SC, W; exact C). assert (Cs : content w2 s = Some OIn) by (rewrite SC, W; exact C').
  assert (D2 : hand w2 r = true) by (unfold hand; rewrite H2, W; exact D).
  assert (A2 : aliveb w2 r = true). { apply (alive_refs w2 (just s) r _ G2 C2). unfold refs. rewrite D2. cbn [on]. lia. }
  assert (X : r < List.length (heap w2)) by (eapply content_len; exact C2).
  set (w3 := set_obj w2 r (OReader (Some s))). exists w3. split; [reflexivity|].
  assert (G3 : good w3 none).
  { apply (set_good w2 (just s) none r _ _ G2 C2); [exact Logic.I|exact A2| |intros j F; cbn [field] in F; injection F as <-; exact Cs].
    intro k. rewrite (just_one s (OReader (Some s)) k eq_refl). unfold none. cbn [one field]. lia. }
  split; [|unfold w3; rewrite set_trace, T2, W; reflexivity].
  assert (R := set_rel w1 w2 hs (just s) r _ (OReader (Some s)) S1 G2 SC H2 C2 Logic.I D2). fold w3 in R.
  replace (stream_of w3 r) with (Some s) in R by (unfold stream_of, w3; rewrite set_content by exact X; now rewrite Nat.eqb_refl).
  constructor; [exact G3|unfold w3; rewrite put_length, set_len, L2; apply (st_len _ _ S1)|exact R].
Qed.
Lemma create_state w hs x s n ok : state w hs -> live hs x = Some (KWriter, None) -> (exists t, live hs s = Some (KOut, t)) ->
  exists w', step w (Create x s n ok) = Ok (w', if ok then COk else CUnspecified) /\
    state w' (put hs x (Some (KWriter, Some s))) /\ trace w' = trace w ++ repeat (ECall s) n.
Proof.
  intros S V (t & V'). destruct (live_is w hs x _ _ S V) as (o & B & C & K & T & D & A). destruct (live_is w hs s _ _ S V') as (o' & B' & C' & K' & T' & D' & A').
  cbn [step]. rewrite B. cbn [bind]. rewrite B'. cbn [bind]. destruct o as [| |f|q|f|]; try discriminate. destruct o' as [| | | | |]; try discriminate. clear K K'.
  unfold stream_of in T. rewrite C in T. subst f.
  destruct (take_good w s (st_good _ _ S) A') as (w2 & E2 & G2 & SC & H2 & T2 & L2). rewrite E2. cbn [bind].
  assert (C2 : content w2 x = Some (OWriter None)) by (rewrite SC; exact C). assert (Cs : content w2 s = Some OOut) by (rewrite SC; exact C').
  assert (D2 : hand w2 x = true) by (unfold hand; rewrite H2; exact D).
  assert (A2 : aliveb w2 x = true). { apply (alive_refs w2 (just s) x _ G2 C2). unfold refs. rewrite D2. cbn [on]. lia. }
  assert (X : x < List.length (heap w2)) by (eapply content_len; exact C2).
  set (w3 := set_obj w2 x (OWriter (Some s))).
  assert (G3 : good w3 none).
  { apply (set_good w2 (just s) none x _ _ G2 C2); [exact Logic.I|exact A2| |intros j F; cbn [field] in F; injection F as <-; exact Cs].
    intro k. rewrite (just_one s (OWriter (Some s)) k eq_refl). unfold none. cbn [one field]. lia. }
  assert (S3 : state w3 (put hs x (Some (KWriter, Some s)))).
  { assert (R := set_rel w w2 hs (just s) x _ (OWriter (Some s)) S G2 SC H2 C2 Logic.I D2). fold w3 in R.
    replace (stream_of w3 x) with (Some s) in R by (unfold stream_of, w3; rewrite set_content by exact X; now rewrite Nat.eqb_refl).
    constructor; [exact G3|unfold w3; rewrite put_length, set_len, L2; apply (st_len _ _ S)|exact R]. }
  assert (Cs3 : content w3 s = Some OOut) by (unfold w3; rewrite set_content by exact X; destruct (Nat.eqb_spec x s) as [<-|]; [congruence|exact Cs]).
  assert (A3 : aliveb w3 s = true). { apply (alive_field w3 none x s G3); [|exists (OWriter (Some s)); split; [unfold w3; rewrite set_content by exact X; now rewrite Nat.eqb_refl|reflexivity]].
    apply (alive_refs w3 none x (OWriter (Some s)) G3); [unfold w3; rewrite set_content by exact X; now rewrite Nat.eqb_refl|].
    unfold refs, hand, w3. rewrite set_hands. fold (hand w2 x). rewrite D2. cbn [on]. lia. }
  destruct (calls_state w3 _ s n _ S3 Cs3 A3) as (w4 & E4 & S4 & W). rewrite E4. cbn [bind]. exists w4. split; [reflexivity|]. split; [exact S4|].
  rewrite W. cbn [trace]. unfold w3. now rewrite set_trace, T2.
Qed.
Lemma accessor_state w hs r s : state w hs -> live hs r = Some (KReader, Some s) ->
  exists w', step w (MakeAccessor r) = Ok (w', COk) /\ state w' (fresh hs (KAccessor, Some s)) /\ trace w' = trace w.
Proof.
  intros S V. destruct (live_is w hs r _ _ S V) as (o & B & C & K & T & D & A). cbn [step]. rewrite B. cbn [bind]. destruct o as [| |f|q|f|]; try discriminate. clear K.
  unfold stream_of in T. rewrite C in T. subst f.
  destruct (take_good w r (st_good _ _ S) A) as (w2 & E2 & G2 & SC & H2 & T2 & L2). rewrite E2. cbn [bind]. exists (new w2 (OAccessor r)). split; [reflexivity|].
  assert (C2 : content w2 r = Some (OReader (Some s))) by (rewrite SC; exact C).
  split; [|unfold new; cbn [trace is_stream]; rewrite T2; apply app_nil_r].
  replace (KAccessor, Some s) with (kind_of (OAccessor r), stream_of (new w2 (OAccessor r)) (List.length (heap w2))).
  - apply (new_state w2 w hs); auto. intros j [= <-]. exists s. exact C2.
  - unfold stream_of. rewrite new_content, Nat.eqb_refl. now rewrite (new_old w2 _ r _ C2).
Qed.

(** ** One step *)
Lemma stepped w hs o hs' ev c : state w hs -> spec_step hs o = Some (hs', ev, c) -> exists w', step w o = Ok (w', c) /\ state w' hs' /\ trace w' = trace w ++ ev.
Proof.
  intros S E. pose proof (st_len _ _ S) as L.
  assert (NEW : forall o', field o' = None -> exists w', Ok (new w o', COk) = Ok (w', COk) /\ state w' (fresh hs (kind_of o', stream_of (new w o') (List.length (heap w)))) /\
    trace w' = trace w ++ (if is_stream o' then [EOpen (List.length (heap w))] else [])).
  { intros o' F. eexists. split; [reflexivity|]. split; [now apply plain_state|reflexivity]. }
  assert (NS : forall o', stream_of (new w o') (List.length (heap w)) = match o' with OIn | OOut => Some (List.length (heap w)) | _ => stream_of (new w o') (List.length (heap w)) end).
  { intro o'. unfold stream_of. rewrite new_content, Nat.eqb_refl. now destruct o'. }
  assert (NP : stream_of (new w OPlain) (List.length (heap w)) = None) by (unfold stream_of; now rewrite new_content, Nat.eqb_refl).
  assert (REF : forall c', refused hs c' = Some (hs', ev, c) -> exists w', Ok (w, c') = Ok (w', c) /\ state w' hs' /\ trace w' = trace w ++ ev).
  { intros c' H. injection H as <- <- <-. exists w. rewrite app_nil_r. auto. }
  destruct o as [| | | |r s n ok|r n ok|r|a n ok|h|x s n ok|x n ok|x n ok|h]; cbn [spec_step] in E.
  - injection E as <- <- <-. rewrite L. specialize (NEW OIn eq_refl). rewrite NS in NEW. exact NEW.
  - injection E as <- <- <-. rewrite L. specialize (NEW OOut eq_refl). rewrite NS in NEW. exact NEW.
  - injection E as <- <- <-. specialize (NEW (OReader None) eq_refl). unfold stream_of in NEW. rewrite new_content, Nat.eqb_refl in NEW. exact NEW.
  - injection E as <- <- <-. specialize (NEW (OWriter None) eq_refl). unfold stream_of in NEW. rewrite new_content, Nat.eqb_refl in NEW. exact NEW.
  - destruct (live hs r) as [[k t]|] eqn:V; [|destruct (live hs s) as [[]|]; discriminate]. destruct (live hs s) as [[k' t']|] eqn:V'; [|destruct k as [], t; discriminate].
    destruct (live_is w hs r _ _ S V) as (o & B & C & K & T & D & A). destruct (live_is w hs s _ _ S V') as (o' & B' & C' & K' & T' & D' & A').
    destruct o as [| |f|q|f|]; cbn [kind_of] in K; subst k; destruct o' as [| |f'|q'|f'|]; cbn [kind_of] in K'; subst k'; try (cbn [step]; rewrite B; cbn [bind]; rewrite B'; cbn [bind]; destruct t; exact (REF _ E));
      try (cbn [step]; rewrite B; cbn [bind]; rewrite B'; cbn [bind]; destruct f, t; exact (REF _ E)).
    unfold stream_of in T. rewrite C in T. subst f. destruct t as [t|].
    + cbn [step]; rewrite B; cbn [bind]; rewrite B'; cbn [bind]. exact (REF _ E).
    + destruct (open_state w hs r s n ok S V) as (w' & E1 & S1 & T1); [eauto|]. exists w'. destruct ok; injection E as <- <- <-; auto.
  - destruct (live hs r) as [[k t]|] eqn:V; [|discriminate]. destruct (live_is w hs r _ _ S V) as (o & B & C & K & T & D & A). cbn [step]. rewrite B. cbn [bind].
    destruct o as [| |f|q|f|]; cbn [kind_of] in K; subst k; try exact (REF _ E). unfold stream_of in T. rewrite C in T. subst f. destruct t as [t|]; [|exact (REF _ E)].
    pose proof (g_typ _ _ (st_good _ _ S) r _ t C eq_refl) as Y. cbn [typed] in Y.
    apply (made_state w hs t n ok OIn S Y); [|exact E]. apply (alive_field w none r t (st_good _ _ S) A). eauto.
  - destruct (live hs r) as [[k t]|] eqn:V; [|discriminate]. destruct (live_is w hs r _ _ S V) as (o & B & C & K & T & D & A).
    destruct o as [| |f|q|f|]; cbn [kind_of] in K; subst k; try (cbn [step]; rewrite B; cbn [bind]; exact (REF _ E)).
    unfold stream_of in T. rewrite C in T. subst f. destruct t as [t|]; [|cbn [step]; rewrite B; cbn [bind]; exact (REF _ E)].
    destruct (accessor_state w hs r t S V) as (w' & E1 & S1 & T1). injection E as <- <- <-. exists w'. rewrite app_nil_r. auto.
  - destruct (live hs a) as [[k t]|] eqn:V; [|discriminate]. destruct (live_is w hs a _ _ S V) as (o & B & C & K & T & D & A). cbn [step]. rewrite B. cbn [bind].
    destruct o as [| |f|q|f|]; cbn [kind_of] in K; subst k; try exact (REF _ E).
    destruct (g_typ _ _ (st_good _ _ S) a _ q C eq_refl) as (s & Y). unfold stream_of in T. rewrite C, Y in T. subst t.
    assert (Aq : aliveb w q = true) by (apply (alive_field w none a q (st_good _ _ S) A); eauto). rewrite (look_alive w q _ Y Aq). cbn [bind].
    pose proof (g_typ _ _ (st_good _ _ S) q _ s Y eq_refl) as Z. cbn [typed] in Z.
    apply (made_state w hs s n ok OIn S Z); [|exact E]. apply (alive_field w none q s (st_good _ _ S) Aq). eauto.
  - destruct (live hs h) as [[k t]|] eqn:V; [|discriminate]. destruct (live_is w hs h _ _ S V) as (o & B & C & K & T & D & A). cbn [step]. rewrite B. cbn [bind].
    destruct o as [| |f|q|f|]; cbn [kind_of] in K; subst k; try exact (REF _ E). injection E as <- <- <-. specialize (NEW OPlain eq_refl). rewrite NP in NEW. exact NEW.
  - destruct (live hs x) as [[k t]|] eqn:V; [|destruct (live hs s) as [[]|]; discriminate]. destruct (live hs s) as [[k' t']|] eqn:V'; [|destruct k as [], t; discriminate].
    destruct (live_is w hs x _ _ S V) as (o & B & C & K & T & D & A). destruct (live_is w hs s _ _ S V') as (o' & B' & C' & K' & T' & D' & A').
    destruct o as [| |f|q|f|]; cbn [kind_of] in K; subst k; destruct o' as [| |f'|q'|f'|]; cbn [kind_of] in K'; subst k'; try (cbn [step]; rewrite B; cbn [bind]; rewrite B'; cbn [bind]; destruct t; exact (REF _ E));
      try (cbn [step]; rewrite B; cbn [bind]; rewrite B'; cbn [bind]; destruct f, t; exact (REF _ E)).
    unfold stream_of in T. rewrite C in T. subst f. destruct t as [t|].
    + cbn [step]; rewrite B; cbn [bind]; rewrite B'; cbn [bind]. exact (REF _ E).
    + destruct (create_state w hs x s n ok S V) as (w' & E1 & S1 & T1); [eauto|]. exists w'. destruct ok; injection E as <- <- <-; auto.
  - destruct (live hs x) as [[k t]|] eqn:V; [|discriminate]. destruct (live_is w hs x _ _ S V) as (o & B & C & K & T & D & A). cbn [step]. rewrite B. cbn [bind].
    destruct o as [| |f|q|f|]; cbn [kind_of] in K; subst k; try exact (REF _ E). unfold stream_of in T. rewrite C in T. subst f. destruct t as [t|]; [|exact (REF _ E)].
    pose proof (g_typ _ _ (st_good _ _ S) x _ t C eq_refl) as Y. cbn [typed] in Y.
    assert (At : aliveb w t = true) by (apply (alive_field w none x t (st_good _ _ S) A); eauto).
    destruct (calls_state w hs t n _ S Y At) as (w1 & E1 & S1 & W). rewrite E1. cbn [bind]. injection E as <- <- <-. exists w1. split; [reflexivity|]. split; [exact S1|]. now rewrite W.
  - destruct (live hs x) as [[k t]|] eqn:V; [|discriminate]. destruct (live_is w hs x _ _ S V) as (o & B & C & K & T & D & A).
    destruct o as [| |f|q|f|]; cbn [kind_of] in K; subst k; try (cbn [step]; rewrite B; cbn [bind]; exact (REF _ E)).
    unfold stream_of in T. rewrite C in T. subst f. destruct t as [t|]; [|cbn [step]; rewrite B; cbn [bind]; exact (REF _ E)].
    destruct (close_state w hs x t n ok S V) as (w' & E1 & S1 & T1). exists w'. destruct ok; injection E as <- <- <-; [auto|]. rewrite app_nil_r in T1. auto.
  - destruct (live hs h) as [[k t]|] eqn:V; [|discriminate]. destruct (release_state w hs h k t S V) as (w' & E1 & S1 & T1). injection E as <- <- <-. exists w'. auto.
Qed.
Lemma start : state empty [].
Proof.
  constructor; [constructor| |]; cbn [empty hands heap List.length]; auto.
  - intros [|i] c o H; discriminate.
  - intros [|i] o j H; discriminate.
  - intros [|i] o H; discriminate.
Qed.
Lemma ran os : forall w hs hs' ev cs, state w hs -> spec_run hs os = Some (hs', ev, cs) -> exists w', run w os = Ok (w', cs) /\ state w' hs' /\ trace w' = trace w ++ ev.
Proof.
  induction os as [|o os IH]; intros w hs hs' ev cs S E; cbn [spec_run run] in *.
  - injection E as <- <- <-. exists w. rewrite app_nil_r. auto.
  - destruct (spec_step hs o) as [[[hs1 ev1] c]|] eqn:E1; [|discriminate]. destruct (spec_run hs1 os) as [[[hs2 ev2] cs2]|] eqn:E2; [|discriminate]. injection E as <- <- <-.
    destruct (stepped w hs o hs1 ev1 c S E1) as (w1 & R1 & S1 & T1). destruct (IH w1 hs1 hs2 ev2 cs2 S1 E2) as (w2 & R2 & S2 & T2).
    exists w2. rewrite R1. cbn [bind]. rewrite R2. cbn [bind]. split; [reflexivity|]. split; [exact S2|]. rewrite T2, T1. now rewrite app_assoc.
Qed.
Lemma life os hs ev cs : spec_run [] os = Some (hs, ev, cs) -> exists w, run empty os = Ok (w, cs) /\ trace w = ev.
Proof. intro E. destruct (ran os empty [] hs ev cs start E) as (w & R & _ & T). eauto. Qed.
