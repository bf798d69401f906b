(** Lemmas: the syntax of paths and what they select; attributes and removal. *)
From Coq Require Import String Permutation.
From Verif Require Import Base TextModel TextProofs XmlModel XmlSpec XmlProofs XmlValues.
Open Scope Z_scope.

(** ** tokens of joined texts *)
Lemma tokens_skip d a : forall s cur, (forall c, In c a -> d c = false) -> tokens_at d (a ++ s) cur = tokens_at d s (cur ++ a).
Proof.
  induction a as [|x a IH]; intros s cur H; cbn [app tokens_at]; [now rewrite app_nil_r|].
  rewrite (H x) by now left. rewrite IH by (intros c Hc; apply H; now right). now rewrite <- app_assoc.
Qed.
Lemma tokens_join d sep l : d sep = true -> l <> [] -> (forall s c, In s l -> In c s -> d c = false) -> tokens d (join sep l) = l.
Proof.
  intros D N H. unfold tokens. induction l as [|s l IH]; [easy|].
  assert (Hs : forall c, In c s -> d c = false) by (intros c; apply (H s c); now left).
  destruct l as [|s' l]; cbn [join].
  - rewrite <- (app_nil_r s) at 1. rewrite (tokens_skip d s [] []) by exact Hs. reflexivity.
  - rewrite (tokens_skip d s _ []) by exact Hs. cbn [app tokens_at]. rewrite D. f_equal. apply IH; [discriminate|].
    intros a c Ha. apply H. now right.
Qed.

(** ** steps *)
Lemma span_break p a r : (forall c, In c a -> p c = true) -> match r with [] => True | c :: _ => p c = false end -> span p (a ++ r) = (a, r).
Proof. intros H R. apply span_app; [now apply Forall_forall|exact R]. Qed.
Lemma no_bracket_plain sp s : In 91 sp -> In 93 sp -> plain sp s -> forall c, In c s -> no_bracket c = true.
Proof.
  intros H1 H2 P c Hc. unfold no_bracket. specialize (P c Hc). destruct (c =? 91) eqn:E; [exfalso; apply P; now replace c with 91 by lia|].
  destruct (c =? 93) eqn:E2; [exfalso; apply P; now replace c with 93 by lia|]. reflexivity.
Qed.
Lemma parse_step_name name : name <> [] -> plain [47; 91; 93] name -> parse_step name = Some (name, None).
Proof.
  intros N P. unfold parse_step. rewrite <- (app_nil_r name) at 1. rewrite (span_break no_bracket name []); [|apply (no_bracket_plain [47; 91; 93]); cbn; auto|exact I].
  now destruct name.
Qed.
Lemma parse_step_spec name sp : name <> [] -> plain [47; 91; 93] name -> (forall c, In c sp -> no_bracket c = true) ->
  parse_step (name ++ [91] ++ sp ++ [93]) = Some (name, Some sp).
Proof.
  intros N P H. unfold parse_step.
  rewrite (span_break no_bracket name); [|apply (no_bracket_plain [47; 91; 93]); cbn; auto|reflexivity].
  destruct name as [|x name]; [easy|]. cbn [app]. rewrite (span_break no_bracket sp [93]); [|exact H|reflexivity]. reflexivity.
Qed.
Lemma dec_small i : 0 <= i <= UINT_MAX -> dec i <> [] /\ (forall c, In c (dec i) -> is_digit c = true) /\ dval (dec i) = i.
Proof.
  intros H. unfold dec. replace (i <? 0) with false by lia.
  destruct (dec_digits_spec 19 i) as (A & B & C & D); [unfold UINT_MAX in H; lia|].
  rewrite Forall_forall in B. split; [|split]; auto.
Qed.
Lemma index_dec i : 0 <= i <= UINT_MAX -> index_spec (dec i) = Some i.
Proof.
  intros H. destruct (dec_small i H) as (N & D & V). unfold index_spec.
  rewrite (span_stop is_space (dec i)).
  - cbn [snd]. rewrite <- (app_nil_r (dec i)) at 1. rewrite (span_break is_digit (dec i) []); [|exact D|exact I]. cbn [span snd].
    destruct (dec i) as [|c l] eqn:E; [easy|]. now rewrite V.
  - destruct (dec i) as [|c l] eqn:E; [exact I|]. cbn. specialize (D c (or_introl eq_refl)). unfold is_digit in D. unfold is_space. lia.
Qed.

(** ** attribute lists *)
Lemma parse_pair_text k v : k <> [] -> ~ In 61 k -> parse_pair (k ++ [61] ++ v) = Some (k, v).
Proof.
  intros N H. unfold parse_pair. rewrite (span_break (fun c => negb (c =? 61)) k); [|intros c Hc; destruct (c =? 61) eqn:E; [exfalso; apply H; now replace 61 with c by lia|reflexivity]|reflexivity].
  now destruct k.
Qed.
Lemma insert_perm m k v : ~ In k (map fst m) -> Permutation (map_insert m k v) ((k, v) :: m).
Proof.
  induction m as [|[k' v'] m IH]; intros N; cbn [map_insert]; [apply Permutation_refl|].
  destruct (str_eqb k k') eqn:E; [exfalso; apply N; left; symmetry; now apply str_eqb_eq|].
  destruct (str_ltb k k'); [apply Permutation_refl|].
  apply perm_trans with ((k', v') :: (k, v) :: m); [|apply perm_swap]. apply perm_skip. apply IH. intros H. apply N. now right.
Qed.
Lemma parse_pairs_perm l : forall m, NoDup (map fst l ++ map fst m) -> (forall k v, In (k, v) l -> k <> [] /\ ~ In 61 k) ->
  exists m', parse_pairs (map (fun '(k, v) => k ++ [61] ++ v) l) m = Ok m' /\ Permutation m' (l ++ m).
Proof.
  induction l as [|[k v] l IH]; intros m N H; cbn [map parse_pairs app]; [exists m; split; [reflexivity|apply Permutation_refl]|].
  destruct (H k v (or_introl eq_refl)) as [Nk Ek]. change (k ++ 61 :: v) with (k ++ [61] ++ v). rewrite (parse_pair_text k v Nk Ek).
  cbn [map fst app] in N. inversion N as [|? ? N1 N2]; subst.
  assert (P : Permutation (map_insert m k v) ((k, v) :: m)) by (apply insert_perm; intros X; apply N1; apply in_app_iff; now right).
  destruct (IH (map_insert m k v)) as (m' & E & Q).
  - apply (Permutation_NoDup (l := map fst l ++ k :: map fst m)).
    + apply Permutation_app_head. apply Permutation_sym. apply (Permutation_map fst) in P. exact P.
    + apply (Permutation_NoDup (l := k :: map fst l ++ map fst m)); [apply Permutation_middle|now constructor].
  - intros k' v' Hi. apply (H k' v'). now right.
  - exists m'. split; [exact E|]. apply (perm_trans Q). apply perm_trans with (l ++ (k, v) :: m); [now apply Permutation_app_head|].
    apply Permutation_sym. apply Permutation_middle.
Qed.
Lemma matches_perm name m l n : Permutation m l -> matches name m n = matches name l n.
Proof.
  intros P. apply Bool.eq_iff_eq_true. rewrite !matches_has. unfold has.
  split; intros (a & ks & E & H); exists a, ks; (split; [exact E|]); intros k v Hi; apply H.
  - now apply (Permutation_in _ (Permutation_sym P)).
  - now apply (Permutation_in _ P).
Qed.
Lemma find_index_ext {A} (p q : A -> bool) l : (forall a, p a = q a) -> find_index p l = find_index q l.
Proof. intros H. induction l as [|a l IH]; cbn; [reflexivity|]. now rewrite H, IH. Qed.

Lemma ats_text_plain ats : (forall k v, In (k, v) ats -> k <> [] /\ plain [47; 91; 93; 44; 59; 61] k /\ plain [47; 91; 93; 44; 59] v) ->
  forall c, In c (join 44 (map (fun '(k, v) => k ++ [61] ++ v) ats)) -> no_bracket c = true /\ c <> 47.
Proof.
  intros H. induction ats as [|[k v] ats IH]; intros c Hc; [easy|].
  assert (H0 : forall c, In c (k ++ [61] ++ v) -> no_bracket c = true /\ c <> 47).
  { intros d Hd. destruct (H k v (or_introl eq_refl)) as (_ & Pk & Pv). rewrite !in_app_iff in Hd.
    destruct Hd as [Hd|[[<-|[]]|Hd]].
    - split; [apply (no_bracket_plain [47; 91; 93; 44; 59; 61] k); [cbn; auto|cbn; auto|exact Pk|exact Hd]|].
      intros ->. apply (Pk 47 Hd). cbn; auto.
    - split; [reflexivity|lia].
    - split; [apply (no_bracket_plain [47; 91; 93; 44; 59] v); [cbn; auto|cbn; auto|exact Pv|exact Hd]|].
      intros ->. apply (Pv 47 Hd). cbn; auto. }
  destruct ats as [|[k' v'] ats]; cbn [map join] in Hc.
  - now apply H0.
  - rewrite in_app_iff in Hc. destruct Hc as [Hc|[<-|Hc]]; [now apply H0|split; [reflexivity|lia]|].
    apply IH; [intros a b Hi; apply (H a b); now right|exact Hc].
Qed.
Lemma parse_attributes_text ats : ats <> [] -> NoDup (map fst ats) ->
  (forall k v, In (k, v) ats -> k <> [] /\ plain [47; 91; 93; 44; 59; 61] k /\ plain [47; 91; 93; 44; 59] v) ->
  exists m, parse_attributes (join 44 (map (fun '(k, v) => k ++ [61] ++ v) ats)) = Ok m /\ Permutation m ats.
Proof.
  intros N D H. unfold parse_attributes. rewrite tokens_join.
  - destruct (parse_pairs_perm ats []) as (m & E & P).
    + cbn. now rewrite app_nil_r.
    + intros k v Hi. destruct (H k v Hi) as (Nk & Pk & _). split; [exact Nk|]. intros X. apply (Pk 61 X). cbn; auto 10.
    + exists m. split; [exact E|]. now rewrite app_nil_r in P.
  - reflexivity.
  - now destruct ats as [|[k v] ats].
  - intros s c Hs Hc. apply in_map_iff in Hs. destruct Hs as ([k v] & <- & Hi). destruct (H k v Hi) as (_ & Pk & Pv).
    rewrite !in_app_iff in Hc. destruct (c =? 44) eqn:E1, (c =? 59) eqn:E2; try reflexivity; exfalso;
      (destruct Hc as [Hc|[[<-|[]]|Hc]]; [apply (Pk c Hc); cbn; lia|lia|apply (Pv c Hc); cbn; lia]).
Qed.
Lemma attributes_not_index s m : parse_attributes s = Ok m -> index_spec s = None.
Proof.
  intros H. destruct (index_spec s) as [i|] eqn:E; [|reflexivity]. rewrite (no_equal_throws s) in H by now apply (index_no_equal s i). discriminate.
Qed.

(** ** a step selects what it should *)
Lemma first_such_find p kids i : (find_index p kids = Some i) <-> first_such (fun n => p n = true) kids i.
Proof.
  split.
  - intros H. destruct (find_index_some _ _ _ H) as (c & H1 & H2 & H3). split; [eauto|]. intros j d Hj Hd X. specialize (H3 j d Hj Hd). congruence.
  - intros [(c & H1 & H2) H3]. apply (find_index_first p kids i c H1 H2). intros j b Hj Hb. specialize (H3 j b Hj Hb). now destruct (p b).
Qed.
Lemma nth_such_find p kids : forall m i, 0 <= m -> (find_nth p m kids = Some i <-> nth_such (fun n => p n = true) kids m i).
Proof.
  induction kids as [|a l IH]; intros m i Hm; cbn [find_nth].
  - split; [discriminate|]. intros H. inversion H.
  - assert (D : p a = true \/ p a <> true) by (destruct (p a); auto). destruct D as [D|D].
    + rewrite D. destruct (m =? 0) eqn:E.
      * replace m with 0 by lia. split; intros H; [injection H as <-; now constructor|].
        inversion H as [|? ? ? ? ? H1|? ? m' i' H1 H2 H3]; subst; [reflexivity|congruence|].
        exfalso. assert (G : forall k m i, nth_such (fun n => p n = true) k m i -> 0 <= m) by (intros k m0 i0 X; induction X; lia).
        apply G in H2. lia.
      * split.
        -- destruct (find_nth p (m - 1) l) as [j|] eqn:F; [|discriminate]. intros H. injection H as <-.
           replace m with (m - 1 + 1) by lia. apply such_count; [exact D|]. apply IH; [lia|exact F].
        -- intros H. inversion H as [|? ? ? ? H1|? ? m' i' H1 H2 H3]; subst; [lia|congruence|].
           replace (m' + 1 - 1) with m' by lia. rewrite (proj2 (IH m' i' ltac:(lia)) H2). reflexivity.
    + replace (p a) with false by (now destruct (p a)). split.
      * destruct (find_nth p m l) as [j|] eqn:F; [|discriminate]. intros H. injection H as <-. apply such_skip; [exact D|]. now apply IH.
      * intros H. inversion H as [|? ? ? ? H1 H2|? ? m' i' H1 H2 H3]; subst; try congruence. now rewrite (proj2 (IH m _ Hm) H2).
Qed.
Lemma first_such_ext (p q : xml -> Prop) kids i : (forall n, p n <-> q n) -> first_such p kids i <-> first_such q kids i.
Proof.
  intros E. unfold first_such. split; intros [(c & H1 & H2) H3]; (split; [exists c; split; [exact H1|now apply E]|]);
    intros j d Hj Hd X; apply (H3 j d Hj Hd); now apply E.
Qed.
Lemma nth_such_ext (p q : xml -> Prop) kids : (forall n, p n <-> q n) -> forall m i, nth_such p kids m i -> nth_such q kids m i.
Proof.
  intros E m i H. induction H; [apply such_here|apply such_skip|apply such_count]; auto; try (now apply E). intros X. apply H. now apply E.
Qed.

Lemma step_selects st kids : good_step st -> exists o, find_step (step_text st) kids = Ok o /\ forall i, o = Some i <-> selects st kids i.
Proof.
  destruct st as [name s]. unfold good_step, step_text, selects, find_step. cbn [fst snd]. intros (N & P & G). destruct s as [|m|ats].
  - rewrite app_nil_r, (parse_step_name name N P). eexists. split; [reflexivity|]. intros i. rewrite first_such_find.
    apply first_such_ext. intros n. apply matches_has.
  - destruct (dec_small m G) as (Dn & Dd & Dv).
    rewrite (parse_step_spec name (dec m) N P); [|intros c Hc; specialize (Dd c Hc); unfold is_digit in Dd; unfold no_bracket; lia].
    rewrite (index_dec m G). replace (UINT_MAX <? m) with false by lia. eexists. split; [reflexivity|]. intros i.
    rewrite (nth_such_find (matches name []) kids m i) by lia. split; apply nth_such_ext; intros n; [|symmetry]; apply matches_has.
  - destruct G as (Na & Da & Ha). destruct (parse_attributes_text ats Na Da Ha) as (mm & E & Q).
    rewrite (parse_step_spec name _ N P); [|intros c Hc; now apply (ats_text_plain ats Ha c)].
    rewrite (attributes_not_index _ _ E), E. cbn [bind]. eexists. split; [reflexivity|]. intros i.
    rewrite (find_index_ext _ (matches name ats)) by (intros a; now apply matches_perm). rewrite first_such_find.
    apply first_such_ext. intros n. apply matches_has.
Qed.
Lemma step_text_slash st : good_step st -> step_text st <> [] /\ forall c, In c (step_text st) -> (c =? 47) = false.
Proof.
  destruct st as [name s]. unfold good_step, step_text. cbn [fst snd]. intros (N & P & G). split; [now destruct name|].
  intros c Hc. apply in_app_iff in Hc. assert (X : c <> 47); [|lia]. destruct Hc as [Hc|Hc].
  - intros ->. apply (P 47 Hc). cbn; auto.
  - destruct s as [|m|ats]; [easy| |].
    + rewrite !in_app_iff in Hc. destruct Hc as [[<-|[]]|[Hc|[<-|[]]]]; try lia. destruct (dec_small m G) as (_ & D & _). specialize (D c Hc).
      unfold is_digit in D. lia.
    + destruct G as (_ & _ & Ha). rewrite !in_app_iff in Hc. destruct Hc as [[<-|[]]|[Hc|[<-|[]]]]; try lia. now apply (ats_text_plain ats Ha c).
Qed.
Lemma path_tokens_text sts : sts <> [] -> Forall good_step sts -> path_tokens (path_text sts) = Ok (map step_text sts).
Proof.
  intros N G. unfold path_tokens, path_text. rewrite Forall_forall in G. rewrite tokens_join; [|reflexivity|now destruct sts|].
  - destruct (existsb _ _) eqn:E; [|reflexivity]. apply existsb_exists in E. destruct E as (s & Hs & X). apply in_map_iff in Hs.
    destruct Hs as (st & <- & Hst). destruct (step_text_slash st (G st Hst)) as [Z _]. now destruct (step_text st).
  - intros s c Hs. apply in_map_iff in Hs. destruct Hs as (st & <- & Hst). now apply (step_text_slash st (G st Hst)).
Qed.
Lemma find_path_leads sts : Forall good_step sts -> forall n, exists o, find_path (map step_text sts) n = Ok o /\ forall h, o = Some h <-> leads sts n h.
Proof.
  induction sts as [|st sts IH]; intros G n.
  - exists (Some []). split; [reflexivity|]. intros h. split; intros H; [injection H as <-; constructor|]. now inversion H.
  - inversion G as [|? ? G1 G2]; subst. cbn [map find_path]. destruct (step_selects st (kids_of n) G1) as (o & E & S). rewrite E. cbn [bind].
    destruct o as [i|].
    + destruct (find_step_some _ _ _ E) as (c & Hc). rewrite (nth_of_error _ _ _ _ Hc). destruct (IH G2 c) as (o & F & L). rewrite F. cbn [bind].
      eexists. split; [reflexivity|]. intros h. split.
      * destruct o as [h'|]; [|discriminate]. intros H. injection H as <-. apply (leads_down st sts n i c h'); [now apply S|exact Hc|now apply L].
      * intros H. inversion H as [|? ? ? i' c' h' S' Hc' L']; subst. apply S in S'. injection S' as <-. rewrite Hc in Hc'. injection Hc' as <-.
        apply L in L'. now rewrite L'.
    + eexists. split; [reflexivity|]. intros h. split; [discriminate|]. intros H. inversion H as [|? ? ? i' c' h' S' Hc' L']; subst. now apply S in S'.
Qed.
Theorem lookup_iff sts n : sts <> [] -> Forall good_step sts ->
  exists o, get_child_node (path_text sts) n = Ok o /\ forall h, o = Some h <-> leads sts n h.
Proof.
  intros N G. unfold get_child_node. rewrite (path_tokens_text sts N G). cbn [bind]. now apply find_path_leads.
Qed.

(** ** creating the paths without index succeeds *)
Definition not_index (st : step) : Prop := match snd st with Nth _ => False | _ => True end.
Lemma create_spec_good st : good_step st -> not_index st -> exists s, create_spec (step_text st) = Ok s.
Proof.
  destruct st as [name s]. unfold good_step, not_index, create_spec, step_text. cbn [fst snd]. intros (N & P & G) X. destruct s as [|m|ats]; [| easy |].
  - rewrite app_nil_r, (parse_step_name name N P). eauto.
  - destruct G as (Na & Da & Ha). destruct (parse_attributes_text ats Na Da Ha) as (mm & E & _).
    rewrite (parse_step_spec name _ N P); [|intros c Hc; now apply (ats_text_plain ats Ha c)]. rewrite E. cbn [bind]. eauto.
Qed.
Lemma create_path_total toks : creatable toks -> forall nm ats kids, exists n' h, create_path toks (Elem nm ats kids) = (n', Ok h).
Proof.
  induction 1 as [|k ks [[name at_] E] C IH]; intros nm ats kids; [cbn; eauto|].
  rewrite (create_step _ _ _ _ _ _ _ E). destruct (place name at_ kids) as [i kids'] eqn:P.
  destruct (place_ok _ _ _ _ _ (create_spec_nodup _ _ _ E) P) as (c & H1 & _ & Hm & _). rewrite (nth_of_error _ _ _ _ H1).
  destruct c as [nm2 at2 kids2|s|s]; try discriminate. destruct (IH nm2 at2 kids2) as (n' & h & F). rewrite F. cbn [bind]. eauto.
Qed.
Theorem create_total sts nm ats kids : sts <> [] -> Forall good_step sts -> Forall not_index sts ->
  exists t' h, get_or_create (path_text sts) (Elem nm ats kids) = (t', Ok h) /\ leads sts t' h.
Proof.
  intros N G X. unfold get_or_create. rewrite (path_tokens_text sts N G).
  destruct (create_path_total (map step_text sts)) with (nm := nm) (ats := ats) (kids := kids) as (n' & h & E).
  - apply Forall_forall. intros s Hs. apply in_map_iff in Hs. destruct Hs as (st & <- & Hst). rewrite Forall_forall in G, X.
    apply create_spec_good; [now apply G|now apply X].
  - exists n', h. split; [exact E|]. destruct (find_path_leads sts G n') as (o & F & L). apply L. rewrite (create_then_find _ _ _ _ E) in F. now injection F.
Qed.

(** ** attributes *)
Lemma attr_upd ats : forall i k v, find_index (fun a => str_eqb (fst a) k) ats = Some i -> forall k',
  attr_of (upd ats i (k, v)) k' = if str_eqb k k' then Some v else attr_of ats k'.
Proof.
  induction ats as [|[a b] ats IH]; intros i k v H k'; cbn in H; [discriminate|]. destruct (str_eqb a k) eqn:E.
  - injection H as <-. apply str_eqb_eq in E. subst a. cbn [upd attr_of]. now destruct (str_eqb k k').
  - destruct (find_index (fun a => str_eqb (fst a) k) ats) as [j|] eqn:F; [|discriminate]. injection H as <-. cbn [upd attr_of].
    rewrite (IH j k v F). destruct (str_eqb a k') eqn:E2; [|reflexivity]. destruct (str_eqb k k') eqn:E3; [|reflexivity].
    apply str_eqb_eq in E2, E3. subst. rewrite str_eqb_refl in E. discriminate.
Qed.
Lemma attr_app ats k v k' : (forall a, In a ats -> str_eqb (fst a) k = false) ->
  attr_of (ats ++ [(k, v)]) k' = if str_eqb k k' then Some v else attr_of ats k'.
Proof.
  induction ats as [|[a b] ats IH]; intros H; cbn [app attr_of]; [reflexivity|]. rewrite IH by (intros x Hx; apply H; now right).
  destruct (str_eqb a k') eqn:E; [|reflexivity]. destruct (str_eqb k k') eqn:E2; [|reflexivity]. apply str_eqb_eq in E, E2. subst.
  specialize (H (k', b) (or_introl eq_refl)). cbn in H. rewrite str_eqb_refl in H. discriminate.
Qed.
Theorem set_attribute_get k v n n' : set_attribute k v n = Ok n' ->
  kids_of n' = kids_of n /\ try_get_attribute k n' = Some v /\ forall k', k' <> k -> try_get_attribute k' n' = try_get_attribute k' n.
Proof.
  destruct n as [nm ats kids|s|s]; cbn [set_attribute]; try discriminate. intros H. injection H as <-. split; [reflexivity|].
  assert (A : forall k', attr_of (match find_index (fun a => str_eqb (fst a) k) ats with Some i => upd ats i (k, v) | None => ats ++ [(k, v)] end) k' =
    if str_eqb k k' then Some v else attr_of ats k').
  { intros k'. destruct (find_index _ ats) as [i|] eqn:F; [now apply attr_upd|]. apply attr_app. now apply find_index_none. }
  cbn [try_get_attribute]. rewrite A, str_eqb_refl. split; [reflexivity|]. intros k' N. rewrite A. destruct (str_eqb k k') eqn:E; [|reflexivity].
  apply str_eqb_eq in E. congruence.
Qed.

(** ** removal of the first child of a name *)
Lemma nth_split_at {A} (l : list A) i a : nth_error l i = Some a -> l = firstn i l ++ a :: skipn (S i) l.
Proof. revert i. induction l as [|x l IH]; intros [|i] H; cbn in H; try discriminate; cbn; [now injection H as ->|]. f_equal. now apply IH. Qed.
Theorem remove_child_spec name nm ats kids : exists r, remove_child name (Elem nm ats kids) = Ok r /\
  ((snd r = true /\ exists a c b, kids = a ++ c :: b /\ has name [] c /\ (forall x, In x a -> ~ has name [] x) /\ fst r = Elem nm ats (a ++ b)) \/
   (snd r = false /\ fst r = Elem nm ats kids /\ forall x, In x kids -> ~ has name [] x)).
Proof.
  cbn [remove_child]. destruct (find_index (matches name []) kids) as [i|] eqn:F; eexists; (split; [reflexivity|]); cbn [fst snd].
  - left. split; [reflexivity|]. destruct (find_index_some _ _ _ F) as (c & H1 & H2 & H3).
    exists (firstn i kids), c, (skipn (S i) kids). split; [now apply nth_split_at|]. split; [now apply matches_has|]. split; [|reflexivity].
    intros x Hx X. apply In_nth_error in Hx. destruct Hx as [j Hj]. assert (L : (j < length (firstn i kids))%nat) by (apply nth_error_Some; congruence).
    rewrite firstn_length in L. apply matches_has in X. rewrite (H3 j x) in X; [discriminate|lia|].
    rewrite <- Hj. clear - L. revert i L. revert j. induction kids as [|y l IH]; intros j i L; [destruct j, i; reflexivity|].
    destruct i; [lia|]. destruct j; [reflexivity|]. cbn. apply IH. cbn in L. lia.
  - right. split; [reflexivity|]. split; [reflexivity|]. intros x Hx X. apply matches_has in X. rewrite (find_index_none _ _ F x Hx) in X. discriminate.
Qed.
