(** Lemmas: documents made by a builder, and documents which have been loaded, can be saved. *)
From Coq Require Import String Permutation.
From Verif Require Import Base TextModel TextSpec TextProofs XmlModel XmlSpec XmlProofs XmlValues XmlPaths PugiModel PugiSpec PugiProofs PugiTree PugiRound.
Open Scope Z_scope.

(** ** a builder *)
Definition fit (n : xml) : Prop := named n /\ durable n.
Lemma fit_elem nm ats ks : fit (Elem nm ats ks) <-> proper_name nm /\ Forall attr_named ats /\ apart ks /\ Forall fit ks.
Proof.
  unfold fit. rewrite named_elem, durable_elem. assert (E : Forall fit ks <-> Forall named ks /\ Forall durable ks).
  { unfold fit. rewrite !Forall_forall. split; [intros H; split; intros k I; now apply H|]. intros (A & B) k I. split; auto. }
  unfold fit in E. rewrite E. tauto.
Qed.
Lemma apart_ext : forall ks ks', map is_text ks = map is_text ks' -> apart ks -> apart ks'.
Proof.
  induction ks as [|k ks IH]; intros [|k' ks'] E A; cbn [map] in E; try discriminate; [exact I|]. injection E as E1 E2.
  pose proof (IH ks' E2 (apart_tail _ _ A)) as A'. destruct k' as [nm ats kk|s|s]; [exact A'| |exact A'].
  destruct k as [| t |]; try discriminate. cbn [apart]. destruct ks' as [|b ks']; [exact I|]. destruct ks as [|c ks]; [discriminate|].
  cbn [map] in E2. injection E2 as E3 E2. destruct b; try exact A'. destruct c; discriminate || exact A.
Qed.
Lemma map_upd_same {A B} (f : A -> B) : forall l i a b, nth_error l i = Some a -> f b = f a -> map f (upd l i b) = map f l.
Proof.
  induction l as [|x l IH]; intros [|i] a b H E; cbn in *; try discriminate.
  - injection H as ->. now rewrite E.
  - f_equal. now apply (IH i a).
Qed.
Lemma Forall_upd {A} (P : A -> Prop) : forall l i a, Forall P l -> P a -> Forall P (upd l i a).
Proof. induction l as [|x l IH]; intros [|i] a H Pa; cbn [upd]; auto; inversion H; subst; constructor; auto. Qed.
Lemma apart_app_other ks n : is_text n = false -> apart ks -> apart (ks ++ [n]).
Proof.
  intros N. induction ks as [|k ks IH]; intros A; [destruct n; easy|]. pose proof (IH (apart_tail _ _ A)) as A'.
  destruct k as [|s|]; cbn [app]; [exact A'| |exact A']. cbn [apart]. destruct ks as [|c ks]; cbn [app] in *; [destruct n; easy|].
  destruct c; easy.
Qed.
Definition fit_token (k : str) : Prop := forall name ats, create_spec k = Ok (name, ats) -> proper_name name /\ Forall attr_named ats.
Lemma matches_elem name ats c : matches name ats c = true -> is_element c.
Proof. now destruct c. Qed.
Lemma create_fit : forall toks n n' h, Forall fit_token toks -> create_path toks n = (n', Ok h) -> fit n -> fit n'.
Proof.
  induction toks as [|k ks IH]; intros n n' h T H F; [now injection H as <- <-|]. apply Forall_cons_iff in T. destruct T as (T1 & T2).
  destruct (create_ok_inv _ _ _ _ _ H) as (nm & at_ & kids & name & ats & i & kids' & c & c' & h' & -> & E1 & E2 & E3 & E4 & -> & ->).
  destruct (place_ok _ _ _ _ _ (create_spec_nodup _ _ _ E1) E2) as (c0 & H1 & H2 & H3 & _ & H5).
  rewrite E3 in H1. injection H1 as <-. destruct (T1 name ats E1) as (P1 & P2).
  apply fit_elem in F. destruct F as (N1 & N2 & A & F).
  assert (K : apart kids' /\ Forall fit kids').
  { destruct H5 as [->|(-> & _ & ->)]; [now split|]. split; [now apply apart_app_other|]. apply Forall_app. split; [exact F|].
    constructor; [|constructor]. apply fit_elem. split; [exact P1|]. split; [exact P2|]. split; [exact I|constructor]. }
  destruct K as (A' & F'). assert (Fc : fit c). { rewrite Forall_forall in F'. apply F'. now apply nth_error_In in E3. }
  pose proof (IH c c' h' T2 E4 Fc) as Fc'. apply fit_elem. split; [exact N1|]. split; [exact N2|]. split; [|now apply Forall_upd].
  apply (apart_ext kids'); [|exact A']. symmetry. apply (map_upd_same is_text kids' i c c' E3).
  pose proof (create_kind ks c) as K. rewrite E4 in K. cbn [fst] in K. pose proof (matches_elem _ _ _ H3) as X. destruct c; try easy. destruct c'; cbn in K; congruence || reflexivity.
Qed.
Definition fit_value (v : str) : Prop := chars v /\ blank v = false /\ ~ In 13 v.
Lemma find_text_none ks : find_index is_text ks = None -> Forall (fun k => is_text k = false) ks.
Proof. intros H. apply Forall_forall. intros k I. now apply (find_index_none _ _ H). Qed.
Lemma apart_no_text ks n : Forall (fun k => is_text k = false) ks -> apart (ks ++ [n]).
Proof. induction 1 as [|k ks H _ IH]; [destruct n; exact I|]. destruct k; try discriminate; exact IH. Qed.
Lemma set_value_fit v n n' : fit_value v -> fit n -> set_value v n = Ok n' -> fit n' /\ kind_of n' = kind_of n /\ is_element n.
Proof.
  intros (V1 & V2 & V3) F H. destruct n as [nm ats kids|s|s]; cbn [set_value] in H; try discriminate.
  destruct (existsb is_elem kids); [discriminate|]. injection H as <-. split; [|now split]. apply fit_elem in F. destruct F as (N1 & N2 & A & F).
  assert (Ft : fit (Text v)) by (split; [exact V1|now split]).
  apply fit_elem. split; [exact N1|]. split; [exact N2|]. destruct (find_index is_text kids) as [i|] eqn:E.
  - destruct (find_index_some _ _ _ E) as (c & H1 & H2 & _). split; [|now apply Forall_upd]. apply (apart_ext kids); [|exact A]. symmetry.
    now apply (map_upd_same is_text kids i c).
  - split; [apply apart_no_text; now apply find_text_none|]. apply Forall_app. split; [exact F|]. constructor; [exact Ft|constructor].
Qed.
Lemma change_fit v : fit_value v -> forall h n n', fit n -> change_at h (set_value v) n = Ok n' -> fit n' /\ is_text n' = is_text n.
Proof.
  intros V. induction h as [|i h IH]; intros n n' F H; cbn [change_at] in H.
  - destruct (set_value_fit v n n' V F H) as (F' & K & E). split; [exact F'|]. destruct n; try easy. destruct n'; cbn in K; congruence || reflexivity.
  - destruct n as [nm at_ kids|s|s]; try discriminate. destruct (nth_error kids i) as [c|] eqn:E; [|discriminate].
    destruct (change_at h (set_value v) c) as [c'| | |] eqn:C; cbn [bind] in H; try discriminate. injection H as <-. split; [|reflexivity].
    apply fit_elem in F. destruct F as (N1 & N2 & A & F). assert (Fc : fit c). { rewrite Forall_forall in F. apply F. now apply nth_error_In in E. }
    destruct (IH c c' Fc C) as (Fc' & T). apply fit_elem. split; [exact N1|]. split; [exact N2|]. split; [|now apply Forall_upd].
    apply (apart_ext kids); [|exact A]. symmetry. now apply (map_upd_same is_text kids i c).
Qed.
Lemma step_token st : good_step st -> proper_step st -> fit_token (step_text st).
Proof.
  destruct st as [name s]. unfold good_step, proper_step, fit_token, create_spec, step_text. cbn [fst snd]. intros (N & P & G) (R & W) nm ats H.
  destruct s as [|m|at_].
  - rewrite app_nil_r, (parse_step_name name N P) in H. injection H as <- <-. split; [exact R|constructor].
  - rewrite (parse_step_spec name _ N P) in H.
    + destruct (parse_attributes (dec m)) as [a0| | |] eqn:E; cbn [bind] in H; try discriminate.
      apply attributes_not_index in E. rewrite index_dec in E by exact G. discriminate.
    + intros c Hc. destruct (dec_small m G) as (_ & D & _). specialize (D c Hc). unfold is_digit in D. unfold no_bracket. lia.
  - destruct G as (Na & Da & Ha). destruct (parse_attributes_text at_ Na Da Ha) as (mm & E & Pm).
    rewrite (parse_step_spec name _ N P) in H; [|intros c Hc; now apply (ats_text_plain at_ Ha c)]. rewrite E in H. cbn [bind] in H. injection H as <- <-.
    split; [exact R|]. rewrite Forall_forall in *. intros a I. apply W. now apply (Permutation_in _ Pm).
Qed.
Lemma write_fit e t t' : good_entry e -> fit t -> write (fst (as_write e)) (snd (as_write e)) t = Ok t' -> fit t'.
Proof.
  destruct e as [sts v]. intros (N & G & R & V) F H. cbn [fst snd as_write] in *. unfold write in H.
  destruct (get_or_create (path_text sts) t) as [t1 [h| | |]] eqn:E; try discriminate. unfold get_or_create in E.
  rewrite (path_tokens_text sts N G) in E.
  assert (F1 : fit t1).
  { apply (create_fit (map step_text sts) t t1 h); [|exact E|exact F]. apply Forall_map. rewrite Forall_forall in *. intros st I. apply step_token; auto. }
  apply (change_fit v V h t1 t' F1 H).
Qed.
Lemma writes_fit es : Forall good_entry es -> forall t t', fit t -> writes (map as_write es) t = Ok t' -> fit t'.
Proof.
  induction 1 as [|e es G _ IH]; intros t t' F H; cbn [map writes] in H; [now injection H as <-|].
  pose proof (write_fit e t) as W. destruct (as_write e) as [p v]. cbn [fst snd] in W.
  destruct (write p v t) as [t1| | |]; cbn [bind] in H; try discriminate. apply (IH t1 t'); auto.
Qed.
Lemma write_root p v t t' : write p v t = Ok t' -> is_element t -> kind_of t' = kind_of t.
Proof.
  intros H E. unfold write in H. destruct (get_or_create p t) as [t1 [h| | |]] eqn:C; try discriminate. unfold get_or_create in C.
  destruct (path_tokens p) as [toks| | |]; try discriminate. pose proof (create_kind toks t) as K. rewrite C in K. cbn [fst] in K. rewrite <- K.
  destruct h as [|i h]; cbn [change_at] in H.
  - destruct t1 as [nm ats ks| |]; cbn [set_value] in H; try discriminate. destruct (existsb is_elem ks); [discriminate|]. injection H as <-. reflexivity.
  - destruct t1 as [nm ats ks| |]; try discriminate. destruct (nth_error ks i); [|discriminate].
    destruct (change_at h (set_value v) x); cbn [bind] in H; try discriminate. injection H as <-. reflexivity.
Qed.
Lemma writes_root : forall ws t t', writes ws t = Ok t' -> is_element t -> kind_of t' = kind_of t.
Proof.
  induction ws as [|[p v] ws IH]; intros t t' H E; cbn [writes] in H; [now injection H as <-|].
  destruct (write p v t) as [t1| | |] eqn:W; cbn [bind] in H; try discriminate. pose proof (write_root p v t t1 W E) as K.
  rewrite <- K. apply IH; [exact H|]. destruct t; try easy. destruct t1; cbn in K; congruence || exact I.
Qed.
Theorem values_saved root es1 e es2 ind t' : proper_name root -> Forall good_entry (es1 ++ e :: es2) ->
  writes (map as_write (es1 ++ e :: es2)) (Elem root [] []) = Ok t' ->
  (forall e', In e' es2 -> get_child_node (path_text (fst e')) t' <> get_child_node (path_text (fst e)) t') ->
  builder_load root (builder_get_xml ind [t']) = Ok ([t'], O) /\ read (path_text (fst e)) t' = Ok (Some (snd e)).
Proof.
  intros R G W N.
  assert (F : fit t').
  { apply (writes_fit _ G (Elem root [] []) t'); [|exact W]. apply fit_elem. repeat split; try exact I; constructor || apply R. }
  assert (K := writes_root _ _ _ W I). destruct t' as [nm ats ks| |]; cbn in K; try discriminate. injection K as -> ->.
  split.
  - unfold builder_load. destruct (saved_is_loaded ind [Elem root [] ks]) as (L & _).
    + discriminate.
    + repeat constructor.
    + constructor; [apply F|constructor].
    + constructor; [apply F|constructor].
    + rewrite L. cbn [bind find_index matches forallb]. rewrite str_eqb_refl. reflexivity.
  - rewrite map_app in W. cbn [map] in W. change (as_write e) with (path_text (fst e), snd e) in W.
    apply (last_write (map as_write es1) (path_text (fst e)) (snd e) (map as_write es2) (Elem root [] [])).
    + intros h n H. destruct h as [|i h]; cbn in H; [injection H as <-|now destruct i]. split; [intros s []|cbn; lia].
    + exact W.
    + intros q u I. apply in_map_iff in I. destruct I as (e' & E & I). injection E as <- <-. now apply N.
Qed.

(** ** loaded documents *)
Fixpoint names_in (n : xml) : Prop :=
  match n with
  | Elem nm ats ks => proper_name nm /\ Forall (fun a => proper_name (fst a)) ats /\
                      (fix all ks := match ks with [] => True | k :: ks' => names_in k /\ all ks' end) ks
  | _ => True
  end.
Lemma names_elem nm ats ks : names_in (Elem nm ats ks) <-> proper_name nm /\ Forall (fun a => proper_name (fst a)) ats /\ Forall names_in ks.
Proof.
  cbn [names_in]. assert (E : (fix all ks := match ks with [] => True | k :: ks' => names_in k /\ all ks' end) ks <-> Forall names_in ks).
  { induction ks as [|k ks IH]; [split; constructor|]. rewrite IH. split; [intros (A & B); now constructor|]. intros H; inversion H; auto. }
  now rewrite E.
Qed.
Lemma values_elem nm ats ks : values_in (Elem nm ats ks) <-> Forall (fun a => chars (snd a)) ats /\ Forall values_in ks.
Proof.
  cbn [values_in]. assert (E : (fix all ks := match ks with [] => True | k :: ks' => values_in k /\ all ks' end) ks <-> Forall values_in ks).
  { induction ks as [|k ks IH]; [split; constructor|]. rewrite IH. split; [intros (A & B); now constructor|]. intros H; inversion H; auto. }
  now rewrite E.
Qed.
Lemma names_values n : names_in n -> values_in n -> named n.
Proof.
  induction n as [nm ats ks H|s|s] using xml_induction; intros N V; [|exact V|exact V]. apply names_elem in N. apply values_elem in V. apply named_elem.
  destruct N as (N1 & N2 & N3), V as (V1 & V2). split; [exact N1|]. rewrite !Forall_forall in *. split.
  - intros a I. split; auto.
  - intros k I. apply H; auto.
Qed.

(** what follows is a part of what was there *)
Definition part (r s : str) : Prop := exists p, s = p ++ r.
Lemma part_refl s : part s s. Proof. now exists []. Qed.
Lemma part_cons c r s : part r s -> part r (c :: s). Proof. intros (p & ->). now exists (c :: p). Qed.
Lemma part_tail c r s : part (c :: r) s -> part r s. Proof. intros (p & ->). exists (p ++ [c]). now rewrite <- app_assoc. Qed.
Lemma part_trans a b c : part a b -> part b c -> part a c. Proof. intros (p & ->) (q & ->). exists (q ++ p). now rewrite app_assoc. Qed.
Lemma part_chars r s : part r s -> chars s -> chars r. Proof. intros (p & ->) H. now apply chars_app in H. Qed.
Lemma part_span p s : part (snd (span p s)) s.
Proof. destruct (span p s) as [a b] eqn:E. apply span_spec in E. destruct E as (-> & _). now exists a. Qed.
Lemma part_starts p s r : starts p s = Some r -> part r s.
Proof. intros H. apply starts_split in H. now exists p. Qed.
Lemma part_scan p : forall s r, scan_for p s = Some r -> part r s.
Proof.
  induction s as [|c s IH]; intros r H; cbn [scan_for] in H.
  - destruct (starts p []) as [r0|] eqn:E; [|discriminate]. injection H as <-. now apply part_starts in E.
  - destruct (starts p (c :: s)) as [r0|] eqn:E; [injection H as <-; now apply part_starts in E|]. apply part_cons. auto.
Qed.
Lemma part_pcdata : forall s k t r, pcdata k s = (t, r) -> part r s.
Proof.
  induction s as [|c s IH]; intros k t r H; cbn [pcdata] in H; [injection H as <- <-; apply part_refl|].
  destruct k as [|k].
  - destruct (c =? 60); [injection H as <- <-; apply part_refl|]. destruct (c =? 13).
    + destruct (pcdata _ s) as [t0 r0] eqn:E. injection H as <- <-. apply part_cons. eauto.
    + destruct (c =? 38).
      * destruct (escape s) as [d k]. destruct (pcdata k s) as [t0 r0] eqn:E. injection H as <- <-. apply part_cons. eauto.
      * destruct (pcdata 0 s) as [t0 r0] eqn:E. injection H as <- <-. apply part_cons. eauto.
  - apply part_cons. eauto.
Qed.
Lemma part_attr q : forall s k t r, attr_value q k s = Some (t, r) -> part r s.
Proof.
  induction s as [|c s IH]; intros k t r H; cbn [attr_value] in H; [discriminate|]. destruct k as [|k].
  - destruct (c =? q); [injection H as <- <-; apply part_cons, part_refl|].
    destruct (ct_space c); [|destruct (c =? 38); [destruct (escape s) as [d k]|]].
    all: match type of H with option_map _ ?x = _ => destruct x as [[t0 r0]|] eqn:E; [|discriminate] end.
    all: injection H as <- <-; apply part_cons; eauto.
  - apply part_cons. eauto.
Qed.
Lemma part_cdata : forall s k t r, cdata_value k s = Some (t, r) -> part r s.
Proof.
  induction s as [|c s IH]; intros k t r H; cbn [cdata_value] in H; [discriminate|]. destruct k as [|k].
  - destruct (c =? 13).
    + destruct (cdata_value _ s) as [[t0 r0]|] eqn:E; [|discriminate]. injection H as <- <-. apply part_cons. eauto.
    + destruct (starts cdata_close (c :: s)) as [r0|] eqn:E; [injection H as <- <-; now apply part_starts in E|].
      destruct (cdata_value 0 s) as [[t0 r0]|] eqn:E'; [|discriminate]. injection H as <- <-. apply part_cons. eauto.
  - apply part_cons. eauto.
Qed.
Lemma start_letter c : ct_start c = true -> letter c.
Proof. unfold letter, ct_start. lia. Qed.
Lemma symbol_name c : ct_symbol c = true -> name_char c.
Proof. unfold name_char, letter, ct_symbol, ct_start, is_digit. lia. Qed.
Lemma span_name c r nm s1 : chars (c :: r) -> ct_start c = true -> span ct_symbol (c :: r) = (nm, s1) -> proper_name nm /\ part s1 (c :: r).
Proof.
  intros C S H. pose proof (part_span ct_symbol (c :: r)) as P. rewrite H in P. cbn [snd] in P. split; [|exact P].
  destruct (span_spec _ _ _ _ H) as (E & A & _). split; [rewrite E in C; now apply chars_app in C|]. split.
  - eapply Forall_impl; [|exact A]. intros d. apply symbol_name.
  - cbn [span] in H. assert (X : ct_symbol c = true) by (unfold ct_symbol; now rewrite S). rewrite X in H. destruct (span ct_symbol r) as [a b].
    injection H as <- <-. now apply start_letter.
Qed.
Lemma attrs_names : forall f s ats b r, parse_attrs f s = Ok (ats, b, r) -> chars s -> Forall (fun a => proper_name (fst a)) ats /\ part r s.
Proof.
  induction f as [|f IH]; intros s ats b r H C; cbn [parse_attrs] in H; [discriminate|].
  pose proof (part_span ct_space s) as P1. destruct (snd (span ct_space s)) as [|c s1]; [discriminate|].
  destruct (ct_start c) eqn:S.
  - destruct (span ct_symbol (c :: s1)) as [nm s2] eqn:E2. destruct (span_name c s1 nm s2 (part_chars _ _ P1 C) S E2) as (N & P2).
    pose proof (part_span ct_space s2) as P3. destruct (starts [61] (snd (span ct_space s2))) as [s3|] eqn:E3; [|discriminate].
    apply part_starts in E3. pose proof (part_span ct_space s3) as P4. destruct (snd (span ct_space s3)) as [|q s4]; [discriminate|].
    destruct ((q =? 34) || (q =? 39)); [|discriminate]. destruct (attr_value q 0 s4) as [[v s5]|] eqn:E5; [|discriminate].
    apply part_attr in E5. destruct (match s5 with d :: _ => ct_start d | [] => false end); [discriminate|].
    assert (P5 : part s5 s).
    { eapply part_trans; [exact E5|]. eapply part_trans; [eapply part_tail; exact P4|]. eapply part_trans; [exact E3|]. eapply part_trans; [exact P3|].
      eapply part_trans; [exact P2|]. exact P1. }
    destruct (parse_attrs f s5) as [[[a0 b0] r0]| | |] eqn:E6; cbn [bind] in H; try discriminate. injection H as <- <- <-.
    destruct (IH s5 a0 b0 r0 E6 (part_chars _ _ P5 C)) as (A & P6). split; [constructor; assumption|]. eapply part_trans; eassumption.
  - destruct (c =? 47).
    + destruct (starts [62] s1) as [r'|] eqn:E; [|discriminate]. injection H as <- <- <-. apply part_starts in E. split; [constructor|].
      eapply part_trans; [exact E|]. eapply part_tail; exact P1.
    + destruct (c =? 62); [|discriminate]. injection H as <- <- <-. split; [constructor|]. eapply part_tail; exact P1.
Qed.
Definition frame_names (f : str * list (str * str) * list xml) : Prop :=
  let '(nm, ats, par) := f in proper_name nm /\ Forall (fun a => proper_name (fst a)) ats /\ Forall names_in par.
Lemma turn_names s cur stk s' cur' stk' : chars s -> Forall names_in cur -> Forall frame_names stk -> turn s cur stk = Ok (s', cur', stk') ->
  chars s' /\ Forall names_in cur' /\ Forall frame_names stk'.
Proof.
  intros C N F H. unfold turn in H. destruct (starts [60] s) as [r|] eqn:E.
  - apply part_starts in E. pose proof (part_chars _ _ E C) as Cr. destruct r as [|c r]; [discriminate|]. destruct (ct_start c) eqn:S.
    + unfold start_tag in H. destruct (span ct_symbol (c :: r)) as [nm s1] eqn:E1. destruct (span_name c r nm s1 Cr S E1) as (P & P1).
      pose proof (part_chars _ _ P1 Cr) as C1. destruct s1 as [|ch r1]; [discriminate|]. assert (C2 : chars r1) by now inversion C1. destruct (ch =? 62).
      * injection H as <- <- <-. split; [exact C2|]. split; [constructor|]. constructor; [|exact F]. split; [exact P|]. split; [constructor|exact N].
      * destruct (ct_space ch).
        -- destruct (parse_attrs _ r1) as [[[a0 b0] r0]| | |] eqn:E2; cbn [bind] in H; try discriminate.
           destruct (attrs_names _ _ _ _ _ E2 C2) as (A & P2). pose proof (part_chars _ _ P2 C2) as C3.
           destruct b0; injection H as <- <- <-; (split; [exact C3|]).
           ++ split; [|exact F]. constructor; [|exact N]. apply names_elem. split; [exact P|]. split; [exact A|constructor].
           ++ split; [constructor|]. constructor; [|exact F]. now split.
        -- destruct (ch =? 47); [|discriminate]. destruct (starts [62] r1) as [r'|] eqn:E2; [|discriminate].
           injection H as <- <- <-. apply part_starts in E2. split; [now apply (part_chars r' r1)|]. split; [|exact F]. constructor; [|exact N].
           apply names_elem. split; [exact P|]. split; constructor.
    + assert (C1 : chars r) by now inversion Cr. destruct (c =? 47).
      * unfold end_tag in H. destruct stk as [|[[nm ats] par] stk]; [discriminate|]. pose proof (part_span ct_symbol r) as P1. destruct (span ct_symbol r) as [n0 s1].
        cbn [snd] in P1. destruct (str_eqb n0 nm); [|discriminate].
        pose proof (part_span ct_space s1) as P2. destruct (starts [62] _) as [r'|] eqn:E2; [|discriminate].
        injection H as <- <- <-. apply part_starts in E2. apply Forall_cons_iff in F. destruct F as ((F1 & F2 & F3) & F). split.
        -- apply (part_chars r' r); [|exact C1]. eapply part_trans; [exact E2|]. eapply part_trans; [exact P2|exact P1].
        -- split; [|exact F]. constructor; [|exact F3]. apply names_elem. split; [exact F1|]. split; [exact F2|]. now apply Forall_rev.
      * destruct (c =? 63).
        -- destruct (question r) as [r'|] eqn:E1; [|discriminate]. injection H as <- <- <-. unfold question in E1.
           destruct r as [|d r]; [discriminate|]. destruct (ct_start d); [|discriminate]. apply part_scan in E1.
           split; [|now split]. apply (part_chars r' (d :: r)); [|exact C1]. eapply part_trans; [exact E1|]. apply part_span.
        -- destruct (c =? 33); [|discriminate]. unfold exclamation in H. destruct (starts [45; 45] r) as [r1|] eqn:E1.
           ++ apply part_starts in E1. destruct (scan_for _ r1) as [r2|] eqn:E2; [|discriminate]. injection H as <- <- <-.
              apply part_scan in E2. split; [|now split]. apply (part_chars r2 r); [|exact C1]. eapply part_trans; eassumption.
           ++ destruct (starts (txt "[CDATA[") r) as [r1|] eqn:E2; [|discriminate]. apply part_starts in E2.
              destruct (cdata_value 0 r1) as [[t r2]|] eqn:E3; [|discriminate]. injection H as <- <- <-. apply part_cdata in E3.
              split; [apply (part_chars r2 r); [|exact C1]; eapply part_trans; eassumption|]. split; [|exact F]. now constructor.
  - pose proof (part_span ct_space s) as P. destruct (snd (span ct_space s)) as [|c s1]; [injection H as <- <- <-; split; [constructor|now split]|].
    destruct (c =? 60).
    + injection H as <- <- <-. split; [now apply (part_chars _ _ P)|now split].
    + destruct stk as [|f stk].
      * injection H as <- <- <-. split; [|now split]. eapply part_chars; [apply part_span|exact C].
      * destruct (pcdata 0 s) as [t r] eqn:Q. injection H as <- <- <-. apply part_pcdata in Q. split; [now apply (part_chars _ _ Q)|].
        split; [|exact F]. now constructor.
Qed.
Lemma tree_names : forall f s cur stk d, parse_tree f s cur stk = Ok d -> chars s -> Forall names_in cur -> Forall frame_names stk -> Forall names_in d.
Proof.
  induction f as [|f IH]; intros s cur stk d H C N F; cbn [parse_tree] in H; (destruct s as [|c s]; [destruct stk; [|discriminate]; injection H as <-; now apply Forall_rev|]);
    [discriminate|]. destruct (turn (c :: s) cur stk) as [[[s' cur'] stk']| | |] eqn:E; cbn [bind] in H; try discriminate.
  destruct (turn_names _ _ _ _ _ _ C N F E) as (C' & N' & F'). now apply (IH s' cur' stk').
Qed.

(** bytes are decoded to code points of at most 21 bits *)
Definition bytes_in (l : list Z) : Prop := Forall (fun b => 0 <= b < 256) l.
Lemma step_range l c k : bytes_in l -> utf8_step l = (Some c, k) -> 0 <= c < 2 ^ 21.
Proof.
  intros B H. change (2 ^ 21) with 2097152. unfold utf8_step in H. unfold cont in H.
  destruct l as [|a l]; [discriminate|]. apply Forall_cons_iff in B. destruct B as (Ba & B).
  destruct (Z.ltb_spec a 128); [injection H as <- _; lia|].
  destruct l as [|b l]; [discriminate|]. apply Forall_cons_iff in B. destruct B as (Bb & B).
  destruct ((192 <=? a) && (a <? 224) && ((128 <=? b) && (b <? 192))) eqn:E; [injection H as <- _; lia|].
  destruct l as [|d l]; [discriminate|]. apply Forall_cons_iff in B. destruct B as (Bd & B).
  destruct ((224 <=? a) && (a <? 240) && ((128 <=? b) && (b <? 192)) && ((128 <=? d) && (d <? 192))) eqn:E2; [injection H as <- _; lia|].
  destruct l as [|e l]; [discriminate|]. apply Forall_cons_iff in B. destruct B as (Be & B).
  destruct ((240 <=? a) && (a <? 248) && ((128 <=? b) && (b <? 192)) && ((128 <=? d) && (d <? 192)) && ((128 <=? e) && (e <? 192))) eqn:E3; [|discriminate].
  injection H as <- _; lia.
Qed.
Lemma go_range : forall l k, bytes_in l -> Forall (fun c => 0 <= c < 2 ^ 21) (utf8_go k l).
Proof.
  induction l as [|a l IH]; intros k B; [constructor|]. cbn [utf8_go]. assert (B' : bytes_in l) by now inversion B. destruct k as [|k]; [|now apply IH].
  destruct (utf8_step (a :: l)) as [[c|] k] eqn:E; [|now apply IH]. constructor; [now apply (step_range _ _ _ B E)|now apply IH].
Qed.
Lemma c_str_chars s : Forall (fun c => 0 <= c < 2 ^ 21) s -> chars (c_str s).
Proof. induction 1 as [|c s H _ IH]; [constructor|]. cbn [c_str]. destruct (Z.eqb_spec c 0); [constructor|]. constructor; [lia|exact IH]. Qed.
Lemma load_names bytes d : bytes_in bytes -> load bytes = Ok d -> Forall names_in d /\ d <> [].
Proof.
  intros B H. unfold load, parse in H. set (s := utf8_decode bytes) in *. assert (C : chars (c_str s)) by (apply c_str_chars; now apply go_range).
  destruct (c_str s) as [|c r] eqn:E.
  - discriminate.
  - set (s1 := if c =? 65279 then r else c :: r) in *. assert (C1 : chars s1) by (unfold s1; destruct (c =? 65279); [now inversion C|exact C]).
    destruct (parse_tree (S (length s1)) s1 [] []) as [doc| | |] eqn:T; cbn [bind] in H; try discriminate.
    destruct (existsb is_elem doc) eqn:X; [|discriminate]. injection H as <-. split.
    + now apply (tree_names _ _ _ _ _ T C1).
    + intros ->. discriminate.
Qed.
Theorem loaded_is_saved bytes ind d : bytes_in bytes -> load bytes = Ok d -> Forall is_element d -> Forall values_in d ->
  exists d', load (builder_get_xml ind d) = Ok d' /\ load (metadata_get_xml d) = Ok d' /\ d' = map settle d.
Proof.
  intros B L E V. destruct (load_names bytes d B L) as (N & D). exists (map settle d).
  assert (Nd : Forall named d). { rewrite Forall_forall in *. intros n I. apply names_values; auto. }
  split; [now apply builder_round|]. split; [now apply metadata_round|reflexivity].
Qed.
(** loading always comes to an end *)
Lemma parse_attrs_total : forall f s, (length s < f)%nat -> parse_attrs f s = Throw \/ exists x, parse_attrs f s = Ok x.
Proof.
  induction f as [|f IH]; intros s L; [lia|]. cbn [parse_attrs].
  pose proof (span_len ct_space s) as L1. destruct (snd (span ct_space s)) as [|c s1]; [now left|].
  destruct (ct_start c).
  - destruct (span ct_symbol (c :: s1)) as [nm s2] eqn:E2. pose proof (span_len ct_symbol (c :: s1)) as L2. rewrite E2 in L2. cbn [snd] in L2.
    pose proof (span_len ct_space s2) as L3. destruct (starts [61] (snd (span ct_space s2))) as [s3|] eqn:E3; [|now left].
    apply starts_len in E3. pose proof (span_len ct_space s3) as L4. destruct (snd (span ct_space s3)) as [|q s4]; [now left|].
    destruct ((q =? 34) || (q =? 39)); [|now left]. destruct (attr_value q 0 s4) as [[v s5]|] eqn:E5; [|now left].
    apply attr_value_len in E5. destruct (match s5 with d :: _ => ct_start d | [] => false end); [now left|].
    cbn [length] in *. destruct (IH s5) as [E|([[a b] r] & E)]; [lia| |]; rewrite E; cbn [bind]; eauto.
  - destruct (c =? 47); [destruct (starts [62] s1); eauto|]. destruct (c =? 62); eauto.
Qed.
Lemma turn_total s cur stk : turn s cur stk = Throw \/ exists x, turn s cur stk = Ok x.
Proof.
  unfold turn. destruct (starts [60] s) as [[|c r]|]; [now left| |].
  - destruct (ct_start c).
    + unfold start_tag. destruct (span ct_symbol (c :: r)) as [nm [|ch r1]]; [now left|]. destruct (ch =? 62); [eauto|]. destruct (ct_space ch).
      * destruct (parse_attrs_total (S (length r1)) r1) as [E|([[a b] x] & E)]; [lia| |]; rewrite E; cbn [bind]; [now left|]. destruct b; eauto.
      * destruct (ch =? 47); [|now left]. destruct (starts [62] r1); eauto.
    + destruct (c =? 47).
      * unfold end_tag. destruct stk as [|[[nm ats] par] stk]; [now left|]. destruct (span ct_symbol r). destruct (str_eqb _ _); [|now left].
        destruct (starts [62] _); eauto.
      * destruct (c =? 63); [destruct (question r); eauto|]. destruct (c =? 33); [|now left]. unfold exclamation.
        destruct (starts [45; 45] r); [destruct (scan_for _ _); eauto|]. destruct (starts _ r); [|now left]. destruct (cdata_value 0 _) as [[? ?]|]; eauto.
  - destruct (snd (span ct_space s)) as [|c s1]; [eauto|]. destruct (c =? 60); [eauto|]. destruct stk; [eauto|]. destruct (pcdata 0 s); eauto.
Qed.
Lemma tree_total : forall f s cur stk, (length s < f)%nat -> parse_tree f s cur stk = Throw \/ exists d, parse_tree f s cur stk = Ok d.
Proof.
  induction f as [|f IH]; intros s cur stk L; [lia|]. cbn [parse_tree]. destruct s as [|c s]; [destruct stk; eauto|].
  destruct (turn_total (c :: s) cur stk) as [E|([[s' cur'] stk'] & E)]; rewrite E; cbn [bind]; [now left|].
  apply turn_shorter in E; [|discriminate]. apply IH. lia.
Qed.
Theorem load_total bytes : load bytes = Throw \/ exists d, load bytes = Ok d.
Proof.
  unfold load, parse. set (s1 := match c_str (utf8_decode bytes) with c :: r => if c =? 65279 then r else c_str (utf8_decode bytes) | [] => [] end).
  destruct (tree_total (S (length s1)) s1 [] [] ltac:(lia)) as [E|(d & E)]; rewrite E; cbn [bind]; [now left|]. destruct (existsb is_elem d); eauto.
Qed.
Lemma close_pieces s : ~ has_close s <-> match pieces s with [_] => True | _ => False end.
Proof.
  destruct (pieces_spec (length s) s (le_n _)) as (E & F). destruct (pieces_cons s) as (p & ps & P). rewrite P in *. split.
  - intros H. pose proof (pieces_id s H) as X. rewrite P in X. now injection X as _ ->.
  - destruct ps as [|q ps]; [|easy]. intros _. cbn [concat] in E. rewrite app_nil_r in E. subst p. now inversion F.
Qed.
