(** Lemmas: saving and loading documents; which documents are unchanged; loading twice. *)
From Coq Require Import String.
From Verif Require Import Base TextModel TextSpec TextProofs XmlModel XmlSpec XmlProofs PugiModel PugiSpec PugiProofs PugiTree.
Open Scope Z_scope.

(** ** UTF-8 *)
Lemma utf8_go_skip k : forall a r, length a = k -> utf8_go k (a ++ r) = utf8_go O r.
Proof. induction k as [|k IH]; intros [|c a] r H; cbn in H; try lia; [reflexivity|]. cbn [app utf8_go]. apply IH. lia. Qed.
Lemma utf8_step_char c r : 0 <= c < 2 ^ 21 -> utf8_step (utf8_char c ++ r) = (Some c, length (utf8_char c)).
Proof.
  intros H. unfold utf8_char. destruct (Z.ltb_spec c 128) as [L|L].
  { cbn [app utf8_step]. destruct (Z.ltb_spec c 128); [reflexivity|lia]. }
  destruct (Z.ltb_spec c 2048) as [L2|L2].
  { cbn [app utf8_step]. set (a := 192 + c / 64). set (b := 128 + c mod 64). assert (192 <= a < 224) by (unfold a; lia). assert (128 <= b < 192) by (unfold b; lia).
    replace (a <? 128) with false by lia. replace ((192 <=? a) && (a <? 224) && cont b) with true by (unfold cont; lia). cbn iota. cbn [length].
    f_equal. f_equal. unfold a, b. lia. }
  destruct (Z.ltb_spec c 65536) as [L3|L3].
  { cbn [app utf8_step]. set (a := 224 + c / 4096). set (b := 128 + (c / 64) mod 64). set (d := 128 + c mod 64).
    assert (224 <= a < 240) by (unfold a; lia). assert (128 <= b < 192) by (unfold b; lia). assert (128 <= d < 192) by (unfold d; lia).
    replace (a <? 128) with false by lia. replace ((192 <=? a) && (a <? 224) && cont b) with false by lia.
    replace ((224 <=? a) && (a <? 240) && cont b && cont d) with true by (unfold cont; lia). cbn iota. cbn [length].
    f_equal. f_equal. unfold a, b, d. lia. }
  cbn [app utf8_step]. set (a := 240 + c / 262144). set (b := 128 + (c / 4096) mod 64). set (d := 128 + (c / 64) mod 64). set (e := 128 + c mod 64).
  assert (240 <= a < 248) by (unfold a; change (2 ^ 21) with 2097152 in H; lia).
  assert (128 <= b < 192) by (unfold b; lia). assert (128 <= d < 192) by (unfold d; lia). assert (128 <= e < 192) by (unfold e; lia).
  replace (a <? 128) with false by lia. replace ((192 <=? a) && (a <? 224) && cont b) with false by lia.
  replace ((224 <=? a) && (a <? 240) && cont b && cont d) with false by lia.
  replace ((240 <=? a) && (a <? 248) && cont b && cont d && cont e) with true by (unfold cont; lia). cbn iota. cbn [length].
  f_equal. f_equal. unfold a, b, d, e. lia.
Qed.
Lemma utf8_head c : exists b r, utf8_char c = b :: r.
Proof. unfold utf8_char. destruct (c <? 128), (c <? 2048), (c <? 65536); eauto. Qed.
Theorem utf8_round s : chars s -> utf8_decode (utf8_encode s) = s.
Proof.
  unfold utf8_decode. induction 1 as [|c s H _ IH]; [reflexivity|]. unfold utf8_encode in *. cbn [flat_map].
  pose proof (utf8_step_char c (flat_map utf8_char s) ltac:(lia)) as E. destruct (utf8_head c) as (b & r & U). rewrite U in *. cbn [app] in *.
  cbn [utf8_go]. rewrite E. cbn [length pred]. rewrite (utf8_go_skip (length r)) by reflexivity. now rewrite IH.
Qed.

(** ** characters printed *)
Lemma chars_flat {A} (f : A -> str) l : (forall a, In a l -> chars (f a)) -> chars (flat_map f l).
Proof. intros H. unfold chars. apply Forall_flat_map, Forall_forall. exact H. Qed.
Lemma chars_const s : forallb (fun c => (1 <=? c) && (c <? 2097152)) s = true -> chars s.
Proof. intros H. apply Forall_forall. intros c I. rewrite forallb_forall in H. specialize (H c I). change (2 ^ 21) with 2097152. lia. Qed.
Lemma chars_esc special c : (special = special_pcdata \/ special = special_attr) -> 1 <= c < 2 ^ 21 -> chars (esc special c).
Proof.
  intros S H. unfold esc. destruct (special c) eqn:E; [|now repeat constructor].
  destruct (c =? 38); [now apply chars_const|]. destruct (c =? 60); [now apply chars_const|]. destruct (c =? 62); [now apply chars_const|].
  destruct (c =? 34); [now apply chars_const|]. destruct (c =? 39); [now apply chars_const|].
  assert (0 <= c / 10 /\ c / 10 + 48 < 2 ^ 21) by (split; [lia|]; change (2 ^ 21) with 2097152 in *; lia).
  change (2 ^ 21) with 2097152 in *. repeat constructor; change (2 ^ 21) with 2097152; lia.
Qed.
Lemma chars_escaped special s : (special = special_pcdata \/ special = special_attr) -> chars s -> chars (escaped special s).
Proof. intros S H. apply chars_flat. intros c I. apply chars_esc; [exact S|]. unfold chars in H. rewrite Forall_forall in H. now apply H. Qed.
Lemma chars_cdata s : chars s -> chars (cdata_out s).
Proof.
  intros H. rewrite cdata_pieces. apply chars_flat. intros p I. apply chars_app. split; [now apply chars_const|].
  apply chars_app. split; [|now apply chars_const]. apply pieces_chars in H. rewrite Forall_forall in H. now apply H.
Qed.
Lemma chars_attrs ats : Forall attr_named ats -> chars (attrs_out ats).
Proof.
  intros H. apply chars_flat. intros [k v] I. rewrite Forall_forall in H. destruct (H _ I) as ((K & _) & V). cbn [fst snd] in *.
  unfold attr_out. cbn [fst snd]. repeat (apply chars_app; split); try (now apply chars_const); [exact K|]. apply chars_escaped; auto.
Qed.
Lemma chars_space w : all ct_space w -> chars w.
Proof. apply Forall_impl. intros c. unfold ct_space. change (2 ^ 21) with 2097152. lia. Qed.
Lemma chars_out l : spaced l -> forall n, named n -> forall depth fl, chars (fst (out l n depth fl)).
Proof.
  intros S n. induction n as [nm ats ks H|s|s] using xml_induction; intros N depth fl.
  - apply named_elem in N. destruct N as ((N1 & N1') & N2 & N3).
    assert (L : forall d f, chars (lead l d f)) by (intros; apply chars_space; now apply lead_space).
    assert (T : forall b, chars (tag_end l b)) by (intros b; destruct l, b; now apply chars_const).
    rewrite out_elem. destruct ks as [|k ks]; cbn [fst].
    + repeat (apply chars_app; split); auto; [now apply chars_const|now apply chars_attrs].
    + assert (B : forall d f, chars (body l (k :: ks) d f)).
      { revert H N3. generalize (k :: ks). clear. induction l0 as [|a l0 IH]; intros H N d f; [constructor|].
        inversion H; inversion N; subst. rewrite body_cons. apply chars_app. split; auto. }
      repeat (apply chars_app; split); auto; try (now apply chars_const); now apply chars_attrs.
  - apply chars_escaped; auto.
  - now apply chars_cdata.
Qed.
Lemma chars_body l : spaced l -> forall ks, Forall named ks -> forall d f, chars (body l ks d f).
Proof.
  intros S. induction 1 as [|k ks N _ IH]; intros d f; [constructor|]. rewrite body_cons. apply chars_app. split; [now apply chars_out|apply IH].
Qed.
Lemma print_eq l decl doc : print l decl doc = (if decl then declaration ++ match l with Raw => [] | Indented _ => [10] end else []) ++
  body l doc 0 (false, true) ++ match l with Raw => [] | Indented _ => if fst (flags l doc 0 (false, true)) then [10] else [] end.
Proof. unfold print, body, flags. now destruct (outs l doc 0 (false, true)). Qed.
Lemma chars_print l decl doc : spaced l -> Forall named doc -> chars (print l decl doc).
Proof.
  intros S N. rewrite print_eq. apply chars_app. split.
  - destruct decl; [|constructor]. apply chars_app. split; [now apply chars_const|destruct l; now apply chars_const].
  - apply chars_app. split; [now apply chars_body|]. destruct l; [constructor|]. destruct (fst _); now apply chars_const.
Qed.

(** ** a document *)
Lemma body_head l k doc fl : is_element k -> fst fl = false -> exists x, body l (k :: doc) 0 fl = 60 :: x.
Proof.
  intros E F. rewrite body_cons. destruct k as [nm ats ks|s|s]; try easy. rewrite out_elem.
  assert (L : lead l 0 fl = []) by (destruct l; [reflexivity|]; cbn [lead repeat concat]; rewrite F; now destruct (snd fl)).
  rewrite L. destruct ks; cbn [fst app]; eauto.
Qed.
Theorem parse_print l decl doc : spaced l -> doc <> [] -> Forall is_element doc -> Forall named doc ->
  parse (print l decl doc) = Ok (map settle doc).
Proof.
  intros S D E N. unfold parse. rewrite c_str_id by (apply chars_nz; now apply chars_print).
  assert (R : run (print l decl doc) [] [] = Ok (map settle doc)).
  { rewrite print_eq. pose proof (settled_top l S doc E N (false, true) []) as T. cbn [rev app] in T.
    destruct decl; [|exact T]. rewrite <- app_assoc. rewrite run_turn by discriminate.
    change (turn (declaration ++ ?x) [] []) with (Ok (x, @nil xml, @nil (str * list (str * str) * list xml))). cbn [bind].
    destruct doc as [|k doc]; [easy|]. destruct (body_head l k doc (false, true)) as (x & B); [now inversion E|reflexivity|].
    rewrite B in *. cbn [app] in *. destruct l; [exact T|]. cbn [app]. rewrite <- T.
    apply (run_space [10] (x ++ (if fst (flags (Indented ind) (k :: doc) 0 (false, true)) then [10] else []))). repeat constructor. }
  assert (H : exists x, print l decl doc = 60 :: x).
  { rewrite print_eq. destruct decl; [eexists; reflexivity|]. destruct doc as [|k doc]; [easy|].
    destruct (body_head l k doc (false, true)) as (x & B); [now inversion E|reflexivity|]. rewrite B. eexists. reflexivity. }
  destruct H as (x & H). rewrite H in *. change (60 =? 65279) with false. cbn iota. unfold run in R. rewrite R. cbn [bind].
  destruct doc as [|k doc]; [easy|]. cbn [map existsb]. inversion E; subst. destruct k as [nm ats ks|s|s]; try easy.
Qed.
Theorem load_print l decl doc : spaced l -> doc <> [] -> Forall is_element doc -> Forall named doc ->
  load (utf8_encode (print l decl doc)) = Ok (map settle doc).
Proof. intros S D E N. unfold load. rewrite utf8_round by now apply chars_print. now apply parse_print. Qed.
Lemma builder_round ind doc : doc <> [] -> Forall is_element doc -> Forall named doc -> load (builder_get_xml ind doc) = Ok (map settle doc).
Proof. intros. apply load_print; auto. destruct ind; cbn; [repeat constructor|exact I]. Qed.
Lemma metadata_round doc : doc <> [] -> Forall is_element doc -> Forall named doc -> load (metadata_get_xml doc) = Ok (map settle doc).
Proof. intros. apply load_print; auto. cbn. repeat constructor. Qed.

(** ** what does not change *)
Lemma line_ends_id s : ~ In 13 s -> line_ends s = s.
Proof.
  induction s as [|c s IH]; intros H; [reflexivity|]. cbn [line_ends]. destruct (Z.eqb_spec c 13) as [->|]; [exfalso; apply H; now left|].
  rewrite IH; [reflexivity|]. intros X. apply H. now right.
Qed.
Lemma pieces_id s : ~ has_close s -> pieces s = [s].
Proof.
  induction s as [|a s IH]; intros H; [reflexivity|]. assert (E : pieces s = [s]) by (apply IH; intros X; apply H; now apply has_close_cons).
  cbn [pieces]. destruct s as [|b [|c s]]; [now rewrite E|now rewrite E|]. destruct ((a =? 93) && (b =? 93) && (c =? 62)) eqn:T; [|now rewrite E].
  exfalso. apply H. exists [], s. cbn. f_equal; [lia|]. f_equal; [lia|]. f_equal. lia.
Qed.
Lemma durable_elem nm ats ks : durable (Elem nm ats ks) <-> apart ks /\ Forall durable ks.
Proof.
  cbn [durable]. assert (E : (fix all ks := match ks with [] => True | k :: ks' => durable k /\ all ks' end) ks <-> Forall durable ks).
  { induction ks as [|k ks IH]; [split; constructor|]. rewrite IH. split; [intros (A & B); now constructor|]. intros H; inversion H; auto. }
  now rewrite E.
Qed.
Lemma apart_tail k ks : apart (k :: ks) -> apart ks.
Proof. destruct k; cbn [apart]; try easy. destruct ks as [|[]]; easy. Qed.
Lemma settles_id ks : Forall durable ks -> apart ks -> Forall (fun k => settle k = k) ks ->
  settles [] ks = ks /\ forall s, durable (Text s) -> apart (Text s :: ks) -> settles s ks = Text s :: ks.
Proof.
  assert (K : forall s, durable (Text s) -> kept s = [Text s]).
  { intros s (B & C). unfold kept. now rewrite B, line_ends_id. }
  induction ks as [|k ks IH]; intros D A S.
  - split; [reflexivity|]. intros s Ds _. cbn [settles]. now apply K.
  - inversion D as [|? ? D1 D2]; inversion S as [|? ? S1 S2]; subst. specialize (IH D2 (apart_tail _ _ A) S2). destruct IH as (I1 & I2).
    destruct k as [nm ats kk|t|t].
    + split; [|intros s Ds _]; cbn [settles]; rewrite I1, S1; [reflexivity|]. now rewrite K.
    + split; [|intros s Ds X; now cbn in X]. cbn [settles app]. now apply I2.
    + destruct D1 as (D1 & D1'). split; [|intros s Ds _]; cbn [settles]; rewrite I1, (pieces_id t D1); cbn [map app]; rewrite line_ends_id by assumption; [reflexivity|].
      now rewrite K.
Qed.
Lemma settle_id n : durable n -> settle n = n.
Proof.
  induction n as [nm ats ks H|s|s] using xml_induction; intros D; [|reflexivity|reflexivity]. rewrite settle_elem. apply durable_elem in D.
  destruct D as (A & D). f_equal. apply settles_id; [exact D|exact A|]. rewrite Forall_forall in *. intros k I. apply H; auto.
Qed.
Lemma settle_all_id doc : Forall durable doc -> map settle doc = doc.
Proof. induction 1 as [|k doc D _ IH]; [reflexivity|]. cbn [map]. now rewrite settle_id, IH. Qed.

(** ** the settled document is durable *)
Lemma line_ends_ind (P : str -> Prop) : P [] -> (forall c r, c <> 13 -> P r -> P (c :: r)) -> (forall r, P r -> P (13 :: 10 :: r)) ->
  (forall r, next_is 10 r = false -> P r -> P (13 :: r)) -> forall s, P s.
Proof.
  intros H0 H1 H2 H3 s. assert (G : forall n s, (length s <= n)%nat -> P s).
  { clear s. induction n as [|n IH]; intros s L; (destruct s as [|c s]; [exact H0|]); [cbn in L; lia|]. cbn [length] in L.
    destruct (Z.eq_dec c 13) as [->|N]; [|apply H1; [exact N|apply IH; lia]]. destruct (next_is 10 s) eqn:E.
    - destruct s as [|d s]; [discriminate|]. cbn in E. assert (d = 10) by lia. subst d. apply H2, IH. cbn [length] in L. lia.
    - apply H3; [exact E|apply IH; lia]. }
  now apply (G (length s)).
Qed.
Lemma line_ends_other c r : c <> 13 -> line_ends (c :: r) = c :: line_ends r.
Proof. intros H. cbn [line_ends]. destruct (Z.eqb_spec c 13); congruence. Qed.
Lemma line_ends_crlf r : line_ends (13 :: 10 :: r) = 10 :: line_ends r.
Proof. reflexivity. Qed.
Lemma line_ends_cr r : next_is 10 r = false -> line_ends (13 :: r) = 10 :: line_ends r.
Proof. intros H. cbn [line_ends]. change (13 =? 13) with true. cbn iota. destruct r as [|d r]; [reflexivity|]. cbn in H. now rewrite H. Qed.
Lemma line_ends_no13 s : ~ In 13 (line_ends s).
Proof.
  induction s as [|c r N IH|r IH|r N IH] using line_ends_ind; [easy| | |].
  - rewrite line_ends_other by assumption. cbn. intuition.
  - rewrite line_ends_crlf. cbn. intuition discriminate.
  - rewrite line_ends_cr by assumption. cbn. intuition discriminate.
Qed.
Lemma line_ends_blank s : blank (line_ends s) = blank s.
Proof.
  unfold blank. induction s as [|c r N IH|r IH|r N IH] using line_ends_ind; [easy| | |].
  - rewrite line_ends_other by assumption. cbn [forallb]. now rewrite IH.
  - rewrite line_ends_crlf. cbn [forallb]. now rewrite IH.
  - rewrite line_ends_cr by assumption. cbn [forallb]. now rewrite IH.
Qed.
Lemma line_ends_chars s : chars s -> chars (line_ends s).
Proof.
  unfold chars. induction s as [|c r N IH|r IH|r N IH] using line_ends_ind; intros H; [easy| | |].
  - rewrite line_ends_other by assumption. inversion H; subst. constructor; auto.
  - rewrite line_ends_crlf. apply Forall_cons_iff in H. destruct H as (_ & H). apply Forall_cons_iff in H. destruct H as (H1 & H). constructor; auto.
  - rewrite line_ends_cr by assumption. inversion H; subst. constructor; [change (2 ^ 21) with 2097152; lia|auto].
Qed.
Lemma line_ends_starts : forall p s r, ~ In 10 p -> starts p (line_ends s) = Some r -> exists r', starts p s = Some r'.
Proof.
  induction p as [|a p IH]; intros s r N H; [now eexists|]. destruct s as [|c s]; [discriminate|].
  destruct (Z.eq_dec c 13) as [->|Nc].
  - exfalso. assert (E : exists y, line_ends (13 :: s) = 10 :: y).
    { destruct (next_is 10 s) eqn:X; [|rewrite line_ends_cr by exact X; now eexists].
      destruct s as [|d s]; [discriminate|]. cbn in X. assert (d = 10) by lia. subst d. rewrite line_ends_crlf. now eexists. }
    destruct E as (y & E). rewrite E in H. cbn [starts] in H. destruct (Z.eqb_spec a 10) as [->|]; [apply N; now left|discriminate].
  - rewrite line_ends_other in H by exact Nc. cbn [starts] in *. destruct (a =? c); [|discriminate]. apply (IH s r); [|exact H].
    intros X. apply N. now right.
Qed.
Lemma starts_split p : forall s r, starts p s = Some r -> s = p ++ r.
Proof.
  induction p as [|a p IH]; intros s r H; cbn in H; [now injection H as ->|]. destruct s as [|b s]; [discriminate|].
  destruct (Z.eqb_spec a b) as [->|]; [|discriminate]. cbn. f_equal. auto.
Qed.
Lemma close_head s r : starts [93; 93; 62] (line_ends s) = Some r -> has_close s.
Proof.
  intros H. apply line_ends_starts in H; [|cbn; lia]. destruct H as (r' & H). apply starts_split in H. exists [], r'. exact H.
Qed.
Lemma line_ends_close s : has_close (line_ends s) -> has_close s.
Proof.
  intros (a & b & E). revert a b E. induction s as [|c r N IH|r IH|r N IH] using line_ends_ind; intros a b E.
  - destruct a; discriminate.
  - destruct a as [|x a].
    + apply (close_head (c :: r) b). rewrite E. reflexivity.
    + rewrite line_ends_other in E by exact N. injection E as _ E. apply has_close_cons. exact (IH a b E).
  - rewrite line_ends_crlf in E. destruct a as [|x a]; [discriminate|]. injection E as _ E. apply has_close_cons, has_close_cons. exact (IH a b E).
  - rewrite line_ends_cr in E by exact N. destruct a as [|x a]; [discriminate|]. injection E as _ E. apply has_close_cons. exact (IH a b E).
Qed.

Lemma kept_durable t : Forall durable (kept t).
Proof.
  unfold kept. destruct (blank t) eqn:B; [constructor|]. constructor; [|constructor]. split; [now rewrite line_ends_blank|apply line_ends_no13].
Qed.
Lemma sections_durable s : Forall durable (map (fun p => CData (line_ends p)) (pieces s)).
Proof.
  apply Forall_map. destruct (pieces_spec (length s) s (le_n _)) as (_ & F). eapply Forall_impl; [|exact F].
  intros p H. split; [|apply line_ends_no13]. intros X. now apply H, line_ends_close.
Qed.
Definition no_text_first (ks : list xml) : Prop := match ks with Text _ :: _ => False | _ => True end.
Lemma apart_kept t ks : apart ks -> no_text_first ks -> apart (kept t ++ ks).
Proof. intros A N. unfold kept. destruct (blank t); [exact A|]. cbn [app apart]. destruct ks as [|[]]; easy. Qed.
Lemma apart_sections ps ks : apart ks -> apart (map (fun p => CData (line_ends p)) ps ++ ks).
Proof. intros A. induction ps as [|p ps IH]; [exact A|]. exact IH. Qed.
Lemma settles_durable ks : Forall (fun k => is_element k -> durable (settle k)) ks -> forall t,
  Forall durable (settles t ks) /\ apart (settles t ks).
Proof.
  induction 1 as [|k ks H _ IH]; intros t.
  - cbn [settles]. split; [apply kept_durable|]. unfold kept. destruct (blank t); exact I.
  - destruct k as [nm ats kk|s|s]; cbn [settles].
    + destruct (IH []) as (D & A). split.
      * apply Forall_app. split; [apply kept_durable|]. constructor; [now apply H|exact D].
      * apply apart_kept; [|exact I]. rewrite settle_elem. exact A.
    + apply IH.
    + destruct (IH []) as (D & A). split.
      * apply Forall_app. split; [apply kept_durable|]. apply Forall_app. split; [apply sections_durable|exact D].
      * apply apart_kept; [now apply apart_sections|]. destruct (pieces_cons s) as (p & ps & E). rewrite E. exact I.
Qed.
Lemma settle_durable n : is_element n -> durable (settle n).
Proof.
  induction n as [nm ats ks H|s|s] using xml_induction; intros E; try easy. rewrite settle_elem. apply durable_elem.
  destruct (settles_durable ks H []). now split.
Qed.
Lemma settle_named n : named n -> named (settle n).
Proof.
  induction n as [nm ats ks H|s|s] using xml_induction; intros N; try exact N. rewrite settle_elem. apply named_elem in N. destruct N as (N1 & N2 & N3).
  apply named_elem. split; [exact N1|]. split; [exact N2|].
  assert (K : forall t, chars t -> Forall named (kept t)).
  { intros t T. unfold kept. destruct (blank t); [constructor|]. constructor; [|constructor]. now apply line_ends_chars. }
  assert (G : forall ks, Forall (fun n => named n -> named (settle n)) ks -> Forall named ks -> forall t, chars t -> Forall named (settles t ks)).
  { clear H N3. induction 1 as [|k ks' H _ IH]; intros N3 t T; [now apply K|]. apply Forall_cons_iff in N3. destruct N3 as (N3 & N4).
    destruct k as [nm0 ats0 kk|s|s]; cbn [settles].
    - apply Forall_app. split; [now apply K|]. constructor; [now apply H|]. apply IH; [exact N4|constructor].
    - apply IH; [exact N4|]. apply chars_app. now split.
    - apply Forall_app. split; [now apply K|]. apply Forall_app. split; [|apply IH; [exact N4|constructor]].
      apply Forall_map. eapply Forall_impl; [|apply pieces_chars; exact N3]. intros p. apply line_ends_chars. }
  apply G; [exact H|exact N3|constructor].
Qed.
Lemma settle_element n : is_element n -> is_element (settle n).
Proof. now destruct n. Qed.

(** ** the statements *)
Theorem saved_is_loaded ind doc : doc <> [] -> Forall is_element doc -> Forall named doc -> Forall durable doc ->
  load (builder_get_xml ind doc) = Ok doc /\ load (metadata_get_xml doc) = Ok doc.
Proof. intros D E N U. rewrite builder_round, metadata_round by assumption. now rewrite settle_all_id. Qed.
Theorem saved_twice ind ind' doc : doc <> [] -> Forall is_element doc -> Forall named doc ->
  exists doc', load (builder_get_xml ind doc) = Ok doc' /\ load (builder_get_xml ind' doc') = Ok doc' /\ load (metadata_get_xml doc') = Ok doc'.
Proof.
  intros D E N. exists (map settle doc). split; [now apply builder_round|]. apply saved_is_loaded.
  - now destruct doc.
  - apply Forall_map. eapply Forall_impl; [|exact E]. intros n. apply settle_element.
  - apply Forall_map. eapply Forall_impl; [|exact N]. intros n. apply settle_named.
  - apply Forall_map. eapply Forall_impl; [|exact E]. intros n. apply settle_durable.
Qed.
