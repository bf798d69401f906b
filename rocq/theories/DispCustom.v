(** Lemmas: custom values. *)
From Coq Require Import String QArith Qabs Floats.SpecFloat.
From Verif Require Import Base TextModel TextSpec TextProofs XmlModel XmlSpec XmlProofs XmlValues XmlPaths PugiModel PugiSpec PugiProofs PugiTree PugiRound PugiBuild.
From Verif Require Import SFloatProofs ScaleNum NumModel NumSpec NumRound DocModel DocSpec DocTree DocInt DocProofs DocScale DocDims DocChan DispModel DispSpec DispNum DispChan DispDoc.
Open Scope Z_scope.

(** ** keys *)
Lemma word_start_ok c : word_start c = true <-> letter_or_bar c.
Proof. unfold word_start, is_letter, letter_or_bar. lia. Qed.
Lemma word_char_ok c : word_char c = true <-> letter_or_bar c \/ 48 <= c <= 57.
Proof. unfold word_char. rewrite orb_true_iff, word_start_ok. unfold is_digit, letter_or_bar. lia. Qed.
Theorem valid_key_ok s : valid_key s = true <-> custom_key s.
Proof.
  assert (T : forall s, custom_key s <-> (exists a r, s = a :: r /\ word_start a = true /\ forallb word_char r = true) /\ ~ (exists a b c r, s = a :: b :: c :: r /\ is_one 120 a = true /\ is_one 109 b = true /\ is_one 108 c = true)).
  { clear s. intros s. unfold custom_key. split; intros ((a & r & E & A & R) & N); (split; [exists a, r; split; [exact E|]; split; [now apply word_start_ok|]|]).
    - apply forallb_forall. intros c I. apply word_char_ok, R, I.
    - intros (x & y & z & q & X & X1 & X2 & X3). apply N. exists x, y, z, q. unfold is_one in *. repeat split; [exact X|lia..].
    - intros c I. rewrite forallb_forall in R. apply word_char_ok, R, I.
    - intros (x & y & z & q & X & X1 & X2 & X3). apply N. exists x, y, z, q. unfold is_one in *. repeat split; [exact X|lia..]. }
  rewrite T. clear T. destruct s as [|a [|b [|c r]]]; cbn [valid_key].
  - split; [discriminate|]. intros ((a & r & E & _) & _). discriminate.
  - split; [intros H; split; [exists a, []; auto|intros (x & y & z & q & X & _); discriminate]|]. intros ((x & q & [= <- <-] & H & _) & _). exact H.
  - rewrite andb_true_iff. split; [intros (H1 & H2); split; [exists a, [b]; cbn; rewrite H2; auto|intros (x & y & z & q & X & _); discriminate]|].
    intros ((x & q & [= <- <-] & H & H2) & _). cbn [forallb] in H2. rewrite andb_true_r in H2. auto.
  - split.
    + intros H. assert (W : word_start a = true /\ word_char b = true /\ word_char c = true /\ forallb word_char r = true /\ (is_one 120 a && is_one 109 b && is_one 108 c = false)).
      { destruct (word_start a), (word_char b), (word_char c), (forallb word_char r), (is_one 120 a), (is_one 109 b), (is_one 108 c); cbn in H |- *; try discriminate; repeat split. }
      destruct W as (W1 & W2 & W3 & W4 & W5). split; [exists a, (b :: c :: r); cbn [forallb]; rewrite W2, W3, W4; auto|]. intros (x & y & z & q & [= <- <- <- <-] & X1 & X2 & X3). rewrite X1, X2, X3 in W5. discriminate.
    + intros ((x & q & [= <- <-] & H & H2) & N). cbn [forallb] in H2. apply andb_true_iff in H2. destruct H2 as (H2 & H3). apply andb_true_iff in H3. destruct H3 as (H3 & H4). rewrite H, H2, H3, H4.
      destruct (is_one 120 a) eqn:E1; [|reflexivity]. destruct (is_one 109 b) eqn:E2; [|reflexivity]. destruct (is_one 108 c) eqn:E3; [|reflexivity]. exfalso. apply N. exists a, b, c, r. auto.
Qed.
Lemma key_facts key : custom_key key -> key <> [] /\ plain [47; 91; 93] key /\ proper_name key.
Proof.
  intros ((a & r & -> & A & R) & _). split; [discriminate|]. assert (G : forall c, In c (a :: r) -> letter_or_bar c \/ 48 <= c <= 57) by (intros c [<-|I]; [now left|now apply R]). split; [|split; [|split]].
  - intros c I X. specialize (G c I). unfold letter_or_bar in G. cbn in X. lia.
  - apply Forall_forall. intros c I. specialize (G c I). unfold letter_or_bar in G. lia.
  - apply Forall_forall. intros c I. specialize (G c I). unfold letter_or_bar in G. unfold name_char, letter. lia.
  - unfold letter_or_bar in A. unfold letter. lia.
Qed.
(** ** the node *)
Definition KEYS : list spec := plainly [txt "Metadata"; txt "Information"; txt "CustomAttributes"; txt "KeyValue"].
Definition set_typed (v : custom) (n : xml) : res xml := let* m := set_value (custom_text v) n in set_attribute (txt "Type") (custom_type v) m.
Definition at_key (key : str) (v : custom) : xml -> res xml := put (set_typed v) [(key, [])].
Lemma custom_tokens key : custom_key key -> path_tokens (custom_path key) = Ok (CUSTOM_NAMES key).
Proof.
  intros K. destruct (key_facts key K) as (N & P & _). unfold custom_path. assert (E : txt "Metadata/Information/CustomAttributes/KeyValue/" ++ key = join 47 (CUSTOM_NAMES key)) by reflexivity. rewrite E.
  unfold path_tokens. rewrite tokens_join; [|reflexivity|discriminate|].
  - destruct key; [easy|]. reflexivity.
  - intros s x I X. unfold CUSTOM_NAMES in I. cbn [In] in I.
    assert (G : forallb (fun s => forallb (fun x => negb (x =? 47)) s) [txt "Metadata"; txt "Information"; txt "CustomAttributes"; txt "KeyValue"] = true) by reflexivity.
    assert (I' : In s [txt "Metadata"; txt "Information"; txt "CustomAttributes"; txt "KeyValue"] \/ s = key) by (cbn [In]; intuition auto).
    destruct I' as [I'| ->]; [rewrite forallb_forall in G; specialize (G s I'); rewrite forallb_forall in G; specialize (G x X); lia|].
    destruct (Z.eqb_spec x 47) as [->|]; [|reflexivity]. exfalso. apply (P 47 X). now left.
Qed.
Lemma set_custom_put key v t : is_element t -> custom_key key -> set_custom key v t = put (at_key key v) KEYS t.
Proof.
  intros E K. unfold set_custom. rewrite (proj2 (valid_key_ok key) K). destruct (key_facts key K) as (N & P & _). unfold at_key. rewrite <- put_app.
  assert (CS : Forall2 (fun k st => create_spec k = Ok st) (CUSTOM_NAMES key) (KEYS ++ [(key, [])])).
  { unfold CUSTOM_NAMES, KEYS. cbn [plainly map app]. repeat (apply Forall2_cons; [first [reflexivity|unfold create_spec; now rewrite parse_step_name by assumption]|]). apply Forall2_nil. }
  pose proof (create_put (set_typed v) (CUSTOM_NAMES key) (KEYS ++ [(key, [])]) t CS E) as CP. unfold get_or_create. rewrite (custom_tokens key K).
  pose proof (created_there (CUSTOM_NAMES key) t) as CT.
  destruct (create_path (CUSTOM_NAMES key) t) as [t' [h| | |]]; try exact CP. rewrite <- CP.
  destruct (change_at h (set_value (custom_text v)) t') as [t1| | |] eqn:C1; cbn [bind].
  - apply (change_comp (set_value (custom_text v)) (set_attribute (txt "Type") (custom_type v)) h t' t1 C1).
  - revert C1. clear. revert t'. induction h as [|i h IH]; intros t' C1; cbn [change_at] in *; [unfold set_typed; now rewrite C1|]. destruct t' as [nm ats ks| |]; try discriminate. destruct (nth_error ks i) as [c|]; [|discriminate].
    destruct (change_at h (set_value (custom_text v)) c) eqn:X; cbn [bind] in C1; try discriminate. now rewrite <- (IH c X).
  - revert C1. clear. revert t'. induction h as [|i h IH]; intros t' C1; cbn [change_at] in *; [unfold set_typed; now rewrite C1|]. destruct t' as [nm ats ks| |]; try reflexivity. destruct (nth_error ks i) as [c|]; [|reflexivity].
    destruct (change_at h (set_value (custom_text v)) c) eqn:X; cbn [bind] in C1; try discriminate. now rewrite <- (IH c X).
  - exfalso. revert C1. clear. revert t'. induction h as [|i h IH]; intros t' C1; cbn [change_at] in *; [destruct t' as [nm ats ks| |]; cbn [set_value] in C1; try discriminate; destruct (existsb is_elem ks); discriminate|]. destruct t' as [nm ats ks| |]; try discriminate. destruct (nth_error ks i) as [c|]; [|discriminate].
    destruct (change_at h (set_value (custom_text v)) c) eqn:X; cbn [bind] in C1; try discriminate. now apply (IH c).
Qed.
Lemma typed_inv v a b : set_typed v a = Ok b -> exists nm ats kids ats', a = Elem nm ats kids /\ b = Elem nm ats' (match find_index is_text kids with Some i => upd kids i (Text (custom_text v)) | None => kids ++ [Text (custom_text v)] end) /\
  existsb is_elem kids = false /\ attr_of ats' (txt "Type") = Some (custom_type v) /\ (forall x, In x ats' -> In x ats \/ x = (txt "Type", custom_type v)).
Proof.
  unfold set_typed. destruct a as [nm ats kids| |]; cbn [set_value bind]; try discriminate. destruct (existsb is_elem kids) eqn:X; cbn [bind]; [discriminate|]. cbn [set_attribute]. intros H.
  eexists nm, ats, kids, _. split; [reflexivity|]. split; [assert (Y : forall a b : xml, Ok a = Ok b -> a = b) by congruence; apply Y in H; rewrite <- H; reflexivity|]. split; [exact X|]. clear. set (w := custom_type v). clearbody w. split.
  - induction ats as [|[k0 v0] ats IH]; [reflexivity|]. cbn [find_index fst]. destruct (str_eqb k0 (txt "Type")) eqn:E; [cbn [upd attr_of]; now rewrite str_eqb_refl|].
    destruct (find_index _ ats) as [i|]; cbn [upd app attr_of]; rewrite E; exact IH.
  - intros x I. destruct (find_index _ ats) as [i|].
    + clear -I. revert i I. induction ats as [|y ats IH]; intros [|i] I; cbn [upd In] in *; try easy; [destruct I as [<-|I]; auto|]. destruct I as [<-|I]; [auto|]. destruct (IH i I); auto.
    + apply in_app_iff in I. destruct I as [I|[<-|[]]]; auto.
Qed.
Lemma at_key_steady key v : steady (at_key key v).
Proof. intros a b H. unfold at_key in H. apply put_inv in H. destruct H as (nm & at_ & kids & x & c & c' & y & -> & -> & _). reflexivity. Qed.
Lemma type_chars v : chars (custom_type v).
Proof. apply solid_chars. destruct v; apply Forall_forall; intros c I; cbn in I; lia. Qed.
Lemma typed_named v a b : chars (custom_text v) -> named a -> set_typed v a = Ok b -> named b.
Proof.
  intros V N H. pose proof H as H0. unfold set_typed in H0. destruct (set_value (custom_text v) a) as [m| | |] eqn:SV; cbn [bind] in H0; try discriminate. pose proof (set_value_named _ _ _ V N SV) as Nm.
  destruct (typed_inv v a b H) as (nm & ats & kids & ats' & -> & -> & _ & _ & I). destruct m as [nm2 ats2 ks2| |]; cbn [set_attribute] in H0; try discriminate. apply named_elem in N. destruct N as (N1 & N2 & N3). apply named_elem in Nm. destruct Nm as (M1 & M2 & M3).
  apply named_elem. split; [exact N1|]. split.
  - apply Forall_forall. intros x X. rewrite Forall_forall in N2. destruct (I x X) as [Y| ->]; [now apply N2|]. split; [apply wordb_name; reflexivity|apply type_chars].
  - assert (E : match find_index is_text kids with Some i => upd kids i (Text (custom_text v)) | None => kids ++ [Text (custom_text v)] end = ks2) by congruence. rewrite E. exact M3.
Qed.
Lemma typed_tidy v a b : tidy a -> set_typed v a = Ok b -> tidy b.
Proof.
  intros T H. unfold set_typed in H. destruct (set_value (custom_text v) a) as [m| | |] eqn:SV; cbn [bind] in H; try discriminate. pose proof (set_value_keeps_tidy _ _ _ T SV) as Tm. destruct m as [nm ats ks| |]; cbn [set_attribute] in H; try discriminate.
  injection H as <-. apply tidy_elem in Tm. now apply tidy_elem.
Qed.
Lemma at_key_named key v a b : custom_key key -> chars (custom_text v) -> named a -> at_key key v a = Ok b -> named b.
Proof.
  intros K V N H. apply (put_named (set_typed v) [(key, [])]) with (n := a); auto; [intros; now apply (typed_named v a0)|]. constructor; [|constructor]. split; [now apply key_facts|constructor].
Qed.
Lemma at_key_tidy key v a b : tidy a -> at_key key v a = Ok b -> tidy b.
Proof.
  intros T H. unfold at_key in H. apply put_inv in H. destruct H as (nm & at_ & kids & x & c & c' & y & -> & -> & A & P & Y). cbn [put] in P. apply tidy_elem in T. destruct T as (T1 & T2). apply tidy_elem.
  assert (E' : is_element c') by (destruct (typed_inv v c c' P) as (? & ? & ? & ? & _ & -> & _); exact I). destruct Y as [[-> M]|(-> & -> & ->)].
  - apply matches_is_elem in M. apply Forall_app in T2. destruct T2 as (T2 & T3). inversion T3; subst. split; [now apply (tidy_kids_swap x c)|]. apply Forall_app. split; [exact T2|]. constructor; [now apply (typed_tidy v c)|assumption].
  - split; [now apply tidy_kids_more|]. apply Forall_app. split; [exact T2|]. constructor; [|constructor]. apply (typed_tidy v (Elem key [] [])); [apply tidy_new|exact P].
Qed.
Lemma keys_decent : decent KEYS.
Proof. apply decentb_ok. reflexivity. Qed.
(** what follows another name is not touched *)
Lemma at_key_other key v a b k rest : k <> key -> at_key key v a = Ok b -> follow ((k, []) :: rest) b = follow ((k, []) :: rest) a.
Proof.
  intros N H. unfold at_key in H. apply put_inv in H. destruct H as (nm & at_ & kids & x & c & c' & y & -> & -> & A & P & Y). cbn [put] in P. cbn [follow kids_of].
  assert (NM : forall e, matches key [] e = true -> matches k [] e = false) by (intros e; apply (names_differ key k); destruct (str_eqb key k) eqn:E; [apply str_eqb_eq in E; congruence|reflexivity]).
  destruct (typed_inv v c c' P) as (nm1 & ats1 & kids1 & ats2 & -> & -> & _).
  assert (F : find (matches k []) (x ++ Elem nm1 ats2 (match find_index is_text kids1 with Some i => upd kids1 i (Text (custom_text v)) | None => kids1 ++ [Text (custom_text v)] end) :: y) = find (matches k []) kids); [|now rewrite F].
  assert (Z1 : forall l (p : xml -> bool) e1 r1, p e1 = false -> find p (l ++ e1 :: r1) = find p (l ++ r1)).
  { intros l p e1 r1 He. induction l as [|z l IH]; cbn [app find]; [now rewrite He|]. destruct (p z); [reflexivity|exact IH]. }
  destruct Y as [[-> M]|(-> & E & ->)].
  - rewrite !Z1; [reflexivity| |]; apply NM; [exact M|]. cbn [matches forallb] in *. rewrite andb_true_r in *. exact M.
  - rewrite Z1; [now rewrite app_nil_r|]. apply NM. injection E as -> _ _. cbn [matches forallb]. now rewrite str_eqb_refl.
Qed.
Lemma at_key_same key v a b : custom_key key -> tidy a -> at_key key v a = Ok b -> exists c, follow [(key, [])] b = Some c /\ is_element c /\ kids_of c = [Text (custom_text v)] /\ try_get_attribute (txt "Type") c = Some (custom_type v).
Proof.
  intros K T H. unfold at_key in H. apply put_inv in H. destruct H as (nm & at_ & kids & x & c & c' & y & -> & -> & A & P & Y). cbn [put] in P.
  destruct (typed_inv v c c' P) as (nm1 & ats1 & kids1 & ats2 & -> & -> & E & At & _). cbn [follow kids_of]. rewrite find_skip by exact A. cbn [find].
  assert (M : matches key [] (Elem nm1 ats1 kids1) = true) by (destruct Y as [[_ M]|(_ & -> & _)]; [exact M|cbn [matches forallb]; now rewrite str_eqb_refl]).
  eexists. cbn [matches forallb] in *. rewrite M. split; [reflexivity|]. split; [exact I|]. split; [|exact At]. cbn [kids_of].
  assert (TK : tidy_kids kids1).
  { destruct Y as [[-> _]|(_ & [= -> -> ->] & _)]; [|split; [intros s []|cbn; lia]]. apply tidy_elem in T. destruct T as (_ & T). apply Forall_app in T. destruct T as (_ & T). inversion T as [|? ? T1 _]; subst. now apply tidy_elem in T1. }
  apply (set_value_tidy (custom_text v) (Elem nm1 ats1 kids1) (Elem nm1 ats1 _) TK). cbn [set_value]. now rewrite E.
Qed.
Lemma custom_chars v : proper_custom v -> chars (custom_text v).
Proof.
  destruct v as [s|b|i|x|x]; cbn [proper_custom custom_text]; intros H; [exact H| |apply dec_chars|apply solid_chars, print_g_solid..]. destruct b; now apply (wordb_name (txt _)).
Qed.
Lemma custom_node v n : proper_custom v -> text n = stored (custom_text v) -> custom_read v n.
Proof.
  intros P E. destruct v as [s|b|i|x|x]; cbn [custom_read proper_custom custom_text] in *.
  - exact E.
  - unfold as_truth. rewrite E. destruct b; reflexivity.
  - rewrite E, stored_solid by apply dec_solid. now apply read_dec.
  - rewrite E, stored_solid by apply print_g_solid. destruct P as [(s & ->)|(F & M)]; [left; exists s; split; [reflexivity|]; destruct s; reflexivity|].
    destruct (write_read x F M) as (y & W & Fy & A & _). fold (dbl_text x). rewrite W. right. now split.
  - unfold as_float. rewrite E, stored_solid by apply print_g_solid. destruct (flt_write_read x P) as (y & -> & C & _). exact C.
Qed.
Theorem custom_stored ind key v doc doc' : buildable doc -> proper_custom v -> on_root (set_custom key v) doc = Ok doc' ->
  custom_key key /\ exists d d', load (builder_get_xml ind doc) = Ok d /\ load (builder_get_xml ind doc') = Ok d' /\ buildable doc' /\
    (exists n, get_node (CUSTOM_NAMES key) d' = Some n /\ custom_read v n /\ try_get_attribute (txt "Type") n = Some (type_name v)) /\
    forall names, diverge names (CUSTOM_NAMES key) -> get_node names d' = get_node names d.
Proof.
  intros B V H. assert (K : custom_key key).
  { apply valid_key_ok. unfold on_root in H. destruct (find_index _ doc); [|discriminate]. unfold set_custom in H. now destruct (valid_key key). }
  split; [exact K|]. pose proof (custom_chars v V) as CV.
  destruct (saved ind doc _ doc' B H) as (r & r' & d & d' & S & P & S' & L & L' & F & F' & B').
  { intros a a' Sa Pa. rewrite set_custom_put in Pa by (try exact K; apply Sa).
    split; [exact (put_sound_gen _ _ _ _ (at_key_steady key v) (fun x y => at_key_named key v x y K CV) (at_key_tidy key v) Sa keys_decent Pa)|exact (put_kind _ _ _ _ (at_key_steady key v) Pa)]. }
  rewrite set_custom_put in P by (try exact K; apply S). exists d, d'. split; [exact L|]. split; [exact L'|]. split; [exact B'|].
  destruct (put_same _ _ (at_key_steady key v) (proj1 keys_decent) r r' P) as (c & c' & F1 & F2 & F3).
  assert (Tc : at_key key v c = Ok c' -> exists c0, at_key key v c0 = Ok c' /\ tidy c0 /\ kids_of c0 = kids_of c).
  { intros _. destruct F3 as [F3|(_ & _ & E)]; [exists c; split; [exact F2|]; split; [apply (follow_tidy KEYS r); [apply S|exact F3]|reflexivity]|]. exists c. split; [exact F2|]. split; [|reflexivity]. destruct c as [nm ats ks| |]; [cbn [kids_of] in E; subst ks; apply tidy_new|cbn in F2; discriminate..]. }
  destruct (Tc F2) as (c0 & F4 & T0 & _). split.
  - destruct (at_key_same key v c0 c' K T0 F4) as (n & G1 & G2 & G3 & G4). exists (settle n). split; [|split].
    + rewrite (get_node_follow _ _ _ F'). change (plainly (CUSTOM_NAMES key)) with (KEYS ++ [(key, [])]). rewrite follow_settle by apply S'. rewrite follow_app, F1, G1. reflexivity.
    + apply custom_node; [exact V|]. now apply text_settle.
    + rewrite settle_attribute. rewrite G4. destruct v; reflexivity.
  - intros names D. rewrite (get_node_follow _ _ _ F'), (get_node_follow _ _ _ F). rewrite !follow_settle by (try apply S'; apply S). f_equal.
    destruct D as (p & x & y & a' & b' & -> & E & N). destruct b' as [|z b'].
    + assert (E2 : p = [txt "Metadata"; txt "Information"; txt "CustomAttributes"; txt "KeyValue"] /\ y = key) by (apply app_inj_tail; rewrite <- E; reflexivity). destruct E2 as (-> & ->).
      assert (PL : plainly ([txt "Metadata"; txt "Information"; txt "CustomAttributes"; txt "KeyValue"] ++ x :: a') = KEYS ++ (x, []) :: plainly a') by reflexivity. rewrite PL, !follow_app, F1. rewrite (at_key_other key v c c' x (plainly a') N F2).
      destruct F3 as [->|(-> & _ & E3)]; [reflexivity|]. cbn [follow]. now rewrite E3.
    + assert (SP : separate KEYS (plainly (p ++ x :: a'))).
      { apply diverge_separate. assert (LB : exists q b2, z :: b' = b2 ++ [q]) by (destruct (exists_last (l := z :: b')) as (b2 & q & ->); [discriminate|eauto]). destruct LB as (q & b2 & LB). rewrite LB in E.
        assert (E2 : [txt "Metadata"; txt "Information"; txt "CustomAttributes"; txt "KeyValue"] = p ++ y :: b2 /\ key = q) by (apply app_inj_tail; rewrite <- app_assoc; exact E).
        exists p, x, y, a', b2. split; [reflexivity|]. split; [apply E2|exact N]. }
      apply (put_other _ _ (at_key_steady key v) (proj1 keys_decent) _ r r' SP P).
Qed.
Theorem custom_total key v doc : Forall is_element doc -> (exists r, find (matches ROOT []) doc = Some r) ->
  (custom_key key -> (forall n, get_node (CUSTOM_NAMES key) doc = Some n -> existsb is_elem (kids_of n) = false) -> exists doc', on_root (set_custom key v) doc = Ok doc') /\
  (~ custom_key key -> on_root (set_custom key v) doc = Throw).
Proof.
  intros E (r & F). pose proof F as FR. unfold on_root. rewrite find_find_index2 in F. destruct (find_index (matches ROOT []) doc) as [i|] eqn:FI; [|discriminate]. injection F as F. rewrite F.
  assert (Er : is_element r). { rewrite <- F. destruct (find_find_index _ _ _ FI) as (_ & Li). rewrite Forall_forall in E. apply E. now apply nth_In. } split.
  - intros K H. rewrite set_custom_put by assumption. unfold at_key. rewrite <- put_app.
    destruct (put_total (set_typed v) (KEYS ++ [(key, [])]) r Er) as (r' & ->); [| |eexists; reflexivity].
    + intros c Fc. pose proof (follow_element _ r c Er Fc) as X. rewrite (get_node_follow _ _ _ FR) in H. change (plainly (CUSTOM_NAMES key)) with (KEYS ++ [(key, [])]) in H. specialize (H c Fc). destruct c as [nm ats ks| |]; try easy. unfold set_typed. cbn [set_value kids_of] in *. rewrite H. cbn [bind set_attribute]. eexists. reflexivity.
    + intros nm ats. eexists. reflexivity.
  - intros K. unfold set_custom. destruct (valid_key key) eqn:V; [|reflexivity]. exfalso. apply K. now apply valid_key_ok.
Qed.
