(** Lemmas: display settings in a document. *)
From Coq Require Import String QArith Qabs Floats.SpecFloat.
From Verif Require Import Base TextModel TextSpec TextProofs XmlModel XmlSpec XmlProofs XmlValues XmlPaths PugiModel PugiSpec PugiProofs PugiTree PugiRound PugiBuild.
From Verif Require Import CodesModel NumModel DocModel DocSpec DocTree DocInt DocProofs DocScale DocDims DocChan DispModel DispSpec DispNum DispPoints DispChan.
Open Scope Z_scope.

Definition DISPLAY : list spec := plainly DISPLAY_NAMES.
(** ** several changes of a node *)
Lemma change_comp f g h : forall t t1, change_at h f t = Ok t1 -> change_at h g t1 = change_at h (fun n => let* m := f n in g m) t.
Proof.
  induction h as [|i h IH]; intros t t1 H; cbn [change_at] in *; [now rewrite H|]. destruct t as [nm ats ks| |]; try discriminate.
  destruct (nth_error ks i) as [c|] eqn:N; [|discriminate]. destruct (change_at h f c) as [c1| | |] eqn:E; cbn [bind] in H; try discriminate.
  assert (X : forall a b : xml, Ok a = Ok b -> a = b) by congruence. apply X in H. rewrite <- H. rewrite (nth_error_upd ks i c1) by (apply nth_error_Some; congruence). rewrite (IH c c1 E).
  destruct (change_at h (fun n => let* m := f n in g m) c); cbn [bind]; try reflexivity. now rewrite upd_upd.
Qed.
Lemma change_ext f g h : (forall n, f n = g n) -> forall t, change_at h f t = change_at h g t.
Proof.
  intros H. induction h as [|i h IH]; intros t; cbn [change_at]; [apply H|]. destruct t as [nm ats ks| |]; try reflexivity. destruct (nth_error ks i); [|reflexivity]. now rewrite IH.
Qed.
Lemma change_ok f g h : (forall n m, f n = Ok m -> exists m', g n = Ok m') -> forall t t1, change_at h f t = Ok t1 -> exists t2, change_at h g t = Ok t2.
Proof.
  intros H. induction h as [|i h IH]; intros t t1; cbn [change_at]; [apply H|]. destruct t as [nm ats ks| |]; try discriminate. destruct (nth_error ks i) as [c|]; [|discriminate].
  destruct (change_at h f c) as [c1| | |] eqn:E; cbn [bind]; try discriminate. destruct (IH c c1 E) as (c2 & ->). intros _. eexists. reflexivity.
Qed.
(** ** the node of the channels *)
Definition other_kids (ks : list xml) : list xml := filter (fun k => negb (matches (txt "Channel") [] k)) ks.
Definition replace (nodes : list xml) (n : xml) : res xml :=
  match n with Elem nm ats ks => Ok (Elem nm ats (other_kids ks ++ nodes)) | _ => UB end.
Definition dims_of (t : xml) : list xml := filter (matches (txt "Channel") []) (kids_at CHANNELS t).
Definition attribute_of (k : string) (o : option xml) : list (str * str) := match filled_attribute (txt k) o with Some v => [(txt k, v)] | None => [] end.
Definition display_node (ds : settings) (types : list (Z * pixel_type)) (l : list xml) (c : Z) : xml :=
  match setting_of ds c with
  | None => Elem (txt "Channel") [] []
  | Some s => let o := nth_error l (Z.to_nat c) in Elem (txt "Channel") (attribute_of "Id" o ++ attribute_of "Name" o) (map field (fields s (type_text types c)))
  end.
(** ** the channel of the dimensions *)
Lemma find_nth_filter p l : forall i, 0 <= i -> match find_nth p i l with Some j => nth_error (filter p l) (Z.to_nat i) = Some (nth j l dummy) /\ nth_error l j = Some (nth j l dummy) | None => nth_error (filter p l) (Z.to_nat i) = None end.
Proof.
  induction l as [|a l IH]; intros i H; cbn [find_nth filter]; [now destruct (Z.to_nat i)|]. destruct (p a) eqn:P.
  - destruct (Z.eqb_spec i 0) as [->|N]; [split; reflexivity|]. specialize (IH (i - 1) ltac:(lia)). replace (Z.to_nat i) with (S (Z.to_nat (i - 1))) by lia. cbn [nth_error].
    destruct (find_nth p (i - 1) l) as [j|]; cbn [nth nth_error]; exact IH.
  - specialize (IH i H). destruct (find_nth p i l) as [j|]; cbn [nth nth_error]; exact IH.
Qed.
Lemma find_find_index2 (p : xml -> bool) l : find p l = match find_index p l with Some i => Some (nth i l dummy) | None => None end.
Proof.
  induction l as [|a l IH]; cbn [find find_index]; [reflexivity|]. destruct (p a); [reflexivity|]. rewrite IH. destruct (find_index p l); reflexivity.
Qed.
Lemma find_index_nth (p : xml -> bool) l i : find_index p l = Some i -> nth_error l i = Some (nth i l dummy).
Proof. intros H. destruct (find_index_some _ _ _ H) as (c & H1 & _). rewrite H1. now rewrite (nth_error_nth _ _ dummy H1). Qed.
Definition seek (toks : list str) (n : xml) : res (option xml) := let* o := find_path toks n in Ok (match o with Some h => node_at h n | None => None end).
Lemma seek_plain names last : Forall (fun k => parse_step k = Some (k, None)) names -> forall n, seek (names ++ last) n = match follow (plainly names) n with Some c => seek last c | None => Ok None end.
Proof.
  induction 1 as [|k names P _ IH]; intros n; [reflexivity|]. cbn [app plainly map follow]. unfold seek in *. cbn [find_path]. unfold find_step. rewrite P. cbn [bind]. rewrite find_find_index2.
  destruct (find_index (matches k []) (kids_of n)) as [i|] eqn:F; [|reflexivity]. fold (plainly names). rewrite <- IH. destruct (find_path (names ++ last) (nth i (kids_of n) dummy)) as [[h|]| | |]; cbn [bind]; try reflexivity.
  cbn [node_at]. now rewrite (find_index_nth _ _ _ F).
Qed.
Lemma dim_path c : 0 <= c <= UINT_MAX -> path_tokens (image ++ txt "Dimensions/Channels/Channel[" ++ dec c ++ txt "]") = Ok (DIM_NAMES ++ [txt "Channel" ++ [91] ++ dec c ++ [93]]).
Proof.
  intros H. destruct (dec_small c H) as (N & D & _).
  assert (E : image ++ txt "Dimensions/Channels/Channel[" ++ dec c ++ txt "]" = join 47 (DIM_NAMES ++ [txt "Channel" ++ [91] ++ dec c ++ [93]])) by reflexivity.
  rewrite E. unfold path_tokens. rewrite tokens_join; [reflexivity|reflexivity|discriminate|].
  intros s x I X. apply in_app_iff in I. destruct I as [I|[<-|[]]].
  - revert s x I X. assert (G : forallb (fun s => forallb (fun x => negb (x =? 47)) s) DIM_NAMES = true) by reflexivity. intros s x I X. rewrite forallb_forall in G. specialize (G s I). rewrite forallb_forall in G. specialize (G x X). lia.
  - rewrite !in_app_iff in X. destruct X as [X|[X|[X|X]]]; [cbn in X; lia|cbn in X; lia| |cbn in X; lia]. specialize (D x X). unfold is_digit in D. lia.
Qed.
Lemma last_step c n : 0 <= c <= UINT_MAX -> seek [txt "Channel" ++ [91] ++ dec c ++ [93]] n = Ok (nth_error (filter (matches (txt "Channel") []) (kids_of n)) (Z.to_nat c)).
Proof.
  intros H. destruct (dec_small c H) as (N & D & V). unfold seek. cbn [find_path]. unfold find_step. rewrite parse_step_spec; [|discriminate|intros x X; cbn in X; cbn; lia|].
  2: { intros x X. specialize (D x X). unfold is_digit in D. unfold no_bracket. lia. }
  assert (IX : index_spec (dec c) = Some c).
  { unfold index_spec. assert (S1 : span is_space (dec c) = ([], dec c)).
    { apply span_stop. destruct (dec c) as [|x l]; [exact I|]. cbn. specialize (D x (or_introl eq_refl)). unfold is_digit in D. unfold is_space. lia. }
    rewrite S1. cbn [snd]. assert (S2 : span is_digit (dec c) = (dec c, [])) by (rewrite <- (app_nil_r (dec c)) at 1; apply span_app; [now apply Forall_forall|exact I]).
    rewrite S2. destruct (dec c); [easy|]. cbn [span snd]. now rewrite V. }
  rewrite IX. destruct (UINT_MAX <? c) eqn:U; [lia|]. cbn [bind]. pose proof (find_nth_filter (matches (txt "Channel") []) (kids_of n) c ltac:(lia)) as F.
  destruct (find_nth _ c (kids_of n)) as [j|]; cbn [bind]; [|now rewrite F]. destruct F as (F1 & F2). cbn [node_at]. now rewrite F2, F1.
Qed.
Lemma dim_channel_nth c t : 0 <= c <= UINT_MAX -> dim_channel c t = Ok (nth_error (dims_of t) (Z.to_nat c)).
Proof.
  intros H. unfold dim_channel, get_child_node. rewrite dim_path by exact H. cbn [bind]. fold (seek (DIM_NAMES ++ [txt "Channel" ++ [91] ++ dec c ++ [93]]) t).
  rewrite seek_plain by (repeat (apply Forall_cons; [reflexivity|]); apply Forall_nil). change (plainly DIM_NAMES) with CHANNELS. unfold dims_of, kids_at.
  destruct (follow CHANNELS t) as [n|]; [now apply last_step|]. now destruct (Z.to_nat c).
Qed.
Lemma display_channel_node ds types c t : 0 <= c <= UINT_MAX -> display_channel ds types c t = Ok (display_node ds types (dims_of t) c).
Proof.
  intros H. unfold display_channel, display_node. destruct (setting_of ds c) as [s|]; [|reflexivity]. unfold id_and_name. rewrite dim_channel_nth by exact H. cbn [bind fst snd].
  set (o := nth_error (dims_of t) (Z.to_nat c)). clearbody o. unfold attribute_of, filled_attribute.
  destruct o as [n|]; [|cbn [attribute_if bind app]; apply write_channel_ok].
  destruct (try_get_attribute (txt "Id") n) as [[|x id]|]; cbn [attribute_if bind app]; destruct (try_get_attribute (txt "Name") n) as [[|y nm]|]; cbn [attribute_if bind app]; apply write_channel_ok.
Qed.
(** ** the document *)
Lemma display_separate : separate DISPLAY CHANNELS.
Proof. cbn [DISPLAY CHANNELS plainly map app IMAGE separate DISPLAY_NAMES]. right. left. apply names_differ. reflexivity. Qed.
Lemma replace_steady nodes : steady (replace nodes).
Proof. intros a b H. destruct a; cbn [replace] in H; try discriminate. injection H as <-. reflexivity. Qed.
Lemma display_decent : decent DISPLAY.
Proof. apply decentb_ok. reflexivity. Qed.
Lemma dims_same nodes t t1 : put (replace nodes) DISPLAY t = Ok t1 -> dims_of t1 = dims_of t.
Proof.
  intros H. unfold dims_of, kids_at. destruct (put_other _ DISPLAY (replace_steady nodes) (proj1 display_decent) CHANNELS t t1 display_separate H) as (-> & _). reflexivity.
Qed.
Lemma upto_range count c : in_i32 count -> In c (upto count) -> 0 <= c <= UINT_MAX.
Proof. intros H I. unfold upto in I. apply in_map_iff in I. destruct I as (k & <- & I). apply in_seq in I. unfold in_i32, INT_MIN, INT_MAX, UINT_MAX in *. lia. Qed.
Lemma replace_append nodes n m : replace nodes n = Ok m -> exists m', append_node (Elem [] [] []) m = Ok m'.
Proof. destruct n; cbn [replace]; try discriminate. intros [= <-]. eexists. reflexivity. Qed.
Theorem write_display_put ds types count t : is_element t -> in_i32 count ->
  write_display_count ds types count t = put (replace (map (display_node ds types (dims_of t)) (upto count))) DISPLAY t.
Proof.
  intros E C. unfold write_display_count, get_or_create.
  assert (PT : path_tokens (txt "Metadata/DisplaySetting/Channels") = Ok DISPLAY_NAMES) by reflexivity. rewrite PT.
  assert (CS : Forall2 (fun k st => create_spec k = Ok st) DISPLAY_NAMES DISPLAY) by (repeat (apply Forall2_cons; [reflexivity|]); apply Forall2_nil).
  pose proof (fun f => create_put f DISPLAY_NAMES DISPLAY t CS E) as CP. destruct (create_path DISPLAY_NAMES t) as [t' [h| | |]]; [|apply CP..].
  assert (RC : change_at h remove_channels t' = change_at h (replace []) t') by (apply change_ext; intros [nm ats ks| |]; cbn [remove_channels replace]; [now rewrite app_nil_r|reflexivity..]).
  rewrite RC. clear RC.
  assert (G : forall cs done t1, (forall c, In c cs -> 0 <= c <= UINT_MAX) -> change_at h (replace done) t' = Ok t1 ->
    display_channels h ds types cs t1 = change_at h (replace (done ++ map (display_node ds types (dims_of t)) cs)) t').
  { induction cs as [|c cs IH]; intros done t1 R H; cbn [display_channels map]; [now rewrite app_nil_r|]. rewrite display_channel_node by (apply R; now left). cbn [bind].
    rewrite CP in H. rewrite (dims_same _ _ _ H). rewrite <- CP in H. set (n := display_node ds types (dims_of t) c).
    rewrite (change_comp _ (append_node n) h t' t1 H). rewrite (change_ext _ (replace (done ++ [n])) h) by (intros [nm ats ks| |]; cbn [replace append_node bind]; [now rewrite app_assoc|reflexivity..]).
    destruct (change_ok (replace done) (replace (done ++ [n])) h) with (t := t') (t1 := t1) as (t2 & H2); [intros [nm ats ks| |] m; cbn [replace]; try discriminate; eauto|exact H|]. rewrite H2. cbn [bind].
    rewrite (IH (done ++ [n]) t2); [|intros d I; apply R; now right|exact H2]. now rewrite <- app_assoc. }
  destruct (put_total (replace []) DISPLAY t E) as (t1 & P); [intros c F; pose proof (follow_element DISPLAY t c E F) as X; destruct c; try easy; eexists; reflexivity|intros nm ats; eexists; reflexivity|].
  rewrite <- CP in P. rewrite P. cbn [bind]. rewrite (G (upto count) [] t1 (fun c => upto_range count c C) P). apply CP.
Qed.
(** ** the new nodes *)
Lemma follow_named sts : forall n c, named n -> follow sts n = Some c -> named c.
Proof.
  induction sts as [|[k ats] sts IH]; intros n c N H; [now injection H as <-|]. cbn [follow] in H. destruct (find (matches k ats) (kids_of n)) as [x|] eqn:F; [|discriminate]. apply (IH x c); [|exact H].
  apply find_some in F. destruct F as (F & _). destruct n as [nm at_ ks| |]; [|destruct F..]. apply named_elem in N. destruct N as (_ & _ & N). rewrite Forall_forall in N. now apply N.
Qed.
Lemma attr_of_In ats k v : attr_of ats k = Some v -> In (k, v) ats.
Proof. induction ats as [|[k0 v0] ats IH]; cbn [attr_of]; [discriminate|]. destruct (str_eqb k0 k) eqn:E; [intros [= <-]; apply str_eqb_eq in E; subst; now left|right; auto]. Qed.
Lemma dims_named t n k v : named t -> In n (dims_of t) -> try_get_attribute k n = Some v -> chars v.
Proof.
  intros N I A. unfold dims_of, kids_at in I. apply filter_In in I. destruct I as (I & _). destruct (follow CHANNELS t) as [c|] eqn:F; [|easy]. pose proof (follow_named _ _ _ N F) as Nc.
  destruct c as [nm ats ks| |]; [|easy..]. cbn [kids_of] in I. apply named_elem in Nc. destruct Nc as (_ & _ & Nc). rewrite Forall_forall in Nc. specialize (Nc n I).
  destruct n as [nm2 ats2 ks2| |]; try discriminate. cbn [try_get_attribute] in A. apply named_elem in Nc. destruct Nc as (_ & Nc & _). rewrite Forall_forall in Nc. apply attr_of_In in A. apply (Nc _ A).
Qed.
Lemma nopts_chars s : nopts s -> chars s.
Proof. apply Forall_impl. intros. cbv beta in *. lia. Qed.
Lemma fields_good s pixel : chars pixel -> Forall (fun a => proper_name (txt (fst a)) /\ chars (snd a)) (fields s pixel).
Proof.
  intros P. assert (F : forall x, chars (flt_text x)) by (intros x; apply solid_chars, print_g_solid). assert (W : forall a, wordb (txt a) = true -> chars (txt a)) by (intros a H; now apply (wordb_name (txt a))).
  unfold fields. apply Forall_app. split; [|apply Forall_app; split; [|apply Forall_app; split]].
  - constructor; [|constructor]. cbn [fst snd]. split; [now apply wordb_name|]. destruct (s_enabled s); now apply W.
  - destruct (s_tint s) as [c|].
    + constructor; [split; [now apply wordb_name|apply nopts_chars, color_nopts]|]. constructor; [|constructor]. split; [now apply wordb_name|now apply W].
    + constructor; [split; [now apply wordb_name|now apply W]|]. destruct pixel; [constructor|]. constructor; [|constructor]. split; [now apply wordb_name|exact P].
  - constructor; [split; [now apply wordb_name|apply F]|]. constructor; [|constructor]. split; [now apply wordb_name|apply F].
  - destruct (s_curve s) as [|g|pts]; [constructor|constructor; [split; [now apply wordb_name|apply F]|constructor]|]. constructor; [split; [now apply wordb_name|apply nopts_chars, points_chars]|].
    constructor; [|constructor]. split; [now apply wordb_name|now apply W].
Qed.
Lemma type_text_chars types c : chars (type_text types c).
Proof. unfold type_text. destruct (find _ types) as [e|]; [|constructor]. destruct (pixel_word (snd e)) eqn:W; [|constructor]. apply solid_chars. now apply pixel_word_solid in W. Qed.
Lemma attribute_named t k o n : named t -> wordb (txt k) = true -> (o = Some n -> In n (dims_of t)) -> o = Some n \/ o = None -> Forall attr_named (attribute_of k o).
Proof.
  intros N W I [->| ->]; [|constructor]. unfold attribute_of, filled_attribute. destruct (try_get_attribute (txt k) n) as [[|c v]|] eqn:A; try constructor; [|constructor]. split; [now apply wordb_name|]. cbn [snd].
  now apply (dims_named t n (txt k) _ N (I eq_refl)).
Qed.
Lemma node_good ds types t c : named t -> let n := display_node ds types (dims_of t) c in is_element n /\ named n /\ tidy n /\ matches (txt "Channel") [] n = true.
Proof.
  intros N n. subst n. unfold display_node. destruct (setting_of ds c) as [s|].
  2: { split; [exact I|]. split; [apply named_elem; split; [now apply wordb_name|split; constructor]|]. split; [apply tidy_new|reflexivity]. }
  cbv zeta. set (o := nth_error (dims_of t) (Z.to_nat c)). assert (O : forall n, o = Some n -> In n (dims_of t)) by (intros n H; now apply nth_error_In in H).
  assert (A : forall k, wordb (txt k) = true -> Forall attr_named (attribute_of k o)).
  { intros k W. destruct o as [n|]; [apply (attribute_named t k (Some n) n N W (O n)); now left|constructor]. }
  pose proof (fields_good s (type_text types c) (type_text_chars types c)) as FG. split; [exact I|]. split; [|split; [|reflexivity]].
  - apply named_elem. split; [now apply wordb_name|]. split; [apply Forall_app; split; now apply A|]. apply Forall_map. eapply Forall_impl; [|exact FG]. intros [k v] (H1 & H2). apply named_elem. split; [exact H1|]. split; [constructor|]. constructor; [exact H2|constructor].
  - apply tidy_elem. split.
    + split; [intros x X; apply in_map_iff in X; destruct X as (a & X & _); discriminate X|]. replace (filter is_text (map field (fields s (type_text types c)))) with (@nil xml); [cbn; lia|].
      generalize (fields s (type_text types c)). induction l as [|a l IH]; [reflexivity|]. exact IH.
    + apply Forall_map. apply Forall_forall. intros a _. apply tidy_elem. split; [|constructor; [|constructor]]; [split; [intros x [X|[]]; discriminate X|cbn; lia]|]. intros [|i h] n H; cbn [node_at kids_of] in H; [injection H as <-; split; [intros x []|cbn; lia]|]. destruct i; discriminate.
Qed.
Lemma tidy_kids_filter p ks : tidy_kids ks -> tidy_kids (filter p ks).
Proof.
  intros (H1 & H2). split; [intros s I; apply filter_In in I; now apply (H1 s)|]. eapply Nat.le_trans; [|exact H2]. clear. induction ks as [|k ks IH]; [apply Nat.le_refl|]. cbn [filter].
  destruct (p k); cbn [filter]; destruct (is_text k); cbn [length]; lia.
Qed.
Lemma replace_sound nodes : Forall (fun n => is_element n /\ named n /\ tidy n) nodes -> (forall a b, named a -> replace nodes a = Ok b -> named b) /\ (forall a b, tidy a -> replace nodes a = Ok b -> tidy b).
Proof.
  intros H. split; intros a b N E; destruct a as [nm ats ks| |]; cbn [replace] in E; try discriminate; injection E as <-.
  - apply named_elem in N. destruct N as (N1 & N2 & N3). apply named_elem. split; [exact N1|]. split; [exact N2|]. apply Forall_app. split; [apply Forall_forall; intros x X; apply filter_In in X; rewrite Forall_forall in N3; now apply N3|].
    eapply Forall_impl; [|exact H]. now intros x (_ & X & _).
  - apply tidy_elem in N. destruct N as (N1 & N2). apply tidy_elem. split.
    + assert (G : forall l l0, tidy_kids l0 -> Forall (fun n => is_element n /\ named n /\ tidy n) l -> tidy_kids (l0 ++ l)).
      { induction l as [|x l IH]; intros l0 T F; [now rewrite app_nil_r|]. inversion F as [|? ? (F1 & _) F2]; subst. change (x :: l) with ([x] ++ l). rewrite app_assoc. apply IH; [now apply tidy_kids_more|exact F2]. }
      apply G; [now apply tidy_kids_filter|exact H].
    + apply Forall_app. split; [apply Forall_forall; intros x X; apply filter_In in X; rewrite Forall_forall in N2; now apply N2|]. eapply Forall_impl; [|exact H]. now intros x (_ & _ & X).
Qed.
Lemma diverge_separate a b : diverge a b -> separate (plainly b) (plainly a).
Proof.
  intros (p & x & y & a' & b' & -> & -> & N). induction p as [|z p IH]; cbn [app plainly map separate]; [left|right; exact IH]. apply names_differ. destruct (str_eqb y x) eqn:E; [|reflexivity]. apply str_eqb_eq in E. congruence.
Qed.
Lemma get_node_follow names d r : find (matches ROOT []) d = Some r -> get_node names d = follow (plainly names) r.
Proof. intros H. unfold get_node. rewrite H. apply descend_follow. Qed.
Lemma settings_read ds types l cs : (forall c s, setting_of ds c = Some s -> readable s) ->
  get_settings (map settle (map (display_node ds types l) cs)) = Ok (map (fun c => match setting_of ds c with Some s => reread s | None => plain_setting end) cs).
Proof.
  intros H. induction cs as [|c cs IH]; [reflexivity|]. cbn [map get_settings]. rewrite IH. unfold display_node at 1. destruct (setting_of ds c) as [s|] eqn:E; [cbv zeta; rewrite channel_reread by now apply (H c)|rewrite empty_reread]; reflexivity.
Qed.
Lemma attribute_read ds types l c k : k = "Id"%string \/ k = "Name"%string -> try_get_attribute (txt k) (settle (display_node ds types l c)) =
  match setting_of ds c with Some _ => filled_attribute (txt k) (nth_error l (Z.to_nat c)) | None => None end.
Proof.
  intros K. unfold display_node. destruct (setting_of ds c) as [s|]; [|destruct K as [->| ->]; reflexivity]. cbv zeta. rewrite settle_elem. cbn [try_get_attribute]. unfold attribute_of.
  destruct (nth_error l (Z.to_nat c)) as [n|]; [|destruct K as [->| ->]; reflexivity]. cbn [filled_attribute].
  destruct (try_get_attribute (txt "Id") n) as [[|x id]|] eqn:E1; destruct (try_get_attribute (txt "Name") n) as [[|y nm]|] eqn:E2; destruct K as [->| ->]; rewrite ?E1, ?E2; reflexivity.
Qed.
Lemma settle_attribute k n : try_get_attribute k (settle n) = try_get_attribute k n.
Proof. destruct n; reflexivity. Qed.
Lemma filled_settle k l i : filled_attribute k (nth_error (map settle l) i) = filled_attribute k (nth_error l i).
Proof.
  rewrite nth_error_map. destruct (nth_error l i) as [n|]; [|reflexivity]. cbn [option_map filled_attribute]. now rewrite settle_attribute.
Qed.
Theorem display_read ind ds types count doc doc' : buildable doc -> (forall c s, setting_of ds c = Some s -> readable s) -> in_i32 count ->
  on_root (write_display_count ds types count) doc = Ok doc' ->
  exists d d', load (builder_get_xml ind doc) = Ok d /\ load (builder_get_xml ind doc') = Ok d' /\ buildable doc' /\
    get_display d' = Ok (Some (map (fun c => match setting_of ds c with Some s => reread s | None => plain_setting end) (upto count))) /\
    (forall names, diverge names DISPLAY_NAMES -> get_node names d' = get_node names d) /\
    (forall c, In c (upto count) -> exists n, nth_error (channel_nodes DISPLAY_NAMES d') (Z.to_nat c) = Some n /\
       forall k, k = "Id"%string \/ k = "Name"%string -> try_get_attribute (txt k) n =
         match setting_of ds c with Some _ => filled_attribute (txt k) (nth_error (channel_nodes DIM_NAMES d) (Z.to_nat c)) | None => None end).
Proof.
  intros B R C H.
  assert (Snd : forall r, sound r -> Forall (fun n => is_element n /\ named n /\ tidy n) (map (display_node ds types (dims_of r)) (upto count))).
  { intros r (_ & N & _). apply Forall_map, Forall_forall. intros c _. destruct (node_good ds types r c N) as (G1 & G2 & G3 & _). auto. }
  destruct (saved ind doc _ doc' B H) as (r & r' & d & d' & S & P & S' & L & L' & F & F' & B').
  { intros a a' Sa Pa. rewrite write_display_put in Pa by (try exact C; apply Sa). destruct (replace_sound _ (Snd a Sa)) as (Q1 & Q2). split; [exact (put_sound_gen _ _ _ _ (replace_steady _) Q1 Q2 Sa display_decent Pa)|exact (put_kind _ _ _ _ (replace_steady _) Pa)]. }
  rewrite write_display_put in P by (try exact C; apply S). exists d, d'. split; [exact L|]. split; [exact L'|]. split; [exact B'|].
  set (nodes := map (display_node ds types (dims_of r)) (upto count)) in *.
  assert (CN : exists n, get_node DISPLAY_NAMES d' = Some n /\ filter (matches (txt "Channel") []) (kids_of n) = map settle nodes).
  { rewrite (get_node_follow _ _ _ F'). change (plainly DISPLAY_NAMES) with DISPLAY. rewrite follow_settle by apply S'. destruct (put_same _ _ (replace_steady nodes) (proj1 display_decent) r r' P) as (c & c' & F1 & F2 & _). rewrite F1. cbn [option_map].
    exists (settle c'). split; [reflexivity|]. destruct c as [nm ats ks| |]; cbn [replace] in F2; try discriminate. injection F2 as <-. rewrite kids_settle by exact I. cbn [kids_of]. rewrite filter_settles, filter_app.
    assert (E1 : filter (matches (txt "Channel") []) (other_kids ks) = []).
    { unfold other_kids. clear. induction ks as [|k ks IH]; [reflexivity|]. cbn [filter]. destruct (matches (txt "Channel") [] k) eqn:M; cbn [negb filter]; [exact IH|]. now rewrite M. }
    assert (E2 : filter (matches (txt "Channel") []) nodes = nodes).
    { subst nodes. destruct S as (_ & N & _). generalize (upto count) as cs. induction cs as [|c cs IH]; [reflexivity|]. cbn [map filter]. destruct (node_good ds types r c N) as (_ & _ & _ & ->). now rewrite IH. }
    now rewrite E1, E2. }
  destruct CN as (n & Gn & Kn). split; [|split].
  - unfold get_display. fold DISPLAY_NAMES. rewrite Gn, Kn. subst nodes. rewrite settings_read by exact R. reflexivity.
  - intros names D. rewrite (get_node_follow _ _ _ F'), (get_node_follow _ _ _ F). rewrite !follow_settle by (try apply S'; apply S). f_equal. apply (put_other _ _ (replace_steady nodes) (proj1 display_decent) (plainly names) r r' (diverge_separate _ _ D) P).
  - intros c I. assert (NE : nth_error nodes (Z.to_nat c) = Some (display_node ds types (dims_of r) c)).
    { subst nodes. rewrite nth_error_map. unfold upto in *. rewrite nth_error_map. apply in_map_iff in I. destruct I as (k & <- & I). apply in_seq in I. rewrite Nat2Z.id.
      assert (X : nth_error (seq 0 (Z.to_nat count)) k = Some k) by (rewrite nth_error_nth' with (d := O) by (rewrite seq_length; lia); now rewrite seq_nth by lia). rewrite X. reflexivity. }
    exists (settle (display_node ds types (dims_of r) c)). split; [unfold channel_nodes; now rewrite Gn, Kn, nth_error_map, NE|]. intros k K. rewrite attribute_read by exact K. destruct (setting_of ds c); [|reflexivity].
    unfold channel_nodes. rewrite (get_node_follow _ _ _ F). change (plainly DIM_NAMES) with CHANNELS. rewrite follow_settle by apply S. unfold dims_of, kids_at. destruct (follow CHANNELS r) as [m|] eqn:FC; cbn [option_map]; [|now destruct (Z.to_nat c)].
    rewrite kids_settle by (apply (follow_element CHANNELS r m); [apply S|exact FC]). rewrite filter_settles. symmetry. apply filled_settle.
Qed.
(** ** all channels *)
Lemma count_max l : forall m, m <= fold_left (fun m e => if m <? fst e then fst e else m) l m /\
  (forall e : Z * setting, In e l -> fst e <= fold_left (fun m e => if m <? fst e then fst e else m) l m) /\
  (fold_left (fun m e => if m <? fst e then fst e else m) l m = m \/ exists e, In e l /\ fst e = fold_left (fun m e => if m <? fst e then fst e else m) l m).
Proof.
  induction l as [|a l IH]; intros m; cbn [fold_left].
  - split; [lia|]. split; [intros e []|now left].
  - destruct (IH (if m <? fst a then fst a else m)) as (I1 & I2 & I3). set (M := fold_left _ l _) in *. split; [destruct (m <? fst a) eqn:E; lia|]. split.
    + intros e [<-|I]; [destruct (m <? fst a) eqn:E; lia|now apply I2].
    + destruct I3 as [I3|(e & J & I3)]; [|right; exists e; split; [now right|exact I3]]. destruct (m <? fst a) eqn:E; [right; exists a; split; [now left|congruence]|now left].
Qed.
Lemma count_spec ds : 1 <= channel_count ds /\ (forall c s, In (c, s) ds -> c < channel_count ds) /\ (channel_count ds = 1 \/ exists s, In (channel_count ds - 1, s) ds).
Proof.
  unfold channel_count. destruct (count_max ds 0) as (H1 & H2 & H3). set (M := fold_left _ ds 0) in *. split; [lia|]. split; [intros c s I; specialize (H2 _ I); cbn [fst] in H2; lia|].
  destruct H3 as [->|([c s] & I & E)]; [now left|]. right. exists s. cbn [fst] in E. replace (1 + M - 1) with c by lia. exact I.
Qed.
Lemma setting_In ds c s : NoDup (map fst ds) -> In (c, s) ds -> setting_of ds c = Some s.
Proof.
  intros N I. unfold setting_of. induction ds as [|[c0 s0] ds IH]; [easy|]. cbn [map fst] in N. inversion N as [|? ? N1 N2]; subst. cbn [find fst]. destruct I as [[= <- <-]|I].
  - rewrite Z.eqb_refl. reflexivity.
  - destruct (Z.eqb_spec c0 c) as [->|_]; [|now apply IH]. exfalso. apply N1. apply (in_map fst) in I. exact I.
Qed.
Lemma setting_In2 ds c s : setting_of ds c = Some s -> In (c, s) ds.
Proof. unfold setting_of. destruct (find _ ds) as [[c0 s0]|] eqn:F; [|discriminate]. intros [= <-]. apply find_some in F. destruct F as (I & E). cbn [fst] in E. apply Z.eqb_eq in E. subst. exact I. Qed.
Lemma upto_nth count c : 0 <= c < count -> nth_error (upto count) (Z.to_nat c) = Some c.
Proof.
  intros H. unfold upto. rewrite nth_error_map. assert (X : nth_error (seq 0 (Z.to_nat count)) (Z.to_nat c) = Some (Z.to_nat c)) by (rewrite nth_error_nth' with (d := O) by (rewrite seq_length; lia); now rewrite seq_nth by lia).
  rewrite X. cbn [option_map]. f_equal. lia.
Qed.
Lemma upto_length count : length (upto count) = Z.to_nat count.
Proof. unfold upto. now rewrite map_length, seq_length. Qed.
Theorem display_kept ind ds types doc doc' : buildable doc -> NoDup (map fst ds) -> (forall c s, In (c, s) ds -> 0 <= c < INT_MAX /\ proper_setting s) ->
  on_root (write_display ds types) doc = Ok doc' ->
  exists d l, load (builder_get_xml ind doc') = Ok d /\ get_display d = Ok (Some l) /\
    (l <> [] /\ (forall c s, In (c, s) ds -> c < Z.of_nat (length l)) /\ (length l = 1%nat \/ exists s, In (Z.of_nat (length l) - 1, s) ds)) /\
    (forall c s, In (c, s) ds -> exists r, nth_error l (Z.to_nat c) = Some r /\ kept (Some s) r) /\
    (forall c r, 0 <= c -> nth_error l (Z.to_nat c) = Some r -> (forall s, ~ In (c, s) ds) -> kept None r).
Proof.
  intros B N P H. destruct (count_spec ds) as (C1 & C2 & C3).
  assert (C : in_i32 (channel_count ds)).
  { unfold in_i32, INT_MIN. destruct C3 as [C3|(s & I)]; [unfold INT_MAX; lia|]. apply P in I. unfold INT_MAX in *. lia. }
  destruct (display_read ind ds types _ doc doc' B (fun c s E => proper_readable s (proj2 (P c s (setting_In2 ds c s E)))) C H) as (d & d' & _ & L & _ & G & _).
  exists d'. eexists. split; [exact L|]. split; [exact G|]. set (f := fun c => match setting_of ds c with Some s => reread s | None => plain_setting end).
  assert (LL : Z.of_nat (length (map f (upto (channel_count ds)))) = channel_count ds) by (rewrite map_length, upto_length; lia).
  assert (NT : forall c, 0 <= c < channel_count ds -> nth_error (map f (upto (channel_count ds))) (Z.to_nat c) = Some (f c)) by (intros c R; now rewrite nth_error_map, upto_nth).
  rewrite LL. split; [|split].
  - split; [intros X; rewrite X in LL; cbn [length Z.of_nat] in LL; lia|]. split; [exact C2|]. destruct C3 as [C3|C3]; [left; lia|right; exact C3].
  - intros c s I. pose proof (C2 c s I). destruct (P c s I) as (R & Ps). exists (f c). split; [apply NT; lia|]. unfold f. rewrite (setting_In ds c s N I). now apply reread_kept.
  - intros c r R E X. assert (c < channel_count ds).
    { assert (Y : nth_error (map f (upto (channel_count ds))) (Z.to_nat c) <> None) by congruence. apply nth_error_Some in Y. lia. }
    rewrite NT in E by lia. injection E as <-. unfold f. destruct (setting_of ds c) as [s|] eqn:E; [|reflexivity]. exfalso. apply (X s). now apply setting_In2.
Qed.
(** ** what has been read, once more *)
Lemma combine_seq (l : list setting) : forall a, map fst (combine (map Z.of_nat (seq a (length l))) l) = map Z.of_nat (seq a (length l)).
Proof. induction l as [|x l IH]; intros a; [reflexivity|]. cbn [length seq map combine fst]. now rewrite IH. Qed.
Lemma numbered_of l c : 0 <= c -> setting_of (numbered l) c = nth_error l (Z.to_nat c).
Proof.
  intros H. unfold setting_of, numbered, upto. rewrite Nat2Z.id. assert (G : forall l a k, match find (fun e : Z * setting => fst e =? Z.of_nat (a + k)) (combine (map Z.of_nat (seq a (length l))) l) with Some e => Some (snd e) | None => None end = nth_error l k).
  { clear. induction l as [|x l IH]; intros a k; cbn [length seq map combine find]; [now destruct k|]. cbn [fst]. destruct k as [|k]; [replace (a + 0)%nat with a by lia; now rewrite Z.eqb_refl|].
    destruct (Z.eqb_spec (Z.of_nat a) (Z.of_nat (a + S k))) as [E|_]; [lia|]. replace (a + S k)%nat with (S a + k)%nat by lia. apply IH. }
  specialize (G l O (Z.to_nat c)). cbn [Nat.add] in G. rewrite Z2Nat.id in G by lia. exact G.
Qed.
Lemma numbered_count l : l <> [] -> channel_count (numbered l) = Z.of_nat (length l).
Proof.
  intros N. destruct (count_spec (numbered l)) as (C1 & C2 & C3).
  assert (K : map fst (numbered l) = upto (Z.of_nat (length l))) by (unfold numbered, upto; rewrite Nat2Z.id; apply combine_seq).
  assert (LN : length l <> O) by now destruct l.
  assert (I : In (Z.of_nat (length l) - 1) (map fst (numbered l))) by (rewrite K; unfold upto; apply in_map_iff; exists (length l - 1)%nat; split; [lia|apply in_seq; lia]).
  apply in_map_iff in I. destruct I as ([c s] & E & I). cbn [fst] in E. pose proof (C2 c s I).
  destruct C3 as [C3|(s' & I')]; [lia|]. apply (in_map fst) in I'. rewrite K in I'. cbn [fst] in I'. unfold upto in I'. apply in_map_iff in I'. destruct I' as (k & E' & I'). apply in_seq in I'. lia.
Qed.
Theorem display_again ind ind2 ds types types2 doc doc' doc2 doc2' d l : buildable doc -> buildable doc2 -> (forall c s, In (c, s) ds -> 0 <= c < INT_MAX /\ proper_setting s) ->
  on_root (write_display ds types) doc = Ok doc' -> load (builder_get_xml ind doc') = Ok d -> get_display d = Ok (Some l) ->
  on_root (write_display (numbered l) types2) doc2 = Ok doc2' -> exists d2, load (builder_get_xml ind2 doc2') = Ok d2 /\ get_display d2 = Ok (Some l).
Proof.
  intros B B2 P H Ld G H2. destruct (count_spec ds) as (C1 & C2 & C3).
  assert (C : in_i32 (channel_count ds)).
  { unfold in_i32, INT_MIN. destruct C3 as [C3|(s & I)]; [unfold INT_MAX; lia|]. apply P in I. unfold INT_MAX in *. lia. }
  destruct (display_read ind ds types _ doc doc' B (fun c s E => proper_readable s (proj2 (P c s (setting_In2 ds c s E)))) C H) as (d0 & d1 & _ & L & _ & G1 & _).
  rewrite L in Ld. injection Ld as <-. rewrite G1 in G. assert (El : l = map (fun c => match setting_of ds c with Some s => reread s | None => plain_setting end) (upto (channel_count ds))) by congruence. clear G.
  assert (LL : Z.of_nat (length l) = channel_count ds) by (rewrite El, map_length, upto_length; lia).
  assert (NE : l <> []) by (intros X; rewrite X in LL; cbn [length Z.of_nat] in LL; lia).
  assert (AG : forall s, In s l -> reread s = s /\ readable s).
  { intros s I. rewrite El in I. apply in_map_iff in I. destruct I as (c & <- & _). destruct (setting_of ds c) as [s0|] eqn:E; [|apply plain_reread]. apply setting_In2 in E. apply reread_again. now apply (P c). }
  unfold write_display in H2. rewrite (numbered_count l NE) in H2.
  destruct (display_read ind2 (numbered l) types2 (Z.of_nat (length l)) doc2 doc2' B2) as (e0 & e1 & _ & L2 & _ & G2 & _); [|rewrite LL; exact C|exact H2|].
  - intros c s E. apply setting_In2 in E. unfold numbered in E. apply in_combine_r in E. now apply AG.
  - exists e1. split; [exact L2|]. rewrite G2. f_equal. f_equal. unfold upto. rewrite Nat2Z.id, map_map. clear -AG. apply nth_ext with (d := plain_setting) (d' := plain_setting); [now rewrite map_length, seq_length|].
    intros k Hk. rewrite map_length, seq_length in Hk. set (g := fun x => _). rewrite (nth_indep _ plain_setting (g O)) by (now rewrite map_length, seq_length). rewrite map_nth, seq_nth by exact Hk. subst g. cbv beta. cbn [Nat.add].
    rewrite numbered_of by lia. rewrite Nat2Z.id. rewrite (nth_error_nth' l plain_setting Hk). apply AG. now apply nth_In.
Qed.
(** ** writing always succeeds *)
Theorem display_total ds types doc : Forall is_element doc -> (exists r, find (matches ROOT []) doc = Some r) -> (forall c s, In (c, s) ds -> c < INT_MAX) ->
  exists doc', on_root (write_display ds types) doc = Ok doc'.
Proof.
  intros E (r & F) P. unfold on_root. rewrite find_find_index2 in F. destruct (find_index (matches ROOT []) doc) as [i|] eqn:FI; [|discriminate]. injection F as F. rewrite F.
  assert (Er : is_element r). { rewrite <- F. destruct (find_find_index _ _ _ FI) as (_ & Li). rewrite Forall_forall in E. apply E. now apply nth_In. }
  destruct (count_spec ds) as (C1 & C2 & C3).
  assert (C : in_i32 (channel_count ds)).
  { unfold in_i32, INT_MIN. destruct C3 as [C3|(s & I)]; [unfold INT_MAX; lia|]. apply P in I. unfold INT_MAX in *. lia. }
  unfold write_display. rewrite write_display_put by assumption.
  destruct (put_total (replace (map (display_node ds types (dims_of r)) (upto (channel_count ds)))) DISPLAY r Er) as (r' & ->); [intros c Fc; pose proof (follow_element DISPLAY r c Er Fc) as X; destruct c; try easy; eexists; reflexivity|intros nm ats; eexists; reflexivity|].
  eexists. reflexivity.
Qed.
(** ** the rest of the document and the attributes *)
Theorem display_rest ind ds types doc doc' : buildable doc -> (forall c s, In (c, s) ds -> 0 <= c < INT_MAX /\ proper_setting s) -> on_root (write_display ds types) doc = Ok doc' ->
  exists d d', load (builder_get_xml ind doc) = Ok d /\ load (builder_get_xml ind doc') = Ok d' /\ buildable doc' /\
    (forall names, diverge names DISPLAY_NAMES -> get_node names d' = get_node names d) /\
    (forall c s, In (c, s) ds -> exists n, nth_error (channel_nodes DISPLAY_NAMES d') (Z.to_nat c) = Some n /\
       forall k, k = txt "Id" \/ k = txt "Name" -> try_get_attribute k n = filled_attribute k (nth_error (channel_nodes DIM_NAMES d) (Z.to_nat c))).
Proof.
  intros B P H. destruct (count_spec ds) as (C1 & C2 & C3).
  assert (C : in_i32 (channel_count ds)).
  { unfold in_i32, INT_MIN. destruct C3 as [C3|(s & I)]; [unfold INT_MAX; lia|]. apply P in I. unfold INT_MAX in *. lia. }
  destruct (display_read ind ds types _ doc doc' B (fun c s E => proper_readable s (proj2 (P c s (setting_In2 ds c s E)))) C H) as (d & d' & L & L' & B' & _ & G1 & G2).
  exists d, d'. split; [exact L|]. split; [exact L'|]. split; [exact B'|]. split; [exact G1|]. intros c s I. pose proof (C2 c s I). destruct (P c s I) as (R & _).
  destruct (G2 c) as (n & N1 & N2). { apply nth_error_In with (n := Z.to_nat c). apply upto_nth. lia. }
  exists n. split; [exact N1|]. intros k K. assert (S0 : setting_of ds c <> None).
  { unfold setting_of. destruct (find (fun e => fst e =? c) ds) eqn:X; [discriminate|]. exfalso. apply (find_none _ _ X) in I. cbn [fst] in I. rewrite Z.eqb_refl in I. discriminate. }
  destruct K as [->| ->]; [rewrite (N2 "Id"%string) by auto|rewrite (N2 "Name"%string) by auto]; destruct (setting_of ds c); congruence.
Qed.
