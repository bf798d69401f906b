(** Lemmas: channels in the metadata prepared by a writer. *)
From Coq Require Import String Permutation.
From Verif Require Import Base TextModel TextSpec TextProofs XmlModel XmlSpec XmlProofs XmlValues XmlPaths PugiModel PugiSpec PugiProofs PugiTree PugiRound PugiBuild.
From Verif Require Import CodesModel DocModel DocSpec DocTree DocInt DocProofs DocScale DocDims.
Open Scope Z_scope.

Lemma put_app f a : forall b n, put f (a ++ b) n = put (put f b) a n.
Proof.
  induction a as [|[k ats] a IH]; intros b n; [reflexivity|]. cbn [app put]. destruct n as [nm at_ kids| |]; try reflexivity.
  assert (E : forall kids, on_first (matches k ats) (Elem k ats []) (put f (a ++ b)) kids = on_first (matches k ats) (Elem k ats []) (put (put f b) a) kids).
  { clear kids. induction kids as [|x kids IHk]; cbn [on_first]; [now rewrite IH|]. rewrite IH, IHk. reflexivity. }
  now rewrite E.
Qed.
Lemma put_sound_gen f sts r r' : steady f -> (forall a b, named a -> f a = Ok b -> named b) -> (forall a b, tidy a -> f a = Ok b -> tidy b) -> sound r -> decent sts -> put f sts r = Ok r' -> sound r'.
Proof.
  intros St Nm Td (E & N & T) (D1 & D2) H. pose proof (put_kind _ _ _ _ St H) as K. split; [now apply (kind_element _ r)|]. split; [now apply (put_named f sts Nm D2 r r')|now apply (put_tidy f sts St Td D1 r r')].
Qed.

(** ** the path of a channel *)
Definition CHANNELS : list spec := plainly (IMAGE ++ [txt "Dimensions"; txt "Channels"]).
Definition chan_ats (id : str) (name : option str) : list (str * str) := (txt "Id", id) :: match name with Some s => [(txt "Name", s)] | None => [] end.
Definition good_name (id : str) (name : option str) : Prop :=
  (plain [47; 91; 93; 44; 59] id /\ chars id) /\ forall s, name = Some s -> plain [47; 91; 93; 44; 59] s /\ chars s.
Lemma letters_plain s : forallb letterb s = true -> forall special, forallb (fun c => negb (letterb c)) special = true -> plain special s.
Proof. intros H special P c I J. rewrite forallb_forall in H, P. specialize (H c I). specialize (P c J). rewrite H in P. discriminate. Qed.
Lemma chan_path id name : good_name id name -> exists ats, Permutation ats (chan_ats id name) /\ path_of (channel_path id name) = Some (CHANNELS ++ [(txt "Channel", ats)]).
Proof.
  intros ((G1 & G1') & G2). set (any := map (fun k => (k, Any)) (IMAGE ++ [txt "Dimensions"; txt "Channels"])).
  set (last := (txt "Channel", With (chan_ats id name)) : step).
  assert (G : good_step last).
  { split; [discriminate|]. split; [apply letters_plain; reflexivity|]. cbn [snd last]. split; [discriminate|]. split.
    - unfold chan_ats. destruct name; cbn [map fst]; repeat constructor; cbn; intuition discriminate.
    - intros k v I. unfold chan_ats in I. destruct I as [[= <- <-]|I].
      + split; [discriminate|]. split; [apply letters_plain; reflexivity|exact G1].
      + destruct name as [s|]; [|easy]. destruct I as [[= <- <-]|[]]. split; [discriminate|]. split; [apply letters_plain; reflexivity|apply (G2 s eq_refl)]. }
  assert (P : channel_path id name = path_text (any ++ [last])).
  { unfold channel_path, path_text, chan_ats, last. unfold any, IMAGE, image. destruct name as [s|]; cbn; repeat (f_equal; []); rewrite <- ?app_assoc; cbn; rewrite <- ?app_assoc; reflexivity. }
  assert (Ga : Forall good_step (any ++ [last])).
  { apply Forall_app. split; [|constructor; [exact G|constructor]]. unfold any. cbn [IMAGE app map]. repeat (apply Forall_cons; [split; [discriminate|split; [apply letters_plain; reflexivity|exact I]]|]). apply Forall_nil. }
  unfold path_of. rewrite P, path_tokens_text; [|discriminate|exact Ga]. rewrite map_app.
  destruct G as (N & Pl & Na & Da & Ha). destruct (parse_attributes_text (chan_ats id name) Na Da Ha) as (m & E & Q). exists m. split; [exact Q|].
  assert (C : create_spec (step_text last) = Ok (txt "Channel", m)).
  { unfold create_spec, step_text, last. cbn [fst snd]. rewrite (parse_step_spec (txt "Channel") _ N Pl); [|intros c Hc; now apply (ats_text_plain _ Ha c)]. now rewrite E. }
  assert (A : forall l, parsed (l ++ [step_text last]) = match parsed l with Some r => Some (r ++ [(txt "Channel", m)]) | None => None end).
  { induction l as [|x l IH]; cbn [app parsed]; [now rewrite C|]. destruct (create_spec x) as [st| | |]; try reflexivity. rewrite IH. now destruct (parsed l). }
  cbn [map]. rewrite A. reflexivity.
Qed.
Lemma chan_decent id name ats : good_name id name -> Permutation ats (chan_ats id name) -> decent (CHANNELS ++ [(txt "Channel", ats)]).
Proof.
  intros ((_ & G1) & G2) P. assert (D : decent CHANNELS) by (apply decentb_ok; vm_compute; reflexivity). destruct D as (D1 & D2).
  split; apply Forall_app; (split; [assumption|constructor; [|constructor]]).
  - unfold distinct. cbn [snd]. apply (Permutation_NoDup (l := map fst (chan_ats id name))); [apply Permutation_map; now symmetry|].
    unfold chan_ats. destruct name; cbn [map fst]; repeat constructor; cbn; intuition discriminate.
  - split; [apply wordb_name; reflexivity|]. cbn [snd]. apply (Permutation_Forall (x := chan_ats id name)); [now symmetry|]. unfold chan_ats. constructor; [split; [apply wordb_name; reflexivity|exact G1]|].
    destruct name as [s|]; constructor; [split; [apply wordb_name; reflexivity|apply (G2 s eq_refl)]|constructor].
Qed.
Lemma attr_of_in ats k v : NoDup (map fst ats) -> In (k, v) ats -> attr_of ats k = Some v.
Proof.
  induction ats as [|[k0 v0] ats IH]; intros N I; [easy|]. cbn [map fst] in N. inversion N as [|? ? N1 N2]; subst. cbn [attr_of]. destruct (str_eqb k0 k) eqn:E.
  - apply str_eqb_eq in E. subst k0. destruct I as [[= ->]|I]; [reflexivity|]. apply (in_map fst) in I. easy.
  - destruct I as [[= -> ->]|I]; [rewrite str_eqb_refl in E; discriminate|now apply IH].
Qed.
Lemma attr_of_none ats k : ~ In k (map fst ats) -> attr_of ats k = None.
Proof.
  induction ats as [|[k0 v0] ats IH]; intros N; [reflexivity|]. cbn [attr_of map fst] in *. destruct (str_eqb k0 k) eqn:E; [apply str_eqb_eq in E; subst; elim N; now left|]. apply IH. intros I. apply N. now right.
Qed.
Lemma chan_attrs id name ats : Permutation ats (chan_ats id name) -> attr_of ats (txt "Id") = Some id /\ attr_of ats (txt "Name") = name.
Proof.
  intros P. assert (N : NoDup (map fst ats)).
  { apply (Permutation_NoDup (l := map fst (chan_ats id name))); [apply Permutation_map; now symmetry|]. unfold chan_ats. destruct name; cbn [map fst]; repeat constructor; cbn; intuition discriminate. }
  split; [apply attr_of_in; [exact N|]; apply (Permutation_in _ (Permutation_sym P)); now left|]. destruct name as [s|].
  - apply attr_of_in; [exact N|]. apply (Permutation_in _ (Permutation_sym P)). right. now left.
  - apply attr_of_none. intros I. apply (Permutation_in _ (Permutation_map fst P)) in I. cbn in I. intuition discriminate.
Qed.

(** ** the channels so far *)
Definition kids_at (sts : list spec) (t : xml) : list xml := match follow sts t with Some c => kids_of c | None => [] end.
Definition filled (p : option pixel_type) (n : xml) : res xml :=
  match p with Some p => match pixel_word p with Some w => append_value (txt "PixelType") w n | None => Ok n end | None => Ok n end.
Definition type_kids (p : option pixel_type) : list xml :=
  match p with Some p => match pixel_word p with Some w => [Elem (txt "PixelType") [] [Text w]] | None => [] end | None => [] end.
Definition is_channel (id : str) (name : option str) (p : option pixel_type) (n : xml) : Prop :=
  exists ats, Permutation ats (chan_ats id name) /\ n = Elem (txt "Channel") ats (type_kids p).
Lemma created_there toks : forall n n' h, create_path toks n = (n', Ok h) -> change_at h Ok n' = Ok n'.
Proof.
  induction toks as [|k ks IH]; intros n n' h H; [cbn in H; now injection H as <- <-|].
  destruct (create_ok_inv _ _ _ _ _ H) as (nm & at_ & kids & name & ats & i & kids' & c & c' & h' & -> & E & P & Hc & F & -> & ->). cbn [change_at].
  assert (L : (i < length kids')%nat) by (apply nth_error_Some; congruence). rewrite (nth_error_upd kids' i c' L), (IH c c' h' F). cbn [bind]. now rewrite upd_upd.
Qed.
Lemma filled_fill id name p t : fill_channel id name p t = edit (channel_path id name) (filled p) t.
Proof.
  unfold fill_channel, edit, filled. destruct (get_or_create (channel_path id name) t) as [t' [h| | |]] eqn:G; try reflexivity.
  destruct p as [p|]; [destruct (pixel_word p) as [w|]; [reflexivity|]|]; symmetry; unfold get_or_create in G; destruct (path_tokens (channel_path id name)); try discriminate; now apply (created_there _ _ _ _ G).
Qed.
Lemma pixel_word_solid p w : pixel_word p = Some w -> solid w.
Proof. unfold pixel_word. destruct p; intros H; try discriminate; injection H as <-; apply Forall_forall; intros c I; cbn in I; lia. Qed.
Lemma filled_ok p nm ats kids : filled p (Elem nm ats kids) = Ok (Elem nm ats (kids ++ type_kids p)).
Proof. unfold filled, type_kids. destruct p as [p|]; [destruct (pixel_word p); [reflexivity|]|]; now rewrite app_nil_r. Qed.
Lemma filled_inv p a b : filled p a = Ok b -> (exists nm ats kids, a = Elem nm ats kids /\ b = Elem nm ats (kids ++ type_kids p)) \/ b = a.
Proof. destruct a as [nm ats kids| |]; [rewrite filled_ok; intros [= <-]; left; eauto 6|..]; unfold filled; (destruct p as [p|]; [destruct (pixel_word p); [discriminate|]|]; intros [= <-]; now right). Qed.
Lemma filled_steady p : steady (filled p).
Proof. intros a b H. apply filled_inv in H. destruct H as [(nm & ats & kids & -> & ->)| ->]; reflexivity. Qed.
Lemma type_kids_named p : Forall named (type_kids p).
Proof.
  unfold type_kids. destruct p as [p|]; [|constructor]. destruct (pixel_word p) as [w|] eqn:W; [|constructor]. constructor; [|constructor]. apply named_elem. split; [apply wordb_name; reflexivity|].
  split; [constructor|]. constructor; [|constructor]. apply solid_chars. now apply (pixel_word_solid p).
Qed.
Lemma filled_named p a b : named a -> filled p a = Ok b -> named b.
Proof.
  intros N H. apply filled_inv in H. destruct H as [(nm & ats & kids & -> & ->)| ->]; [|exact N]. apply named_elem in N. destruct N as (N1 & N2 & N3). apply named_elem. split; [exact N1|]. split; [exact N2|].
  apply Forall_app. split; [exact N3|apply type_kids_named].
Qed.
Lemma filled_tidy p a b : tidy a -> filled p a = Ok b -> tidy b.
Proof.
  intros T H. apply filled_inv in H. destruct H as [(nm & ats & kids & -> & ->)| ->]; [|exact T]. apply tidy_elem in T. destruct T as (T1 & T2). apply tidy_elem.
  unfold type_kids. destruct p as [p|]; [|now rewrite app_nil_r]. destruct (pixel_word p) as [w|]; [|now rewrite app_nil_r].
  split; [now apply tidy_kids_more|]. apply Forall_app. split; [exact T2|]. constructor; [|constructor]. apply (set_value_keeps_tidy w (Elem (txt "PixelType") [] [])); [apply tidy_new|reflexivity].
Qed.
Lemma channel_step id name p t t' : sound t -> good_name id name -> fill_channel id name p t = Ok t' ->
  (forall n, In n (kids_at CHANNELS t) -> try_get_attribute (txt "Id") n <> Some id) ->
  (sound t' /\ kind_of t' = kind_of t) /\ (exists c, follow CHANNELS t' = Some c) /\ (exists n, is_channel id name p n /\ kids_at CHANNELS t' = kids_at CHANNELS t ++ [n]) /\
  forall qs, separate CHANNELS qs -> follow qs t' = follow qs t.
Proof.
  intros S G H X. destruct (chan_path id name G) as (ats & P & Q). rewrite filled_fill, (edit_path _ _ _ _ Q) in H by apply S. pose proof (chan_decent id name ats G P) as D.
  split; [split; [now apply (put_sound_gen (filled p) _ t t' (filled_steady p) (filled_named p) (filled_tidy p) S D)|exact (put_kind _ _ _ _ (filled_steady p) H)]|]. rewrite put_app in H. destruct D as (D & _). apply Forall_app in D. destruct D as (D1 & D2).
  assert (St : steady (put (filled p) [(txt "Channel", ats)])) by (intros a b; apply put_kind, filled_steady).
  destruct (put_same _ CHANNELS St D1 t t' H) as (c & c' & F' & Pc & F). split; [now exists c'|]. split.
  - assert (K : kids_at CHANNELS t = kids_of c) by (unfold kids_at; destruct F as [-> |(-> & _ & E)]; [reflexivity|now rewrite E]). rewrite K in *. unfold kids_at. rewrite F'.
    destruct c as [nm at_ kids| |]; try discriminate.
    change (put (filled p) [(txt "Channel", ats)] (Elem nm at_ kids)) with (let* ks := on_first (matches (txt "Channel") ats) (Elem (txt "Channel") ats []) (put (filled p) []) kids in Ok (Elem nm at_ ks)) in Pc. cbn [kids_of] in X. assert (M : Forall (fun n => matches (txt "Channel") ats n = false) kids).
    { apply Forall_forall. intros n I. destruct (matches (txt "Channel") ats n) eqn:M; [|reflexivity]. exfalso. apply (X n I). apply matches_has in M. destruct M as (a0 & k0 & -> & M). cbn [try_get_attribute].
      apply M. apply (Permutation_in _ (Permutation_sym P)). now left. }
    exists (Elem (txt "Channel") ats (type_kids p)). split; [exists ats; now split|]. revert Pc. clear -M. intros Pc.
    assert (E : on_first (matches (txt "Channel") ats) (Elem (txt "Channel") ats []) (put (filled p) []) kids = Ok (kids ++ [Elem (txt "Channel") ats (type_kids p)])).
    { clear Pc. induction M as [|n kids M _ IH]; cbn [on_first app]; [cbn [put]; now rewrite filled_ok|]. rewrite M, IH. reflexivity. }
    rewrite E in Pc. cbn [bind] in Pc. injection Pc as <-. reflexivity.
  - intros qs Sq. now apply (put_other _ CHANNELS St D1 qs t t').
Qed.
Lemma channels_step names types chs : forall t t', sound t -> NoDup chs -> good_names chs names -> fill_channels chs names types t = Ok t' ->
  (forall n c, In n (kids_at CHANNELS t) -> In c chs -> try_get_attribute (txt "Id") n <> Some (fst (names c))) ->
  (sound t' /\ kind_of t' = kind_of t) /\ (chs <> [] -> exists c, follow CHANNELS t' = Some c) /\
  (exists ns, Forall2 (fun c => is_channel (fst (names c)) (snd (names c)) (match find (fun e => fst e =? c) types with Some e => Some (pixel_type_from_int (snd e)) | None => None end)) chs ns /\
    kids_at CHANNELS t' = kids_at CHANNELS t ++ ns) /\
  forall qs, separate CHANNELS qs -> follow qs t' = follow qs t.
Proof.
  induction chs as [|c chs IH]; intros t t' S N G H X; cbn [fill_channels] in H.
  - injection H as <-. split; [now split|]. split; [easy|]. split; [|reflexivity]. exists []. split; [constructor|now rewrite app_nil_r].
  - inversion N as [|? ? N1 N2]; subst. destruct (names c) as [id name] eqn:E. set (p := match find (fun e => fst e =? c) types with Some e => Some (pixel_type_from_int (snd e)) | None => None end) in *.
    destruct (fill_channel id name p t) as [t1| | |] eqn:F; cbn [bind] in H; try discriminate.
    assert (Gn : good_name id name) by (destruct G as (G & _); specialize (G c (or_introl eq_refl)); rewrite E in G; exact G).
    destruct (channel_step id name p t t1 S Gn F) as ((S1 & Q1) & (c1 & C1) & (n & I1 & K1) & O1).
    { intros n I. specialize (X n c I (or_introl eq_refl)). now rewrite E in X. }
    destruct (IH t1 t' S1 N2) as ((S2 & Q2) & C2 & (ns & A2 & K2) & O2).
    { destruct G as (Ga & Gb). split; [intros d I; apply Ga; now right|]. intros a b Ia Ib. apply Gb; now right. }
    { exact H. }
    { intros n0 d I Id. rewrite K1 in I. apply in_app_iff in I. destruct I as [I|[<-|[]]]; [apply X; [exact I|now right]|]. destruct I1 as (ats & P & ->). cbn [try_get_attribute]. destruct (chan_attrs _ _ _ P) as (-> & _).
      intros [= Eq]. destruct G as (_ & Gb). assert (c = d) by (apply Gb; [now left|now right|now rewrite E]). subst d. easy. }
    split; [split; [exact S2|congruence]|]. split.
    + intros _. destruct chs as [|d chs]; [|now apply C2]. cbn [fill_channels] in H. injection H as <-. now exists c1.
    + split; [|intros qs Sq; rewrite O2, O1 by exact Sq; reflexivity]. exists (n :: ns). split; [constructor; [rewrite E; exact I1|exact A2]|]. rewrite K2, K1, <- app_assoc. reflexivity.
Qed.

(** ** the metadata prepared *)
Lemma word_pixel_word p w : pixel_word p = Some w -> word_pixel w = Some p.
Proof. unfold pixel_word. destruct p; intros H; try discriminate; injection H as <-; vm_compute; reflexivity. Qed.
Lemma pixel_word_kept p : kept_type p = match pixel_word p with Some _ => Some p | None => None end.
Proof. destruct p; reflexivity. Qed.
Lemma channel_read id name p n : is_channel id name p n -> channel_info (settle n) = mkCh (Some id) name (match p with Some p => kept_type p | None => None end).
Proof.
  intros (ats & P & ->). destruct (chan_attrs _ _ _ P) as (A1 & A2). unfold channel_info. rewrite settle_elem. cbn [try_get_attribute]. rewrite A1, A2. f_equal.
  unfold type_kids. destruct p as [p|]; [|reflexivity]. rewrite pixel_word_kept. destruct (pixel_word p) as [w|] eqn:W; [|reflexivity].
  replace (descend [txt "PixelType"] _) with (Some (settle (Elem (txt "PixelType") [] [Text w]))) by reflexivity.
  rewrite (text_two _ w); [now apply word_pixel_word|exact I|reflexivity|now apply (pixel_word_solid p)].
Qed.
Lemma channels_nodup start size : NoDup (channels_of start size).
Proof.
  unfold channels_of. assert (N : NoDup (seq 0 (Z.to_nat size))) by apply seq_NoDup. induction N as [|k l N1 _ IH]; [constructor|]. cbn [map]. constructor; [|exact IH].
  intros I. apply in_map_iff in I. destruct I as (j & E & I). assert (j = k) by lia. now subst.
Qed.
Definition PIXEL : list spec := plainly (IMAGE ++ [txt "PixelType"]).
Lemma fill_type_put p t : is_element t -> fill_image_pixel_type p t = match pixel_word p with Some w => put (set_value w) PIXEL t | None => Ok t end.
Proof. intros E. unfold fill_image_pixel_type. destruct (pixel_word p) as [w|]; [|reflexivity]. rewrite write_edit. apply edit_path; [vm_compute; reflexivity|exact E]. Qed.
Lemma fill_type_step p t t' : sound t -> fill_image_pixel_type p t = Ok t' -> (sound t' /\ kind_of t' = kind_of t) /\ forall qs, separate PIXEL qs -> follow qs t' = follow qs t.
Proof.
  intros S H. rewrite fill_type_put in H by apply S. destruct (pixel_word p) as [w|] eqn:W; [|injection H as <-; now split].
  assert (D : decent PIXEL) by (apply decentb_ok; vm_compute; reflexivity). split.
  - apply (put_sound w PIXEL t t' S D); [apply solid_chars; now apply (pixel_word_solid p)|exact H].
  - intros qs Sq. apply (put_other _ _ (set_value_steady w) (proj1 D) qs t t' Sq H).
Qed.
Lemma chan_size c : separate CHANNELS (size_path c) /\ separate CHANNELS (start_path c) /\ separate PIXEL (size_path c) /\ separate PIXEL (start_path c).
Proof. cbn [CHANNELS PIXEL size_path start_path plainly map app IMAGE separate]. repeat split; right; right; right; left; apply names_differ; reflexivity. Qed.
Lemma pixel_chan : separate PIXEL CHANNELS.
Proof. cbn [CHANNELS PIXEL plainly map app IMAGE separate]. right. right. right. left. apply names_differ. reflexivity. Qed.
Lemma root_sound : sound (Elem ROOT [] []).
Proof. destruct fresh_buildable as (_ & A & B & C). inversion A; inversion B; inversion C; subst. split; [assumption|split; assumption]. Qed.
Lemma stat_sound w h b m t t' : sound t -> write_statistics w h b m t = Ok t' -> (sound t' /\ kind_of t' = kind_of t) /\ forall qs, (forall c, separate (size_path c) qs) -> follow qs t' = follow qs t.
Proof.
  intros S H. apply stat_jobs in H; [|apply S]. assert (Fd : forall c, In c (map fst (stat_fields w h b m)) -> decent (size_path c)) by (intros c I; apply size_decent; now apply stat_key_letter in I). split.
  - apply (puts_sound _ t t' S) in H; [apply H|]. intros sts v I. apply jobs_in in I. destruct I as (c & I & ->). split; [apply Fd; now apply (in_map fst) in I|].
    apply in_map_iff in I. destruct I as ([c0 s] & [= -> <-] & I). apply solid_chars, dec_solid.
  - intros qs Q. apply (puts_other (jobs size_path (stat_fields w h b m)) qs t t'); [|exact H]. intros sts v I. apply jobs_in in I. destruct I as (c & I & ->). split; [apply Fd; now apply (in_map fst) in I|apply Q].
Qed.
Lemma sizes_chan c : separate (size_path c) CHANNELS /\ separate (size_path c) PIXEL.
Proof. cbn [CHANNELS PIXEL size_path plainly map app IMAGE separate]. split; right; right; right; left; apply names_differ; reflexivity. Qed.
Definition pixel_of (types : list (Z * Z)) (c : Z) : option pixel_type :=
  match find (fun e => fst e =? c) types with Some e => Some (pixel_type_from_int (snd e)) | None => None end.
Theorem channels_read ind w h b m types nc names t start size : prepared_metadata w h b m types nc names = Ok t -> tget b 2 = Some (start, size) -> 0 < size ->
  good_names (channels_of start size) names ->
  exists d, load (builder_get_xml ind [t]) = Ok d /\
    get_channels d = Some (map (fun c => mkCh (Some (fst (names c))) (snd (names c)) (match pixel_of types c with Some p => kept_type p | None => None end)) (channels_of start size)).
Proof.
  unfold prepared_metadata. intros H T Sz G. destruct (write_statistics w h b m (Elem ROOT [] [])) as [t1| | |] eqn:W; cbn [bind] in H; try discriminate.
  destruct (stat_sound w h b m _ t1 root_sound W) as ((S1 & Q1) & O1). unfold fill_dimension_channel in H. rewrite T in H. destruct (in_i32b (start + size)); cbn [negb] in H; [|discriminate].
  fold (channels_of start size) in H. cbv zeta in H. destruct (fill_channels (channels_of start size) names types t1) as [t2| | |] eqn:F; cbn [bind] in H; try discriminate.
  assert (K0 : kids_at CHANNELS t1 = []) by (unfold kids_at; rewrite O1 by (intros c; apply sizes_chan); reflexivity).
  destruct (channels_step names types (channels_of start size) t1 t2 S1 (channels_nodup start size) G F) as ((S2 & Q2) & C2 & (ns & A2 & K2) & O2).
  { intros n c I. rewrite K0 in I. destruct I. }
  destruct C2 as (cn & C2). { unfold channels_of. destruct (Z.to_nat size) eqn:E; [lia|discriminate]. }
  destruct (fill_type_step _ t2 t S2 H) as ((S3 & Q3) & O3). specialize (O3 CHANNELS pixel_chan). rewrite C2 in O3. unfold kids_at in K0, K2. rewrite C2, K0 in K2. cbn [app] in K2.
  assert (Kd : matches ROOT [] t = true).
  { assert (X : kind_of t = kind_of (Elem ROOT [] [])); [congruence|now rewrite (matches_kind ROOT [] _ _ X)]. }
  exists (map settle [t]). split; [apply builder_round; [discriminate|constructor; [apply S3|constructor]|constructor; [apply S3|constructor]]|].
  unfold get_channels, get_node. cbn [map find]. rewrite matches_settle, Kd, descend_follow. change (plainly (IMAGE ++ [txt "Dimensions"; txt "Channels"])) with CHANNELS.
  rewrite follow_settle by apply S3. rewrite O3. cbn [option_map]. f_equal. rewrite kids_settle by (apply (follow_element CHANNELS t); [apply S3|exact O3]). rewrite filter_settles, K2.
  clear -A2. induction A2 as [|c n chs ns A _ IH]; [reflexivity|]. assert (M : matches (txt "Channel") [] n = true) by (destruct A as (ats & _ & ->); reflexivity).
  cbn [filter]. rewrite M. cbn [map]. rewrite (channel_read _ _ _ _ A), IH. reflexivity.
Qed.
Theorem prepared_sizes ind w h b m types nc names t : prepared_metadata w h b m types nc names = Ok t -> (forall k st sz, tget b k = Some (st, sz) -> in_i32 sz) ->
  (forall start size, tget b 2 = Some (start, size) -> good_names (channels_of start size) names) ->
  exists d, load (builder_get_xml ind [t]) = Ok d /\ size_text 88 d = Some (dec w) /\ size_text 89 d = Some (dec h) /\
    size_text 77 d = match m with Some (lo, hi) => Some (dec (hi - lo + 1)) | None => None end /\
    forall k, In k dims -> dim_info k d = match tget b k with Some (_, size) => Some (mkD 0 size false true) | None => None end.
Proof.
  unfold prepared_metadata. intros H Bd G. destruct (write_statistics w h b m (Elem ROOT [] [])) as [t1| | |] eqn:W; cbn [bind] in H; try discriminate.
  destruct (stat_sound w h b m _ t1 root_sound W) as ((S1 & Q1) & O1).
  destruct (sizes_read ind w h b m [Elem ROOT [] []] [t1] fresh_buildable Bd) as (d0 & d1 & L0 & L1 & X1 & X2 & X3 & X4); [unfold on_root; cbn [find_index]; change (matches ROOT [] (Elem ROOT [] [])) with true; cbn [nth]; now rewrite W|].
  assert (A : (sound t /\ kind_of t = kind_of t1) /\ forall qs, separate CHANNELS qs -> separate PIXEL qs -> follow qs t = follow qs t1).
  { unfold fill_dimension_channel in H. destruct (tget b 2) as [[start size]|] eqn:T.
    - destruct (in_i32b (start + size)); cbn [negb] in H; [|discriminate]. fold (channels_of start size) in H. cbv zeta in H.
      destruct (fill_channels (channels_of start size) names types t1) as [t2| | |] eqn:F; cbn [bind] in H; try discriminate.
      destruct (channels_step names types (channels_of start size) t1 t2 S1 (channels_nodup start size) (G start size eq_refl) F) as ((S2 & Q2) & _ & _ & O2).
      { intros n c I. unfold kids_at in I. rewrite O1 in I by (intros c0; apply sizes_chan). destruct I. }
      destruct (fill_type_step _ t2 t S2 H) as ((S3 & Q3) & O3). split; [split; [exact S3|congruence]|]. intros qs A B. now rewrite O3, O2.
    - destruct nc as [p|]; [|injection H as <-; split; [now split|reflexivity]]. destruct (fill_type_step _ t1 t S1 H) as ((S3 & Q3) & O3). split; [now split|]. intros qs _ B. now apply O3. }
  destruct A as ((S3 & Q3) & O). assert (R : forall x, sound x -> kind_of x = kind_of (Elem ROOT [] []) -> load (builder_get_xml ind [x]) = Ok [settle x] /\ find (matches ROOT []) [settle x] = Some (settle x)).
  { intros x Sx Qx. split; [change [settle x] with (map settle [x]); apply builder_round; [discriminate|constructor; [apply Sx|constructor]|constructor; [apply Sx|constructor]]|]. cbn [find]. rewrite matches_settle, (matches_kind ROOT [] _ _ Qx). reflexivity. }
  destruct (R t S3 ltac:(congruence)) as (L & F). destruct (R t1 S1 Q1) as (L1' & F1). destruct (R _ root_sound eq_refl) as (L0' & F0). rewrite L1 in L1'. injection L1' as ->. rewrite L0 in L0'. injection L0' as ->.
  exists [settle t]. split; [exact L|].
  assert (Z1 : forall c, follow (size_path c) (settle t) = follow (size_path c) (settle t1)) by (intros c; rewrite !follow_settle by (apply S3 || apply S1); f_equal; apply O; apply chan_size).
  assert (Z2 : forall c, follow (start_path c) (settle t) = follow (start_path c) (settle t1)) by (intros c; rewrite !follow_settle by (apply S3 || apply S1); f_equal; apply O; apply chan_size).
  rewrite !(size_text_follow _ _ _ F1) in *. rewrite !(size_text_follow _ _ _ F), !Z1. split; [exact X1|]. split; [exact X2|]. split.
  - rewrite X3. destruct m as [[lo hi]|]; reflexivity.
  - intros k Ik. specialize (X4 k Ik). rewrite (dim_info_follow _ _ k F), Z1, Z2, <- (dim_info_follow _ _ k F1), X4. destruct (tget b k) as [[st sz]|]; reflexivity.
Qed.
Lemma channel_total id name p t : is_element t -> good_name id name -> exists t', fill_channel id name p t = Ok t'.
Proof.
  intros E G. destruct (chan_path id name G) as (ats & P & Q). rewrite filled_fill, (edit_path _ _ _ _ Q E). apply put_total; [exact E| |].
  - intros c F. pose proof (follow_element _ _ _ E F) as Ec. destruct c as [nm at_ kids| |]; try easy. rewrite filled_ok. eauto.
  - intros nm at_. rewrite filled_ok. eauto.
Qed.
Lemma channels_total names types chs : forall t, sound t -> NoDup chs -> good_names chs names ->
  (forall n c, In n (kids_at CHANNELS t) -> In c chs -> try_get_attribute (txt "Id") n <> Some (fst (names c))) -> exists t', fill_channels chs names types t = Ok t'.
Proof.
  induction chs as [|c chs IH]; intros t S N G X; [eexists; reflexivity|]. inversion N as [|? ? N1 N2]; subst. cbn [fill_channels]. destruct (names c) as [id name] eqn:E.
  assert (Gn : good_name id name) by (destruct G as (G & _); specialize (G c (or_introl eq_refl)); rewrite E in G; exact G).
  set (p := match find (fun e => fst e =? c) types with Some e => Some (pixel_type_from_int (snd e)) | None => None end).
  destruct (channel_total id name p t (proj1 S) Gn) as (t1 & F). rewrite F. cbn [bind].
  destruct (channel_step id name p t t1 S Gn F) as ((S1 & _) & _ & (n & I1 & K1) & _).
  { intros n I. specialize (X n c I (or_introl eq_refl)). now rewrite E in X. }
  apply IH; [exact S1|exact N2|destruct G as (Ga & Gb); split; [intros d I; apply Ga; now right|intros a b Ia Ib; apply Gb; now right]|].
  intros n0 d I Id. rewrite K1 in I. apply in_app_iff in I. destruct I as [I|[<-|[]]]; [apply X; [exact I|now right]|]. destruct I1 as (ats & P & ->). cbn [try_get_attribute]. destruct (chan_attrs _ _ _ P) as (-> & _).
  intros [= Eq]. destruct G as (_ & Gb). assert (c = d) by (apply Gb; [now left|now right|now rewrite E]). subst d. easy.
Qed.
Lemma chan_pixel : separate CHANNELS PIXEL.
Proof. cbn [CHANNELS PIXEL plainly map app IMAGE separate]. right. right. right. left. apply names_differ. reflexivity. Qed.
Lemma fill_type_total p t : is_element t -> follow PIXEL t = None -> exists t', fill_image_pixel_type p t = Ok t'.
Proof. intros E F. rewrite fill_type_put by exact E. destruct (pixel_word p); [|eauto]. apply put_value_total; [exact E|]. intros c. now rewrite F. Qed.
Theorem prepared_total w h b m types nc names : (forall lo hi, m = Some (lo, hi) -> hi - lo + 1 <= INT_MAX) ->
  (forall start size, tget b 2 = Some (start, size) -> in_i32 (start + size) /\ good_names (channels_of start size) names) ->
  exists t, prepared_metadata w h b m types nc names = Ok t.
Proof.
  intros M G. unfold prepared_metadata. destruct (statistics_total w h b m ROOT [] M) as (t1 & W). rewrite W. cbn [bind]. destruct (stat_sound w h b m _ t1 root_sound W) as ((S1 & _) & O1).
  assert (N : follow PIXEL t1 = None) by (rewrite O1 by (intros c; apply sizes_chan); reflexivity). unfold fill_dimension_channel. destruct (tget b 2) as [[start size]|] eqn:T.
  - destruct (G start size eq_refl) as (I & Gn). assert (I' : in_i32b (start + size) = true) by (unfold in_i32 in I; unfold in_i32b; lia). rewrite I'. cbn [negb]. fold (channels_of start size).
    assert (K0 : forall n c, In n (kids_at CHANNELS t1) -> In c (channels_of start size) -> try_get_attribute (txt "Id") n <> Some (fst (names c))).
    { intros n c J. unfold kids_at in J. rewrite O1 in J by (intros c0; apply sizes_chan). destruct J. }
    destruct (channels_total names types (channels_of start size) t1 S1 (channels_nodup start size) Gn K0) as (t2 & F). rewrite F. cbn [bind].
    destruct (channels_step names types (channels_of start size) t1 t2 S1 (channels_nodup start size) Gn F K0) as ((S2 & _) & _ & _ & O2).
    apply fill_type_total; [apply S2|]. now rewrite O2 by exact chan_pixel.
  - destruct nc as [p|]; [|eauto]. apply fill_type_total; [apply S1|exact N].
Qed.
Lemma default_good start size : in_i32 start -> in_i32 (start + size) -> good_names (channels_of start size) default_names.
Proof.
  intros I1 I2. assert (R : forall c, In c (channels_of start size) -> in_i32 c).
  { intros c I. apply in_map_iff in I. destruct I as (k & <- & I). apply in_seq in I. unfold in_i32 in *. lia. }
  split.
  - intros c I. cbn [default_names fst snd]. split; [|discriminate]. assert (A : Forall (fun c => c = 45 \/ 48 <= c <= 57 \/ 58 <= c <= 122 /\ c <> 91 /\ c <> 93 /\ c <> 59) (txt "Channel:" ++ dec c)).
    { apply Forall_app. split; [apply Forall_forall; intros x Hx; cbn in Hx; lia|]. apply dec_all; lia. }
    rewrite Forall_forall in A. split; [intros x Hx Hs; specialize (A x Hx); cbn in Hs; lia|]. apply Forall_forall. intros x Hx. specialize (A x Hx). lia.
  - intros c d Ic Id E. cbn [default_names fst] in E. apply app_inv_head in E. rewrite <- (read_dec c (R c Ic)), <- (read_dec d (R d Id)). now rewrite E.
Qed.
