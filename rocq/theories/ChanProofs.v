(** The JSON text about the channels of a document (ChanModel, ChanSpec). *)
From Coq Require Import String QArith Qabs Floats.SpecFloat.
From Verif Require Import Base CodecModel CodesModel TextModel TextSpec TextProofs TextProofs3 PugiModel PugiSpec XmlModel XmlProofs FloatProofs SFloatProofs ScaleNum NumModel NumSpec
  DocModel DocSpec DocScale RangeModel GuidModel JsonModel JsonSpec JsonProofs JsonRead JsonWrite JsonInfo ChanModel ChanSpec ChanNum.
Open Scope Z_scope.
Local Open Scope list_scope.

Definition chan_list (c : chan) : list (string * option jd) :=
  [("attribute_id", option_map text_value (k_id c)); ("attribute_name", option_map text_value (k_name c));
   ("channel_type", option_map (word_json type_names) (k_type c)); ("channel_unit", option_map text_value (k_unit c));
   ("pixel_type", match k_pixel c with Some p => pixel_name p | None => None end); ("component_bit_count", option_map DInt (k_bits c));
   ("acquisition_mode", option_map (word_json mode_names) (k_mode c)); ("illumination_type", option_map (word_json illumination_names) (k_illumination c));
   ("contrast_method", option_map (word_json contrast_names) (k_contrast c)); ("illumination_wavelength", option_map spectrum_json (k_light c));
   ("detection_wavelength", option_map spectrum_json (k_detect c)); ("excitation_wavelength", option_map DDbl (k_excitation c));
   ("emission_wavelength", option_map DDbl (k_emission c)); ("effective_na", option_map DDbl (k_na c)); ("dye_id", option_map text_value (k_dye c));
   ("dye_database_id", option_map text_value (k_dye_db c)); ("pinhole_size", option_map DDbl (k_pinhole c)); ("pinhole_size_airy", option_map DDbl (k_airy c));
   ("pinhole_geometry", option_map (word_json geometry_names) (k_geometry c)); ("fluor", option_map text_value (k_fluor c)); ("nd_filter", option_map DDbl (k_nd c));
   ("pocket_cell_setting", option_map DInt (k_pockel c)); ("color", option_map (fun x => DStr (hash_text x)) (k_color c));
   ("exposure_time", option_map (fun r => DStr (range_string dec r)) (k_exposure c)); ("depth_of_focus", option_map DDbl (k_depth c));
   ("section_thickness", option_map DDbl (k_section c)); ("reflector", option_map text_value (k_reflector c));
   ("condensor_contrast", option_map text_value (k_reflector c)); ("na_condensor", option_map DDbl (k_na_condenser c))]%string.
Lemma chan_gather c : channel_json c = DObj (gather (chan_list c)).
Proof. unfold channel_json. f_equal. unfold chan_list, gather. cbn [flat_map fst snd]. rewrite app_nil_r. reflexivity. Qed.

(** ** Words *)
Definition words_agree (ws : list (string * Z)) (names : list string) (words : list (string * string)) : bool :=
  forallb (fun e => existsb (fun p => String.eqb (fst p) (fst e) && String.eqb (snd p) (nth (Z.to_nat (snd e)) names ""%string)) words) ws &&
  forallb (fun p => match word_of (txt (fst p)) ws with Some _ => true | None => false end) words &&
  forallb (fun w => bytesb (txt w)) names.
Lemma word_of_some s ws v : word_of s ws = Some v -> exists w, In (w, v) ws /\ s = txt w.
Proof.
  induction ws as [|[w x] ws IH]; cbn [word_of]; [discriminate|]. destruct (str_eqb s (txt w)) eqn:E.
  - intros [= <-]. exists w. split; [now left|]. now apply str_eqb_eq.
  - intro H. destruct (IH H) as (w' & I & S). exists w'. split; [now right|exact S].
Qed.
Lemma words_said ws names words : words_agree ws names words = true ->
  (forall s v, word_of s ws = Some v -> exists w, s = txt w /\ In (w, nth (Z.to_nat v) names ""%string) words) /\
  (forall s w w', s = txt w -> In (w, w') words -> word_of s ws <> None) /\ (forall v, bytes_text (txt (nth (Z.to_nat v) names ""%string))).
Proof.
  unfold words_agree. intro H. apply andb_prop in H as [H H3]. apply andb_prop in H as [H1 H2]. rewrite !forallb_forall in *. split; [|split].
  - intros s v E. apply word_of_some in E as (w & I & ->). exists w. split; [reflexivity|]. specialize (H1 _ I). apply existsb_exists in H1 as ([a b] & J & E).
    cbn [fst snd] in E. apply andb_prop in E as [E1 E2]. apply String.eqb_eq in E1, E2. now subst.
  - intros s w w' -> I. specialize (H2 _ I). cbn [fst] in H2. destruct (word_of (txt w) ws); [discriminate|discriminate H2].
  - intro v. apply word_bytes. now apply forallb_forall.
Qed.

(** ** Bytes *)
Lemma solid_bytes s : solid s -> bytes_text s.
Proof. apply Forall_impl. intros c C. lia. Qed.
Lemma stream_bytes x : bytes_text (stream_dbl x).
Proof. apply solid_bytes, print_g_solid. Qed.
Lemma range_bytes {A} (show : A -> str) r : (forall x, bytes_text (show x)) -> bytes_text (range_string show r).
Proof.
  intro S. unfold range_string. destruct (r_single r); [apply S|]. apply bytes_app; [apply S|]. apply bytes_app; [constructor; [lia|constructor]|apply S].
Qed.
Lemma ranges_bytes l first : bytes_text (ranges_string first l).
Proof.
  revert first. induction l as [|r l IH]; intro first; cbn [ranges_string]; [constructor|]. apply bytes_app; [destruct first; [constructor|constructor; [lia|constructor]]|].
  apply bytes_app; [apply range_bytes, stream_bytes|apply IH].
Qed.
Lemma ranges_commas l : ranges_string true l = with_commas (map (range_string stream_dbl) l).
Proof.
  assert (G : forall l, ranges_string false l = flat_map (fun s => 44 :: s) (map (range_string stream_dbl) l)).
  { intro l0. induction l0 as [|r l0 IH]; [reflexivity|]. cbn [ranges_string map flat_map]. rewrite IH. reflexivity. }
  assert (W : forall s l, with_commas (s :: l) = s ++ flat_map (fun s => 44 :: s) l).
  { intros s l0. revert s. induction l0 as [|t l0 IH]; intro s; [cbn [with_commas flat_map]; now rewrite app_nil_r|].
    change (with_commas (s :: t :: l0)) with (s ++ txt "," ++ with_commas (t :: l0)). rewrite IH. reflexivity. }
  destruct l as [|r l]; [reflexivity|]. cbn [ranges_string map]. rewrite W, G. reflexivity.
Qed.

(** ** Colours *)
Lemma trim_parts s : exists w w', s = w ++ TextModel.trim s ++ w' /\ blank_text w /\ blank_text w' /\ no_outer_blank (TextModel.trim s).
Proof.
  unfold TextModel.trim. destruct (span TextModel.is_blank s) as (w, d) eqn:S1. apply span_spec in S1 as (E1 & W1 & St1). cbn [snd].
  destruct (span TextModel.is_blank (rev d)) as (v, r) eqn:S2. apply span_spec in S2 as (E2 & W2 & St2). cbn [snd].
  apply (f_equal (@rev Z)) in E2. rewrite rev_involutive, rev_app_distr in E2. exists w, (rev v). split; [now rewrite E1, E2|].
  split; [exact W1|]. split; [now apply Forall_rev|]. destruct r as [|c r]; [exact Logic.I|]. cbn [stops rev] in *. unfold no_outer_blank.
  assert (L : last (rev r ++ [c]) 0 = c) by apply last_last. destruct (rev r ++ [c]) as [|a t] eqn:R; [exact Logic.I|]. split; [|rewrite L; exact St2].
  rewrite E2 in St1. exact St1.
Qed.
Lemma narrow_mid a b c : narrow (a ++ b ++ c) -> narrow b.
Proof. intro H. apply Forall_app in H as [_ H]. apply Forall_app in H. apply H. Qed.
Lemma parse_iff s : narrow s -> exists o, parse_color s = Ok o /\ forall rgb, o = Some rgb <-> colour_text s rgb.
Proof.
  intro N. destruct (trim_parts s) as (w & w' & E & B & B' & O). exists (color_of (TextModel.trim s)).
  assert (P : parse_color s = Ok (color_of (TextModel.trim s))). { rewrite E at 1. apply parse_color_spec; auto. rewrite E in N. now apply narrow_mid in N. }
  split; [exact P|]. intro rgb. split.
  - intro C. exists w, (TextModel.trim s), w'. repeat split; auto; apply O.
  - intros (v & t & v' & E' & V & V' & O' & C). assert (T : TextModel.trim s = t) by (rewrite E'; now apply trim_spec). now rewrite T.
Qed.
Lemma hex_value_range c : is_xdigit c = true -> 0 <= hex_value c < 16.
Proof. unfold is_xdigit, hex_value. intro H. repeat match goal with |- context [if ?b then _ else _] => destruct b eqn:? end; lia. Qed.
Lemma color_head h t rgb : color_of (h :: t) = Some rgb -> h = 35.
Proof.
  intro H. destruct (Z.eq_dec h 35) as [|N]; [assumption|]. exfalso. unfold color_of in H. destruct h as [|p|p]; [discriminate| |discriminate].
  do 6 (destruct p as [p|p|]; try discriminate; try (now apply N)).
Qed.
Lemma color_range t r g b : color_of t = Some (r, g, b) -> 0 <= r < 256 /\ 0 <= g < 256 /\ 0 <= b < 256.
Proof.
  destruct t as [|h t]; [discriminate|]. intro H. pose proof (color_head _ _ _ H) as ->. unfold color_of in H.
  do 8 (destruct t as [|? t]; [discriminate|]). cbn [app] in H. destruct (forallb _ _) eqn:F; [|discriminate]. injection H as <- <- <-.
  cbn [forallb] in F. repeat (apply andb_prop in F as [? F]). unfold hexpair.
  repeat match goal with H : is_xdigit _ = true |- _ => apply hex_value_range in H end. lia.
Qed.
Lemma lower_same x : 0 <= x < 16 -> hex_lower x = lower_hex x.
Proof.
  intro H. assert (T : forallb (fun y => hex_lower y =? lower_hex y) [0;1;2;3;4;5;6;7;8;9;10;11;12;13;14;15] = true) by reflexivity.
  rewrite forallb_forall in T. assert (In x [0;1;2;3;4;5;6;7;8;9;10;11;12;13;14;15]) as J by (cbn [In]; lia). specialize (T x J). lia.
Qed.
Lemma lower_byte x : 0 <= x < 16 -> 0 < hex_lower x < 256.
Proof. unfold hex_lower. destruct (x <? 10); lia. Qed.
Lemma hash_told s rgb : colour_text s rgb -> hash_text rgb = colour_told rgb /\ bytes_text (hash_text rgb).
Proof.
  intros (w & t & w' & _ & _ & _ & _ & C). destruct rgb as ((r, g), b). apply color_range in C as (R & G & B).
  unfold hash_text, colour_told, hex2. cbn [flat_map app]. split.
  - rewrite !lower_same by lia. reflexivity.
  - repeat (constructor; [first [lia|apply lower_byte; lia]|]). constructor.
Qed.

(** ** The members *)
Section Members.
  Variable dtoa : spec_float -> str.
  Variable n : xml.
  Record told_fine (p : part) : Prop := {
    tf_texts : forall s, told_text p n s -> chars s;
    tf_numbers : forall x, told_number p n x -> writes dtoa x;
    tf_bounds : forall x, told_bound p n x -> ordinary x \/ x = DBL_MIN \/ x = DBL_MAX }.
  Record fits (e : string * option jd) (m : string * part) : Prop := {
    fit_name : fst e = fst m;
    fit_some : forall d, snd e = Some d -> plain dtoa d /\ (has_hole d <-> exists x, told_number (snd m) n x /\ finite x = false) /\
                 (~ has_hole d -> part_says n (snd m) (meant dtoa d));
    fit_none : snd e = None -> (forall x, ~ part_says n (snd m) x) /\ forall x, ~ told_number (snd m) n x }.
  Lemma fits_cons e m es ms : (told_fine (snd m) -> fits e m) -> (Forall (fun m => told_fine (snd m)) ms -> Forall2 fits es ms) ->
    Forall (fun m => told_fine (snd m)) (m :: ms) -> Forall2 fits (e :: es) (m :: ms).
  Proof. intros H1 H2 F. inversion F; subst. constructor; auto. Qed.
  Lemma no_numbers p : (forall x, ~ told_number p n x) -> forall s, has_hole (DStr s) <-> exists x, told_number p n x /\ finite x = false.
  Proof. intros N s. split; [intro H; inversion H|intros (x & X & _); now apply N in X]. Qed.
  Ltac none := intros ?x ?H; inversion H.
  Lemma fit_attribute key name : told_fine (PAttribute name) -> fits (key, option_map text_value (try_get_attribute (txt name) n)) (key, PAttribute name).
  Proof.
    intros [T _ _]. cbn [told_text] in T. constructor; cbn [fst snd]; [reflexivity| |].
    - intros d E. destruct (try_get_attribute (txt name) n) as [s|] eqn:A; [|discriminate]. injection E as <-. split; [constructor; apply utf8_bytes; now apply T|].
      split; [apply no_numbers; auto|]. intros _. now constructor.
    - intro E. destruct (try_get_attribute (txt name) n) as [s|] eqn:A; [discriminate|]. split; [|auto]. intros x H. inversion H. congruence.
  Qed.
  Lemma fit_text key name : told_fine (PText name) -> fits (key, option_map text_value (option_map text (descend [txt name] n))) (key, PText name).
  Proof.
    intros [T _ _]. cbn [told_text] in T. constructor; cbn [fst snd]; [reflexivity| |].
    - intros d E. destruct (descend [txt name] n) as [c|] eqn:A; [|discriminate]. injection E as <-. split; [constructor; apply utf8_bytes; apply T; now exists c|].
      split; [apply no_numbers; auto|]. intros _. now constructor.
    - intro E. destruct (descend [txt name] n) as [c|] eqn:A; [discriminate|]. split; [|auto]. intros x H. inversion H. unfold element in *. congruence.
  Qed.
  Lemma fit_word key name ws names words : words_agree ws names words = true ->
    fits (key, option_map (word_json names) (match descend [txt name] n with Some c => word_of (text c) ws | None => None end)) (key, PWord name words).
  Proof.
    intro A. destruct (words_said _ _ _ A) as (S1 & S2 & S3). constructor; cbn [fst snd]; [reflexivity| |].
    - intros d E. destruct (descend [txt name] n) as [c|] eqn:D; [|discriminate]. destruct (word_of (text c) ws) as [v|] eqn:W; [|discriminate]. injection E as <-.
      split; [constructor; apply S3|]. split; [apply no_numbers; auto|]. intros _. destruct (S1 _ _ W) as (w & T & I). cbn [word_json meant].
      eapply says_word; eassumption.
    - intro E. split; [|auto]. intros x H. inversion H as [| |? ? c w w' El T I| | | | |]; subst. unfold element in El. rewrite El in E.
      destruct (word_of (text c) ws) as [v|] eqn:W; [discriminate|]. now apply (S2 _ _ _ T I).
  Qed.
  Definition pixel_words : list string := ["Gray8"; "Gray16"; "Gray32Float"; "Bgr24"; "Bgr48"; "Bgr96Float"; "Bgra32"; "Gray64ComplexFloat"; "Bgr192ComplexFloat"; "Gray32"; "Gray64Float"]%string.
  Lemma pixel_said s p : word_pixel s = Some p -> exists w, In w pixel_words /\ s = txt w /\ pixel_name p = Some (DStr (txt w)).
  Proof.
    unfold word_pixel. match goal with |- match find ?f ?l with _ => _ end = _ -> _ => destruct (find f l) as [[w q]|] eqn:F; [|discriminate] end.
    intros [= <-]. apply find_some in F as (I & E). cbn [fst snd] in *. apply str_eqb_eq in E. exists w. unfold pixel_words. cbn [In] in *.
    repeat (destruct I as [I|I]; [injection I as <- <-; cbn [pixel_name]; tauto|]). destruct I.
  Qed.
  Lemma pixel_known w : In w pixel_words -> word_pixel (txt w) <> None.
  Proof. intro I. unfold pixel_words in I. cbn [In] in I. repeat (destruct I as [<-|I]; [vm_compute; discriminate|]). destruct I. Qed.
  Lemma fit_pixel key name : fits (key, match (match descend [txt name] n with Some c => word_pixel (text c) | None => None end) with Some p => pixel_name p | None => None end)
    (key, PWord name (same pixel_words)).
  Proof.
    constructor; cbn [fst snd]; [reflexivity| |].
    - intros d E. destruct (descend [txt name] n) as [c|] eqn:D; [|discriminate]. destruct (word_pixel (text c)) as [p|] eqn:W; [|discriminate].
      destruct (pixel_said _ _ W) as (w & I & T & Q). rewrite Q in E. injection E as <-. split; [constructor; apply bytes_b|].
      + unfold pixel_words in I. cbn [In] in I. repeat (destruct I as [<-|I]; [reflexivity|]). destruct I.
      + split; [apply no_numbers; auto|]. intros _. cbn [meant]. apply (says_word n name _ c w w); [exact D|exact T|]. unfold same. apply in_map_iff. eauto.
    - intro E. split; [|auto]. intros x H. inversion H as [| |? ? c w w' El T I| | | | |]; subst. unfold element in El. rewrite El in E. 
      change (In (w, w') (same pixel_words)) in I. unfold same in I. apply in_map_iff in I as (w0 & E0 & I). apply (f_equal fst) in E0. cbn [fst] in E0. subst w0. destruct (word_pixel (text c)) as [p|] eqn:W.
      + destruct (pixel_said _ _ W) as (w1 & _ & _ & Q). congruence.
      + rewrite T in W. now apply pixel_known in W.
  Qed.
  Lemma fit_number key name : told_fine (PNumber name) -> fits (key, option_map DDbl (option_map as_dbl (descend [txt name] n))) (key, PNumber name).
  Proof.
    intros [_ N _]. cbn [told_number] in N. constructor; cbn [fst snd]; [reflexivity| |].
    - intros d E. destruct (descend [txt name] n) as [c|] eqn:A; [|discriminate]. injection E as <-.
      assert (W : writes dtoa (as_dbl c)) by (apply N; now exists c). split; [now apply number_plain|]. split.
      + rewrite number_hole. cbn [told_number]. split; [intro F; exists (as_dbl c); split; [now exists c|exact F]|].
        intros (x & (c' & El & ->) & F). unfold element in El. congruence.
      + intro H. apply (says_number n name c); [exact A|]. cbn [meant]. apply W. destruct (finite (as_dbl c)) eqn:F; [reflexivity|]. now rewrite <- number_hole in F.
    - intro E. destruct (descend [txt name] n) as [c|] eqn:A; [discriminate|]. unfold element in *. split.
      + intros x H. inversion H. unfold element in *. congruence.
      + intros x (c & El & _). unfold element in El. congruence.
  Qed.
  Lemma fit_integer key name : fits (key, option_map DInt (option_map as_int (descend [txt name] n))) (key, PInteger name).
  Proof.
    constructor; cbn [fst snd]; [reflexivity| |].
    - intros d E. destruct (descend [txt name] n) as [c|] eqn:A; [|discriminate]. injection E as <-. split; [constructor; apply to_int_range|].
      split; [split; [intro H; inversion H|intros (x & [] & _)]|]. intros _. now constructor.
    - intro E. destruct (descend [txt name] n) as [c|] eqn:A; [discriminate|]. split; [|auto]. intros x H. inversion H. unfold element in *. congruence.
  Qed.
  Lemma fit_colour key name o : (forall rgb, o = Some rgb <-> exists c, element name n c /\ colour_text (text c) rgb) ->
    fits (key, option_map (fun x => DStr (hash_text x)) o) (key, PColour name).
  Proof.
    intro O. constructor; cbn [fst snd]; [reflexivity| |].
    - intros d E. destruct o as [rgb|]; [|discriminate]. injection E as <-. destruct (proj1 (O rgb) eq_refl) as (c & El & C). destruct (hash_told _ _ C) as (T & B).
      split; [now constructor|]. split; [apply no_numbers; auto|]. intros _. cbn [meant]. rewrite T. now apply (says_colour n name c).
    - intro E. destruct o as [rgb|]; [discriminate|]. split; [|auto]. intros x H. inversion H as [| | | | |? c rgb El C| |]; subst.
      assert (X : None = Some rgb) by (apply O; eauto). discriminate.
  Qed.
  Lemma fit_exposure key : fits (key, option_map (fun r => DStr (range_string dec r)) (exposure_time n)) (key, PExposure).
  Proof.
    constructor; cbn [fst snd]; [reflexivity| |].
    - intros d E. destruct (exposure_time n) as [r|] eqn:A; [|discriminate]. injection E as <-. split; [constructor; apply range_bytes, dec_bytes|].
      split; [apply no_numbers; auto|]. intros _. cbn [meant]. now apply says_exposure.
    - intro E. destruct (exposure_time n) as [r|] eqn:A; [discriminate|]. split; [|auto]. intros x H. inversion H. congruence.
  Qed.
  Lemma peak_json x : spectrum_json (Peak x) = DObj (gather [("type"%string, Some (DStr (txt "SinglePeak"))); ("single_peak"%string, Some (DDbl x))]).
  Proof. reflexivity. Qed.
  Lemma bands_json l : spectrum_json (Bands l) = DObj (gather [("type"%string, Some (DStr (txt "Ranges"))); ("ranges"%string, Some (DStr (ranges_string true l)))]).
  Proof. reflexivity. Qed.
  Lemma bands_said l : (forall r, In r l -> (ordinary (r_start r) \/ r_start r = DBL_MIN \/ r_start r = DBL_MAX) /\
      (r_single r = false -> ordinary (r_end r) \/ r_end r = DBL_MIN \/ r_end r = DBL_MAX)) -> Forall2 band_text l (map (range_string stream_dbl) l).
  Proof.
    induction l as [|r l IH]; intro H; cbn [map]; constructor; [|apply IH; intros; apply H; now right]. destruct (H r) as (S & E); [now left|].
    unfold band_text, range_string. destruct (r_single r); [now apply six_bound|]. exists (stream_dbl (r_start r)), (stream_dbl (r_end r)).
    split; [reflexivity|]. split; apply six_bound; auto.
  Qed.
  Lemma fit_spectrum key name : told_fine (PSpectrum name) -> fits (key, option_map spectrum_json (wavelength name n)) (key, PSpectrum name).
  Proof.
    intros [_ N B]. cbn [told_number told_bound] in *. constructor; cbn [fst snd]; [reflexivity| |].
    - intros d E. destruct (wavelength name n) as [s|] eqn:A; [|discriminate]. injection E as <-. destruct s as [x|l].
      + assert (W : writes dtoa x) by now apply N. rewrite peak_json. split; [|split].
        * apply gather_plain. intros k d [[= <- <-]|[[= <- <-]|[]]]; (split; [apply bytes_b; reflexivity|]); [constructor; apply bytes_b; reflexivity|now apply number_plain].
        * rewrite gather_hole. split.
          -- intros (k & d & [[= <- <-]|[[= <- <-]|[]]] & Hd); [inversion Hd|]. exists x. split; [exact A|]. now apply number_hole.
          -- intros (y & Y & F). cbn [told_number] in Y. rewrite A in Y. injection Y as <-. exists "single_peak"%string, (DDbl x). split; [right; now left|]. now apply number_hole.
        * intro H. apply (says_spectrum n name (Peak x)); [exact A|]. apply gather_says.
          -- cbn [map fst]. constructor; [|constructor; [intros []|constructor]]. intros [I|[]]. vm_compute in I. discriminate.
          -- intros k d [[= <- <-]|[[= <- <-]|[]]]; cbn [spectrum_says]; [left; auto|right]. split; [reflexivity|]. apply W.
             destruct (finite x) eqn:F; [reflexivity|]. exfalso. apply H. rewrite gather_hole. exists "single_peak"%string, (DDbl x). split; [right; now left|]. now apply number_hole.
          -- intros k v [(-> & _)|(-> & _)]; [exists "type"%string|exists "single_peak"%string]; eexists; (split; [|reflexivity]); [now left|right; now left].
      + rewrite bands_json. assert (H0 : ~ has_hole (DObj (gather [("type"%string, Some (DStr (txt "Ranges"))); ("ranges"%string, Some (DStr (ranges_string true l)))]))).
        { rewrite gather_hole. intros (k & d & [[= <- <-]|[[= <- <-]|[]]] & Hd); inversion Hd. }
        split; [|split].
        * apply gather_plain. intros k d [[= <- <-]|[[= <- <-]|[]]]; (split; [apply bytes_b; reflexivity|]); constructor; [apply bytes_b; reflexivity|apply ranges_bytes].
        * split; [contradiction|]. intros (y & Y & _). cbn [told_number] in Y. congruence.
        * intros _. apply (says_spectrum n name (Bands l)); [exact A|]. apply gather_says.
          -- cbn [map fst]. constructor; [|constructor; [intros []|constructor]]. intros [I|[]]. vm_compute in I. discriminate.
          -- intros k d [[= <- <-]|[[= <- <-]|[]]]; cbn [spectrum_says]; [left; auto|right]. split; [reflexivity|]. exists (map (range_string stream_dbl) l).
             cbn [meant]. rewrite ranges_commas. split; [|reflexivity]. apply bands_said. intros r R. split; [apply B; exists l, r; auto|intro S; apply B; exists l, r; auto].
          -- intros k v [(-> & _)|(-> & _)]; [exists "type"%string|exists "ranges"%string]; eexists; (split; [|reflexivity]); [now left|right; now left].
    - intro E. destruct (wavelength name n) as [s|] eqn:A; [discriminate|]. split; [|intros x X; cbn [told_number] in X; congruence]. intros x H. inversion H. congruence.
  Qed.
End Members.
