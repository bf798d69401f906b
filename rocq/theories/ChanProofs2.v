(** The JSON text about the channels of a document (ChanModel, ChanSpec): the whole of it. *)
From Coq Require Import String QArith Qabs Floats.SpecFloat.
From Verif Require Import Base CodecModel CodesModel TextModel TextSpec TextProofs TextProofs3 PugiModel PugiSpec XmlModel XmlProofs FloatProofs SFloatProofs ScaleNum NumModel NumSpec
  DocModel DocSpec DocScale RangeModel JsonModel JsonSpec JsonProofs JsonRead JsonWrite JsonInfo ChanModel ChanSpec ChanNum ChanProofs.
Open Scope Z_scope.
Local Open Scope list_scope.

Lemma in_told name p : In (name, p) members_told -> (exists name', In (name', p) members_of_channel) \/ p = PText "Reflector".
Proof.
  unfold members_told. intro I. apply in_map_iff in I as ((a, q) & E & I). cbn [fst] in E. destruct (String.eqb a "condensor_contrast").
  - right. now injection E.
  - left. injection E as <- <-. now exists a.
Qed.
Lemma reflector_member : In ("reflector"%string, PText "Reflector") members_of_channel.
Proof. unfold members_of_channel. do 26 right. left. reflexivity. Qed.
Lemma told_member name p : In (name, p) members_told -> exists name', In (name', p) members_of_channel.
Proof. intro I. apply in_told in I as [I| ->]; [exact I|]. eexists. apply reflector_member. Qed.
Lemma number_member name p x n : In (name, p) members_of_channel -> told_number p n x -> exists name', In (name', p) members_told.
Proof.
  intros I T. exists name. unfold members_told. apply in_map_iff. exists (name, p). split; [|exact I]. cbn [fst].
  destruct (String.eqb name "condensor_contrast") eqn:E; [|reflexivity]. apply String.eqb_eq in E. subst name. exfalso.
  unfold members_of_channel in I. cbn [In] in I. repeat (destruct I as [I|I]; [first [discriminate (f_equal fst I)|apply (f_equal snd) in I; cbn [snd] in I; subst p; exact T]|]).
  exact I.
Qed.

Lemma told_list : members_told =
  [("attribute_id", PAttribute "Id"); ("attribute_name", PAttribute "Name");
   ("channel_type", snd (nth 2 members_of_channel ("", PExposure)));
   ("channel_unit", PText "ChannelUnit");
   ("pixel_type", PWord "PixelType" (same pixel_words));
   ("component_bit_count", PInteger "ComponentBitCount");
   ("acquisition_mode", snd (nth 6 members_of_channel ("", PExposure)));
   ("illumination_type", snd (nth 7 members_of_channel ("", PExposure)));
   ("contrast_method", snd (nth 8 members_of_channel ("", PExposure)));
   ("illumination_wavelength", PSpectrum "IlluminationWavelength"); ("detection_wavelength", PSpectrum "DetectionWavelength");
   ("excitation_wavelength", PNumber "ExcitationWavelength"); ("emission_wavelength", PNumber "EmissionWavelength");
   ("effective_na", PNumber "EffectiveNA"); ("dye_id", PText "DyeId"); ("dye_database_id", PText "DyeDatabaseId");
   ("pinhole_size", PNumber "PinholeSize"); ("pinhole_size_airy", PNumber "PinholeSizeAiry");
   ("pinhole_geometry", PWord "PinholeGeometry" (same ["Circular"; "Rectangular"; "Other"])); ("fluor", PText "Fluor"); ("nd_filter", PNumber "NDFilter");
   ("pocket_cell_setting", PInteger "PockelCellSetting"); ("color", PColour "Color"); ("exposure_time", PExposure);
   ("depth_of_focus", PNumber "DepthOfFocus"); ("section_thickness", PNumber "SectionThickness"); ("reflector", PText "Reflector");
   ("condensor_contrast", PText "Reflector"); ("na_condensor", PNumber "NACondenser")]%string.
Proof. reflexivity. Qed.

Lemma read_fine dtoa n : channel_fine dtoa n -> exists c, read_channel n = Ok c /\ Forall2 (fits dtoa n) (chan_list c) members_told.
Proof.
  intros [FT FC FN FB].
  assert (C : exists o, match descend [txt "Color"] n with Some c => parse_color (text c) | None => Ok None end = Ok o /\
                forall rgb, o = Some rgb <-> exists c, element "Color" n c /\ colour_text (text c) rgb).
  { unfold element in *. destruct (descend [txt "Color"] n) as [c|] eqn:E.
    - destruct (parse_iff (text c)) as (o & P & Q); [now apply FC|]. exists o. split; [exact P|]. intro rgb. rewrite Q. split; [eauto|].
      intros (c' & [= <-] & H). exact H.
    - exists None. split; [reflexivity|]. intro rgb. split; [discriminate|]. intros (c & X & _). discriminate. }
  destruct C as (o & P & Q). unfold read_channel. rewrite P. cbn [bind]. eexists. split; [reflexivity|].
  assert (A : Forall (fun m => told_fine dtoa n (snd m)) members_told).
  { apply Forall_forall. intros (name, p) I. apply told_member in I as (name' & I). cbn [snd]. constructor; eauto. }
  revert A. rewrite told_list. unfold chan_list. cbn [k_id k_name k_type k_unit k_pixel k_bits k_mode k_illumination k_contrast k_light k_detect k_excitation k_emission k_na k_dye k_dye_db
    k_pinhole k_airy k_geometry k_fluor k_nd k_pockel k_color k_exposure k_depth k_section k_reflector k_condenser k_na_condenser].
  repeat (apply fits_cons; [intro TF; cbn [snd] in TF; first [exact (fit_attribute dtoa n _ _ TF)|exact (fit_text dtoa n _ _ TF)|exact (fit_number dtoa n _ _ TF)|
    exact (fit_integer dtoa n _ _)|exact (fit_spectrum dtoa n _ _ TF)|exact (fit_exposure dtoa n _)|exact (fit_colour dtoa n _ _ _ Q)|exact (fit_pixel dtoa n _ _)|
    (apply fit_word; reflexivity)]|]).
  intros _. constructor.
Qed.

(** ** One channel *)
Lemma forall2_in {A B} (R : A -> B -> Prop) l m : Forall2 R l m -> (forall a, In a l -> exists b, In b m /\ R a b) /\ (forall b, In b m -> exists a, In a l /\ R a b).
Proof.
  induction 1 as [|a b l m H F (IH1 & IH2)]; [split; intros ? []|]. split.
  - intros a' [<-|I]; [exists b; split; [now left|exact H]|]. destruct (IH1 _ I) as (b' & J & K). exists b'. split; [now right|exact K].
  - intros b' [<-|I]; [exists a; split; [now left|exact H]|]. destruct (IH2 _ I) as (a' & J & K). exists a'. split; [now right|exact K].
Qed.
Fixpoint nodupb (l : list str) : bool := match l with [] => true | x :: l' => negb (existsb (str_eqb x) l') && nodupb l' end.
Lemma nodup_b l : nodupb l = true -> NoDup l.
Proof.
  induction l as [|x l IH]; cbn [nodupb]; intro H; [constructor|]. apply andb_prop in H as [H1 H2]. constructor; [|now apply IH]. intro I.
  assert (E : existsb (str_eqb x) l = true) by (apply existsb_exists; exists x; split; [exact I|now apply str_eqb_eq]). rewrite E in H1. discriminate.
Qed.
Section One.
  Variable dtoa : spec_float -> str.
  Variable n : xml.
  Variable c : chan.
  Hypothesis F : Forall2 (fits dtoa n) (chan_list c) members_told.
  Lemma names_nodup : NoDup (map (fun e => txt (fst e)) (chan_list c)).
  Proof. apply nodup_b. reflexivity. Qed.
  Lemma names_bytes name d : In (name, d) (chan_list c) -> bytes_text (txt name).
  Proof.
    intro I. apply bytes_b. apply (in_map (fun e => bytesb (txt (fst e)))) in I. cbn [fst] in I.
    assert (T : forallb (fun b : bool => b) (map (fun e => bytesb (txt (fst e))) (chan_list c)) = true) by reflexivity. rewrite forallb_forall in T. now apply T.
  Qed.
  Lemma one_plain : plain dtoa (channel_json c).
  Proof.
    rewrite chan_gather. apply gather_plain. intros name d I. split; [eapply names_bytes; eassumption|]. destruct (forall2_in _ _ _ F) as (F1 & _).
    destruct (F1 _ I) as (m & _ & [_ S _]). now apply S.
  Qed.
  Lemma one_hole : has_hole (channel_json c) <-> exists name p x, In (name, p) members_of_channel /\ told_number p n x /\ finite x = false.
  Proof.
    rewrite chan_gather, gather_hole. destruct (forall2_in _ _ _ F) as (F1 & F2). split.
    - intros (name & d & I & H). destruct (F1 _ I) as ((a, p) & J & [_ S _]). cbn [fst snd] in *. destruct (S _ eq_refl) as (_ & (H1 & _) & _).
      destruct (H1 H) as (x & T & X). destruct (told_member _ _ J) as (b & K). exists b, p, x. auto.
    - intros (name & p & x & I & T & X). destruct (number_member _ _ _ _ I T) as (b & J). destruct (F2 _ J) as ((a, o) & K & [_ S N]). cbn [fst snd] in *.
      destruct o as [d|]; [|now apply (proj2 (N eq_refl)) in T]. exists a, d. split; [exact K|]. apply (S d eq_refl). eauto.
  Qed.
  Lemma one_says : ~ has_hole (channel_json c) -> object_saying (meant dtoa (channel_json c)) (table_says members_told n).
  Proof.
    rewrite chan_gather. intro H. destruct (forall2_in _ _ _ F) as (F1 & F2). apply gather_says; [apply names_nodup| |].
    - intros name d I. destruct (F1 _ I) as ((a, p) & J & [E S _]). cbn [fst snd] in *. subst a. exists name, p. split; [exact J|]. split; [reflexivity|].
      apply (S d eq_refl). intro X. apply H. apply gather_hole. eauto.
    - intros k x (name & p & J & -> & Y). destruct (F2 _ J) as ((a, o) & K & [E S N]). cbn [fst snd] in *. subst a.
      destruct o as [d|]; [exists name, d; auto|]. now apply (proj1 (N eq_refl)) in Y.
  Qed.
End One.

(** ** All channels *)
Lemma read_all dtoa ns : Forall (channel_fine dtoa) ns -> exists cs, read_channels ns = Ok cs /\ Forall2 (fun n c => Forall2 (fits dtoa n) (chan_list c) members_told) ns cs.
Proof.
  induction 1 as [|n ns H F (cs & R & IH)]; [exists []; split; [reflexivity|constructor]|]. destruct (read_fine _ _ H) as (c & E & G).
  exists (c :: cs). cbn [read_channels]. rewrite E. cbn [bind]. rewrite R. cbn [bind]. split; [reflexivity|]. now constructor.
Qed.
Lemma from_in l i k d : In (k, d) (channels_from i l) <-> exists j c, nth_error l j = Some c /\ k = dec (i + Z.of_nat j) /\ d = channel_json c.
Proof.
  revert i. induction l as [|c l IH]; intro i; cbn [channels_from In].
  - split; [intros []|intros ([|j] & c & H & _); discriminate].
  - rewrite IH. split.
    + intros [[= <- <-]|(j & c' & H & -> & ->)]; [exists 0%nat, c; split; [reflexivity|]; split; [f_equal; lia|reflexivity]|].
      exists (S j), c'. split; [exact H|]. split; [f_equal; lia|reflexivity].
    + intros ([|j] & c' & H & -> & ->); cbn [nth_error] in H.
      * injection H as ->. left. f_equal. f_equal. lia.
      * right. exists j, c'. split; [exact H|]. split; [f_equal; lia|reflexivity].
Qed.
Lemma from_nodup l i : 0 <= i -> i + Z.of_nat (List.length l) < 10 ^ 19 -> NoDup (map fst (channels_from i l)).
Proof.
  revert i. induction l as [|c l IH]; intros i P B; cbn [channels_from map fst]; [constructor|]. cbn [List.length] in B. constructor; [|apply IH; lia].
  intro I. apply in_map_iff in I as ((k, d) & E & I). cbn [fst] in E. subst k. apply from_in in I as (j & c' & N & E & _).
  assert (L : (j < List.length l)%nat) by (apply nth_error_Some; congruence). apply dec_inj in E; lia.
Qed.
Lemma forall2_nth {A B} (R : A -> B -> Prop) l m : Forall2 R l m -> forall i b, nth_error m i = Some b -> exists a, nth_error l i = Some a /\ R a b.
Proof. induction 1 as [|a b l m H F IH]; intros [|i] b' E; try discriminate; cbn [nth_error] in *; [injection E as <-; eauto|now apply IH]. Qed.
Lemma forall2_nth' {A B} (R : A -> B -> Prop) l m : Forall2 R l m -> forall i a, nth_error l i = Some a -> exists b, nth_error m i = Some b /\ R a b.
Proof. induction 1 as [|a b l m H F IH]; intros [|i] a' E; try discriminate; cbn [nth_error] in *; [injection E as <-; eauto|now apply IH]. Qed.
Lemma forall2_len {A B} (R : A -> B -> Prop) l m : Forall2 R l m -> List.length l = List.length m.
Proof. induction 1; cbn [List.length]; congruence. Qed.
Section All.
  Variable dtoa : spec_float -> str.
  Variables (ns : list xml) (cs : list chan).
  Hypothesis F : Forall2 (fun n c => Forall2 (fits dtoa n) (chan_list c) members_told) ns cs.
  Lemma all_plain : plain dtoa (channels_json cs).
  Proof.
    constructor. apply Forall_forall. intros (k, d) I. apply from_in in I as (j & c & N & -> & ->). cbn [fst snd]. split; [apply dec_bytes|].
    destruct (forall2_nth _ _ _ F _ _ N) as (n & _ & G). eapply one_plain. exact G.
  Qed.
  Lemma all_hole : has_hole (channels_json cs) <-> exists n name p x, In n ns /\ In (name, p) members_of_channel /\ told_number p n x /\ finite x = false.
  Proof.
    unfold channels_json. split.
    - intro H. inversion H as [| | |? k d I D]; subst. apply from_in in I as (j & c & N & -> & ->). destruct (forall2_nth _ _ _ F _ _ N) as (n & E & G).
      destruct (proj1 (one_hole _ _ _ G) D) as (name & p & x & Q). exists n, name, p, x. split; [eapply nth_error_In; exact E|exact Q].
    - intros (n & name & p & x & I & D). apply In_nth_error in I as (j & E). destruct (forall2_nth' _ _ _ F _ _ E) as (c & N & G).
      apply (HObj _ (dec (0 + Z.of_nat j)) (channel_json c)); [apply from_in; eauto|]. apply (one_hole _ _ _ G). eauto.
  Qed.
  Lemma all_says : Z.of_nat (List.length ns) < 10 ^ 19 -> ~ has_hole (channels_json cs) ->
    object_saying (meant dtoa (channels_json cs)) (channels_say (table_says members_told) ns).
  Proof.
    intros L H. unfold channels_json in *. cbn [meant]. eexists. split; [reflexivity|]. rewrite map_map. cbn [fst]. split.
    { apply from_nodup; [lia|]. assert (LL : List.length ns = List.length cs) by exact (forall2_len _ _ _ F). lia. }
    split.
    - intros k x I. apply in_map_iff in I as ((k', d) & E & I). cbn [fst snd] in E. injection E as <- <-. pose proof I as I0. apply from_in in I as (j & c & N & -> & ->).
      destruct (forall2_nth _ _ _ F _ _ N) as (n & E & G). exists j, n. split; [exact E|]. split; [reflexivity|]. eapply one_says; [exact G|].
      intro X. apply H. eapply HObj; [exact I0|exact X].
    - intros k x (j & n & E & -> & _). destruct (forall2_nth' _ _ _ F _ _ E) as (c & N & G).
      apply in_map_iff. exists (dec (0 + Z.of_nat j), channel_json c). split; [reflexivity|]. apply from_in. eauto.
  Qed.
End All.
Theorem channels_told dtoa doc ns : channel_nodes doc = Some ns -> Forall (channel_fine dtoa) ns -> Forall channel_finite ns -> Z.of_nat (List.length ns) < 10 ^ 19 ->
  exists t x, api_channels dtoa doc = Ok (COk, Some t) /\ json_text t x /\ object_saying x (channels_say (table_says members_told) ns).
Proof.
  intros N A B L. destruct (read_all _ _ A) as (cs & R & F). unfold api_channels. rewrite N, R. cbn [bind]. eexists. exists (meant dtoa (channels_json cs)).
  assert (H : ~ has_hole (channels_json cs)).
  { rewrite (all_hole _ _ _ F). intros (n & name & p & x & I & J & T & X). rewrite Forall_forall in B. rewrite (B n I name p x J T) in X. discriminate. }
  split; [reflexivity|]. split; [apply written; [now apply (all_plain _ ns)|exact H]|]. now apply all_says.
Qed.
Theorem channels_torn dtoa doc ns n name p x : channel_nodes doc = Some ns -> Forall (channel_fine dtoa) ns -> In n ns -> In (name, p) members_of_channel ->
  told_number p n x -> finite x = false -> exists t, api_channels dtoa doc = Ok (COk, Some t) /\ forall v, ~ json_text t v.
Proof.
  intros N A I J T X. destruct (read_all _ _ A) as (cs & R & F). unfold api_channels. rewrite N, R. cbn [bind]. eexists. split; [reflexivity|].
  intro v. apply torn; [now apply (all_plain _ ns)|]. apply (all_hole _ _ _ F). exists n, name, p, x. auto.
Qed.
Theorem no_channels dtoa doc : get_node (IMAGE ++ [txt "Dimensions"; txt "Channels"]) doc = None -> api_channels dtoa doc = Ok (CInvalidArgument, None).
Proof. intro H. unfold api_channels, channel_nodes. now rewrite H. Qed.

(** ** Where the contrast of the condenser and the reflector are the same *)
Definition same_text (n : xml) : Prop := option_map text (descend [txt "CondenserContrast"] n) = option_map text (descend [txt "Reflector"] n).
Lemma same_says n x : same_text n -> part_says n (PText "CondenserContrast") x <-> part_says n (PText "Reflector") x.
Proof.
  unfold same_text. intro S. split; intro H; inversion H as [|? c E| | | | | |]; subst; unfold element in E; rewrite E in S; cbn [option_map] in S.
  - destruct (descend [txt "Reflector"] n) as [d|] eqn:D; [|discriminate]. injection S as ->. now apply says_text.
  - destruct (descend [txt "CondenserContrast"] n) as [d|] eqn:D; [|discriminate]. injection S as <-. now apply says_text.
Qed.
Lemma condensor_in : In ("condensor_contrast"%string, PText "CondenserContrast") members_of_channel.
Proof. unfold members_of_channel. do 27 right. left. reflexivity. Qed.
Lemma condensor_only p : In ("condensor_contrast"%string, p) members_of_channel -> p = PText "CondenserContrast".
Proof.
  unfold members_of_channel. intro I. cbn [In] in I.
  repeat (destruct I as [I|I]; [first [discriminate (f_equal fst I)|apply (f_equal snd) in I; cbn [snd] in I; now subst p]|]). destruct I.
Qed.
Lemma same_table n k x : same_text n -> table_says members_told n k x <-> channel_says n k x.
Proof.
  intro S. unfold channel_says, table_says, members_told. split.
  - intros (name & p & I & -> & H). apply in_map_iff in I as ((a, q) & E & I). cbn [fst] in E. destruct (String.eqb a "condensor_contrast") eqn:Q.
    + apply String.eqb_eq in Q. subst a. injection E as <- <-. exists "condensor_contrast"%string, (PText "CondenserContrast"). split; [apply condensor_in|].
      split; [reflexivity|]. now apply same_says.
    + injection E as <- <-. exists a, q. auto.
  - intros (name & p & I & -> & H). destruct (String.eqb name "condensor_contrast") eqn:Q.
    + apply String.eqb_eq in Q. subst name. rewrite (condensor_only _ I) in H. exists "condensor_contrast"%string, (PText "Reflector"). split.
      * apply in_map_iff. exists ("condensor_contrast"%string, PText "CondenserContrast"). split; [reflexivity|apply condensor_in].
      * split; [reflexivity|]. now apply same_says.
    + exists name, p. split; [apply in_map_iff; exists (name, p); cbn [fst]; rewrite Q; auto|]. auto.
Qed.
Lemma saying_iff v (p q : str -> jv -> Prop) : (forall k x, p k x <-> q k x) -> object_saying v p <-> object_saying v q.
Proof.
  intro E. split; intros (l & -> & N & A & B); exists l; (split; [reflexivity|]); (split; [exact N|]); split.
  - intros k x I. apply E. now apply A.
  - intros k x H. apply E in H. now apply (B k x).
  - intros k x I. apply E. now apply A.
  - intros k x H. apply E in H. now apply (B k x).
Qed.
Theorem channels_right dtoa doc ns : channel_nodes doc = Some ns -> Forall (channel_fine dtoa) ns -> Forall channel_finite ns -> Z.of_nat (List.length ns) < 10 ^ 19 ->
  Forall same_text ns -> exists t x, api_channels dtoa doc = Ok (COk, Some t) /\ json_text t x /\ object_saying x (channels_say channel_says ns).
Proof.
  intros N A B L S. destruct (channels_told dtoa doc ns N A B L) as (t & x & T & J & O). exists t, x. split; [exact T|]. split; [exact J|].
  revert O. apply saying_iff. intros k y. unfold channels_say. split; intros (i & n & I & K & Y); exists i, n; (split; [exact I|]); (split; [exact K|]); revert Y; apply saying_iff; intros;
    [|symmetry]; apply same_table; rewrite Forall_forall in S; apply S; eapply nth_error_In; exact I.
Qed.
