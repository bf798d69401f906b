(** Cases for ChanProofs2. *)
From Coq Require Import String QArith Qabs Floats.SpecFloat.
From Verif Require Import Base CodecModel CodesModel TextModel TextSpec PugiModel PugiSpec XmlModel FloatProofs SFloatProofs ScaleNum NumModel NumSpec
  DocModel DocSpec RangeModel JsonModel JsonSpec JsonRead JsonWrite JsonInfo JsonExamples ChanModel ChanSpec ChanNum ChanProofs ChanProofs2.
Open Scope Z_scope.

Definition chan_doc (l : list xml) : list xml := image_doc [elem "Image" [elem "Dimensions" [elem "Channels" l]]].
Definition chan_one (excitation : string) : xml :=
  Elem (txt "Channel") [(txt "Id", txt "Channel:0"); (txt "Name", [228; 98])]
    [leaf "AcquisitionMode" "FIB-SEM"; leaf "PixelType" "Bgr24"; leaf "ComponentBitCount" "8"; leaf "ContrastMethod" "Foo"; leaf "Color" " #FF0a80Ff";
     leaf "ExcitationWavelength" excitation; elem "IlluminationWavelength" [leaf "SinglePeak" "2"]; elem "DetectionWavelength" [leaf "Ranges" "500.1234-600,-2"];
     leaf "ExposureTime" "150000"; leaf "Reflector" "R"].
Definition chan_two : xml := elem "Channel" [leaf "CondenserContrast" "C"].
Definition chan_three : xml := elem "Channel" [leaf "Reflector" "R"; leaf "CondenserContrast" "C"].
Ltac members I := unfold members_of_channel in I; cbn [In] in I;
  repeat (destruct I as [I|I]; [apply (f_equal snd) in I; cbn [snd] in I; subst|]); [..|destruct I].
Lemma element_same name n c : element name n c -> descend [txt name] n = Some c.
Proof. exact (fun H => H). Qed.
Lemma chars_b s : forallb (fun c => (1 <=? c) && (c <? 2097152)) s = true -> chars s.
Proof. intro H. apply Forall_forall. intros c I. rewrite forallb_forall in H. specialize (H c I). lia. Qed.
Lemma ordinary_q s m e : valid_binary 53 1024 (S754_finite s m e) = true -> NumSpec.moderate (sfQ (S754_finite s m e)) -> ordinary (S754_finite s m e).
Proof. intros V M. right. split; [now split|exact M]. Qed.
Lemma bound_ok x : In x [as_dbl (leaf "x" "500.1234"); as_dbl (leaf "x" "600"); DBL_MIN; as_dbl (leaf "x" "2")] -> ordinary x \/ x = DBL_MIN \/ x = DBL_MAX.
Proof.
  intro I. repeat (destruct I as [<-|I]; [first [right; left; reflexivity|left; match goal with |- ordinary ?x => let v := eval vm_compute in x in change (ordinary v) end;
    apply ordinary_q; [reflexivity|split; vm_compute; discriminate]]|]). destruct I.
Qed.
Lemma one_fine : channel_fine ex_dtoa (chan_one "0.5") /\ channel_finite (chan_one "0.5").
Proof.
  assert (N : forall name p x, In (name, p) members_of_channel -> told_number p (chan_one "0.5") x -> In x [two64; half64; zero64]).
  { intros name p x I T. members I; cbn [told_number] in T; try (now destruct T);
      try (destruct T as (c & E & ->); unfold element in E; vm_compute in E; first [discriminate|injection E as <-; right; left; vm_compute; reflexivity]);
      vm_compute in T; first [discriminate|injection T as <-; now left]. }
  split; [constructor|].
  - intros name p s I T. members I; cbn [told_text] in T; try (now destruct T);
      try (destruct T as (c & E & ->); unfold element in E; vm_compute in E; first [discriminate|injection E as <-; apply chars_b; reflexivity]);
      vm_compute in T; injection T as <-; apply chars_b; reflexivity.
  - intros c E. unfold element in E. vm_compute in E. injection E as <-. apply Forall_forall. intros c I. vm_compute in I. lia.
  - intros name p x I T. now apply ex_writes, (N name p).
  - intros name p x I T. members I; cbn [told_bound] in T; try (now destruct T).
    + destruct T as (l & r & E & _). vm_compute in E. discriminate.
    + destruct T as (l & r & E & R & X). apply bound_ok.
      assert (W : wavelength "DetectionWavelength" (chan_one "0.5") =
        Some (Bands [mkR false (as_dbl (leaf "x" "500.1234")) (as_dbl (leaf "x" "600")); mkR false DBL_MIN (as_dbl (leaf "x" "2"))])) by (vm_compute; reflexivity).
      rewrite W in E. apply (f_equal (fun o => match o with Some (Bands l) => l | _ => [] end)) in E. cbn beta iota in E. subst l.
      destruct R as [<-|[<-|[]]]; cbn [r_start r_end r_single] in X; destruct X as [->|(_ & ->)]; cbn [In]; tauto.
  - intros name p x I T. now apply ex_writes, (N name p).
Qed.
Lemma few_fine n : In n [chan_two; chan_three] -> channel_fine ex_dtoa n /\ channel_finite n.
Proof.
  intros [<-|[<-|[]]].
  - assert (N : forall name p x, In (name, p) members_of_channel -> told_number p chan_two x -> False).
    { intros name p x I T. members I; cbn [told_number] in T; try (now destruct T); try (destruct T as (c & E & _); vm_compute in E; discriminate); vm_compute in T; discriminate. }
    split; [constructor|].
    + intros name p s I T. members I; cbn [told_text] in T; try (now destruct T);
        try (destruct T as (c & E & ->); unfold element in E; vm_compute in E; first [discriminate|injection E as <-; apply chars_b; reflexivity]); vm_compute in T; discriminate.
    + intros c E. vm_compute in E. discriminate.
    + intros name p x I T. now destruct (N name p x I T).
    + intros name p x I T. members I; cbn [told_bound] in T; try (now destruct T); destruct T as (l & r & E & _); vm_compute in E; discriminate.
    + intros name p x I T. now destruct (N name p x I T).
  - assert (N : forall name p x, In (name, p) members_of_channel -> told_number p chan_three x -> False).
    { intros name p x I T. members I; cbn [told_number] in T; try (now destruct T); try (destruct T as (c & E & _); vm_compute in E; discriminate); vm_compute in T; discriminate. }
    split; [constructor|].
    + intros name p s I T. members I; cbn [told_text] in T; try (now destruct T);
        try (destruct T as (c & E & ->); unfold element in E; vm_compute in E; first [discriminate|injection E as <-; apply chars_b; reflexivity]); vm_compute in T; discriminate.
    + intros c E. vm_compute in E. discriminate.
    + intros name p x I T. now destruct (N name p x I T).
    + intros name p x I T. members I; cbn [told_bound] in T; try (now destruct T); destruct T as (l & r & E & _); vm_compute in E; discriminate.
    + intros name p x I T. now destruct (N name p x I T).
Qed.
Lemma ex_channels : let doc := chan_doc [chan_one "0.5"; chan_two] in
  exists ns, channel_nodes doc = Some ns /\ List.length ns = 2%nat /\ Forall (channel_fine ex_dtoa) ns /\ Forall channel_finite ns /\
  api_channels ex_dtoa doc = Ok (COk, Some (quote "{'0':{'attribute_id':'Channel:0','attribute_name':'" ++ [195; 164] ++
    quote "b','pixel_type':'Bgr24','component_bit_count':8,'acquisition_mode':'FIB_SEM','illumination_wavelength':{'type':'SinglePeak','single_peak':2.0},'detection_wavelength':{'type':'Ranges','ranges':'500.123-600,2.22507e-308-2'},'excitation_wavelength':0.5,'color':'#0a80ff','exposure_time':'150000','reflector':'R','condensor_contrast':'R'},'1':{}}")).
Proof.
  intro doc. exists [chan_one "0.5"; chan_two]. split; [reflexivity|]. split; [reflexivity|].
  assert (T : channel_fine ex_dtoa chan_two /\ channel_finite chan_two) by (apply few_fine; now left). destruct one_fine as (A & B), T as (A' & B').
  split; [constructor; [exact A|constructor; [exact A'|constructor]]|]. split; [constructor; [exact B|constructor; [exact B'|constructor]]|]. vm_compute. reflexivity.
Qed.

(** ** The contrast of the condenser *)
Lemma condensor_member : In ("condensor_contrast"%string, PText "CondenserContrast") members_of_channel.
Proof. unfold members_of_channel. do 27 right. left. reflexivity. Qed.
Lemma ex_condenser : exists ns t x y, channel_nodes (chan_doc [chan_two; chan_three]) = Some ns /\ Forall (channel_fine ex_dtoa) ns /\ Forall channel_finite ns /\
  api_channels ex_dtoa (chan_doc [chan_two; chan_three]) = Ok (COk, Some t) /\ json_text t x /\ x = VObj [(txt "0", VObj []); (txt "1", y)] /\
  ~ object_saying x (channels_say channel_says ns) /\
  t = quote "{'0':{},'1':{'reflector':'R','condensor_contrast':'R'}}".
Proof.
  exists [chan_two; chan_three], (quote "{'0':{},'1':{'reflector':'R','condensor_contrast':'R'}}"). do 2 eexists.
  split; [reflexivity|]. split; [constructor; [apply few_fine; now left|constructor; [apply few_fine; right; now left|constructor]]|].
  split; [constructor; [apply few_fine; now left|constructor; [apply few_fine; right; now left|constructor]]|].
  split; [vm_compute; reflexivity|].
  split; [apply JsonRead.read_iff; [intro H; vm_compute in H; repeat (destruct H as [H|H]; [discriminate|]); destruct H|vm_compute; reflexivity]|].
  split; [reflexivity|]. split; [|reflexivity].
  intros (l & E & _ & S & _). injection E as <-. destruct (S (txt "0") (VObj [])) as (j & n & N & D & O); [now left|].
  assert (J : (j < 2)%nat) by (apply (nth_error_Some [chan_two; chan_three]); congruence).
  change (txt "0") with (dec 0) in D. apply dec_inj in D; [|lia|lia]. destruct j as [|j]; [|lia]. injection N as <-. destruct O as (m & E & _ & _ & C). injection E as <-.
  apply (C (txt "condensor_contrast") (VStr (utf8_encode (txt "C")))). exists "condensor_contrast"%string, (PText "CondenserContrast"). split; [exact condensor_member|].
  split; [reflexivity|]. apply (says_text chan_two "CondenserContrast" (leaf "CondenserContrast" "C")). reflexivity.
Qed.
(** ** Six digits *)
Definition band_doc (s : string) : list xml := chan_doc [elem "Channel" [elem "DetectionWavelength" [leaf "Ranges" s]]].
Lemma ex_digits : exists n m, channel_nodes (band_doc "500.1234-600") = Some [n] /\ channel_nodes (band_doc "500.123-600") = Some [m] /\
  wavelength "DetectionWavelength" n <> wavelength "DetectionWavelength" m /\
  (forall dtoa, api_channels dtoa (band_doc "500.1234-600") = api_channels dtoa (band_doc "500.123-600")) /\
  forall dtoa, api_channels dtoa (band_doc "500.1234-600") = Ok (COk, Some (quote "{'0':{'detection_wavelength':{'type':'Ranges','ranges':'500.123-600'}}}")).
Proof.
  do 2 eexists. split; [reflexivity|]. split; [reflexivity|]. split; [vm_compute; discriminate|]. split; intro dtoa; vm_compute; reflexivity.
Qed.
(** ** Numbers which are not finite, wide characters in colours, documents without channels *)
Lemma ex_chan_torn : exists t, api_channels ex_dtoa (chan_doc [chan_one "1e999"]) = Ok (COk, Some t) /\ (forall v, ~ json_text t v) /\
  told_number (PNumber "ExcitationWavelength") (chan_one "1e999") (S754_infinity false).
Proof.
  eexists. split; [vm_compute; reflexivity|]. split.
  - intros v H. apply JsonRead.read_iff in H; [|intro I; repeat (destruct I as [I|I]; [discriminate|]); destruct I]. vm_compute in H. discriminate.
  - exists (leaf "ExcitationWavelength" "1e999"). split; [reflexivity|vm_compute; reflexivity].
Qed.
Lemma ex_wide dtoa : api_channels dtoa (chan_doc [elem "Channel" [Elem (txt "Color") [] [Text [35; 8364]]]]) = UB.
Proof. vm_compute. reflexivity. Qed.
