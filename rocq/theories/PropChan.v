(** C114: the JSON text about the channels of a document *)
From Coq Require Import String Floats.SpecFloat.
From Verif Require Import Base CodecModel TextModel TextSpec PugiModel PugiSpec XmlModel NumModel DocModel RangeModel JsonModel JsonSpec JsonExamples ChanModel ChanSpec ChanProofs2 ChanExamples.
Open Scope Z_scope.

(** the text is JSON and says of every channel, under its number, what the document says, with one exception:
    of the contrast of the condenser the reflector is said *)
Theorem C114_channels_partial : forall dtoa doc ns, channel_nodes doc = Some ns -> Forall (channel_fine dtoa) ns -> Forall channel_finite ns ->
  Z.of_nat (List.length ns) < 10 ^ 19 ->
  exists t x, api_channels dtoa doc = Ok (COk, Some t) /\ json_text t x /\ object_saying x (channels_say (table_says members_told) ns).
Proof. exact channels_told. Qed.
Print Assumptions C114_channels_partial.
Example C114_channels_meets : let doc := chan_doc [chan_one "0.5"; chan_two] in
  exists ns, channel_nodes doc = Some ns /\ List.length ns = 2%nat /\ Forall (channel_fine ex_dtoa) ns /\ Forall channel_finite ns /\
  api_channels ex_dtoa doc = Ok (COk, Some (quote "{'0':{'attribute_id':'Channel:0','attribute_name':'" ++ [195; 164] ++
    quote "b','pixel_type':'Bgr24','component_bit_count':8,'acquisition_mode':'FIB_SEM','illumination_wavelength':{'type':'SinglePeak','single_peak':2.0},'detection_wavelength':{'type':'Ranges','ranges':'500.123-600,2.22507e-308-2'},'excitation_wavelength':0.5,'color':'#0a80ff','exposure_time':'150000','reflector':'R','condensor_contrast':'R'},'1':{}}")).
Proof. exact ex_channels. Qed.
(** where the two texts are the same, or both missing, everything is right *)
Theorem C114_right_partial : forall dtoa doc ns, channel_nodes doc = Some ns -> Forall (channel_fine dtoa) ns -> Forall channel_finite ns ->
  Z.of_nat (List.length ns) < 10 ^ 19 -> Forall same_text ns ->
  exists t x, api_channels dtoa doc = Ok (COk, Some t) /\ json_text t x /\ object_saying x (channels_say channel_says ns).
Proof. exact channels_right. Qed.
Print Assumptions C114_right_partial.
(** otherwise not: the contrast of the condenser is missing, or another text stands in its place *)
Theorem C114_condenser_refuted : exists ns t x y, channel_nodes (chan_doc [chan_two; chan_three]) = Some ns /\ Forall (channel_fine ex_dtoa) ns /\ Forall channel_finite ns /\
  api_channels ex_dtoa (chan_doc [chan_two; chan_three]) = Ok (COk, Some t) /\ json_text t x /\ x = VObj [(txt "0", VObj []); (txt "1", y)] /\
  ~ object_saying x (channels_say channel_says ns) /\
  t = quote "{'0':{},'1':{'reflector':'R','condensor_contrast':'R'}}".
Proof. exact ex_condenser. Qed.
Print Assumptions C114_condenser_refuted.
(** of the bounds of bands only six digits are told: different bands, the same text *)
Theorem C114_digits_refuted : exists n m, channel_nodes (band_doc "500.1234-600") = Some [n] /\ channel_nodes (band_doc "500.123-600") = Some [m] /\
  wavelength "DetectionWavelength" n <> wavelength "DetectionWavelength" m /\
  (forall dtoa, api_channels dtoa (band_doc "500.1234-600") = api_channels dtoa (band_doc "500.123-600")) /\
  forall dtoa, api_channels dtoa (band_doc "500.1234-600") = Ok (COk, Some (quote "{'0':{'detection_wavelength':{'type':'Ranges','ranges':'500.123-600'}}}")).
Proof. exact ex_digits. Qed.
Print Assumptions C114_digits_refuted.
(** a number of any channel which is not finite spoils the text of all *)
Theorem C114_torn : forall dtoa doc ns n name p x, channel_nodes doc = Some ns -> Forall (channel_fine dtoa) ns -> In n ns -> In (name, p) members_of_channel ->
  told_number p n x -> finite x = false -> exists t, api_channels dtoa doc = Ok (COk, Some t) /\ forall v, ~ json_text t v.
Proof. exact channels_torn. Qed.
Print Assumptions C114_torn.
Example C114_torn_meets : exists t, api_channels ex_dtoa (chan_doc [chan_one "1e999"]) = Ok (COk, Some t) /\ (forall v, ~ json_text t v) /\
  told_number (PNumber "ExcitationWavelength") (chan_one "1e999") (S754_infinity false).
Proof. exact ex_chan_torn. Qed.
(** a wide character in a colour: undefined *)
Theorem C114_colour_refuted : forall dtoa, api_channels dtoa (chan_doc [elem "Channel" [Elem (txt "Color") [] [Text [35; 8364]]]]) = UB.
Proof. exact ex_wide. Qed.
Print Assumptions C114_colour_refuted.
(** a document which says nothing of channels: an error *)
Theorem C114_none : forall dtoa doc, get_node (IMAGE ++ [txt "Dimensions"; txt "Channels"]) doc = None -> api_channels dtoa doc = Ok (CInvalidArgument, None).
Proof. exact no_channels. Qed.
Print Assumptions C114_none.
Example C114_none_meets : get_node (IMAGE ++ [txt "Dimensions"; txt "Channels"]) about_doc = None.
Proof. reflexivity. Qed.
