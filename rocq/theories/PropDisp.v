(** C92, C93: display settings and custom values in the metadata. *)
From Coq Require Import String QArith Qabs Floats.SpecFloat.
From Verif Require Import Base TextModel CodesModel XmlModel XmlSpec PugiModel PugiSpec PugiTree FloatProofs SFloatProofs ScaleNum NumModel NumSpec DocModel DocSpec DocTree DocProofs DocScale DispModel DispSpec DispNum DispPoints DispChan DispDoc DispCustom.
Open Scope Z_scope.

(** Full statement of C92: display settings which are written to the metadata of a document are what is read after it has been
    saved and loaded. *)
Definition bare_doc : list xml := [Elem ROOT [] []].
Definition half : spec_float := S754_finite false 8388608 (-24).
Definition third : spec_float := S754_finite false 11184811 (-25).
Definition almost_one : spec_float := S754_finite false 16777215 (-24).

(** false: the weight is not written *)
Theorem C92_weight_refuted : exists s doc' d' r, s_weight s = half /\ on_root (write_display [(0, s)] []) bare_doc = Ok doc' /\
  load (builder_get_xml true doc') = Ok d' /\ get_display d' = Ok (Some [r]) /\ s_weight r = one32.
Proof.
  exists (mkS true half None zero32 one32 Linear). do 3 eexists. split; [reflexivity|]. split; [vm_compute; reflexivity|]. split; [vm_compute; reflexivity|]. split; [vm_compute; reflexivity|]. reflexivity.
Qed.
Print Assumptions C92_weight_refuted.
(** false: only six digits of the black and white points and of gamma are written *)
Theorem C92_digits_refuted : exists s doc' d' r, s_white s = almost_one /\ on_root (write_display [(0, s)] []) bare_doc = Ok doc' /\
  load (builder_get_xml true doc') = Ok d' /\ get_display d' = Ok (Some [r]) /\ s_white r = one32.
Proof.
  exists (mkS true one32 None zero32 almost_one Linear). do 3 eexists. split; [reflexivity|]. split; [vm_compute; reflexivity|]. split; [vm_compute; reflexivity|]. split; [vm_compute; reflexivity|]. reflexivity.
Qed.
Print Assumptions C92_digits_refuted.
(** false: channels without settings get some; without any settings, there is one channel *)
Theorem C92_gaps_refuted : exists s doc' d' doc'' d'', on_root (write_display [(1, s)] []) bare_doc = Ok doc' /\
  load (builder_get_xml true doc') = Ok d' /\ get_display d' = Ok (Some [plain_setting; s]) /\
  on_root (write_display [] []) bare_doc = Ok doc'' /\ load (builder_get_xml true doc'') = Ok d'' /\ get_display d'' = Ok (Some [plain_setting]).
Proof.
  exists (mkS false one32 (Some (1, 2, 3)) half one32 Linear). do 4 eexists. split; [vm_compute; reflexivity|]. split; [vm_compute; reflexivity|]. split; [vm_compute; reflexivity|]. split; [vm_compute; reflexivity|]. split; [vm_compute; reflexivity|]. vm_compute. reflexivity.
Qed.
Print Assumptions C92_gaps_refuted.
(** what is read: everything but the weight, numbers up to six digits (points of splines exactly), settings without changes for
    the channels in between.  Missing: the above; numbers outside of 10^-37 .. 10^38 (10^-307 .. 10^307 for points) *)
Theorem C92_settings_partial : forall ind ds types doc doc', buildable doc -> NoDup (map fst ds) -> (forall c s, In (c, s) ds -> 0 <= c < INT_MAX /\ proper_setting s) ->
  on_root (write_display ds types) doc = Ok doc' ->
  exists d l, load (builder_get_xml ind doc') = Ok d /\ get_display d = Ok (Some l) /\
    (l <> [] /\ (forall c s, In (c, s) ds -> c < Z.of_nat (length l)) /\ (length l = 1%nat \/ exists s, In (Z.of_nat (length l) - 1, s) ds)) /\
    (forall c s, In (c, s) ds -> exists r, nth_error l (Z.to_nat c) = Some r /\ kept (Some s) r) /\
    (forall c r, 0 <= c -> nth_error l (Z.to_nat c) = Some r -> (forall s, ~ In (c, s) ds) -> kept None r).
Proof. exact display_kept. Qed.
Print Assumptions C92_settings_partial.
Definition some_settings : settings :=
  [(0, mkS true half (Some (255, 0, 16)) zero32 third (Gamma third)); (2, mkS false one32 None half one32 (Spline [(S754_finite false 6004799503160661 (-54), S754_finite false 4503599627370496 (-53))]))].
Example C92_settings_meets : buildable bare_doc /\ NoDup (map fst some_settings) /\ (forall c s, In (c, s) some_settings -> 0 <= c < INT_MAX /\ proper_setting s).
Proof.
  split; [exact fresh_buildable|]. split; [repeat constructor; cbn; lia|].
  assert (O1 : forall x, In x [half; third; one32] -> ordinary32 x).
  { intros x H. right. cbn [In] in H. destruct H as [<-|[<-|[<-|[]]]]; (split; [split; reflexivity|split; vm_compute; discriminate]). }
  intros c s [[= <- <-]|[[= <- <-]|[]]]; (split; [unfold INT_MAX; lia|]); (split; [|split; [|split]]); cbn [s_tint s_black s_white s_curve proper_curve].
  - intros r g b [= <- <- <-]. unfold byte. lia.
  - left. now exists false.
  - apply O1. cbn. auto.
  - apply O1. cbn. auto.
  - discriminate.
  - apply O1. cbn. auto.
  - apply O1. cbn. auto.
  - intros x y [[= <- <-]|[]]. split; right; (split; [split; reflexivity|split; vm_compute; discriminate]).
Qed.
Example C92_settings_example : exists doc1 d, on_root (write_display some_settings [(2, Gray16)]) bare_doc = Ok doc1 /\ load (builder_get_xml true doc1) = Ok d /\
  get_display d = Ok (Some [mkS true one32 (Some (255, 0, 16)) zero32 (S754_finite false 11184799 (-25)) (Gamma (S754_finite false 11184799 (-25))); plain_setting;
                            mkS false one32 None half one32 (Spline [(S754_finite false 6004799503160661 (-54), S754_finite false 4503599627370496 (-53))])]).
Proof. do 2 eexists. split; [vm_compute; reflexivity|]. split; [vm_compute; reflexivity|]. vm_compute. reflexivity. Qed.
(** what has been read, written to any document, is read unchanged *)
Theorem C92_again : forall ind ind2 ds types types2 doc doc' doc2 doc2' d l, buildable doc -> buildable doc2 -> (forall c s, In (c, s) ds -> 0 <= c < INT_MAX /\ proper_setting s) ->
  on_root (write_display ds types) doc = Ok doc' -> load (builder_get_xml ind doc') = Ok d -> get_display d = Ok (Some l) ->
  on_root (write_display (numbered l) types2) doc2 = Ok doc2' -> exists d2, load (builder_get_xml ind2 doc2') = Ok d2 /\ get_display d2 = Ok (Some l).
Proof. exact display_again. Qed.
Print Assumptions C92_again.
Example C92_again_example : numbered [plain_setting; plain_setting] = [(0, plain_setting); (1, plain_setting)].
Proof. reflexivity. Qed.
(** writing does not fail; the remaining document stays; identifiers and names are those of the channels of the document *)
Theorem C92_total : forall ds types doc, Forall is_element doc -> (exists r, find (matches ROOT []) doc = Some r) -> (forall c s, In (c, s) ds -> c < INT_MAX) ->
  exists doc', on_root (write_display ds types) doc = Ok doc'.
Proof. exact display_total. Qed.
Print Assumptions C92_total.
Example C92_total_meets : Forall is_element bare_doc /\ (exists r, find (matches ROOT []) bare_doc = Some r) /\ forall c s, In (c, s) some_settings -> c < INT_MAX.
Proof. split; [repeat constructor|]. split; [eexists; reflexivity|]. intros c s [[= <- _]|[[= <- _]|[]]]; unfold INT_MAX; lia. Qed.
Theorem C92_rest : forall ind ds types doc doc', buildable doc -> (forall c s, In (c, s) ds -> 0 <= c < INT_MAX /\ proper_setting s) -> on_root (write_display ds types) doc = Ok doc' ->
  exists d d', load (builder_get_xml ind doc) = Ok d /\ load (builder_get_xml ind doc') = Ok d' /\ buildable doc' /\
    (forall names, diverge names DISPLAY_NAMES -> get_node names d' = get_node names d) /\
    (forall c s, In (c, s) ds -> exists n, nth_error (channel_nodes DISPLAY_NAMES d') (Z.to_nat c) = Some n /\
       forall k, k = txt "Id" \/ k = txt "Name" -> try_get_attribute k n = filled_attribute k (nth_error (channel_nodes DIM_NAMES d) (Z.to_nat c))).
Proof. exact display_rest. Qed.
Print Assumptions C92_rest.
Example C92_rest_example : exists doc1 d, on_root (write_display some_settings [])
    [Elem ROOT [] [Elem (txt "Metadata") [] [Elem (txt "Information") [] [Elem (txt "Image") [] [Elem (txt "Dimensions") [] [Elem (txt "Channels") []
       [Elem (txt "Channel") [(txt "Name", txt "DAPI"); (txt "Id", txt "Channel:0")] []]]]]; Elem (txt "DisplaySetting") [] [Elem (txt "Channels") [] [Elem (txt "Channel") [] []; Elem (txt "Channel") [(txt "Id", txt "old")] []]]]]] = Ok doc1 /\
  load (builder_get_xml true doc1) = Ok d /\ map (try_get_attribute (txt "Id")) (channel_nodes DISPLAY_NAMES d) = [Some (txt "Channel:0"); None; None] /\
  map (try_get_attribute (txt "Name")) (channel_nodes DISPLAY_NAMES d) = [Some (txt "DAPI"); None; None].
Proof. do 2 eexists. split; [vm_compute; reflexivity|]. split; [vm_compute; reflexivity|]. split; vm_compute; reflexivity. Qed.

(** Full statement: display settings which cannot be understood are ignored.  False: numbers which are too large or too small for
    a double let reading fail; characters beyond 255 next to a number have undefined behaviour *)
Definition with_points (s : str) : list xml :=
  [Elem ROOT [] [Elem (txt "Metadata") [] [Elem (txt "DisplaySetting") [] [Elem (txt "Channels") [] [Elem (txt "Channel") []
     [Elem (txt "Mode") [] [Text (txt "Spline")]; Elem (txt "Points") [] [Text s]]]]]]].
Theorem C92_points_refuted : get_display (with_points (txt "0,0 0.5,1e-310")) = Throw /\ get_display (with_points (txt "0,0 1e309,1")) = Throw /\
  get_display (with_points (txt "0,0 0.5" ++ [8201] ++ txt ",1")) = UB.
Proof. vm_compute. repeat split. Qed.
Print Assumptions C92_points_refuted.
(** other text in points is ignored *)
Example C92_points_ignored : get_display (with_points (txt "0;0")) = Ok (Some [plain_setting]) /\ get_display (with_points (txt "0,0 x")) = Ok (Some [plain_setting]) /\ get_display (with_points (txt "")) = Ok (Some [plain_setting]).
Proof. vm_compute. repeat split. Qed.
(** reading the points always ends, and gets exact values from the texts which are written *)
Theorem C92_points_end : forall s, parse_points (length s) s <> OutOfFuel.
Proof. intros s. now apply points_end. Qed.
Print Assumptions C92_points_end.
Theorem C92_points_exact : forall l, (forall x y, In (x, y) l -> ordinary x /\ ordinary y) -> parse_points (length (points_text l)) (points_text l) = Ok (Some l).
Proof. intros l H. apply points_read; [exact H|now apply points_length]. Qed.
Print Assumptions C92_points_exact.
Example C92_points_text : points_text [(S754_zero false, S754_finite true 6004799503160661 (-54)); (S754_finite false 4503599627370496 (-52), S754_zero true)] =
  txt "0.0000000000000000000e+00,-3.3333333333333331483e-01 1.0000000000000000000e+00,-0.0000000000000000000e+00".
Proof. vm_compute. reflexivity. Qed.

(** Full statement of C93: a custom value which is added to the metadata of a document is found, with its type, after the document has been
    saved and loaded; the remaining document is unchanged; keys which are not allowed are refused. *)
Theorem C93_keys : forall key v doc, Forall is_element doc -> (exists r, find (matches ROOT []) doc = Some r) ->
  (custom_key key -> (forall n, get_node (CUSTOM_NAMES key) doc = Some n -> existsb is_elem (kids_of n) = false) -> exists doc', on_root (set_custom key v) doc = Ok doc') /\
  (~ custom_key key -> on_root (set_custom key v) doc = Throw).
Proof. exact custom_total. Qed.
Print Assumptions C93_keys.
Example C93_keys_case : map (fun k => valid_key (txt k)) ["a"; "_"; "1a"; "xm"; "xmlA"; "XmL"; "xmk"; "axml"; "x-y"; ""; "_1"]%string = [true; true; false; true; false; false; true; true; false; false; true].
Proof. reflexivity. Qed.
(** texts as found after loading (white space only is lost, line ends are changed), numbers up to fifteen and six digits.
    Missing: exact numbers and texts; numbers outside of 10^-307 .. 10^307 and 10^-37 .. 10^38 *)
Theorem C93_values_partial : forall ind key v doc doc', buildable doc -> proper_custom v -> on_root (set_custom key v) doc = Ok doc' ->
  custom_key key /\ exists d d', load (builder_get_xml ind doc) = Ok d /\ load (builder_get_xml ind doc') = Ok d' /\ buildable doc' /\
    (exists n, get_node (CUSTOM_NAMES key) d' = Some n /\ custom_read v n /\ try_get_attribute (txt "Type") n = Some (type_name v)) /\
    forall names, diverge names (CUSTOM_NAMES key) -> get_node names d' = get_node names d.
Proof. exact custom_stored. Qed.
Print Assumptions C93_values_partial.
Example C93_values_meets : exists doc1 doc2 d, buildable bare_doc /\ on_root (set_custom (txt "Gain") (CInt (-7))) bare_doc = Ok doc1 /\ on_root (set_custom (txt "Gain") (CDouble (S754_finite false 4503599627370496 (-51)))) doc1 = Ok doc2 /\
  load (builder_get_xml true doc2) = Ok d /\ get_node (CUSTOM_NAMES (txt "Gain")) d = Some (Elem (txt "Gain") [(txt "Type", txt "Double")] [Text (txt "2")]).
Proof. do 3 eexists. split; [exact fresh_buildable|]. split; [vm_compute; reflexivity|]. split; [vm_compute; reflexivity|]. split; [vm_compute; reflexivity|]. vm_compute. reflexivity. Qed.
(** a text of white space is lost, and numbers are changed *)
Theorem C93_values_refuted : exists doc1 d1 doc2 d2 n1 n2, on_root (set_custom (txt "Note") (CString (txt "  "))) bare_doc = Ok doc1 /\ load (builder_get_xml true doc1) = Ok d1 /\
  get_node (CUSTOM_NAMES (txt "Note")) d1 = Some n1 /\ text n1 = [] /\
  on_root (set_custom (txt "Factor") (CFloat almost_one)) bare_doc = Ok doc2 /\ load (builder_get_xml true doc2) = Ok d2 /\
  get_node (CUSTOM_NAMES (txt "Factor")) d2 = Some n2 /\ as_float n2 = one32.
Proof.
  do 6 eexists. split; [vm_compute; reflexivity|]. split; [vm_compute; reflexivity|]. split; [vm_compute; reflexivity|]. split; [reflexivity|].
  split; [vm_compute; reflexivity|]. split; [vm_compute; reflexivity|]. split; [vm_compute; reflexivity|]. vm_compute. reflexivity.
Qed.
Print Assumptions C93_values_refuted.
