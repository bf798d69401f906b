(** C113: JSON texts given to the C API and handed out by it. *)
From Coq Require Import String Floats.SpecFloat.
From Verif Require Import Base CodecModel TextModel PugiModel PugiSpec XmlModel CoordModel StatModel StatSpec StatExamples NumModel DocModel GuidModel GuidSpec
  JsonModel JsonSpec JsonRead JsonWrite JsonInfo JsonExamples.
Open Scope Z_scope.

(** Full statement: a text given to the C API is understood exactly if it is JSON; the texts handed out by it are JSON and say what is known, no more
    and no less. *)

(** a text is read exactly if it is JSON, as the value it has *)
Theorem C113_read : forall s v, ~ In 0 s -> (json_read s = Some v <-> json_text s v).
Proof. exact JsonRead.read_iff. Qed.
Print Assumptions C113_read.
Example C113_read_meets : ~ In 0 ex_text /\ json_text ex_text ex_value /\
  forall s, In s ["{'a':1,}"; "[01]"; "{'a' 1}"; "'\x'"; "[1] 2"; "{a:1}"; "1."]%string -> json_read (quote s) = None.
Proof. exact ex_read. Qed.
(** options of writers and accessors *)
Theorem C113_options : forall s, ~ In 0 s -> (duplicates_allowed (json_doc s) = true <-> json_has s "allow_duplicate_subblocks" (VBool true)) /\
  (mask_aware (json_doc s) = true <-> json_has s "mask_aware" (VBool true)).
Proof. exact options_text. Qed.
Print Assumptions C113_options.
(** parameters of files which are created *)
Theorem C113_parameters : forall fresh s, ~ In 0 s -> let p := in_force fresh (json_doc s) in
  (forall g, json_guid s g -> pr_guid p = g) /\ ((forall g, ~ json_guid s g) -> pr_guid p = fresh) /\
  (forall n, pr_rmeta p = Some n <-> json_number s "reserved_size_metadata_segment" 0 (2 ^ 32) n) /\
  (forall n, pr_rdir p = Some n <-> json_number s "reserved_size_subblock_directory" 0 (2 ^ 32) n) /\
  (forall n, pr_ratt p = Some n <-> json_number s "reserved_size_attachments_directory" 0 (2 ^ 32) n) /\
  (forall lo hi, pr_m p = Some (lo, hi) <-> json_number s "minimum_m_index" (- 2 ^ 31) (2 ^ 31) lo /\ json_number s "maximum_m_index" (- 2 ^ 31) (2 ^ 31) hi /\ lo <= hi).
Proof. exact parameters_text. Qed.
Print Assumptions C113_parameters.
Example C113_parameters_meets : ~ In 0 ex_options /\ mask_aware (json_doc ex_options) = true /\ duplicates_allowed (json_doc ex_options) = false /\
  pr_rdir (in_force (repeat 1 16) (json_doc ex_options)) = Some 7 /\
  pr_guid (in_force (repeat 1 16) (json_doc ex_options)) = [205; 171; 35; 1; 103; 69; 171; 137; 254; 220; 186; 152; 118; 84; 50; 16].
Proof. exact ex_options_read. Qed.

(** false of numbers which are not finite: the function succeeds, its text ends at the number and is no JSON *)
Theorem C113_infinite_refuted : forall dtoa, (forall x, In x [zero64; two64; half64] -> writes dtoa x) -> exists z t, get_zinfo (z_doc "1e999") = Ok (Some z) /\
  In (S754_infinity false) (z_numbers z) /\ api_dimension dtoa 1 (z_doc "1e999") = Ok (COk, Some t) /\ forall v, ~ json_text t v.
Proof. exact ex_z_torn. Qed.
Print Assumptions C113_infinite_refuted.
Example C113_infinite_text : (forall x, In x [two64; half64; zero64] -> finite x = true /\ writes ex_dtoa x) /\
  api_dimension ex_dtoa 1 (z_doc "1e999") = Ok (COk, Some (quote "{'reference_position':")).
Proof. exact (conj ex_writes ex_z_text). Qed.
(** false of other dimensions: the function succeeds without a text *)
Theorem C113_other_dimensions_refuted : forall dtoa doc d, d <> 1 -> d <> 2 -> d <> 3 -> api_dimension dtoa d doc = Ok (COk, None).
Proof. exact other_dimensions. Qed.
Print Assumptions C113_other_dimensions_refuted.

(** whatever is written: JSON with the value meant if all numbers are finite, no JSON otherwise *)
Theorem C113_written_partial : forall dtoa d, plain dtoa d ->
  (~ has_hole d -> json_text (json_string dtoa d) (meant dtoa d)) /\ (has_hole d -> forall v, ~ json_text (json_string dtoa d) v).
Proof. exact written_or_torn. Qed.
Print Assumptions C113_written_partial.
(** general information: exactly the fields which are valid, in UTF-8 *)
Theorem C113_general : forall dtoa doc, (forall name s, In (name, Some s) (general_texts (get_general doc)) -> chars s) ->
  exists t v, api_general dtoa doc = (COk, Some t) /\ json_text t v /\ object_saying v (general_says (get_general doc)).
Proof. exact general_said_json. Qed.
Print Assumptions C113_general.
Example C113_general_meets : g_name (get_general about_doc) = Some [97; 34; 228; 10] /\ chars [97; 34; 228; 10] /\
  api_general ex_dtoa about_doc = (COk, Some ([123; 34] ++ txt "name" ++ [34; 58; 34; 97; 92; 34; 195; 164; 92; 110; 34] ++ quote ",'rating':-3}")).
Proof. exact ex_general. Qed.
(** Z: exactly what is known; numbers are read as the same ones.  Missing: numbers which are not finite *)
Theorem C113_z_partial : forall dtoa doc z, get_zinfo doc = Ok (Some z) -> (forall x, In x (z_numbers z) -> finite x = true /\ writes dtoa x) ->
  exists t v, api_dimension dtoa 1 doc = Ok (COk, Some t) /\ json_text t v /\ object_saying v (z_says z).
Proof. exact z_written. Qed.
Print Assumptions C113_z_partial.
Example C113_z_meets : exists z, get_zinfo (z_doc "0.5") = Ok (Some z) /\ z_numbers z = [half64; zero64; two64; half64] /\
  api_dimension ex_dtoa 1 (z_doc "0.5") = Ok (COk, Some (quote
    "{'reference_position':0.5,'interval_definition':[0.0,2.0],'xyz_handedness':'right_handed','z_drive_speed':0.5}")).
Proof. exact ex_z. Qed.
(** T *)
Theorem C113_t_partial : forall dtoa doc t, get_tinfo doc = Ok (Some t) -> (forall x, In x (position_numbers (t_pos t)) -> finite x = true /\ writes dtoa x) ->
  exists s v, api_dimension dtoa 3 doc = Ok (COk, Some s) /\ json_text s v /\ object_saying v (t_says t).
Proof. exact t_written. Qed.
Print Assumptions C113_t_partial.
Example C113_t_meets : exists t, get_tinfo t_doc = Ok (Some t) /\ position_numbers (t_pos t) = [zero64; half64; two64] /\
  api_dimension ex_dtoa 3 t_doc = Ok (COk, Some (quote "{'start_time':'2020-02-29T12:00:00Z','offset_list':[0.0,0.5,2.0]}")).
Proof. exact ex_t. Qed.
(** where the document object has nothing to tell of the dimension, or throws, the C API returns an error and no text *)
Theorem C113_nothing_told : forall dtoa doc,
  (get_zinfo doc = Ok None -> api_dimension dtoa 1 doc = Ok (CInvalidArgument, None)) /\ (get_zinfo doc = Throw -> api_dimension dtoa 1 doc = Ok (CUnspecified, None)) /\
  (get_tinfo doc = Ok None -> api_dimension dtoa 3 doc = Ok (CInvalidArgument, None)) /\ (get_tinfo doc = Throw -> api_dimension dtoa 3 doc = Ok (CUnspecified, None)).
Proof. exact nothing_told. Qed.
Print Assumptions C113_nothing_told.
Example C113_nothing_told_meets : get_zinfo t_doc = Ok None /\ get_tinfo (z_doc "0.5") = Ok None.
Proof. split; vm_compute; reflexivity. Qed.
(** exactly the numbers which are not finite spoil the texts *)
Theorem C113_torn : forall dtoa doc,
  (forall z x, get_zinfo doc = Ok (Some z) -> (forall x, In x (z_numbers z) -> writes dtoa x) -> In x (z_numbers z) -> finite x = false ->
     exists t, api_dimension dtoa 1 doc = Ok (COk, Some t) /\ forall v, ~ json_text t v) /\
  (forall t x, get_tinfo doc = Ok (Some t) -> (forall x, In x (position_numbers (t_pos t)) -> writes dtoa x) -> In x (position_numbers (t_pos t)) -> finite x = false ->
     exists s, api_dimension dtoa 3 doc = Ok (COk, Some s) /\ forall v, ~ json_text s v).
Proof. exact torn_texts. Qed.
Print Assumptions C113_torn.
(** pyramid statistics of a document: every scene once, with the layers and counts of its sub-blocks *)
Theorem C113_pyramid : forall dtoa es, Forall entry_ok es -> bounds_fit es -> Z.of_nat (length es) <= INT_MAX ->
  exists u p t v, open_stats es = Ok u /\ pyramid es p /\ api_pyramid dtoa u = (COk, Some t) /\ json_text t v /\ pyramid_says p v.
Proof. exact pyramid_json_said. Qed.
Print Assumptions C113_pyramid.
Example C113_pyramid_meets : Forall entry_ok doc /\ bounds_fit doc /\ exists u, open_stats doc = Ok u /\ api_pyramid ex_dtoa u = (COk, Some (quote
  "{'scenePyramidStatistics':{'0':[{'layerInfo':{'minificationFactor':0,'pyramidLayerNo':0},'count':2},{'layerInfo':{'minificationFactor':2,'pyramidLayerNo':1},'count':1}],'2':[{'layerInfo':{'minificationFactor':0,'pyramidLayerNo':0},'count':1},{'layerInfo':{'minificationFactor':3,'pyramidLayerNo':2},'count':1}]}}")).
Proof. exact ex_pyramid. Qed.
