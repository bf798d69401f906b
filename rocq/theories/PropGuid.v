(** C101, C102: parameters given to the C API as text. *)
From Coq Require Import String.
From Verif Require Import Base CodecModel TextModel DocSpec WriterModel WriterSpec WriterExamples CoordModel GuidModel GuidSpec GuidProofs GuidExamples.
Open Scope Z_scope.

(** C101: a text is taken as a GUID exactly if it is the usual text of one; then it is this GUID. *)
Theorem C101_guid : forall s g, try_parse_guid s = Some g <-> guid_text s g.
Proof. exact guid_iff. Qed.
Print Assumptions C101_guid.
Example C101_guid_meets : guid_text (txt " {0123abCD-4567-89ab-Fedc-BA9876543210}") [205; 171; 35; 1; 103; 69; 171; 137; 254; 220; 186; 152; 118; 84; 50; 16] /\
  try_parse_guid (txt "0123abCD-4567-89ab-Fedc-BA987654321") = None /\ try_parse_guid (txt "{0123abCD-4567-89ab-Fedc-BA9876543210") = None.
Proof. exact ex_guid_text. Qed.

(** C101: the parameters in force *)
Theorem C101_parameters : forall fresh d,
  (forall g, guid_given d g -> pr_guid (in_force fresh d) = g) /\
  ((forall g, ~ guid_given d g) -> pr_guid (in_force fresh d) = fresh) /\
  (forall n, pr_rmeta (in_force fresh d) = Some n <-> number_given d "reserved_size_metadata_segment" 0 (2 ^ 32) n) /\
  (forall n, pr_rdir (in_force fresh d) = Some n <-> number_given d "reserved_size_subblock_directory" 0 (2 ^ 32) n) /\
  (forall n, pr_ratt (in_force fresh d) = Some n <-> number_given d "reserved_size_attachments_directory" 0 (2 ^ 32) n).
Proof. exact parameters. Qed.
Print Assumptions C101_parameters.
Example C101_parameters_meets : guid_given ex_params ex_guid_bytes /\ number_given ex_params "reserved_size_subblock_directory" 0 (2 ^ 32) 7 /\
  in_force (repeat 1 16) ex_params = mkParams ex_guid_bytes None (Some 7) None (Some (0, 9)).
Proof. exact ex_params_given. Qed.
Theorem C101_m_range : forall fresh d lo hi, pr_m (in_force fresh d) = Some (lo, hi) <->
  number_given d "minimum_m_index" (- 2 ^ 31) (2 ^ 31) lo /\ number_given d "maximum_m_index" (- 2 ^ 31) (2 ^ 31) hi /\ lo <= hi.
Proof. exact m_range. Qed.
Print Assumptions C101_m_range.
Example C101_m_range_meets : pr_m (in_force (repeat 1 16) ex_params) = Some (0, 9).
Proof. reflexivity. Qed.

(** C101: the file which is created has the GUID which was given, otherwise a new one *)
Theorem C101_created : forall m0 strict po fresh d g ops ws rs r,
  session (winfo_of (in_force fresh d)) ops = (ws, rs, r) -> length fresh = 16%nat -> guid_given d g \/ (g = fresh /\ forall g', ~ guid_given d g') ->
  Forall (request_ok INT_MAX) ops -> file_size ws < 2 ^ 63 -> Z.of_nat (length ops) <= INT_MAX -> strict = false \/ added ops rs <> [] ->
  r = Ok tt /\ exists o, open_file strict po (file_of m0 ws) = Ok o /\ op_guid o = g.
Proof. exact created_guid. Qed.
Print Assumptions C101_created.
Example C101_created_meets : guid_given ex_params ex_guid_bytes /\ Forall (request_ok INT_MAX) ex_ops /\
  file_size (fst (fst (session (winfo_of (in_force (repeat 1 16) ex_params)) ex_ops))) < 2 ^ 63 /\
  added ex_ops (snd (fst (session (winfo_of (in_force (repeat 1 16) ex_params)) ex_ops))) <> [].
Proof. exact ex_created. Qed.

(** C101, the claim that a range given for M is respected: refuted. The range is known, but nothing is compared with it, because
    the check is left early when no bounds of the dimensions are given, and the C API has no way to give them. *)
Theorem C101_m_bounds_refuted :
  (exists fresh d c, number_given d "minimum_m_index" (- 2 ^ 31) (2 ^ 31) 0 /\ number_given d "maximum_m_index" (- 2 ^ 31) (2 ^ 31) 9 /\
     pr_m (in_force fresh d) = Some (0, 9) /\ check_coordinate None (pr_m (in_force fresh d)) c (Some 77) = Ok CkOk) /\
  forall fresh d c m, check_coordinate None (pr_m (in_force fresh d)) c m = Ok CkOk.
Proof. exact (conj ex_m_ignored m_unchecked). Qed.
Print Assumptions C101_m_bounds_refuted.

(** C102: options and property bags *)
Theorem C102_options : forall d, (duplicates_allowed d = true <-> has d "allow_duplicate_subblocks" (JBool true)) /\ (mask_aware d = true <-> has d "mask_aware" (JBool true)).
Proof. exact (fun d => conj (duplicates_iff d) (mask_aware_iff d)). Qed.
Print Assumptions C102_options.
Example C102_options_meets : has (Some [(txt "mask_aware", JBool true); (txt "mask_aware", JBool false)]) "mask_aware" (JBool true).
Proof. exact ex_mask. Qed.
Theorem C102_bag_accepted : forall t d, table_ok t ->
  ((exists b, property_bag t d = Some b) <-> exists l, d = Some l /\ forall k v, In (k, v) l -> exists i ty x, listed t k i ty /\ fits ty v x).
Proof. exact bag_accepted. Qed.
Print Assumptions C102_bag_accepted.
Theorem C102_bag_content : forall t l b, table_ok t -> property_bag t (Some l) = Some b ->
  NoDup (map fst b) /\
  forall i x, In (i, x) b <-> exists pre k v post ty, l = pre ++ (k, v) :: post /\ listed t k i ty /\ fits ty v x /\ forall k' v' ty', In (k', v') pre -> ~ listed t k' i ty'.
Proof. exact bag_content. Qed.
Print Assumptions C102_bag_content.
Example C102_bag_meets : table_ok curl_table /\
  property_bag curl_table (Some [(txt "CurlHttp_Timeout", JInt 20); (txt "CurlHttp_Proxy", JStr (txt "p")); (txt "CurlHttp_Timeout", JInt 30)])
    = Some [(102, PVInt 20); (100, PVString (txt "p"))] /\
  property_bag curl_table (Some [(txt "CurlHttp_Timeout", JStr (txt "20"))]) = None /\ property_bag curl_table (Some [(txt "curlhttp_Proxy", JStr [])]) = None.
Proof. exact ex_bag. Qed.
