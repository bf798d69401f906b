(** Examples for the parameters given as text. *)
From Coq Require Import String.
From Verif Require Import Base CodecModel TextModel DocSpec WriterModel WriterSpec WriterExamples CoordModel GuidModel GuidSpec GuidProofs.
Open Scope Z_scope.

Definition ex_guid_bytes : bytes := [205; 171; 35; 1; 103; 69; 171; 137; 254; 220; 186; 152; 118; 84; 50; 16].
Lemma ex_guid_text : guid_text (txt " {0123abCD-4567-89ab-Fedc-BA9876543210}") [205; 171; 35; 1; 103; 69; 171; 137; 254; 220; 186; 152; 118; 84; 50; 16] /\
  try_parse_guid (txt "0123abCD-4567-89ab-Fedc-BA987654321") = None /\ try_parse_guid (txt "{0123abCD-4567-89ab-Fedc-BA9876543210") = None.
Proof. split; [apply guid_iff; vm_compute; reflexivity|]. split; vm_compute; reflexivity. Qed.
Definition ex_params : jdoc := Some [(txt "file_guid", JStr (txt "{0123abCD-4567-89ab-Fedc-BA9876543210}")); (txt "reserved_size_subblock_directory", JInt 7);
  (txt "reserved_size_metadata_segment", JInt (-1)); (txt "maximum_m_index", JInt 9); (txt "minimum_m_index", JInt 0); (txt "comment", JOther)].
Lemma ex_params_guid : guid_given ex_params ex_guid_bytes.
Proof.
  exists (txt "{0123abCD-4567-89ab-Fedc-BA9876543210}"), (txt "{0123abCD-4567-89ab-Fedc-BA9876543210}").
  split; [apply has_member; vm_compute; reflexivity|]. split; [apply c_text_iff; vm_compute; reflexivity|]. split; [apply guid_iff; vm_compute; reflexivity|discriminate].
Qed.
Lemma ex_params_given : guid_given ex_params ex_guid_bytes /\ number_given ex_params "reserved_size_subblock_directory" 0 (2 ^ 32) 7 /\
  in_force (repeat 1 16) ex_params = mkParams ex_guid_bytes None (Some 7) None (Some (0, 9)).
Proof. split; [exact ex_params_guid|]. split; [apply uint_found_iff; vm_compute; reflexivity|vm_compute; reflexivity]. Qed.
Lemma ex_created : guid_given ex_params ex_guid_bytes /\ Forall (request_ok INT_MAX) ex_ops /\
  file_size (fst (fst (session (winfo_of (in_force (repeat 1 16) ex_params)) ex_ops))) < 2 ^ 63 /\
  added ex_ops (snd (fst (session (winfo_of (in_force (repeat 1 16) ex_params)) ex_ops))) <> [].
Proof.
  split; [exact ex_params_guid|]. split; [exact ex_ops_ok|]. split; vm_compute; [reflexivity|discriminate].
Qed.
Lemma ex_m_ignored : exists fresh d c, number_given d "minimum_m_index" (- 2 ^ 31) (2 ^ 31) 0 /\ number_given d "maximum_m_index" (- 2 ^ 31) (2 ^ 31) 9 /\
  pr_m (in_force fresh d) = Some (0, 9) /\ check_coordinate None (pr_m (in_force fresh d)) c (Some 77) = Ok CkOk.
Proof.
  exists (repeat 1 16), ex_params, empty_table. split; [apply int_found_iff; vm_compute; reflexivity|]. split; [apply int_found_iff; vm_compute; reflexivity|].
  split; vm_compute; reflexivity.
Qed.
Lemma ex_mask : has (Some [(txt "mask_aware", JBool true); (txt "mask_aware", JBool false)]) "mask_aware" (JBool true).
Proof. apply has_member. vm_compute. reflexivity. Qed.
(** the table of properties (streamsFactory.cpp l.136-147; identifications libCZI_StreamsLib.h l.212-234) *)
Definition curl_table : ptable :=
  [(txt "CurlHttp_Proxy", 100, PString); (txt "CurlHttp_UserAgent", 101, PString); (txt "CurlHttp_Timeout", 102, PInt); (txt "CurlHttp_ConnectTimeout", 103, PInt);
   (txt "CurlHttp_Xoauth2Bearer", 104, PString); (txt "CurlHttp_Cookie", 105, PString); (txt "CurlHttp_SslVerifyPeer", 106, PBool); (txt "CurlHttp_SslVerifyHost", 107, PBool);
   (txt "CurlHttp_FollowLocation", 108, PBool); (txt "CurlHttp_MaxRedirs", 109, PInt); (txt "CurlHttp_CaInfo", 110, PString); (txt "CurlHttp_CaInfoBlob", 111, PString)].
Lemma ex_bag : table_ok curl_table /\
  property_bag curl_table (Some [(txt "CurlHttp_Timeout", JInt 20); (txt "CurlHttp_Proxy", JStr (txt "p")); (txt "CurlHttp_Timeout", JInt 30)])
    = Some [(102, PVInt 20); (100, PVString (txt "p"))] /\
  property_bag curl_table (Some [(txt "CurlHttp_Timeout", JStr (txt "20"))]) = None /\ property_bag curl_table (Some [(txt "curlhttp_Proxy", JStr [])]) = None.
Proof.
  split; [|split; [|split]]; try (vm_compute; reflexivity). split; vm_compute; repeat constructor; cbn [In]; intuition discriminate.
Qed.
