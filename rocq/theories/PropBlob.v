(** C119: streams asked for by the name of their class, and blobs of Azure's storage. *)
From Coq Require Import String.
From Verif Require Import Base CodecModel TextModel TextSpec GuidModel GuidSpec PugiModel BlobModel BlobSpec BlobProofs BlobExamples.
Open Scope Z_scope.

(** Full statement: a stream asked for by the name of a class and an identification is of this class and reads what is identified; the identification
    means the same as a narrow and as a wide text, and different identifications are different things; what is incomplete is refused; an account is asked
    for at Azure's service; a blob is read as any other stream. *)

(** the classes told of are those the library is built with, by their numbers from zero, each once *)
Theorem C119_classes : forall f, (forall n, told_of f n <-> exists c, class_named n c /\ built_in f c) /\
  (forall i, (exists n, class_info f i = Some n) <-> 0 <= i < classes_count f) /\
  (forall i j n, class_info f i = Some n -> class_info f j = Some n -> i = j).
Proof. exact (fun f => conj (classes_told f) (classes_indices f)). Qed.
Print Assumptions C119_classes.
Example C119_classes_meets : class_info ex_linux 1 = Some (txt "azure_blob_inputstream") /\ classes_count ex_linux = 4 /\
  ~ told_of ex_linux (txt "windows_file_inputstream") /\ told_of ex_windows (txt "windows_file_inputstream").
Proof. exact ex_classes. Qed.

(** a name not told of gives no stream, whatever is identified *)
Theorem C119_unknown : forall f cd n p id, ~ told_of f n -> create_stream f cd n p id = Ok None.
Proof. exact create_unknown. Qed.
Print Assumptions C119_unknown.

(** a name told of gives a stream of this class, or an exception *)
Theorem C119_class : forall f cd n c p id, class_named n c -> built_in f c ->
  create_stream f cd n p id <> Ok None /\ forall x, create_stream f cd n p id = Ok (Some x) -> class_of x = c.
Proof. exact create_class. Qed.
Print Assumptions C119_class.

(** a text means the same narrow and wide, for every class, and for the stream which is used when no class is named *)
Theorem C119_same : forall f cd s w, same_text cd s w ->
  (forall n p, create_stream f cd n p (Narrow s) = create_stream f cd n p (Wide w)) /\ default_stream f cd (Narrow s) = default_stream f cd (Wide w).
Proof. exact (fun f cd s w S => conj (fun n p => create_same f cd n p s w S) (default_same f cd s w S)). Qed.
Print Assumptions C119_same.

(** the file opened is the one named, in the form the system takes *)
Theorem C119_file : forall f cd n c p s w, same_text cd s w -> class_named n c -> built_in f c -> c <> CurlHttp -> c <> AzureBlob ->
  create_stream f cd n p (Narrow s) = Ok (Some (SFile c (if fl_win32 f then Wide w else Narrow s))).
Proof. exact create_file. Qed.
Print Assumptions C119_file.
Example C119_file_meets : same_text ex_codec (txt "a.czi") (txt "a.czi") /\
  create_stream ex_windows ex_codec (txt "c_runtime_file_inputstream") [] (Narrow (txt "a.czi")) = Ok (Some (SFile CRuntimeFile (Wide (txt "a.czi")))).
Proof. exact ex_file. Qed.

(** what follows a NUL is ignored, so that different identifications can open the same file *)
Theorem C119_nul_refuted : ~ (forall f cd n c p s s' x, class_named n c -> built_in f c -> create_stream f cd n p (Narrow s) = Ok (Some x) ->
  create_stream f cd n p (Narrow s') = Ok (Some x) -> s = s').
Proof. exact ex_nul. Qed.
Print Assumptions C119_nul_refuted.

(** a blob: exactly the account, container, blob and authentication asked for; an exception if something is missing *)
Theorem C119_blob_partial : forall cd l, codec_ok cd -> writable l -> forall f p id, fl_azure f = true -> NoDup (map fst p) ->
  id = Narrow (utf8_encode (bag_text l)) \/ id = Wide (bag_text l) ->
  (forall x, create_stream f cd (txt "azure_blob_inputstream") p id = Ok (Some x) <-> exists t, x = SBlob t /\ blob_asked l p t) /\
  ((forall t, ~ blob_asked l p t) -> create_stream f cd (txt "azure_blob_inputstream") p id = Throw).
Proof. exact blob_created. Qed.
Print Assumptions C119_blob_partial.
Example C119_blob_meets : fl_azure ex_linux = true /\ codec_ok ex_codec /\ writable ex_pairs /\ NoDup (map fst ex_props) /\ blob_asked ex_pairs ex_props ex_target /\
  bag_text ex_pairs = txt "account=mystore;containername=slides;blobname=" ++ 252 :: txt "a\=b\;c.czi".
Proof. exact ex_asked. Qed.
Example C119_blob_refused : forall t, ~ blob_asked [(txt "account", txt "a"); (txt "containername", txt "c")] [] t.
Proof. exact ex_refused. Qed.

(** the host of an account's service is the account's at Azure when the name is of letters, figures and hyphens, ... *)
Theorem C119_host_partial : forall n, Forall plain n -> host_of (txt "https://" ++ n ++ txt ".blob.core.windows.net") (n ++ txt ".blob.core.windows.net").
Proof. exact account_host. Qed.
Print Assumptions C119_host_partial.
Example C119_host_meets : Forall plain (txt "my-store2").
Proof. exact ex_account_host. Qed.
(** ... but any name is taken, and one with a slash in it leads to another host *)
Theorem C119_host_refuted : ~ (forall f cd l p n t, fl_azure f = true -> codec_ok cd -> writable l -> NoDup (map fst p) -> says l "account" n -> silent l "accounturl" ->
  create_stream f cd (txt "azure_blob_inputstream") p (Narrow (utf8_encode (bag_text l))) = Ok (Some (SBlob t)) -> t_auth t <> ConnectionString ->
  exists h, host_of (t_service t) (h ++ txt ".blob.core.windows.net")).
Proof. exact ex_host. Qed.
Print Assumptions C119_host_refuted.

(** what is read of a blob, before its end, are its bytes *)
Theorem C119_read_partial : forall sv blob offset size, serves sv blob -> Z.of_nat (List.length blob) < 2 ^ 63 ->
  0 <= offset < Z.of_nat (List.length blob) -> 0 < size < 2 ^ 63 -> reads (blob_read sv) blob offset size.
Proof. exact blob_reads. Qed.
Print Assumptions C119_read_partial.
Example C119_read_meets : serves (ex_service [1; 2; 3]) [1; 2; 3] /\ blob_read (ex_service [1; 2; 3]) 1 10 = Ok ([2; 3], 2).
Proof. exact ex_read. Qed.

(** whatever the service answers: never more than asked for, and only what was told for this position *)
Theorem C119_count : forall sv offset size d n, 0 <= offset -> 0 <= size -> (forall a k, sv offset size = Some a -> an_length a = Some k -> 0 <= k) ->
  blob_read sv offset size = Ok (d, n) -> n <= size /\ exists a, sv offset size = Some a /\ an_offset a = offset /\ an_length a = Some n /\ an_data a = d.
Proof. exact blob_count. Qed.
Print Assumptions C119_count.

(** reading at the end throws, where the contract of streams asks for zero bytes *)
Theorem C119_end_refuted : ~ (forall sv blob offset size, serves sv blob -> Z.of_nat (List.length blob) < 2 ^ 63 -> 0 <= offset < 2 ^ 63 -> 0 < size < 2 ^ 63 ->
  reads (blob_read sv) blob offset size).
Proof. exact ex_end. Qed.
Print Assumptions C119_end_refuted.
Theorem C119_end : forall sv blob offset size, serves sv blob -> Z.of_nat (List.length blob) <= offset -> 0 < size -> blob_read sv offset size = Throw.
Proof. exact blob_end. Qed.
Print Assumptions C119_end.
