(** Streams asked for by the name of their class, and the stream reading a blob of Azure's storage (streamsFactory.cpp, azureblobinputstream.cpp). *)
From Coq Require Import String.
From Verif Require Import Base CodecModel TextModel GuidModel.
Open Scope Z_scope.

(** the options the library is built with which decide about the classes there are (streamsFactory.cpp l.40-105), and _WIN32 *)
Record flavor := mkFlavor { fl_curl : bool; fl_azure : bool; fl_winapi : bool; fl_uwp : bool; fl_pread : bool; fl_win32 : bool }.

(** Utilities::convertUtf8ToWchar_t and convertWchar_tToUtf8 (utilities.cpp l.95-158): the conversions of the platform, which throw on
    what is no text; functions of the text up to its first NUL *)
Record codec := mkCodec { to_wide : bytes -> option str; to_narrow : str -> option bytes }.
Definition widen (cd : codec) (s : bytes) : res str := match to_wide cd (c_text s) with Some w => Ok w | None => Throw end.
Definition narrow (cd : codec) (w : str) : res bytes := match to_narrow cd (c_text w) with Some s => Ok s | None => Throw end.

Inductive cls := CurlHttp | AzureBlob | WindowsFile | UwpFile | PreadFile | CRuntimeFile.
(** an entry of stream_classes (l.24-118): the name, what it makes, whether there is a function for narrow texts and one for wide texts *)
Record entry := mkEntry { en_name : str; en_class : cls; en_narrow : bool; en_wide : bool }.
Definition entry_if (b : bool) (e : entry) : list entry := if b then [e] else [].
Definition stream_classes (f : flavor) : list entry :=
  entry_if (fl_curl f) (mkEntry (txt "curl_http_inputstream") CurlHttp true false) ++
  entry_if (fl_azure f) (mkEntry (txt "azure_blob_inputstream") AzureBlob true false) ++
  entry_if (fl_winapi f) (mkEntry (txt "windows_file_inputstream") WindowsFile true true) ++
  entry_if (fl_uwp f) (mkEntry (txt "uwp_file_inputstream") UwpFile true true) ++
  entry_if (fl_pread f) (mkEntry (txt "pread_file_inputstream") PreadFile true false) ++
  [mkEntry (txt "c_runtime_file_inputstream") CRuntimeFile true true].

(** GetStreamClassesCount (l.176-179), GetStreamInfoForClass (l.165-174); of the information the name *)
Definition classes_count (f : flavor) : Z := Z.of_nat (List.length (stream_classes f)).
Definition class_info (f : flavor) (i : Z) : option str :=
  if (i <? 0) || (classes_count f <=? i) then None else option_map en_name (nth_error (stream_classes f) (Z.to_nat i)).

(** an identification, as given by the caller, and a name as handed to the system *)
Inductive name := Narrow (s : bytes) | Wide (w : str).

(** how the caller proves who they are (azureblobinputstream.h, AuthenticationMode) *)
Inductive auth := DefaultAzureCredential | EnvironmentCredential | AzureCliCredential | ManagedIdentityCredential | WorkloadIdentityCredential
  | ConnectionString.
(** what a client is made for: the service (its address, or a connection string), the container and the blob *)
Record target := mkTarget { t_auth : auth; t_service : bytes; t_container : bytes; t_blob : bytes }.
(** a stream: of a file with the name handed to the system, of an address handed to curl, of a blob.  That the system, curl or the SDK
    may refuse is not part of this model (for files see FileModel) *)
Inductive stream := SFile (c : cls) (n : name) | SHttp (url : bytes) | SBlob (t : target).

(** DetermineAuthenticationMode (azureblobinputstream.cpp l.227-260); the property has the number 200 (libCZI_StreamsLib.h l.239) *)
Definition auth_words : list (str * auth) :=
  [(txt "DefaultAzureCredential", DefaultAzureCredential); (txt "EnvironmentCredential", EnvironmentCredential);
   (txt "AzureCliCredential", AzureCliCredential); (txt "ManagedIdentityCredential", ManagedIdentityCredential);
   (txt "WorkloadIdentityCredential", WorkloadIdentityCredential); (txt "ConnectionString", ConnectionString)].
Definition auth_key : Z := 200.
Definition props := list (Z * pvalue).
Definition auth_mode (p : props) : res auth :=
  match find (fun e => fst e =? auth_key) p with
  | None => Ok DefaultAzureCredential
  | Some (_, PVString s) => match find (fun e => str_eqb s (fst e)) auth_words with Some (_, m) => Ok m | None => Throw end
  | Some _ => Throw
  end.

(** std::map::find, and the conversion of what is found *)
Definition said (cd : codec) (m : list (str * str)) (k : str) : res bytes := match lookup m k with None => Throw | Some v => narrow cd v end.
(** DetermineServiceUrl (l.262-281) *)
Definition service_url (cd : codec) (m : list (str * str)) : res bytes :=
  match lookup m (txt "accounturl") with
  | Some v => narrow cd v
  | None =>
      match lookup m (txt "account") with
      | Some v => let* a := narrow cd v in Ok (txt "https://" ++ a ++ txt ".blob.core.windows.net")
      | None => Throw
      end
  end.
(** CreateWithCredential (l.61-100), the five functions calling it (l.102-125) *)
Definition with_credential (cd : codec) (m : list (str * str)) (a : auth) : res target :=
  let* c := said cd m (txt "containername") in
  let* b := said cd m (txt "blobname") in
  let* u := service_url cd m in
  Ok (mkTarget a u c b).
(** CreateWithConnectionString (l.127-167) *)
Definition with_connection_string (cd : codec) (m : list (str * str)) : res target :=
  let* s := said cd m (txt "connectionstring") in
  let* c := said cd m (txt "containername") in
  let* b := said cd m (txt "blobname") in
  Ok (mkTarget ConnectionString s c b).
(** the constructors (l.25-59) *)
Definition azure_wide (cd : codec) (url : str) (p : props) : res target :=
  let* m := tokenize url in
  let* a := auth_mode p in
  match a with ConnectionString => with_connection_string cd m | _ => with_credential cd m a end.
Definition azure_narrow (cd : codec) (url : bytes) (p : props) : res target := let* w := widen cd url in azure_wide cd w p.

(** the constructors of the file streams: simplefileinputstream.cpp l.15-58, preadfileinputstream.cpp l.17-32,
    windowsfileinputstream.cpp l.14-22: the name handed to the system *)
Definition file_narrow (f : flavor) (cd : codec) (s : bytes) : res name :=
  if fl_win32 f then let* w := widen cd s in Ok (Wide (c_text w)) else Ok (Narrow (c_text s)).
Definition file_wide (f : flavor) (cd : codec) (w : str) : res name :=
  if fl_win32 f then Ok (Wide (c_text w)) else let* s := narrow cd w in Ok (Narrow (c_text s)).
(** the functions of the table (l.42-117) *)
Definition make_narrow (f : flavor) (cd : codec) (p : props) (c : cls) (s : bytes) : res stream :=
  match c with
  | CurlHttp => Ok (SHttp (c_text s))
  | AzureBlob => let* t := azure_narrow cd s p in Ok (SBlob t)
  | _ => let* n := file_narrow f cd s in Ok (SFile c n)
  end.
Definition make_wide (f : flavor) (cd : codec) (c : cls) (w : str) : res stream := let* n := file_wide f cd w in Ok (SFile c n).

(** CreateStream (l.181-212), both versions: the first class of this name; none if there is none *)
Definition create_stream (f : flavor) (cd : codec) (nm : str) (p : props) (id : name) : res (option stream) :=
  match find (fun e => str_eqb nm (en_name e)) (stream_classes f) with
  | None => Ok None
  | Some e =>
      match id with
      | Narrow s =>
          if en_narrow e then let* x := make_narrow f cd p (en_class e) s in Ok (Some x)
          else if en_wide e then let* w := widen cd s in let* x := make_wide f cd (en_class e) w in Ok (Some x) else Ok None
      | Wide w =>
          if en_wide e then let* x := make_wide f cd (en_class e) w in Ok (Some x)
          else if en_narrow e then let* s := narrow cd w in let* x := make_narrow f cd p (en_class e) s in Ok (Some x) else Ok None
      end
  end.
(** CreateDefaultStreamForFile (l.218-245) *)
Definition default_stream (f : flavor) (cd : codec) (id : name) : res stream :=
  let c := if fl_winapi f then WindowsFile else if fl_pread f then PreadFile else CRuntimeFile in
  let* n := match id with Narrow s => file_narrow f cd s | Wide w => file_wide f cd w end in Ok (SFile c n).

(** ** reading *)
(** the response to BlockBlobClient::DownloadTo: status, the offset and the length told, the bytes put into the buffer; None: the SDK throws *)
Record answer := mkAnswer { an_status : Z; an_offset : Z; an_length : option Z; an_data : bytes }.
Definition service := Z -> Z -> option answer.
Definition int64_max : Z := 2 ^ 63 - 1.
(** AzureBlobInputStream::Read (azureblobinputstream.cpp l.169-220): the bytes in the buffer, the count told (unsigned, 64 bits) *)
Definition blob_read (sv : service) (offset size : Z) : res (bytes * Z) :=
  if int64_max <? size then Throw
  else if int64_max <? offset then Throw
  else
    match sv offset size with
    | None => Throw
    | Some a =>
        if (an_status a =? 200) || (an_status a =? 206) then
          if negb (an_offset a =? offset) then Throw
          else match an_length a with
               | None => Throw
               | Some n => if size <? n then Throw else Ok (an_data a, n mod 2 ^ 64)
               end
        else Throw
    end.
