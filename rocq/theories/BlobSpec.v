(** What is said about streams asked for by class, and about blobs. *)
From Coq Require Import String.
From Verif Require Import Base CodecModel TextModel TextSpec GuidModel GuidSpec PugiModel BlobModel.
Open Scope Z_scope.

(** the classes, by name, and when the library has them *)
Inductive class_named : str -> cls -> Prop :=
| Named_curl : class_named (txt "curl_http_inputstream") CurlHttp
| Named_azure : class_named (txt "azure_blob_inputstream") AzureBlob
| Named_windows : class_named (txt "windows_file_inputstream") WindowsFile
| Named_uwp : class_named (txt "uwp_file_inputstream") UwpFile
| Named_pread : class_named (txt "pread_file_inputstream") PreadFile
| Named_c : class_named (txt "c_runtime_file_inputstream") CRuntimeFile.
Definition built_in (f : flavor) (c : cls) : Prop :=
  match c with
  | CurlHttp => fl_curl f = true | AzureBlob => fl_azure f = true | WindowsFile => fl_winapi f = true | UwpFile => fl_uwp f = true
  | PreadFile => fl_pread f = true | CRuntimeFile => True
  end.
Definition class_of (s : stream) : cls := match s with SFile c _ => c | SHttp _ => CurlHttp | SBlob _ => AzureBlob end.
(** the name is one the library tells of *)
Definition told_of (f : flavor) (n : str) : Prop := exists i, class_info f i = Some n.

(** a narrow and a wide text say the same, without NUL in them *)
Definition same_text (cd : codec) (s : bytes) (w : str) : Prop := ~ In 0 s /\ ~ In 0 w /\ to_wide cd s = Some w /\ to_narrow cd w = Some s.
(** the characters of Unicode, without NUL; the conversions of the platform are those of UTF-8 for them *)
Definition scalar (c : Z) : Prop := 1 <= c < 55296 \/ 57344 <= c < 1114112.
Definition text (s : str) : Prop := Forall scalar s.
Definition codec_ok (cd : codec) : Prop := forall s, text s -> to_wide cd (utf8_encode s) = Some s /\ to_narrow cd s = Some (utf8_encode s).

(** the authentication asked for: by its name, or the default when nothing is said *)
Inductive auth_named : str -> auth -> Prop :=
| Named_default : auth_named (txt "DefaultAzureCredential") DefaultAzureCredential
| Named_environment : auth_named (txt "EnvironmentCredential") EnvironmentCredential
| Named_cli : auth_named (txt "AzureCliCredential") AzureCliCredential
| Named_managed : auth_named (txt "ManagedIdentityCredential") ManagedIdentityCredential
| Named_workload : auth_named (txt "WorkloadIdentityCredential") WorkloadIdentityCredential
| Named_connection : auth_named (txt "ConnectionString") ConnectionString.
Definition auth_asked (p : props) (a : auth) : Prop :=
  (exists s, In (200, PVString s) p /\ auth_named s a) \/ ((forall v, ~ In (200, v) p) /\ a = DefaultAzureCredential).

(** the blob asked for by the pairs of an identification *)
Definition says (l : list (str * str)) (k : string) (v : str) : Prop := In (txt k, v) l.
Definition silent (l : list (str * str)) (k : string) : Prop := forall v, ~ says l k v.
Definition service_asked (l : list (str * str)) (a : auth) (u : str) : Prop :=
  match a with
  | ConnectionString => says l "connectionstring" u
  | _ => says l "accounturl" u
         \/ silent l "accounturl" /\ exists n, says l "account" n /\ u = txt "https://" ++ n ++ txt ".blob.core.windows.net"
  end.
(** the service, the container and the blob in UTF-8 *)
Definition blob_asked (l : list (str * str)) (p : props) (t : target) : Prop :=
  exists u c b, auth_asked p (t_auth t) /\ service_asked l (t_auth t) u /\ says l "containername" c /\ says l "blobname" b /\
    t_service t = utf8_encode u /\ t_container t = utf8_encode c /\ t_blob t = utf8_encode b.
(** an identification which can be written down (as for C46), with different keys *)
Definition writable (l : list (str * str)) : Prop :=
  l <> [] /\ Forall (fun kv => fst kv <> [] /\ ~ ends_in_backslash (fst kv)) l /\
  (forall kv, In kv (removelast l) -> ~ ends_in_backslash (snd kv)) /\ snd (last l ([], [])) <> [] /\
  NoDup (map fst l) /\ Forall (fun kv => text (fst kv) /\ text (snd kv)) l.

(** the host of an address: what is between :// and the next / ? # , after the last @ and before the : *)
Definition ends_host (c : Z) : Prop := c = 47 \/ c = 63 \/ c = 35 \/ c = 58.
Definition host_of (url host : str) : Prop :=
  exists rest, url = txt "https://" ++ host ++ rest /\ ~ In 64 host /\ Forall (fun c => ~ ends_host c) host /\
    (rest = [] \/ exists c r, rest = c :: r /\ ends_host c /\ (c = 58 -> ~ In 64 r)).
(** letters, figures and hyphens *)
Definition plain (c : Z) : Prop := 97 <= c <= 122 \/ 65 <= c <= 90 \/ 48 <= c <= 57 \/ c = 45.

(** a service which has this blob: it gives the part asked for; a range which begins at or behind the end is refused (status 416,
    thrown by the SDK) *)
Definition serves (sv : service) (blob : bytes) : Prop :=
  forall o n, 0 <= o -> 0 < n ->
    match sv o n with
    | None => Z.of_nat (List.length blob) <= o
    | Some a =>
        o < Z.of_nat (List.length blob) /\ (an_status a = 200 \/ an_status a = 206) /\ an_offset a = o /\
        an_data a = firstn (Z.to_nat n) (skipn (Z.to_nat o) blob) /\ an_length a = Some (Z.of_nat (List.length (an_data a)))
    end.
(** the contract of IStream::Read (libCZI.h l.243-249): the bytes there are, never an exception for being at or behind the end *)
Definition reads (rd : Z -> Z -> res (bytes * Z)) (blob : bytes) (offset size : Z) : Prop :=
  let part := firstn (Z.to_nat size) (skipn (Z.to_nat offset) blob) in rd offset size = Ok (part, Z.of_nat (List.length part)).
