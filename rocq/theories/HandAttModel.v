(** Attachments and metadata through the C API: handed to the writer, and got back from the reader (libCZIApi.cpp). *)
From Verif Require Import Base CodecModel WriterModel EditSpec AddModel CapiModel.
Open Scope Z_scope.

(** AddAttachmentInfoInterop (add_attachment_info_interop.h) *)
Record iatt := mkIAtt { ia_guid : bytes; ia_type : bytes; ia_name : bytes; ia_bytes : Z; ia_mem : buf }.
(** [size] bytes of the caller's memory; reading behind it is undefined *)
Definition taken (size : Z) (b : buf) : res bytes :=
  match b with
  | None => if 0 <? size then Throw else Ok []
  | Some d => if size <=? blen d then Ok (firstn (Z.to_nat size) d) else UB
  end.
(** libCZI_WriterAddAttachment (l.1788-1822) and CheckAddAttachmentArguments (CziWriter.cpp l.815-821): what is handed to the writer *)
Definition capi_att (a : iatt) : res attinfo := let* d := taken (ia_bytes a) (ia_mem a) in Ok (mkAtt (ia_guid a) (ia_type a) (ia_name a) d).

(** calls: attachments and metadata with the C API (libCZI_WriterWriteMetadata l.1824-1852, CheckWriteMetadataArguments CziWriter.cpp
    l.870-881; without attachment), all else as handed to the writer (for sub-blocks see AddModel) *)
Inductive icall := IAtt (a : iatt) | IMeta (size : Z) (mem : buf) | IOther (o : wop).
Definition call_op (c : icall) : res wop :=
  match c with
  | IAtt a => let* x := capi_att a in Ok (OpAtt x)
  | IMeta n b => let* x := taken n b in Ok (OpMeta x [])
  | IOther o => Ok o
  end.
(** the calls which get as far as the writer; one which throws before leaves it as it is *)
Fixpoint handed (l : list icall) : res (list (icall * wop)) :=
  match l with
  | [] => Ok []
  | c :: l' =>
      match call_op c with
      | Ok o => let* r := handed l' in Ok ((c, o) :: r)
      | Throw => handed l'
      | UB => UB
      | OutOfFuel => OutOfFuel
      end
  end.

(** ** the reader *)
(** AttachmentInfoInterop (attachment_info_interop.h): the type with nine bytes, the name with 255 *)
Record iattinfo := mkIAI { ii_guid : bytes; ii_type : bytes; ii_name : bytes; ii_overflow : bool; ii_long : buf }.
(** CCZIReader::TryGetAttachmentInfo (CZIReader.cpp l.262-281) and CopyFromAttachmentInfoToAttachmentInfoInterop (libCZIApi.cpp
    l.51-67); [junk]: what was in the array of the name before *)
Definition att_info (junk : bytes) (e : attentry) : iattinfo :=
  let '(n, o, x) := name_interop (cstring (ae_name e)) junk in mkIAI (ae_guid e) (ae_type e ++ [0]) n o x.
(** libCZI_ReaderGetAttachmentCount (l.421-443) *)
Definition att_count (o : opened) : Z := s32 (Z.of_nat (length (op_atts o))).
(** CCziAttachmentsDirectory::TryGetAttachment (CziAttachmentsDirectory.cpp l.58-67): only the upper bound is looked at, a negative index
    makes vector::at throw *)
Definition at_index (o : opened) (i : Z) : res (option attentry) :=
  if i <? att_count o then if i <? 0 then Throw else Ok (nth_error (op_atts o) (Z.to_nat i)) else Ok None.
(** libCZI_ReaderGetAttachmentInfoFromDirectory (l.445-474): None is IndexOutOfRange, Throw is UnspecifiedError *)
Definition capi_att_info (junk : bytes) (o : opened) (i : Z) : res (option iattinfo) :=
  let* e := at_index o i in Ok (option_map (att_info junk) e).
(** libCZI_ReaderReadAttachment (l.476-508) and libCZI_AttachmentGetRawData (l.1437-1472): None is the invalid handle *)
Definition capi_att_data (strict : bool) (f : file) (o : opened) (i : Z) (size : Z) (dest : buf) : res (option (Z * buf)) :=
  let* x := at_index o i in
  match x with
  | None => Ok None
  | Some e => let* d := read_attachment strict f (ae_pos e) in let* r := get_raw d size dest in Ok (Some r)
  end.
(** libCZI_ReaderGetMetadataSegment (l.390-419) and libCZI_MetadataSegmentGetMetadataAsXml (l.1104-1145); without metadata the reader
    throws *)
Definition capi_metadata (strict : bool) (f : file) (o : opened) : res (bytes * Z) :=
  if op_metapos o =? 0 then Throw else let* d := read_metadata strict f (op_metapos o) in metadata_xml (fst d).
