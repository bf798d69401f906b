(** Metadata and masks of sub-blocks: SubblockMetadata.cpp, the constructor of SubblockAttachmentAccessor (SubblockAttachmentAccessor.cpp
    l.17-30), CreateSubBlockMetadata (libCZI_Utilities.cpp l.597-618), CreateSubBlockMetadataFromSubBlock and CreateSubBlockAttachmentAccessor (libCZI_Lib.cpp l.151-179),
    TryToGetMaskBitmapFromSubBlock (SingleChannelAccessorBase.cpp l.196-213).  Names, attributes and enumeration of nodes are those of
    XmlModel.  Simplifications: those of XmlModel, PugiModel and NumModel; names of tags are given as wide characters of Unicode. *)
From Coq Require Import String Floats.SpecFloat.
From Verif Require Import Base CodecModel TextModel XmlModel PugiModel NumModel CopyModel BitonalModel ChunkModel.
Open Scope Z_scope.

(** l.13-20: the document, nothing if the text cannot be parsed (l.68-71: IsXmlValid) *)
Definition submeta := option (list xml).
Definition sub_metadata (text : bytes) : submeta := match load text with Ok d => Some d | _ => None end.
Definition is_xml_valid (m : submeta) : bool := match m with Some _ => true | None => false end.
(** ThrowIfXmlInvalid, l.58-66; the document node *)
Definition document (m : submeta) : res xml := match m with Some d => Ok (Elem [] [] d) | None => Throw end.
(** GetChildNodeReadonly, XmlNodeWrapper.h l.334-366: the node, or null *)
Definition child_node (path : str) (n : xml) : res (option xml) :=
  let* o := get_child_node path n in
  Ok (match o with Some h => node_at h n | None => None end).

(** Utils::CreateSubBlockMetadata, libCZI_Utilities.cpp l.597-618: the root of the builder; the functor delivers the tags *)
Fixpoint put_tags (tags : list (str * str)) (root : xml) : res xml :=
  match tags with
  | [] => Ok root
  | (k, v) :: tags' => let* root' := write (txt "Tags/" ++ k) v root in put_tags tags' root'
  end.
Definition create_sub_metadata (tags : list (str * str)) : res xml := put_tags tags (Elem (txt "METADATA") [] []).

(** GetXml, l.73-84 *)
Definition sub_get_xml (m : submeta) : res bytes := match m with Some d => Ok (metadata_get_xml d) | None => Throw end.
(** TryGetAttachmentDataFormat, l.86-96 *)
Definition data_format (m : submeta) : res (option str) :=
  let* n := document m in
  let* o := child_node (txt "METADATA/AttachmentSchema/DataFormat") n in
  Ok (match o with Some c => try_get_value c | None => None end).
(** the node of a tag, l.101-111 and l.119-129 *)
Definition tag_of (m : submeta) (tag : str) : res (option xml) :=
  let* n := document m in
  let* o := child_node (txt "METADATA/Tags") n in
  match o with
  | None => Ok None
  | Some c => child_node tag c
  end.
(** TryGetTagAsString, l.116-132 *)
Definition tag_string (m : submeta) (tag : str) : res (option str) :=
  let* o := tag_of m tag in
  Ok (match o with Some c => try_get_value c | None => None end).
(** TryGetTagAsDouble, l.98-114 *)
Definition tag_double (fuel : nat) (m : submeta) (tag : str) : res (option spec_float) :=
  let* o := tag_of m tag in
  match o with Some c => as_double strtod fuel c | None => Ok None end.
(** TryGetStagePositionFromTags, l.134-173: both nodes are looked up before a value is read *)
Definition stage_position (fuel : nat) (m : submeta) : res (option (spec_float * spec_float)) :=
  let* n := document m in
  let* o := child_node (txt "METADATA/Tags") n in
  match o with
  | None => Ok None
  | Some c =>
    let* ox := child_node (txt "StageXPosition") c in
    match ox with
    | None => Ok None
    | Some cx =>
      let* oy := child_node (txt "StageYPosition") c in
      match oy with
      | None => Ok None
      | Some cy =>
        let* vx := as_double strtod fuel cx in
        match vx with
        | None => Ok None
        | Some x => let* vy := as_double strtod fuel cy in Ok (match vy with Some y => Some (x, y) | None => None end)
        end
      end
    end
  end.

(** the constructor of the attachment accessor: HasChunkContainer *)
Definition has_chunk_container (m : submeta) : res bool :=
  if is_xml_valid m then
    let* o := data_format m in
    Ok (match o with Some f => str_eqb f (txt "CHUNKCONTAINER") | None => false end)
  else Ok false.
(** TryToGetMaskBitmapFromSubBlock, SingleChannelAccessorBase.cpp l.196-213, given the metadata and the attachment of the sub-block;
    every exception of CreateBitonalBitmapFromMaskInfo is a LibCZIException *)
Definition try_get_mask (text att : bytes) : res (option mask) :=
  let m := sub_metadata text in
  if is_xml_valid m then
    let* has := has_chunk_container m in
    match create_mask has att with
    | Ok b => Ok (Some b)
    | Throw => Ok None
    | UB => UB
    | OutOfFuel => OutOfFuel
    end
  else Ok None.
