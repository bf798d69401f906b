(** C104: metadata and masks of sub-blocks. *)
From Coq Require Import String Floats.SpecFloat QArith Qabs.
From Verif Require Import Base CodecModel TextModel XmlModel XmlSpec PugiModel PugiSpec FloatProofs SFloatProofs ScaleNum NumModel NumSpec CopyModel BitonalModel ChunkModel ChunkProofs ChunkExamples.
From Verif Require Import WriterModel WriterSpec WriterExamples SubMetaModel SubMetaSpec SubMetaProofs SubMetaExamples.
Open Scope Z_scope.

(** a tag is the text of the first element of its name in the first "Tags" of the first "METADATA" *)
Theorem C104_tags : forall d tag, tag_plain tag -> exists o, tag_string (Some d) tag = Ok o /\ text_at [txt "METADATA"; txt "Tags"; tag] d o.
Proof. exact tags_read. Qed.
Print Assumptions C104_tags.
Example C104_tags_example : tag_plain (txt "Name") /\
  tag_string (sub_metadata (txt "<METADATA><Other/><Tags><A/><Name Id='1'>x &lt; y</Name><Name>z</Name></Tags><Tags><B>1</B></Tags></METADATA>")) (txt "Name") = Ok (Some (txt "x < y")) /\
  tag_string (sub_metadata (txt "<METADATA><Other/><Tags><A/></Tags><Tags><B>1</B></Tags></METADATA>")) (txt "B") = Ok None.
Proof. split; [apply ascii_plain; [reflexivity|discriminate]|]. split; vm_compute; reflexivity. Qed.

(** metadata are said to be valid exactly if the text can be read as a document; if it cannot, nothing is told about them *)
Theorem C104_valid : forall text, (is_xml_valid (sub_metadata text) = true <-> exists d, load text = Ok d) /\
  (is_xml_valid (sub_metadata text) = false -> let m := sub_metadata text in
    sub_get_xml m = Throw /\ data_format m = Throw /\ (forall tag, tag_string m tag = Throw) /\
    (forall fuel tag, tag_double fuel m tag = Throw) /\ forall fuel, stage_position fuel m = Throw).
Proof. exact validity. Qed.
Print Assumptions C104_valid.
Example C104_valid_example : is_xml_valid (sub_metadata ex_text) = true /\ is_xml_valid (sub_metadata (txt "<METADATA><Tags></METADATA>")) = false.
Proof. split; vm_compute; reflexivity. Qed.

(** the format of the attachment *)
Theorem C104_format : forall d, exists o, data_format (Some d) = Ok o /\ text_at [txt "METADATA"; txt "AttachmentSchema"; txt "DataFormat"] d o.
Proof. exact format_read. Qed.
Print Assumptions C104_format.
Example C104_format_example : data_format (sub_metadata ex_ctext) = Ok (Some (txt "CHUNKCONTAINER")) /\ data_format (sub_metadata ex_text) = Ok None.
Proof. split; vm_compute; reflexivity. Qed.

(** tags given to CreateSubBlockMetadata, whose text is given with a sub-block to the writer, are those found with the sub-block in
    the file: the last value given for a name, numbers up to 10^-14 *)
Theorem C104_written : forall m0 strict po i ops ws rs r a ind tags,
  session i ops = (ws, rs, r) -> creation_ok i -> Forall (request_ok INT_MAX) ops ->
  file_size ws < 2 ^ 63 -> Z.of_nat (length ops) <= INT_MAX -> In a (added ops rs) ->
  Forall tag_ok tags ->
  exists root, create_sub_metadata tags = Ok root /\ (src_bytes (ai_meta a) = builder_get_xml ind [root] ->
  r = Ok tt /\ exists o e ob, open_file strict po (file_of m0 ws) = Ok o /\ In e (op_dir o) /\ observe strict (file_of m0 ws) e = Ok ob /\
    let m := sub_metadata (ob_meta ob) in
    is_xml_valid m = true /\
    (forall k v, last_given tags k v -> tag_string m k = Ok (Some v)) /\
    (forall k, tag_plain k -> (forall t, In t tags -> fst t <> k) -> tag_string m k = Ok None) /\
    (forall fuel k x, last_given tags k (dbl_text x) -> fin64 x -> moderate (sfQ x) ->
      exists y, tag_double fuel m k = Ok (Some y) /\ fin64 y /\ (Qabs (sfQ y - sfQ x) <= Qabs (sfQ x) * ten (-14))%Q)).
Proof. exact tags_written. Qed.
Print Assumptions C104_written.
Example C104_written_meets : Forall tag_ok ex_tags /\ create_sub_metadata ex_tags = Ok ex_root /\ src_bytes (ai_meta (ex_msub ex_text [])) = builder_get_xml true [ex_root] /\
  Forall (request_ok INT_MAX) (ex_mops ex_text []) /\
  (exists ws, session ex_info (ex_mops ex_text []) = (ws, [Ok tt; Ok tt], Ok tt) /\ file_size ws < 2 ^ 63 /\
    In (ex_msub ex_text []) (added (ex_mops ex_text []) [Ok tt; Ok tt])) /\
  last_given ex_tags (txt "Name") (txt "a < b & c") /\ last_given ex_tags (txt "StageXPosition") (dbl_text ex_x) /\
  fin64 ex_x /\ moderate (sfQ ex_x) /\ (sfQ ex_x == 25 # 2)%Q.
Proof. exact ex_written. Qed.

(** a tag whose text is a decimal number and nothing else is that number, up to 2^-52.
    Missing: white space around the number, numbers outside of 10^-307 .. 10^307 *)
Theorem C104_number_partial : forall fuel d tag c (neg : bool) t M K, tag_plain tag -> goes_to [txt "METADATA"; txt "Tags"; tag] d c ->
  has_text c ((if neg then [45] else []) ++ t) -> decimal t M K -> 0 < M -> (ten (-307) <= inject_Z M * ten K <= ten 307)%Q ->
  exists x, tag_double fuel (Some d) tag = Ok (Some x) /\ fin64 x /\
    let v := (if neg then - (inject_Z M * ten K) else inject_Z M * ten K)%Q in (Qabs (sfQ x - v) <= Qabs v * b2 (-52))%Q.
Proof. exact number_read. Qed.
Print Assumptions C104_number_partial.
(** the position of the stage are the two tags; nothing if one of them is missing *)
Theorem C104_stage : forall fuel d x y, tag_double fuel (Some d) (txt "StageXPosition") = Ok x -> tag_double fuel (Some d) (txt "StageYPosition") = Ok y ->
  stage_position fuel (Some d) = Ok (match x, y with Some x, Some y => Some (x, y) | _, _ => None end).
Proof. exact stage_read. Qed.
Print Assumptions C104_stage.
Example C104_stage_example : stage_position 0 (sub_metadata ex_text) = Ok (Some (ex_x, fst (strtod (txt "-3e+02")))) /\
  stage_position 0 (sub_metadata ex_ctext) = Ok None.
Proof. split; vm_compute; reflexivity. Qed.

(** the statement for all texts of numbers is false: a line end behind the number, and the call never returns *)
Theorem C104_hang_refuted : exists d, load own_lines = Ok d /\
  (forall fuel, stage_position fuel (Some d) = OutOfFuel) /\ (forall fuel, tag_double fuel (Some d) (txt "StageXPosition") = OutOfFuel).
Proof. exact own_lines_hang. Qed.
Print Assumptions C104_hang_refuted.
(** a wide character behind the number is given to isspace *)
Theorem C104_wide_refuted : exists text d, load text = Ok d /\ forall fuel, tag_double fuel (Some d) (txt "ExposureTime") = UB.
Proof. exact wide_text_ub. Qed.
Print Assumptions C104_wide_refuted.

(** the mask given with a sub-block whose metadata name the container is the one used when the sub-block is drawn *)
Theorem C104_mask_partial : forall m0 strict po i ops ws rs r a d c (empties : list (bytes * bytes)) w h stride data tail,
  session i ops = (ws, rs, r) -> creation_ok i -> Forall (request_ok INT_MAX) ops ->
  file_size ws < 2 ^ 63 -> Z.of_nat (length ops) <= INT_MAX -> In a (added ops rs) ->
  load (src_bytes (ai_meta a)) = Ok d -> goes_to [txt "METADATA"; txt "AttachmentSchema"; txt "DataFormat"] d c -> has_text c (txt "CHUNKCONTAINER") ->
  src_bytes (ai_att a) = container (empties ++ [(GUID_MASK, enc_mask w h stride data)]) ++ tail ->
  Forall chunk_ok empties -> Forall (fun c : bytes * bytes => snd c = [] /\ fst c <> GUID_MASK) empties ->
  Forall is_byte data -> len tail < 21 -> len (src_bytes (ai_att a)) + 41 < 4294967296 ->
  0 < w <= UINT_MAX - 7 -> 0 < h <= UINT_MAX -> in_u32 stride -> (w + 7) / 8 <= stride ->
  (h - 1) * stride + (w + 7) / 8 <= len data ->
  r = Ok tt /\ exists o e ob b, open_file strict po (file_of m0 ws) = Ok o /\ In e (op_dir o) /\ observe strict (file_of m0 ws) e = Ok ob /\
    try_get_mask (ob_meta ob) (ob_att ob) = Ok (Some b) /\ mw b = w /\ mh b = h /\
    forall x y, 0 <= x < w -> 0 <= y < h -> mask_bit b x y = Z.testbit (nth (Z.to_nat (y * stride + x / 8)) data 0) (7 - x mod 8).
Proof. exact mask_written. Qed.
Print Assumptions C104_mask_partial.
Example C104_mask_meets : let a := ex_msub ex_ctext ex_mask in let d := [container_document [Elem (txt "Tags") [] []]] in
  load (src_bytes (ai_meta a)) = Ok d /\
  (exists c, goes_to [txt "METADATA"; txt "AttachmentSchema"; txt "DataFormat"] d c /\ has_text c (txt "CHUNKCONTAINER")) /\
  src_bytes (ai_att a) = container ([(g1, []); (g2, [])] ++ [(GUID_MASK, enc_mask 11 3 2 [170; 85; 255; 255; 0; 1])]) ++ [9; 9] /\
  Forall (request_ok INT_MAX) (ex_mops ex_ctext ex_mask) /\
  (exists ws, session ex_info (ex_mops ex_ctext ex_mask) = (ws, [Ok tt; Ok tt], Ok tt) /\ file_size ws < 2 ^ 63 /\ In a (added (ex_mops ex_ctext ex_mask) [Ok tt; Ok tt])).
Proof. exact ex_masked. Qed.
(** without the declaration, or with metadata which are no XML, the sub-block is drawn whole, whatever the attachment is *)
Theorem C104_no_mask : forall text att,
  (load text = Throw \/ exists d, load text = Ok d /\ forall c v, goes_to [txt "METADATA"; txt "AttachmentSchema"; txt "DataFormat"] d c -> try_get_value c = Some v -> v <> txt "CHUNKCONTAINER") ->
  try_get_mask text att = Ok None.
Proof. exact undeclared. Qed.
Print Assumptions C104_no_mask.
Example C104_no_mask_example : load (txt "<METADATA>") = Throw /\ try_get_mask ex_text ex_mask = Ok None.
Proof. split; vm_compute; reflexivity. Qed.
(** with the declaration, but without a mask in the attachment, drawing the sub-block reads what was never set *)
Theorem C104_mask_refuted : exists text att, Forall is_byte att /\ try_get_mask text att = UB.
Proof. exact declared_without. Qed.
Print Assumptions C104_mask_refuted.
