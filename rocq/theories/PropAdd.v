(** C96, C97: handing pictures to the writer, to the editor and to the C API. *)
From Verif Require Import Base CodesModel CodecModel WriterModel WriterSpec WriterMain WriterLimits WriterExamples ZstdModel AddModel AddSpec AddProofs AddExamples.

(** Full statement of C96: a picture whose rows lie in memory with any distance, or which is given line by line, is stored with
    exactly its pixels, and reading the sub-block shows it - for the writer and for the editor alike. *)

(** the writer: rows which are any distance apart (even 0, or overlapping); the memory need not reach beyond the last pixel *)
Theorem C96_strided_partial : forall m0 strict po i ops ws rs r a d stride pt bpp w h,
  session i ops = (ws, rs, r) -> creation_ok i -> Forall (request_ok INT_MAX) ops ->
  file_size ws < 2 ^ 63 -> Z.of_nat (length ops) <= INT_MAX -> In a (added ops rs) ->
  picture_ok d stride pt bpp w h -> strided (Some d) stride pt w h = Ok (ai_data a) ->
  r = Ok tt /\ exists o e ob, open_file strict po (file_of m0 ws) = Ok o /\ In e (op_dir o) /\
    observe strict (file_of m0 ws) e = Ok ob /\ decodes_to (ob_data ob) pt bpp w h (given_byte d stride (w * bpp)).
Proof. exact session_strided. Qed.
Print Assumptions C96_strided_partial.
Example C96_strided_meets : picture_ok ex_pic 4 Gray8 1 2 2 /\ strided (Some ex_pic) 4 Gray8 2 2 = Ok (ai_data (ex_call_done ex_raw)) /\
  src_bytes ex_raw = [1; 2; 3; 4] /\ Forall (request_ok INT_MAX) ex_both /\ creation_ok ex_info /\
  (exists ws, session ex_info ex_both = (ws, [Ok tt; Ok tt], Ok tt) /\ file_size ws < 2 ^ 63).
Proof. exact (conj ex_pic_ok (conj eq_refl (conj eq_refl (conj ex_both_ok (conj ex_info_ok ex_both_session))))). Qed.

(** nothing is refused, nothing is read outside the picture, and what is handed on has the announced size *)
Theorem C96_writer_accepts : forall d stride pt bpp w h, picture_ok d stride pt bpp w h ->
  exists s, strided (Some d) stride pt w h = Ok s /\ WriterSpec.source_ok s /\ src_size s = h * (w * bpp) /\
    decodes_to (src_bytes s) pt bpp w h (given_byte d stride (w * bpp)).
Proof. exact strided_ok. Qed.
Print Assumptions C96_writer_accepts.
Example C96_writer_accepts_meets : picture_ok (firstn 6 ex_pic) 4 Gray8 1 2 2 /\ picture_ok [1; 2] 0 Gray8 1 2 1000.
Proof. split; vm_compute; intuition discriminate. Qed.

(** line by line *)
Theorem C96_lines : forall lines pt bpp w h, lines_ok lines pt bpp w h ->
  exists s, linewise lines pt w h = Ok s /\ WriterSpec.source_ok s /\ src_size s = h * (w * bpp) /\
    decodes_to (src_bytes s) pt bpp w h (line_byte lines (w * bpp)).
Proof. exact linewise_ok. Qed.
Print Assumptions C96_lines.
Example C96_lines_meets : lines_ok ex_line Gray8 1 2 2 /\ line_byte ex_line 2 3 = 4.
Proof. exact (conj ex_lines_ok eq_refl). Qed.

(** the editor does the same as the writer for rows without a gap, below 4 GiB; and for pictures given line by line, below 2 GiB
    per line *)
Theorem C96_editor_partial : forall d lines pt bpp w h,
  (picture_ok d (w * bpp) pt bpp w h -> h * (w * bpp) < 2 ^ 32 -> strided_edit (Some d) (w * bpp) w h = strided (Some d) (w * bpp) pt w h) /\
  (lines_ok lines pt bpp w h -> w * bpp <= INT_MAX -> linewise_edit lines pt w h = linewise lines pt w h).
Proof. intros d lines pt bpp w h. split; [exact (strided_edit_ok d pt bpp w h)|exact (linewise_edit_ok lines pt bpp w h)]. Qed.
Print Assumptions C96_editor_partial.
Example C96_editor_meets : picture_ok [1; 2; 3; 4] (2 * 1) Gray8 1 2 2 /\ 2 * (2 * 1) < 2 ^ 32 /\ lines_ok ex_line Gray8 1 2 2 /\ 2 * 1 <= INT_MAX.
Proof. split; [vm_compute; intuition discriminate|]. split; [lia|]. split; [exact ex_lines_ok|unfold INT_MAX; lia]. Qed.

(** false for the editor: with a gap between the rows it stores the gaps, so the reader shows another picture ... *)
Theorem C96_editor_refuted : picture_ok ex_pic 4 Gray8 1 2 2 /\ exists s m, strided_edit (Some ex_pic) 4 2 2 = Ok s /\ src_bytes s = ex_pic /\
  create_uncompressed true (src_bytes s) Gray8 2 2 (fun _ => 7) = Ok m /\ ~ shows m 2 2 (given_byte ex_pic 4 2).
Proof. exact (conj ex_pic_ok editor_skews). Qed.
Print Assumptions C96_editor_refuted.
(** ... and it reads behind the last pixel *)
Theorem C96_editor_reads_refuted : picture_ok (firstn 6 ex_pic) 4 Gray8 1 2 2 /\ strided_edit (Some (firstn 6 ex_pic)) 4 2 2 = UB.
Proof. exact editor_overreads. Qed.
Print Assumptions C96_editor_reads_refuted.

(** Full statement of C97: a sub-block added with the C API is found by the reader with the coordinate, M-index, position, extent,
    pixel type, compression, metadata and attachment given, and with the picture given; a bitmap which does not fit into the size
    announced is refused. *)

(** all but the compression; for raw data the picture, otherwise the bytes *)
Theorem C97_recorded_partial : forall m0 strict po i ops ws rs r a a',
  session i ops = (ws, rs, r) -> creation_ok i -> Forall (request_ok INT_MAX) ops ->
  file_size ws < 2 ^ 63 -> Z.of_nat (length ops) <= INT_MAX -> In a' (added ops rs) -> capi_add a = Ok a' ->
  pixel_type_from_int (ia_pt a) <> PixInvalid -> part_given (ia_meta a) (ia_msize a) -> part_given (ia_att a) (ia_asize a) ->
  r = Ok tt /\ exists o e ob, open_file strict po (file_of m0 ws) = Ok o /\ In e (op_dir o) /\
    observe strict (file_of m0 ws) e = Ok ob /\ recorded a ob /\
    ob_meta ob = part_bytes (ia_meta a) (ia_msize a) /\ ob_att ob = part_bytes (ia_att a) (ia_asize a) /\
    (forall d bpp, ia_comp a = 0 -> ia_data a = Some d -> picture_ok d (ia_stride a) (pixel_type_from_int (ia_pt a)) bpp (ia_pw a) (ia_ph a) ->
       decodes_to (ob_data ob) (pixel_type_from_int (ia_pt a)) bpp (ia_pw a) (ia_ph a) (given_byte d (ia_stride a) (ia_pw a * bpp)) /\
       e_comp (ob_entry ob) = 0) /\
    (forall d, compression_from_int (ia_comp a) <> UnCompressed -> ia_data a = Some d -> 0 <= ia_size a <= Z.of_nat (length d) ->
       ob_data ob = firstn (Z.to_nat (ia_size a)) d).
Proof. exact capi_session. Qed.
Print Assumptions C97_recorded_partial.
Example C97_recorded_meets : capi_add (ex_call 0 8 ex_pic) = Ok (ex_call_done ex_raw) /\ capi_add (ex_call 6 4 [1; 40; 181; 47]) = Ok (ex_call_done ex_zstd) /\
  Forall (request_ok INT_MAX) ex_both /\ added ex_both [Ok tt; Ok tt] = [ex_call_done ex_raw; ex_call_done ex_zstd] /\
  part_given (Some [60; 62; 0]) 2 /\ part_given (Some [42]) 1 /\ interop_at (mkIC 6 [7; 5; 99]) 2 = Some 5 /\
  picture_ok ex_pic 4 Gray8 1 2 2.
Proof.
  split; [reflexivity|]. split; [reflexivity|]. split; [exact ex_both_ok|]. split; [reflexivity|].
  split; [right; eexists; split; [reflexivity|cbn; lia]|]. split; [right; eexists; split; [reflexivity|cbn; lia]|]. split; [reflexivity|exact ex_pic_ok].
Qed.
(** the call itself goes through for these arguments *)
Theorem C97_accepted_partial : forall a d bpp, ia_data a = Some d -> part_given (ia_meta a) (ia_msize a) -> part_given (ia_att a) (ia_asize a) ->
  (ia_comp a = 0 /\ picture_ok d (ia_stride a) (pixel_type_from_int (ia_pt a)) bpp (ia_pw a) (ia_ph a)) \/
  (compression_from_int (ia_comp a) <> UnCompressed /\ 0 <= ia_size a <= Z.of_nat (length d)) -> exists a', capi_add a = Ok a'.
Proof.
  exact (fun a d bpp D PM PA H => match H with
    | or_introl (conj C P) => match capi_picture a d bpp C D P PM PA with ex_intro _ a' (conj E _) => ex_intro _ a' E end
    | or_intror (conj C P) => match capi_compressed a d C D P PM PA with ex_intro _ a' (conj E _) => ex_intro _ a' E end end).
Qed.
Print Assumptions C97_accepted_partial.
Example C97_accepted_meets : ia_data (ex_call 0 8 ex_pic) = Some ex_pic /\ picture_ok ex_pic 4 Gray8 1 2 2 /\ compression_from_int 6 <> UnCompressed.
Proof. split; [reflexivity|]. split; [exact ex_pic_ok|discriminate]. Qed.

(** false: whatever compression is given, "not compressed" is recorded ... *)
Theorem C97_compression_refuted : forall a a', capi_add a = Ok a' -> e_comp (ob_entry (expected a')) = 0 /\ e_comp (ob_info (expected a')) = 0.
Proof. exact capi_compression_lost. Qed.
Print Assumptions C97_compression_refuted.
(** ... so the reader shows the compressed bytes as pixels *)
Theorem C97_pixels_refuted : exists ws o e ob m, capi_add (ex_call 6 4 [1; 40; 181; 47]) = Ok (ex_call_done ex_zstd) /\
  session ex_info ex_both = (ws, [Ok tt; Ok tt], Ok tt) /\ open_file true popts_lax (file_of m_zero ws) = Ok o /\ In e (op_dir o) /\
  observe true (file_of m_zero ws) e = Ok ob /\ e_comp (ob_entry ob) = 0 /\ ob_data ob = [1; 40; 181; 47] /\
  create_uncompressed true (ob_data ob) Gray8 2 2 (fun _ => 7) = Ok m /\ shows m 2 2 (fun i => nth (Z.to_nat i) [1; 40; 181; 47] 0).
Proof. exact compressed_as_pixels. Qed.
Print Assumptions C97_pixels_refuted.
(** false: the size announced is documented to be validated, but the memory behind it is read *)
Theorem C97_size_refuted : ia_size (ex_call 0 4 (firstn 4 ex_pic)) = 4 /\ ia_data (ex_call 0 4 (firstn 4 ex_pic)) = Some (firstn 4 ex_pic) /\
  length (firstn 4 ex_pic) = 4%nat /\ capi_add (ex_call 0 4 (firstn 4 ex_pic)) = UB.
Proof. exact size_not_validated. Qed.
Print Assumptions C97_size_refuted.
