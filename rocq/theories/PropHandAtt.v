(** C120: attachments and metadata through the C API, there and back. *)
From Verif Require Import Base CodecModel WriterModel WriterSpec WriterExamples AddModel CapiModel HandAttModel HandAttSpec HandAttProofs HandAttExamples.
Open Scope Z_scope.

(** Full statement: attachments and metadata handed to the writer with the C API, whatever else is written between, are got back with the C API from the
    file: as many attachments as were accepted, in order, each with its GUID, type, name and bytes, also into memory which is too small or larger; the metadata
    written last, ended by a NUL; any other index is out of range. *)

(** a call is refused before the writer exactly if bytes are told of but no memory is given; with as much memory as told nothing is undefined *)
Theorem C120_refused : (forall c, call_op c = Throw <->
    match c with IAtt a => 0 < ia_bytes a /\ ia_mem a = None | IMeta n b => 0 < n /\ b = None | IOther _ => False end) /\
  forall calls, Forall call_ok calls -> exists l, handed calls = Ok l.
Proof. exact (conj api_refused handed_defined). Qed.
Print Assumptions C120_refused.

(** the whole way; missing for the full statement: an index below zero, names without NUL, and empty metadata *)
Theorem C120_way_partial : forall m0 strict po i calls l ws rs r,
  Forall call_ok calls -> Forall through_api calls -> handed calls = Ok l -> session i (map snd l) = (ws, rs, r) -> creation_ok i ->
  file_size ws < 2 ^ 63 -> Z.of_nat (length calls) <= INT_MAX -> strict = false \/ added (map snd l) rs <> [] ->
  reserved_ok i (Z.of_nat (length (accepted l rs))) ->
  exists o, open_file strict po (file_of m0 ws) = Ok o /\ att_count o = Z.of_nat (length (accepted l rs)) /\
    (forall k a, nth_error (accepted l rs) k = Some a ->
      (forall junk, length junk = 255%nat -> exists x, capi_att_info junk o (Z.of_nat k) = Ok (Some x) /\ told (name_cut a) x /\ (In 0 (ia_name a) -> told a x)) /\
      (forall size, capi_att_data strict (file_of m0 ws) o (Z.of_nat k) size None = Ok (Some (ia_bytes a, None))) /\
      (forall size m, 0 <= size <= Z.of_nat (length m) -> exists m',
        capi_att_data strict (file_of m0 ws) o (Z.of_nat k) size (Some m) = Ok (Some (ia_bytes a, Some m')) /\ filled (ia_mem a) (Z.min size (ia_bytes a)) m m')) /\
    (forall k junk size dest, Z.of_nat (length (accepted l rs)) <= k ->
      capi_att_info junk o k = Ok None /\ capi_att_data strict (file_of m0 ws) o k size dest = Ok None) /\
    match last_written None l rs with
    | None => capi_metadata strict (file_of m0 ws) o = Throw
    | Some (n, b) => if 0 <? n then exists m, capi_metadata strict (file_of m0 ws) o = Ok (m, n) /\ ended b n m else capi_metadata strict (file_of m0 ws) o = Throw
    end.
Proof. exact api_way. Qed.
Print Assumptions C120_way_partial.
(** a sub-block, an attachment, one without memory, metadata, the first attachment again, another one, metadata without memory *)
Example C120_way_meets : Forall call_ok h_calls /\ Forall through_api h_calls /\ handed h_calls = Ok h_list /\ session ex_info (map snd h_list) = (h_ws, h_rs, Ok tt) /\
  creation_ok ex_info /\ file_size h_ws < 2 ^ 63 /\ Z.of_nat (length h_calls) <= INT_MAX /\ added (map snd h_list) h_rs <> [] /\
  reserved_ok ex_info (Z.of_nat (length (accepted h_list h_rs))) /\ accepted h_list h_rs = [h_att 1 [72; 105]; h_att 3 [72]] /\
  last_written None h_list h_rs = Some (2, Some [60; 47; 62]).
Proof. exact h_meets. Qed.
Example C120_way_seen : exists o x, open_file true popts_lax h_file = Ok o /\ capi_att_info (repeat 255 255) o 1 = Ok (Some x) /\ ii_name x = 72 :: 0 :: repeat 255 253 /\
  capi_att_data true h_file o 0 2 (Some [7; 7; 7]) = Ok (Some (3, Some [1; 2; 7])) /\ capi_metadata true h_file o = Ok ([60; 47; 0], 2).
Proof. exact h_seen. Qed.

(** an index below zero is not told to be out of range, the call fails in another way *)
Theorem C120_negative_refuted : forall m0 po, exists o, open_file false po (file_of m0 h_ws) = Ok o /\ att_count o = 2 /\ forall junk, capi_att_info junk o (-1) = Throw.
Proof. exact negative_refuted. Qed.
Print Assumptions C120_negative_refuted.
(** in no case is anything read for it *)
Theorem C120_negative : forall junk strict f o k size dest, Z.of_nat (length (op_atts o)) <= INT_MAX -> k < 0 ->
  capi_att_info junk o k = Throw /\ capi_att_data strict f o k size dest = Throw.
Proof. exact api_negative. Qed.
Print Assumptions C120_negative.

(** a name of eighty characters filling its array comes back without the last; metadata without a byte, accepted by the writer, cannot be got back *)
Theorem C120_long_refuted : forall m0 po, exists o, open_file false po (file_of m0 l_ws) = Ok o /\
  (forall junk, length junk = 255%nat -> exists x, capi_att_info junk o 0 = Ok (Some x) /\ firstn 80 (ii_name x) = repeat 66 79 ++ [0]) /\
  capi_metadata false (file_of m0 l_ws) o = Throw.
Proof. exact long_refuted. Qed.
Print Assumptions C120_long_refuted.
Example C120_long_meets : Forall call_ok l_calls /\ Forall through_api l_calls /\ handed l_calls = Ok l_list /\ session ex_info (map snd l_list) = (l_ws, l_rs, Ok tt) /\
  creation_ok ex_info /\ file_size l_ws < 2 ^ 63 /\ Z.of_nat (length l_calls) <= INT_MAX /\ added (map snd l_list) l_rs <> [] /\
  reserved_ok ex_info (Z.of_nat (length (accepted l_list l_rs))) /\ accepted l_list l_rs = [h_long] /\ last_written None l_list l_rs = Some (0, Some []).
Proof. exact l_meets. Qed.
