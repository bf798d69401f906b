(** C03-C07, C09, C55-C57: the append-only writer. *)
From Coq Require Import Permutation.
From Verif Require Import Base CodecModel MemProofs WriterModel WriterProofs WriterSpec WriterMain WriterCrash WriterLimits WriterExamples.

(** C03: after any history of operations with honest sources, closing succeeds, the file opens, and the
    sub-blocks found are exactly the ones whose addition succeeded, each with its geometry and bytes.
    [strict]: in-memory stream (reads at the end of file throw); the case excluded here is C56. *)
Theorem C03_write_close_reopen : forall m0 strict po i ops ws rs r,
  session i ops = (ws, rs, r) -> creation_ok i -> Forall (request_ok INT_MAX) ops ->
  file_size ws < 2 ^ 63 -> Z.of_nat (length ops) <= INT_MAX -> strict = false \/ added ops rs <> [] ->
  r = Ok tt /\ exists o, open_file strict po (file_of m0 ws) = Ok o /\ op_guid o = wi_guid i
    /\ Permutation (map (observe strict (file_of m0 ws)) (op_dir o)) (map (fun a => Ok (expected a)) (added ops rs)).
Proof. exact session_roundtrip. Qed.
Print Assumptions C03_write_close_reopen.

Example C03_example : creation_ok ex_info /\ Forall (request_ok INT_MAX) ex_ops
  /\ (exists ws, session ex_info ex_ops = (ws, [Ok tt; Ok tt; Ok tt; Ok tt; Throw; Ok tt; Ok tt], Ok tt) /\ file_size ws < 2 ^ 63 /\ (10 < length ws)%nat)
  /\ added ex_ops [Ok tt; Ok tt; Ok tt; Ok tt; Throw; Ok tt; Ok tt] = [ex_sub1; ex_sub2].
Proof. exact (conj ex_info_ok (conj ex_ops_ok (conj ex_session (proj1 ex_added)))). Qed.

(** C04 in full (any source) is false: a source which announces 16384 bytes but delivers none makes the
    next segment start inside the one just written. *)
Theorem C04_no_overlap_refuted : exists ws o e1 e2, session big_info lazy_ops = (ws, [Ok tt; Ok tt], Ok tt)
  /\ open_file true popts_lax (file_of m_zero ws) = Ok o /\ op_dir o = [e1; e2]
  /\ e_pos e1 < e_pos e2 < e_pos e1 + 32 + recorded_alloc (file_of m_zero ws) (e_pos e1).
Proof. exact lazy_overlap. Qed.
Print Assumptions C04_no_overlap_refuted.

(** C04 for honest sources: the writes of a successful addition of a sub-block or attachment fill one
    aligned range behind the file header; every earlier write ends before it, no later write (including
    those of Close) touches it. *)
Theorem C04_no_overlap_partial : forall i ops1 o ops2 ws0 s0 ws1 s1 rs1 ws2 s2 ws3 s3 rs3,
  creation_ok i -> Forall (request_ok (2 ^ 64)) (ops1 ++ o :: ops2) ->
  create i = (ws0, s0) -> wrun s0 ops1 = (ws1, s1, rs1) -> wstep s1 o = (ws2, s2, Ok tt) -> wrun s2 ops2 = (ws3, s3, rs3) ->
  (match o with OpMeta _ _ => False | _ => True end) ->
  exists p bss, ws2 = contig p bss /\ 544 <= p /\ p mod 32 = 0 /\ Z.of_nat (length (concat bss)) mod 32 = 0
    /\ (0 < length (concat bss))%nat
    /\ Forall (fun w => fst w + Z.of_nat (length (snd w)) <= p) (ws0 ++ ws1)
    /\ Forall (fun w => fst w + Z.of_nat (length (snd w)) <= p \/ p + Z.of_nat (length (concat bss)) <= fst w)
              (ws3 ++ fst (finish (wi_guid i) s3)).
Proof. exact session_no_overlap. Qed.
Print Assumptions C04_no_overlap_partial.

(** C05: cut off after any proper prefix of the stream writes, the file cannot be opened - whatever the
    operations were and whether or not they succeeded. *)
Theorem C05_crash_before_end : forall m0 strict po i ops ws rs r n,
  length (wi_guid i) = 16%nat ->
  (forall x, wi_rmeta i = Some x \/ wi_rdir i = Some x \/ wi_ratt i = Some x -> 0 <= x) ->
  session i ops = (ws, rs, r) -> (n < length ws)%nat ->
  open_file strict po (file_of m0 (firstn n ws)) = Throw.
Proof. exact crash_throws. Qed.
Print Assumptions C05_crash_before_end.

(** ... and after the last write everything is there: the directory lists the added sub-blocks; each is
    delivered completely, unless its pixel data exceeds the reader's limit (C09). *)
Theorem C05_after_end : forall m0 strict po i ops ws rs r,
  session i ops = (ws, rs, r) -> creation_ok i -> Forall (request_ok (2 ^ 63)) ops ->
  file_size ws < 2 ^ 63 -> Z.of_nat (length ops) <= INT_MAX -> strict = false \/ added ops rs <> [] ->
  r = Ok tt /\ exists o, open_file strict po (file_of m0 ws) = Ok o
    /\ Permutation (map (delivered strict (file_of m0 ws)) (op_dir o))
                   (map (fun a => if src_size (ai_data a) <=? INT_MAX then Some (expected a) else None) (added ops rs)).
Proof. exact session_readable. Qed.
Print Assumptions C05_after_end.

Example C05_example : exists ws, session ex_info ex_ops = (ws, [Ok tt; Ok tt; Ok tt; Ok tt; Throw; Ok tt; Ok tt], Ok tt)
  /\ file_size ws < 2 ^ 63 /\ (10 < length ws)%nat.
Proof. exact ex_session. Qed.

(** C06 is false: for every N above 4096 fewer than N bytes are written, and reported. *)
Theorem C06_zero_fill_refuted : forall pos n, 4096 < n < 2 ^ 64 - 4096 ->
  exists k, snd (write_zeroes pos n) = Ok k /\ k < n /\ Z.of_nat (length (concat (map snd (fst (write_zeroes pos n))))) < n.
Proof. exact write_zeroes_short. Qed.
Print Assumptions C06_zero_fill_refuted.

(** C06 for N up to 4096. *)
Theorem C06_zero_fill_partial : forall m pos n, 0 <= n <= 4096 ->
  snd (write_zeroes pos n) = Ok n
  /\ mread (apply_writes m (fst (write_zeroes pos n))) pos (Z.to_nat n) = repeat 0 (Z.to_nat n)
  /\ forall a, a < pos \/ pos + n <= a -> apply_writes m (fst (write_zeroes pos n)) a = m a.
Proof. exact write_zeroes_exact. Qed.
Print Assumptions C06_zero_fill_partial.

Example C06_example : snd (write_zeroes 100 20480) = Ok 12288 /\ snd (write_zeroes 100 31) = Ok 31.
Proof. exact (conj eq_refl eq_refl). Qed.

(** C07 is false: whenever more room was reserved than attachments were added, at least one attachment is
    missing after re-opening. *)
Theorem C07_reserved_attachment_directory_refuted : forall m0 strict po i ops ws rs r k,
  session i ops = (ws, rs, r) -> creation_ok i -> Forall (request_ok INT_MAX) ops ->
  file_size ws < 2 ^ 63 -> Z.of_nat (length ops) <= INT_MAX -> strict = false \/ added ops rs <> [] ->
  wi_ratt i = Some k -> attached ops rs <> [] -> Z.of_nat (length (attached ops rs)) < (if k =? 0 then 10 else k) ->
  exists o, open_file strict po (file_of m0 ws) = Ok o /\ (length (op_atts o) < length (attached ops rs))%nat.
Proof. exact session_attdir_lost. Qed.
Print Assumptions C07_reserved_attachment_directory_refuted.

Example C07_example : creation_ok res_info /\ Forall (request_ok INT_MAX) res_ops
  /\ exists ws, session res_info res_ops = (ws, [Ok tt; Ok tt], Ok tt) /\ file_size ws < 2 ^ 63.
Proof. exact (conj res_info_ok (conj res_ops_ok res_session)). Qed.

(** C07/C55, the part which holds: with nothing reserved, or not more than needed, re-opening yields
    exactly the attachments added (name cut to 79 characters), their bytes, and the last metadata. *)
Theorem C55_attachments_and_metadata : forall m0 strict po i ops ws rs r,
  session i ops = (ws, rs, r) -> creation_ok i -> Forall (request_ok INT_MAX) ops ->
  file_size ws < 2 ^ 63 -> Z.of_nat (length ops) <= INT_MAX -> strict = false \/ added ops rs <> [] ->
  Forall (fun a => Z.of_nat (length (at_data a)) <= INT_MAX) (attached ops rs) ->
  match wi_ratt i with Some k => (if k =? 0 then 10 else k) <= Z.of_nat (length (attached ops rs)) | None => True end ->
  exists o, open_file strict po (file_of m0 ws) = Ok o
    /\ map (fun e => (ae_guid e, ae_type e, ae_name e, read_attachment strict (file_of m0 ws) (ae_pos e))) (op_atts o)
       = map (fun a => (at_guid a, at_type a, upd (at_name a) 79 0, Ok (at_data a))) (attached ops rs)
    /\ match last_meta None ops rs with
       | Some (xml, att) => op_metapos o <> 0 /\ read_metadata strict (file_of m0 ws) (op_metapos o) = Ok (xml, att)
       | None => op_metapos o = 0
       end.
Proof. exact session_attachments. Qed.
Print Assumptions C55_attachments_and_metadata.

Example C55_example : attached ex_ops [Ok tt; Ok tt; Ok tt; Ok tt; Throw; Ok tt; Ok tt] = [ex_att 1; ex_att 2]
  /\ last_meta None ex_ops [Ok tt; Ok tt; Ok tt; Ok tt; Throw; Ok tt; Ok tt] = Some (repeat 5 200, []).
Proof. exact (proj2 ex_added). Qed.

(** C09 is false: a sub-block with 2 GiB of data is written and listed, but cannot be read. *)
Theorem C09_large_subblock_refuted :
  exists ws, session big_info [OpSub big_add (Some 0%nat)] = (ws, [Ok tt], Ok tt)
  /\ forall m0 strict po, exists e o, open_file strict po (file_of m0 ws) = Ok o /\ op_dir o = [e]
     /\ forall d, read_subblock strict (file_of m0 ws) (e_pos e) <> Ok d.
Proof. exact big_unreadable. Qed.
Print Assumptions C09_large_subblock_refuted.

(** C09, exact limit: no file whatsoever yields more than INT_MAX bytes; below the limit see
    [C05_after_end]. *)
Theorem C09_large_subblock_partial : forall strict f p d,
  read_subblock strict f p = Ok d -> Z.of_nat (length (sd_data d)) <= INT_MAX.
Proof. exact read_subblock_limit. Qed.
Print Assumptions C09_large_subblock_partial.

(** C56 is false: a document without sub-blocks, written and closed successfully, is rejected when it is
    opened from memory, though it opens from a file. *)
Theorem C56_empty_document_refuted :
  exists ws, session big_info [] = (ws, [], Ok tt) /\ open_file true popts_lax (file_of m_zero ws) = Throw
  /\ exists o, open_file false popts_lax (file_of m_zero ws) = Ok o.
Proof. exact empty_doc. Qed.
Print Assumptions C56_empty_document_refuted.

(** C57 is false: an addition which throws stays listed in the directory. *)
Theorem C57_failed_addition_refuted : exists ws o, session big_info bad_ops = (ws, [Throw; Ok tt], Ok tt)
  /\ open_file true popts_lax (file_of m_zero ws) = Ok o /\ length (op_dir o) = 2%nat.
Proof. exact bad_dangling. Qed.
Print Assumptions C57_failed_addition_refuted.
(** Bad arguments are refused without any effect. *)
Theorem C57_bad_arguments_partial : forall s a slot,
  e_comp (ai_e a) = INT_MIN \/ e_w (ai_e a) < 0 \/ e_h (ai_e a) < 0 \/ e_sw (ai_e a) < 0 \/ e_sh (ai_e a) < 0 ->
  wstep s (OpSub a slot) = ([], s, Throw).
Proof. exact bad_arguments. Qed.
Print Assumptions C57_bad_arguments_partial.
