(** C107: reserved space. *)
From Coq Require Import String.
From Verif Require Import Base CodecModel TextModel RectModel CoordModel CoordSpec CoordExamples MemProofs WriterModel WriterSpec WriterExamples DocSpec GuidModel GuidSpec ReserveModel ReserveSpec ReserveMain ReserveExamples.
Open Scope Z_scope.

(** C107: what was reserved suffices: metadata, the directory of sub-blocks and that of attachments go into the space reserved at
    the begin of the file, behind it the file is the same as if no metadata was written. *)
Theorem C107_reserved : forall i ops ws0 s0 ws1 s1 rs ws2 s2 rs2 n k a, creation_ok i -> Forall (request_ok (2 ^ 64)) ops ->
  wi_rmeta i = Some n -> wi_rdir i = Some k -> wi_ratt i = Some a ->
  Forall (meta_fits (meta_room n)) ops -> calls is_sub ops <= k -> calls is_att ops <= att_room a ->
  create i = (ws0, s0) -> wrun s0 ops = (ws1, s1, rs) -> wrun s0 (without_meta ops) = (ws2, s2, rs2) ->
  544 <= w_next s0 <= room (meta_room n) k (att_room a) /\ below (w_next s0) ws0 /\ beyond (w_next s0) ws1 = beyond (w_next s0) ws2 /\ w_next s1 = w_next s2 /\
  below (w_next s0) (fst (finish (wi_guid i) s1)).
Proof. exact reserved. Qed.
Print Assumptions C107_reserved.
Example C107_reserved_meets : creation_ok (res_info 250) /\ Forall (request_ok (2 ^ 64)) ex_ops /\ Forall (meta_fits (meta_room 250)) ex_ops /\ calls is_sub ex_ops = 2 /\ calls is_att ex_ops = 3 /\
  w_next (snd (create (res_info 250))) = 3584 /\ length (beyond_of 250 ex_ops) = length (beyond_of 250 (without_meta ex_ops)) /\
  length (beyond_of 100 ex_ops) <> length (beyond_of 100 (without_meta ex_ops)).
Proof. exact ex_reserved. Qed.

(** C107: the same with the sizes given to the C API as text. *)
Theorem C107_capi : forall fresh d ops ws0 s0 ws1 s1 rs ws2 s2 rs2 n k a, List.length fresh = 16%nat -> Forall (request_ok (2 ^ 64)) ops ->
  number_given d "reserved_size_metadata_segment" 0 (2 ^ 32) n -> number_given d "reserved_size_subblock_directory" 0 (2 ^ 32) k -> k <> 0 ->
  number_given d "reserved_size_attachments_directory" 0 (2 ^ 32) a ->
  Forall (meta_fits (meta_room n)) ops -> calls is_sub ops <= k -> calls is_att ops <= att_room a ->
  exists i, creation (pr_guid (in_force fresh d)) (pr_rmeta (in_force fresh d)) (pr_rdir (in_force fresh d)) (pr_ratt (in_force fresh d)) None (pr_m (in_force fresh d)) = Ok i /\ i = winfo_of (in_force fresh d) /\
  (create i = (ws0, s0) -> wrun s0 ops = (ws1, s1, rs) -> wrun s0 (without_meta ops) = (ws2, s2, rs2) ->
  544 <= w_next s0 <= room (meta_room n) k (att_room a) /\ below (w_next s0) ws0 /\ beyond (w_next s0) ws1 = beyond (w_next s0) ws2 /\ w_next s1 = w_next s2 /\
  below (w_next s0) (fst (finish (wi_guid i) s1))).
Proof. exact reserved_capi. Qed.
Print Assumptions C107_capi.
Example C107_capi_meets : number_given res_params "reserved_size_metadata_segment" 0 (2 ^ 32) 250 /\ number_given res_params "reserved_size_subblock_directory" 0 (2 ^ 32) 2 /\
  number_given res_params "reserved_size_attachments_directory" 0 (2 ^ 32) 0 /\ att_room 0 = 10.
Proof. exact ex_reserved_capi. Qed.

(** C107: without a number, space is reserved for one sub-block for every coordinate and M-index of the document, if there are
    less than 2^31 M-indices and less than 2^64 sub-blocks. *)
Theorem C107_estimate_partial : forall b mrange, box_ok b -> (match mrange with Some (lo, hi) => lo <= hi /\ hi - lo < INT_MAX | None => True end) -> box_size b * m_size mrange < 2 ^ 64 ->
  exists k, dir_count 0 (Some b) mrange = Ok k /\ (k = box_size b * m_size mrange \/ (k = 10 /\ box_size b * m_size mrange = 1)) /\
  forall l, NoDup l -> Forall (expected_sub b mrange) l -> Z.of_nat (length l) <= k.
Proof. exact estimate. Qed.
Print Assumptions C107_estimate_partial.
Example C107_estimate_meets : box_ok res_box /\ box_size res_box * m_size (Some (0, 9)) = 120 /\ dir_count 0 (Some res_box) (Some (0, 9)) = Ok 120 /\
  expected_sub res_box (Some (0, 9)) (tset (tset empty_table 1 3) 2 12, Some 9) /\ dir_count 0 None None = Ok 10 /\ dir_count 0 None (Some (0, 9)) = Ok 10.
Proof. exact ex_estimate. Qed.

(** C107, refuted: with M from 0 to the greatest int the number of M-indices overflows. *)
Theorem C107_range_refuted : exists d, number_given d "reserved_size_subblock_directory" 0 (2 ^ 32) 0 /\ number_given d "minimum_m_index" (- 2 ^ 31) (2 ^ 31) 0 /\
  number_given d "maximum_m_index" (- 2 ^ 31) (2 ^ 31) INT_MAX /\ forall fresh,
  creation (pr_guid (in_force fresh d)) (pr_rmeta (in_force fresh d)) (pr_rdir (in_force fresh d)) (pr_ratt (in_force fresh d)) None (pr_m (in_force fresh d)) = UB.
Proof. exact range_overflow. Qed.
Print Assumptions C107_range_refuted.
