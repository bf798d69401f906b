(** C44, C74-C77: the reader object. *)
From Coq Require Import Permutation.
From Verif Require Import Base RectModel CodecModel WriterModel WriterProofs WriterSpec WriterExamples CodesModel StatModel AccessModel EditSpec EditExamples
  StrictProofs ReaderModel ReaderSpec ReaderProofs ReaderParts ReaderExamples.
Open Scope Z_scope.

(** C44 is false: opening a document without attachments after closing one with two still reports two. *)
Theorem C44_reopen_refuted :
  look [ROpen false file2 ropts0; RClose; ROpen false file1 ropts0; RAttCount] = [Ok ADone; Ok ADone; Ok ADone; Ok (ACount 2)]
  /\ look [ROpen false file1 ropts0; RAttCount] = [Ok ADone; Ok (ACount 0)].
Proof. exact stale_attachments. Qed.
Print Assumptions C44_reopen_refuted.

(** C44, attachments included: after any history of calls, a successful Open makes the reader answer every further sequence of
    calls like a new one - if the document has an attachment directory, or none of those opened before had attachments. *)
Theorem C44_reopen_partial : forall h strict f o hd qs,
  let s := fst (rrun reader0 h) in
  snd (rstep s (ROpen strict f o)) = Ok ADone -> read_file_header strict f = Ok hd ->
  fh_att hd <> 0 \/ Forall (fun q => match q with ROpen b g _ => carries b g = false | _ => True end) h ->
  snd (rrun s (ROpen strict f o :: qs)) = snd (rrun reader0 (ROpen strict f o :: qs)).
Proof. exact reopen_fresh. Qed.
Print Assumptions C44_reopen_partial.

(** ... and without any condition for calls which are not about attachments. *)
Theorem C44_reopen_sub_blocks : forall h strict f o qs,
  let s := fst (rrun reader0 h) in
  snd (rstep s (ROpen strict f o)) = Ok ADone -> snd (rstep reader0 (ROpen strict f o)) = Ok ADone ->
  forallb (fun q => negb (about_attachments q)) qs = true ->
  snd (rrun s (ROpen strict f o :: qs)) = snd (rrun reader0 (ROpen strict f o :: qs)).
Proof. exact reopen_sub_blocks. Qed.
Print Assumptions C44_reopen_sub_blocks.

Example C44_example : (exists hd a, read_file_header false file2 = Ok hd /\ fh_att hd <> 0 /\ read_attdir false file2 (fh_att hd) = Ok a /\ length a = 2%nat)
  /\ snd (rstep reader0 (ROpen false file2 ropts0)) = Ok ADone.
Proof. exact (conj atts_hypotheses atts_opens). Qed.

(** C74 is false: a closed reader still answers TryGetSubBlockInfo, from the document closed; TransformPoint on a reader which
    was never opened computes with an origin which is not there. *)
Theorem C74_closed_reader_refuted :
  (exists i, look [ROpen false file1 ropts0; RClose; RInfo 0] = [Ok ADone; Ok ADone; Ok (AInfo (Some i))])
  /\ look [RTransform FPixel (0, 0) FRaw] = [UB].
Proof. exact closed_answers. Qed.
Print Assumptions C74_closed_reader_refuted.

(** C74 for the other calls: closed, every one of them throws and changes nothing. *)
Theorem C74_closed_reader_partial : forall h q,
  is_open false h (snd (rrun reader0 h)) = false -> (match q with ROpen _ _ _ | RInfo _ | RTransform _ _ _ => False | _ => True end) ->
  rstep (fst (rrun reader0 h)) q = (fst (rrun reader0 h), Throw).
Proof. exact closed_refuses. Qed.
Print Assumptions C74_closed_reader_partial.
(** ... and an open reader refuses to open another document. *)
Theorem C74_open_twice : forall h strict f o,
  is_open false h (snd (rrun reader0 h)) = true -> rstep (fst (rrun reader0 h)) (ROpen strict f o) = (fst (rrun reader0 h), Throw).
Proof. exact open_refuses_open. Qed.
Print Assumptions C74_open_twice.

Example C74_example : is_open false [RClose; RStats] (look [RClose; RStats]) = false /\ look [RClose; RStats; RAttCount] = [Throw; Throw; Throw].
Proof. exact (conj eq_refl eq_refl). Qed.

(** C75 is false for documents whose sub-block header lacks one of the dimensions X and Y (or is of the other schema):
    the extents compared were never set. *)
Theorem C75_discrepancy_refuted : look [ROpen false file_noX ropts0; RBlock 0] = [Ok ADone; UB].
Proof. exact extent_unset. Qed.
Print Assumptions C75_discrepancy_refuted.

(** C75 for headers with both: if directory and header agree, or discrepancies are ignored, the sub-block is delivered, described
    by the source preferred; otherwise an exception is thrown. *)
Theorem C75_discrepancy_partial : forall h strict f o hd es k e d,
  let s := fst (rrun reader0 h) in
  snd (rstep s (ROpen strict f o)) = Ok ADone -> read_file_header strict f = Ok hd -> read_directory strict (popts_of o) f (fh_dir hd) = Ok es ->
  nth_error es k = Some e -> read_subblock strict f (e_pos e) = Ok d -> e_w (sd_info d) <> 0 -> e_h (sd_info d) <> 0 ->
  (Z.testbit (ro_policy o) 7 = true \/ agree e (sd_info d) ->
   snd (rrun s [ROpen strict f o; RBlock (Z.of_nat k)])
   = [Ok ADone; Ok (ABlock (Some (rinfo_of (if Z.testbit (ro_policy o) 0 then sd_info d else e), (sd_data d, sd_att d, sd_meta d))))]) /\
  (Z.testbit (ro_policy o) 7 = false -> ~ agree e (sd_info d) -> snd (rrun s [ROpen strict f o; RBlock (Z.of_nat k)]) = [Ok ADone; Throw]).
Proof. exact reader_block. Qed.
Print Assumptions C75_discrepancy_partial.

(** Documents of the writer never cause the exception: every sub-block added is delivered, with the bytes given. *)
Theorem C75_written_documents : forall m0 strict i ops ws rs r h o,
  session i ops = (ws, rs, r) -> creation_ok i -> Forall (request_ok INT_MAX) ops ->
  file_size ws < 2 ^ 63 -> Z.of_nat (length ops) <= INT_MAX -> strict = false \/ added ops rs <> [] ->
  Forall (fun a => e_w (ai_e a) <> 0 /\ e_h (ai_e a) <> 0) (added ops rs) -> Z.testbit (ro_policy o) 0 = false ->
  let s := fst (rrun reader0 h) in let f := file_of m0 ws in
  snd (rstep s (ROpen strict f o)) = Ok ADone ->
  exists l, Permutation l (added ops rs) /\
    forall k a, nth_error l k = Some a ->
    snd (rrun s [ROpen strict f o; RBlock (Z.of_nat k)]) = [Ok ADone; Ok (ABlock (Some (shown_as a)))].
Proof. exact written_readable. Qed.
Print Assumptions C75_written_documents.

Example C75_example : x_of (look [ROpen false file_x9 (with_policy 0); RBlock 0]) = Throw
  /\ x_of (look [ROpen false file_x9 (with_policy 1); RBlock 0]) = Throw
  /\ x_of (look [ROpen false file_x9 (with_policy 128); RBlock 0]) = Ok (Some 0)
  /\ x_of (look [ROpen false file_x9 (with_policy 129); RBlock 0]) = Ok (Some 9).
Proof. exact policies. Qed.
Example C75_example2 : (exists hd es e d, read_file_header false file_x9 = Ok hd /\ read_directory false (popts_of (with_policy 0)) file_x9 (fh_dir hd) = Ok es
  /\ nth_error es 0 = Some e /\ read_subblock false file_x9 (e_pos e) = Ok d /\ e_w (sd_info d) = 2 /\ e_h (sd_info d) = 2 /\ ~ agree e (sd_info d))
  /\ snd (rstep reader0 (ROpen false file_x9 (with_policy 0))) = Ok ADone.
Proof. exact (conj block_hypotheses block_opens). Qed.

(** C76 is false: asking for a type of eight characters which an attachment has reads behind the array holding it. *)
Theorem C76_attachment_subset_refuted : forall strict f o h hd a e t n,
  let s := fst (rrun reader0 h) in
  snd (rstep s (ROpen strict f o)) = Ok ADone -> read_file_header strict f = Ok hd -> fh_att hd <> 0 -> read_attdir strict f (fh_att hd) = Ok (e :: a) ->
  t = ae_type e -> ~ In 0 t ->
  snd (rrun s [ROpen strict f o; RAttSubset (Some t) n]) = [Ok ADone; UB].
Proof. exact eight_characters. Qed.
Print Assumptions C76_attachment_subset_refuted.

Example C76_refuted_example : look [ROpen false file2 ropts0; RAtts; RAttSubset (Some (repeat 65 8)) None]
  = [Ok ADone; Ok (AAtts [(0, (repeat 1 16, repeat 65 8, name79)); (1, (repeat 2 16, repeat 65 8, name79))]); UB].
Proof. exact eight_found. Qed.

(** C76 otherwise (a type of at most seven characters, or all types in the document shorter than eight): the attachments
    reported are exactly those with the type and name asked for, in order and with their index in the directory. *)
Theorem C76_attachment_subset_partial : forall h strict f o hd a t n,
  let s := fst (rrun reader0 h) in
  snd (rstep s (ROpen strict f o)) = Ok ADone -> read_file_header strict f = Ok hd -> fh_att hd <> 0 -> read_attdir strict f (fh_att hd) = Ok a ->
  text t -> text n -> (forall x, t = Some x -> (length x < 8)%nat \/ Forall (fun e => In 0 (ae_type e)) a) ->
  snd (rrun s [ROpen strict f o; RAttCount; RAtts; RAttSubset t n])
  = [Ok ADone; Ok (ACount (Z.of_nat (length a))); Ok (AAtts (map seen (from 0 a))); Ok (AAtts (map seen (filter (fun x => wanted t n (snd x)) (from 0 a))))].
Proof. exact reader_atts. Qed.
Print Assumptions C76_attachment_subset_partial.

Example C76_example : (forall t, In t [None; Some (repeat 65 7)] ->
  look [ROpen false file2 ropts0; RAttSubset t None; RAttSubset t (Some name79); RAttSubset t (Some (repeat 66 78))]
  = [Ok ADone; Ok (AAtts (match t with None => [(0, (repeat 1 16, repeat 65 8, name79)); (1, (repeat 2 16, repeat 65 8, name79))] | _ => [] end));
     Ok (AAtts (match t with None => [(0, (repeat 1 16, repeat 65 8, name79)); (1, (repeat 2 16, repeat 65 8, name79))] | _ => [] end)); Ok (AAtts [])])
  /\ (exists hd a, read_file_header false file2 = Ok hd /\ fh_att hd <> 0 /\ read_attdir false file2 (fh_att hd) = Ok a /\ length a = 2%nat)
  /\ snd (rstep reader0 (ROpen false file2 ropts0)) = Ok ADone.
Proof. exact (conj attachments_found (conj atts_hypotheses atts_opens)). Qed.

(** C77: "any sub-block of the channel" is the first of the directory which has that channel index, and there is none only if
    no sub-block has it; a document without channels gives its first sub-block. *)
Theorem C77_sub_block_in_channel : forall h strict f o hd es c,
  let s := fst (rrun reader0 h) in
  snd (rstep s (ROpen strict f o)) = Ok ADone -> read_file_header strict f = Ok hd -> read_directory strict (popts_of o) f (fh_dir hd) = Ok es ->
  exists r, snd (rrun s [ROpen strict f o; RChannel c]) = [Ok ADone; Ok (AInfo r)] /\
  ((forall e, In e es -> nth 1 (e_coord e) None = None) -> r = option_map rinfo_of (hd_error es)) /\
  ((exists e, In e es /\ nth 1 (e_coord e) None <> None) ->
   match r with
   | Some i => exists before e after, es = before ++ e :: after /\ i = rinfo_of e /\ nth 1 (e_coord e) None = Some c /\ forall x, In x before -> nth 1 (e_coord x) None <> Some c
   | None => forall x, In x es -> nth 1 (e_coord x) None <> Some c
   end).
Proof. exact reader_channel. Qed.
Print Assumptions C77_sub_block_in_channel.

Example C77_example : (exists i, look [ROpen false file1 ropts0; RChannel 1; RChannel 0] = [Ok ADone; Ok (AInfo (Some i)); Ok (AInfo None)]) /\ look [RChannel 1] = [Throw].
Proof. exact channel_found. Qed.

(** C69: what Open asks of the dimensions of every sub-block for each choice of its options. *)
Theorem C69_open_options : forall o ds, accepted (popts_of o) ds <-> allowed o ds.
Proof. exact open_options. Qed.
Print Assumptions C69_open_options.

(** a pyramid tile made of three tiles *)
Example C69_open_example : (forall p, allowed (mkRopts false true FInvalid p) ex_dims) /\ (forall p, ~ allowed (mkRopts false false FInvalid p) ex_dims)
  /\ (forall p b, allowed (mkRopts true b FInvalid p) ex_dims).
Proof. exact allowed_example. Qed.

(** C75: what the reader tells about a sub-block, without and with its data, are the values of its entry in the directory. *)
Theorem C75_described : forall h strict f o hd es k e,
  let s := fst (rrun reader0 h) in
  snd (rstep s (ROpen strict f o)) = Ok ADone -> read_file_header strict f = Ok hd -> read_directory strict (popts_of o) f (fh_dir hd) = Ok es ->
  nth_error es k = Some e ->
  (exists i, snd (rrun s [ROpen strict f o; RInfo (Z.of_nat k)]) = [Ok ADone; Ok (AInfo (Some i))] /\ describes i e) /\
  (forall i p, snd (rrun s [ROpen strict f o; RBlock (Z.of_nat k)]) = [Ok ADone; Ok (ABlock (Some (i, p)))] -> Z.testbit (ro_policy o) 0 = false -> describes i e).
Proof. exact reader_info. Qed.
Print Assumptions C75_described.

Example C75_described_example : exists i, look [ROpen false file1 ropts0; RInfo 0] = [Ok ADone; Ok (AInfo (Some i))]
  /\ ri_rect i = mkRect 0 (-4) 2 2 /\ ri_pw i = 2 /\ ri_m i = 3 /\ ri_pt i = Gray8 /\ ri_pyr i = PyrNone
  /\ (let* hd := read_file_header false file1 in let* es := read_directory false (popts_of ropts0) file1 (fh_dir hd) in Ok (map e_y es)) = Ok [-4].
Proof. exact described_example. Qed.
