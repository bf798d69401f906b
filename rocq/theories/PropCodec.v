(** C01, C02: the sub-block directory on disk. *)
From Verif Require Import Base CodecModel CodecProofs CodecExamples StrictProofs.

(** C01: encoding any list of representable entries and parsing the bytes gives the same list back,
    under every combination of parsing options. *)
Theorem C01_directory_roundtrip : forall (o : popts) (es : list sbe),
  Forall sbe_wf es -> Z.of_nat (length (flat_map enc_entry es)) < 2 ^ 64 ->
  parse_entries o (length es) (flat_map enc_entry es) 0 = Ok es.
Proof. exact entries_roundtrip. Qed.
Print Assumptions C01_directory_roundtrip.

Example C01_example :
  Forall sbe_wf [ex_entry1; ex_entry2] /\ length (flat_map enc_entry [ex_entry1; ex_entry2]) = 224%nat.
Proof. exact (conj ex_entries_wf eq_refl). Qed.

(** C02 in full would read: [forall o n payload, parse_entries o n payload 0 <> UB].  It is false: a
    directory entry announcing -1, 41 or 214748365 dimensions makes the parser leave its entry buffer. *)
Theorem C02_arbitrary_directory_refuted :
  exists payload, length payload = 32%nat /\ Forall is_byte payload /\ parse_entries popts_lax 1 payload 0 = UB.
Proof.
  exact (ex_intro _ (ex_payload (-1) 0) (conj eq_refl (conj ex_payload_bytes ex_negative_count))).
Qed.
Print Assumptions C02_arbitrary_directory_refuted.

(** C02, the part which holds: for any payload in which no two bytes "DV" are followed, 28 bytes later, by
    a dimension count outside 0..40, parsing from the start delivers entries or a parse error. *)
Theorem C02_arbitrary_directory_partial : forall o n payload,
  Z.of_nat (length payload) < 2 ^ 63 ->
  (forall k, (k + 32 <= length payload)%nat -> slice payload k 2 = [68; 86] ->
             0 <= s32 (unle (slice payload (k + 28) 4)) <= 40) ->
  parse_entries o n payload 0 = Throw \/ exists es, parse_entries o n payload 0 = Ok es.
Proof. exact parse_defined. Qed.
Print Assumptions C02_arbitrary_directory_partial.

Example C02_example : forall k, (k + 32 <= 224)%nat ->
  slice (enc_entry ex_entry1 ++ enc_entry ex_entry2) k 2 = [68; 86] ->
  0 <= s32 (unle (slice (enc_entry ex_entry1 ++ enc_entry ex_entry2) (k + 28) 4)) <= 40.
Proof. exact ex_no_bad. Qed.

(** C69: a directory whose entries list arbitrary dimensions (at most 40 each) is accepted iff every entry meets the
    rules selected by the options, and its entries are then read as specified; otherwise it is rejected. *)
Theorem C69_strict_parsing : forall o rs, Forall raw_ok rs -> Z.of_nat (length (flat_map raw_bytes rs)) < 2 ^ 64 ->
  (Forall (fun r => accepted o (snd r)) rs /\ parse_entries o (length rs) (flat_map raw_bytes rs) 0 = Ok (map raw_entry rs)) \/
  (~ Forall (fun r => accepted o (snd r)) rs /\ parse_entries o (length rs) (flat_map raw_bytes rs) 0 = Throw).
Proof. exact strict_parsing. Qed.
Print Assumptions C69_strict_parsing.

Example C69_example : (exists e, parse_entries popts_strict 1 (enc_dv entry0 ex_dims) 0 = Ok [e] /\
    e_x e = 5 /\ e_sh e = 40 /\ e_m e = 2 /\ nth 1 (e_coord e) None = Some 4) /\
  parse_entries popts_strict 1 (enc_dv entry0 [mkDE 88 5 100 50; mkDE 67 1 1 1]) 0 = Throw.
Proof. exact (conj ex_strict ex_strict_no_y). Qed.
