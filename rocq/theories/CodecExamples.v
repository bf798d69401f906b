(** Concrete directory entries and payloads used as witnesses. *)
From Verif Require Import Base CodecModel CodecProofs.

(** Z=-3, C=0 and B=7 given, M-index 5, and a second entry without M-index
    and without any dimension, at negative coordinates. *)
Definition ex_entry1 : sbe :=
  mkSbe [Some (-3); Some 0; None; None; None; None; None; None; Some 7] 5 (-100) 20 512 256 256 128 3 1024 6 2.
Definition ex_entry2 : sbe :=
  mkSbe no_coord INT_MIN (-1) (-2) 3 4 3 4 1 (2 ^ 63) 0 0.

Lemma ex_entries_wf : Forall sbe_wf [ex_entry1; ex_entry2].
Proof.
  apply Forall_cons; [|apply Forall_cons; [|apply Forall_nil]];
    unfold sbe_wf, coord_wf, ex_entry1, ex_entry2, in_i32, INT_MIN, INT_MAX; cbn -[Z.pow];
    (split; [split; [reflexivity|]|repeat split; lia]).
  - repeat (apply Forall_cons; [cbn; lia|]). apply Forall_nil.
  - repeat (apply Forall_cons; [exact I|]). apply Forall_nil.
Qed.

(** A "DV" entry whose dimension count is [dc], with [n] bytes behind it. *)
Definition ex_payload (dc : Z) (n : nat) : bytes := [68; 86] ++ repeat 0 26 ++ le 4 dc ++ repeat 0 n.

Lemma ex_negative_count : parse_entries popts_lax 1 (ex_payload (-1) 0) 0 = UB.
Proof. vm_compute. reflexivity. Qed.

Lemma ex_large_count : parse_entries popts_lax 1 (ex_payload 41 820) 0 = UB.
Proof. vm_compute. reflexivity. Qed.

Lemma ex_wrapping_count : parse_entries popts_lax 1 (ex_payload 214748365 4) 0 = UB.
Proof. vm_compute. reflexivity. Qed.

Lemma ex_payload_bytes : Forall is_byte (ex_payload (-1) 0).
Proof. apply Forall_forall. intros x Hx. vm_compute in Hx. unfold is_byte. intuition lia. Qed.

Lemma ex_no_bad : forall k, (k + 32 <= 224)%nat ->
  slice (enc_entry ex_entry1 ++ enc_entry ex_entry2) k 2 = [68; 86] ->
  0 <= s32 (unle (slice (enc_entry ex_entry1 ++ enc_entry ex_entry2) (k + 28) 4)) <= 40.
Proof.
  intros k Hk Hs.
  assert (T : forallb (fun k => negb (eqbytes (slice (enc_entry ex_entry1 ++ enc_entry ex_entry2) k 2) [68; 86])
    || ((0 <=? s32 (unle (slice (enc_entry ex_entry1 ++ enc_entry ex_entry2) (k + 28) 4)))
        && (s32 (unle (slice (enc_entry ex_entry1 ++ enc_entry ex_entry2) (k + 28) 4)) <=? 40))) (seq 0 193) = true)
    by (vm_compute; reflexivity).
  rewrite forallb_forall in T. specialize (T k).
  rewrite Hs in T. unfold eqbytes in T. destruct (list_eq_dec Z.eq_dec [68; 86] [68; 86]) as [_|n]; [|congruence].
  cbn [negb orb] in T. assert (Hin : In k (seq 0 193)) by (apply in_seq; lia). specialize (T Hin). lia.
Qed.
