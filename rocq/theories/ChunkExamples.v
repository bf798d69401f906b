From Verif Require Import Base CopyModel HiLoModel HiLoProofs BitonalModel BitonalProofs BitonalExamples ChunkModel ChunkProofs.

Definition g1 : bytes := [1;2;3;4;5;6;7;8;9;10;11;12;13;14;15;16].
Definition g2 : bytes := [21;22;23;24;25;26;27;28;29;30;31;32;33;34;35;36].
Definition all_of : list (Z * chunk) -> bool := fun _ => true.

(** two chunks with payload: the attachment is rejected as corrupt *)
Lemma two_chunks_rejected : exists cs, Forall chunk_ok cs /\ (length cs = 2)%nat /\ Forall (fun c => snd c <> []) cs /\
  enumerate_chunks true (container cs) all_of = Throw.
Proof.
  exists [(g1, [1]); (g2, [2; 3])]. split; [|split; [reflexivity|split; [|vm_compute; reflexivity]]].
  - repeat constructor; cbn [fst snd]; unfold is_byte; lia.
  - repeat constructor; discriminate.
Qed.
(** two chunks with payload: the second chunk reported is made up from the payload of the first *)
Definition ex_payload : bytes := repeat 77 16 ++ [0; 0; 0; 0].
Lemma two_chunks_wrong : exists cs l, Forall chunk_ok cs /\ enumerate_chunks true (container cs) all_of = Ok l /\
  map (fun c => ck_guid (snd c)) l <> map fst cs.
Proof.
  exists [(g1, ex_payload); (g2, [2])]. eexists. split; [|split; [vm_compute; reflexivity|]].
  - repeat constructor; cbn [fst snd]; unfold is_byte; lia.
  - intros E. vm_compute in E. discriminate E.
Qed.
(** the index is not counted *)
Lemma index_not_counted : exists cs l, Forall chunk_ok cs /\ enumerate_chunks true (container cs) all_of = Ok l /\
  l <> expected 0 0 cs /\ map snd l = map snd (expected 0 0 cs).
Proof.
  exists [(g1, []); (g2, [2])]. eexists. split; [|split; [vm_compute; reflexivity|split]].
  - repeat constructor; cbn [fst snd]; unfold is_byte; lia.
  - intros E. vm_compute in E. discriminate E.
  - reflexivity.
Qed.
(** a hostile size: reading behind the attachment *)
Definition ex_hostile : bytes := g1 ++ le 4 (4294967296 - 20) ++ [0].
Lemma hostile_size : Forall is_byte ex_hostile /\ enumerate_chunks true ex_hostile all_of = UB.
Proof. split; [repeat constructor; unfold is_byte; lia|vm_compute; reflexivity]. Qed.

Lemma ex_small : sizes_small (container [(g1, [5; 6])]).
Proof.
  intros k Hk Hl. change (len (container [(g1, [5; 6])])) with 22 in *.
  assert (C : In k (map Z.of_nat (seq 0 19))).
  { apply in_map_iff. exists (Z.to_nat k). split; [lia|]. apply in_seq. lia. }
  cbn in C. repeat (destruct C as [<-|C]; [vm_compute; reflexivity|]). contradiction.
Qed.

(** masks *)
Lemma no_mask : get_mask true (container [(g1, [5])]) = UB.
Proof. vm_compute. reflexivity. Qed.
Definition ex_wide : bytes := container [(GUID_MASK, enc_mask 4294967295 1 0 [])].
Lemma wide_mask : exists d b, Forall is_byte d /\ create_mask true d = Ok b /\ mw b = 4294967295 /\ get_pixel b 100 0 = UB.
Proof.
  exists ex_wide. eexists. split; [repeat constructor; unfold is_byte; lia|].
  split; [vm_compute; reflexivity|]. split; reflexivity.
Qed.
Lemma short_mask : exists p, (length p < 12)%nat /\ Forall is_byte p /\ get_mask true (container [(GUID_MASK, p)]) = UB.
Proof. exists [1;2;3]. split; [cbn; lia|]. split; [repeat constructor; unfold is_byte; lia|]. vm_compute. reflexivity. Qed.

Definition ex_mask : bytes := container ([(g1, []); (g2, [])] ++ [(GUID_MASK, enc_mask 11 3 2 [170; 85; 255; 255; 0; 1])]) ++ [9; 9].
Lemma ex_mask_ok : exists b, create_mask true ex_mask = Ok b /\
  pixels b = [[1;0;1;0;1;0;1;0;0;1;0]; [1;1;1;1;1;1;1;1;1;1;1]; [0;0;0;0;0;0;0;0;0;0;0]].
Proof. eexists. split; [vm_compute; reflexivity|]. vm_compute. reflexivity. Qed.
