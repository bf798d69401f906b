(** Concrete pictures and calls, used as examples and witnesses. *)
From Verif Require Import Base CodesModel CodecModel CodecProofs WriterModel WriterProofs WriterSpec WriterMain WriterLimits WriterExamples ZstdModel ZstdProofs AddModel AddSpec AddProofs.

(** two rows of two Gray8 pixels, four bytes apart; the padding is 90, 91 *)
Definition ex_pic : bytes := [1; 2; 90; 91; 3; 4; 90; 91].
Lemma ex_pic_ok : picture_ok ex_pic 4 Gray8 1 2 2.
Proof. vm_compute. intuition discriminate. Qed.
Lemma ex_pic_decodes : exists s, strided (Some ex_pic) 4 Gray8 2 2 = Ok s /\ src_bytes s = [1; 2; 3; 4].
Proof. eexists. split; reflexivity. Qed.
Definition ex_line (y : Z) : buf := if y =? 0 then Some [1; 2; 90] else Some [3; 4].
Lemma ex_lines_ok : lines_ok ex_line Gray8 1 2 2.
Proof.
  split; [reflexivity|]. do 4 (split; [lia|]). intros y Hy. destruct (Z.eq_dec y 0) as [->|].
  - exists [1; 2; 90]. split; [reflexivity|cbn; lia].
  - replace y with 1 by lia. exists [3; 4]. split; [reflexivity|cbn; lia].
Qed.

(** the editor stores the padding *)
Lemma editor_skews : exists s m, strided_edit (Some ex_pic) 4 2 2 = Ok s /\ src_bytes s = ex_pic /\ create_uncompressed true (src_bytes s) Gray8 2 2 (fun _ => 7) = Ok m /\
  ~ shows m 2 2 (given_byte ex_pic 4 2).
Proof.
  eexists _, _. split; [reflexivity|]. split; [reflexivity|]. split; [reflexivity|]. intros H. cbn [shows] in H.
  destruct H as (_ & _ & H). specialize (H 1 0 ltac:(lia) ltac:(lia)). vm_compute in H. discriminate H.
Qed.
(** and reads behind the last pixel *)
Lemma editor_overreads : picture_ok (firstn 6 ex_pic) 4 Gray8 1 2 2 /\ strided_edit (Some (firstn 6 ex_pic)) 4 2 2 = UB.
Proof. split; [vm_compute; intuition discriminate|reflexivity]. Qed.
(** rows are taken from other rows if the picture has more than 4 GiB *)
Lemma editor_wraps (y stride : Z) : 0 < stride -> 2 ^ 32 <= y * stride -> u32 (y * stride) < y * stride.
Proof. intros H1 H2. unfold u32. pose proof (Z.mod_pos_bound (y * stride) (2 ^ 32)). lia. Qed.

(** A call of the C API: position C = 7, T = 5 (bits 1 and 2), M-index 3, two by two pixels shown as four by four. *)
Definition ex_call (comp size : Z) (d : bytes) : iadd :=
  mkIAdd (mkIC 6 [7; 5; 99]) 1 3 10 (-20) 4 4 2 2 0 comp size (Some d) 4 2 (Some [60; 62; 0]) 1 (Some [42]).
Definition ex_call_done (data : source) : addinfo :=
  mkAdd (mkSbe [None; Some 7; Some 5; None; None; None; None; None; None] 3 10 (-20) 4 4 2 2 0 0 0 0) true (mkSrc 2 [Some [60; 62]]) data (mkSrc 1 [Some [42]]).
Lemma ex_call_raw : capi_add (ex_call 0 8 ex_pic) = Ok (ex_call_done (mkSrc 4 [Some [1; 2]; Some [3; 4]])).
Proof. reflexivity. Qed.
Lemma ex_call_zstd : capi_add (ex_call 6 4 [1; 40; 181; 47]) = Ok (ex_call_done (mkSrc 4 [Some [1; 40; 181; 47]])).
Proof. reflexivity. Qed.

Lemma ex_done_ok data : WriterSpec.source_ok data -> src_size data = 4 -> request_ok INT_MAX (OpSub (ex_call_done data) (Some 0%nat)).
Proof.
  intros S1 S2. split.
  - unfold geometry_ok, ex_call_done, sbe_wf, coord_wf, with_pos. cbn [ai_e e_coord e_m e_x e_y e_w e_h e_sw e_sh e_pt e_pos e_comp e_pyr].
    split; [split; [reflexivity|repeat (apply Forall_cons; [cbn; unfold in_i32, INT_MIN, INT_MAX; try lia; exact I|]); apply Forall_nil]|].
    change (2 ^ 64) with 18446744073709551616. unfold in_i32, INT_MIN, INT_MAX in *. lia.
  - split; [split; [cbn; lia|intros [Q|[]]; discriminate Q]|]. split; [exact S1|]. split; [split; [cbn; lia|intros [Q|[]]; discriminate Q]|].
    unfold ex_call_done. cbn [ai_meta ai_data ai_att src_size]. rewrite S2. vm_compute. intuition discriminate.
Qed.

(** Adding the compressed sub-block, closing the file and reading it *)
Definition ex_zstd : source := mkSrc 4 [Some [1; 40; 181; 47]].
Definition ex_raw : source := mkSrc 4 [Some [1; 2]; Some [3; 4]].
Lemma ex_zstd_ok : WriterSpec.source_ok ex_zstd.
Proof. split; [cbn; lia|intros [Q|[]]; discriminate Q]. Qed.
Lemma ex_raw_ok : WriterSpec.source_ok ex_raw.
Proof. split; [cbn; lia|intros [Q|[Q|[]]]; discriminate Q]. Qed.
Definition ex_both : list wop := [OpSub (ex_call_done ex_raw) (Some 0%nat); OpSub (ex_call_done ex_zstd) (Some 0%nat)].
Lemma ex_both_ok : Forall (request_ok INT_MAX) ex_both.
Proof. constructor; [exact (ex_done_ok _ ex_raw_ok eq_refl)|]. constructor; [exact (ex_done_ok _ ex_zstd_ok eq_refl)|constructor]. Qed.
Lemma ex_both_session : exists ws, session ex_info ex_both = (ws, [Ok tt; Ok tt], Ok tt) /\ file_size ws < 2 ^ 63.
Proof.
  destruct (session ex_info ex_both) as [[ws rs] r] eqn:E. exists ws.
  assert (E1 : rs = [Ok tt; Ok tt]) by (change rs with (snd (fst (ws, rs, r))); rewrite <- E; vm_compute; reflexivity).
  assert (E2 : r = Ok tt) by (change r with (snd (ws, rs, r)); rewrite <- E; vm_compute; reflexivity).
  assert (E3 : (file_size ws <? 2 ^ 63) = true) by (change ws with (fst (fst (ws, rs, r))); rewrite <- E; vm_compute; reflexivity).
  split; [congruence|lia].
Qed.

(** the reader finds a sub-block which is said not to be compressed, and shows the compressed bytes as pixels *)
Lemma compressed_as_pixels : exists ws o e ob m, capi_add (ex_call 6 4 [1; 40; 181; 47]) = Ok (ex_call_done ex_zstd) /\
  session ex_info ex_both = (ws, [Ok tt; Ok tt], Ok tt) /\ open_file true popts_lax (file_of m_zero ws) = Ok o /\ In e (op_dir o) /\
  observe true (file_of m_zero ws) e = Ok ob /\ e_comp (ob_entry ob) = 0 /\ ob_data ob = [1; 40; 181; 47] /\
  create_uncompressed true (ob_data ob) Gray8 2 2 (fun _ => 7) = Ok m /\ shows m 2 2 (fun i => nth (Z.to_nat i) [1; 40; 181; 47] 0).
Proof.
  destruct ex_both_session as (ws & E & F).
  destruct (session_finds m_zero true popts_lax ex_info ex_both ws _ _ (ex_call_done ex_zstd) E ex_info_ok ex_both_ok F) as (_ & o & e & O & I & Q);
    [unfold INT_MAX; cbn; lia|right; left; reflexivity|].
  destruct (uncompressed_ok [1; 40; 181; 47] Gray8 1 2 2 (fun _ => 7) eq_refl ltac:(lia) ltac:(lia) ltac:(lia) ltac:(lia)) as (m & Em & Sm).
  exists ws, o, e, (expected (ex_call_done ex_zstd)), m. split; [reflexivity|]. split; [exact E|]. split; [exact O|]. split; [exact I|]. split; [exact Q|].
  split; [reflexivity|]. split; [reflexivity|]. split; [exact Em|]. exact Sm.
Qed.

(** the size of the bitmap given is not looked at *)
Lemma size_not_validated : ia_size (ex_call 0 4 (firstn 4 ex_pic)) = 4 /\ ia_data (ex_call 0 4 (firstn 4 ex_pic)) = Some (firstn 4 ex_pic) /\
  length (firstn 4 ex_pic) = 4%nat /\ capi_add (ex_call 0 4 (firstn 4 ex_pic)) = UB.
Proof. repeat split; reflexivity. Qed.
