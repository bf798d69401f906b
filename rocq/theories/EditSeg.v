(** Segments with an arbitrary allocated size: writing and reading back. *)
From Verif Require Import Base CodecModel MemProofs CodecProofs WriterModel WriterProofs WriterSpec ReadProofs WriterInv WriterFin WriterOpen EditModel.

(** ** Sub-blocks *)
Definition sb_seg_al (al p : Z) (a : addinfo) : bytes :=
  sb_header_al al p a ++ content (ai_meta a) ++ content (ai_data a) ++ content (ai_att a).

Lemma sb_header_al_length al p a : length (e_coord (ai_e a)) = 9%nat ->
  Z.of_nat (length (sb_header_al al p a)) = sb_header_size a.
Proof. exact (sb_header_length p a). Qed.

Lemma sb_seg_al_length al p a : add_ok a -> Z.of_nat (length (sb_seg_al al p a)) = sb_used a.
Proof.
  intros (Hw & Hm & Hd & Ha & _).
  assert (H9 : length (e_coord (ai_e a)) = 9%nat) by apply Hw.
  unfold sb_seg_al. rewrite !app_length, !Nat2Z.inj_add.
  rewrite sb_header_al_length, !content_length by assumption. unfold sb_used. lia.
Qed.

Lemma sb_segment_al p a : sb_segment p a = sb_seg_al (align32 (sb_used a) - 32) p a ++ zeros (align32 (sb_used a) - sb_used a).
Proof. unfold sb_segment, sb_seg_al. rewrite <- !app_assoc. reflexivity. Qed.

Lemma write_subblock_in_spec al pos a : add_ok a -> 0 <= al < 2 ^ 63 ->
  if al <? align32 (sb_used a) - 32 then write_subblock_in al pos a = ([], Throw)
  else exists bss z n, write_subblock_in al pos a = (contig pos bss, Ok n)
                       /\ concat bss = sb_seg_al al pos a ++ zeros z /\ 0 <= z /\ sb_used a + z <= al + 32.
Proof.
  intros Hok Hal0. pose proof Hok as (Hw & Hm & Hd & Ha & Hms & Has).
  assert (H9 : length (e_coord (ai_e a)) = 9%nat) by apply Hw.
  unfold write_subblock_in.
  replace ((INT_MAX <? src_size (ai_meta a)) || (INT_MAX <? src_size (ai_att a))) with false by lia.
  destruct (al <? align32 (sb_used a) - 32) eqn:E0; [reflexivity|].
  unfold wput. rewrite wbind_ok, sb_header_al_length by assumption. set (H := sb_header_size a).
  destruct (write_generic_spec (pos + H) (ai_meta a) Hm) as (b1 & W1 & C1). rewrite W1, wbind_ok.
  destruct (write_generic_spec (pos + H + src_size (ai_meta a)) (ai_data a) Hd) as (b2 & W2 & C2). rewrite W2, wbind_ok.
  destruct (write_generic_spec (pos + H + src_size (ai_meta a) + src_size (ai_data a)) (ai_att a) Ha) as (b3 & W3 & C3).
  rewrite W3, wbind_ok.
  set (n := H + src_size (ai_meta a) + src_size (ai_data a) + src_size (ai_att a)).
  assert (Hn : n = sb_used a) by (unfold n, sb_used, H; lia).
  assert (Hpos : 0 <= sb_used a). { unfold sb_used, sb_header_size. destruct Hm as [? _], Hd as [? _], Ha as [? _]. lia. }
  pose proof (align32_spec _ Hpos) as (Hal & _).
  assert (CH : contig pos ([sb_header_al al pos a] ++ b1 ++ b2 ++ b3)
      = (pos, sb_header_al al pos a) :: contig (pos + H) b1 ++ contig (pos + H + src_size (ai_meta a)) b2
        ++ contig (pos + H + src_size (ai_meta a) + src_size (ai_data a)) b3).
  { cbn [app contig]. rewrite sb_header_al_length by assumption. fold H. f_equal.
    rewrite !contig_app. rewrite C1, C2, !content_length by assumption. reflexivity. }
  assert (CC : concat ([sb_header_al al pos a] ++ b1 ++ b2 ++ b3) = sb_seg_al al pos a).
  { rewrite !concat_app, C1, C2, C3. cbn [concat]. now rewrite app_nil_r. }
  destruct (n <? al + 32) eqn:E.
  - destruct (write_zeroes_spec (pos + n) (al + 32 - n)) as (b4 & W4 & C4 & Z4); [lia|].
    rewrite W4, wbind_ok. cbn [wret fst snd].
    exists (([sb_header_al al pos a] ++ b1 ++ b2 ++ b3) ++ b4), (zero_total 0 (al + 32 - n)), (n + zero_total 0 (al + 32 - n)).
    split; [|split; [|lia]].
    + rewrite contig_app, CH.
      assert (LC : Z.of_nat (length (concat ([sb_header_al al pos a] ++ b1 ++ b2 ++ b3))) = n)
        by (rewrite CC, sb_seg_al_length by assumption; lia).
      rewrite LC. cbn [app]. rewrite app_nil_r, <- !app_assoc. reflexivity.
    + rewrite concat_app, C4, CC. reflexivity.
  - exists ([sb_header_al al pos a] ++ b1 ++ b2 ++ b3), 0, n. split; [|split; [|lia]].
    + rewrite CH. cbn [wret fst snd app]. rewrite app_nil_r. reflexivity.
    + rewrite CC. unfold zeros. cbn [Z.to_nat repeat]. now rewrite app_nil_r.
Qed.

Definition sb_pre_al (al p : Z) (a : addinfo) : bytes :=
  MAGIC_SB ++ le 8 al ++ le 8 (sb_used a - 32)
  ++ le 4 (src_size (ai_meta a)) ++ le 4 (src_size (ai_att a)) ++ le 8 (src_size (ai_data a))
  ++ [68; 86] ++ le 4 (e_pt (ai_e a)) ++ le 8 p ++ le 4 0 ++ le 4 (e_comp (ai_e a))
  ++ [e_pyr (ai_e a); 0; 0; 0; 0; 0] ++ le 4 (ndims a).

Lemma sb_seg_al_split al p a :
  sb_seg_al al p a = sb_pre_al al p a ++ flat_map enc_dim (dims_of (ai_e a) (ai_mv a))
    ++ zeros (sb_header_size a - (80 + 20 * ndims a))
    ++ content (ai_meta a) ++ content (ai_data a) ++ content (ai_att a).
Proof.
  unfold sb_seg_al, sb_header_al.
  assert (L : Z.of_nat (length (seg_header MAGIC_SB al (sb_used a - 32)
              ++ le 4 (src_size (ai_meta a)) ++ le 4 (src_size (ai_att a)) ++ le 8 (src_size (ai_data a))
              ++ enc_dv (with_pos (ai_e a) p) (dims_of (ai_e a) (ai_mv a)))) = 80 + 20 * ndims a).
  { unfold seg_header. rewrite !app_length, !le_length.
    pose proof (enc_dv_length (with_pos (ai_e a) p) (dims_of (ai_e a) (ai_mv a))) as L.
    unfold ndims in *. replace (length MAGIC_SB) with 16%nat by reflexivity. lia. }
  rewrite L. unfold sb_pre_al, enc_dv, seg_header, with_pos.
  cbn [e_pt e_pos e_comp e_pyr]. unfold ndims. rewrite <- !app_assoc. reflexivity.
Qed.

Lemma sb_pre_al_fields al p a rest :
  let h := sb_pre_al al p a ++ rest in
  slice h 0 16 = MAGIC_SB /\ slice h 32 4 = le 4 (src_size (ai_meta a)) /\ slice h 36 4 = le 4 (src_size (ai_att a))
  /\ slice h 40 8 = le 8 (src_size (ai_data a)) /\ nth 48 h 0 = 68 /\ nth 49 h 0 = 86
  /\ slice h 50 4 = le 4 (e_pt (ai_e a)) /\ slice h 54 8 = le 8 p /\ slice h 66 4 = le 4 (e_comp (ai_e a))
  /\ nth 70 h 0 = e_pyr (ai_e a) /\ slice h 76 4 = le 4 (ndims a) /\ skipn 80 h = rest.
Proof. repeat split. Qed.

Lemma read_subblock_al strict f al p a :
  add_ok a -> src_size (ai_data a) <= INT_MAX -> holds f p (sb_seg_al al p a) -> f_size f < 2 ^ 63 ->
  read_subblock strict f p = Ok (read_back p a).
Proof.
  intros Hok Hd Hh Hp. pose proof Hok as (Hw & Hcm & Hcd & Hca & Hms & Has).
  pose proof Hw as ((H9 & _) & Hm & Hx & Hy & Hww & Hhh & Hsw & Hsh & Hpt & Hpos & Hcomp & Hpyr).
  cbn [with_pos e_coord e_m e_x e_y e_w e_h e_sw e_sh e_pt e_pos e_comp e_pyr] in *.
  pose proof (sb_seg_al_length al p a Hok) as Lseg.
  assert (Hn : 2 <= ndims a <= 12) by (pose proof (dims_of_length (ai_e a) (ai_mv a) H9); unfold ndims; lia).
  assert (LH : 288 <= sb_header_size a) by (unfold sb_header_size; lia).
  assert (Hsizes : 0 <= src_size (ai_meta a) /\ 0 <= src_size (ai_data a) /\ 0 <= src_size (ai_att a))
    by (destruct Hcm as [? _], Hcd as [? _], Hca as [? _]; lia).
  assert (Hused : sb_header_size a <= sb_used a) by (unfold sb_used; lia).
  pose proof (proj1 Hh) as Hp0. pose proof (proj1 (proj2 Hh)) as Hend.
  set (seg := sb_seg_al al p a) in *.
  set (ds := dims_of (ai_e a) (ai_mv a)) in *.
  set (tail := zeros (sb_header_size a - (80 + 20 * ndims a)) ++ content (ai_meta a) ++ content (ai_data a) ++ content (ai_att a)).
  assert (Hseg : seg = sb_pre_al al p a ++ flat_map enc_dim ds ++ tail) by (subst seg tail; apply sb_seg_al_split).
  assert (Lds : length (flat_map enc_dim ds) = Z.to_nat (20 * ndims a)) by (rewrite flat_enc_dim_length; unfold ndims; fold ds; lia).
  assert (Lpre : length (sb_pre_al al p a) = 80%nat) by reflexivity.
  unfold read_subblock.
  replace p with (p + Z.of_nat 0) at 1 by lia. change 288 with (Z.of_nat 288).
  rewrite (read_exact_holds strict f p seg 0 288 Hh) by lia. cbn [bind]. change (slice seg 0 288) with (firstn 288 seg).
  assert (Hfirst : firstn 288 seg = sb_pre_al al p a ++ firstn 208 (flat_map enc_dim ds ++ tail)).
  { rewrite Hseg. now rewrite (firstn_pre _ _ 80) by (auto; lia). }
  rewrite Hfirst.
  destruct (sb_pre_al_fields al p a (firstn 208 (flat_map enc_dim ds ++ tail)))
    as (F1 & F2 & F3 & F4 & F5 & F6 & F7 & F8 & F9 & F10 & F11 & F12).
  cbv zeta in F1, F2, F3, F4, F5, F6, F7, F8, F9, F10, F11, F12.
  rewrite F1, F2, F3, F4, F5, F6, F7, F8, F9, F10, F11, F12.
  rewrite eqbytes_refl. cbn [negb].
  change (68 =? 68) with true. change (86 =? 86) with true. cbn [andb].
  rewrite (s32_unle_le4 (ndims a)) by (unfold in_i32, INT_MIN, INT_MAX; lia).
  rewrite (s32_unle_le4 (src_size (ai_meta a))) by (unfold in_i32, INT_MIN, INT_MAX in *; lia).
  rewrite (s32_unle_le4 (src_size (ai_att a))) by (unfold in_i32, INT_MIN, INT_MAX in *; lia).
  rewrite (s32_unle_le4 (e_pt (ai_e a))), (s32_unle_le4 (e_comp (ai_e a))) by assumption.
  rewrite (s64_unle_le8 (src_size (ai_data a))) by (unfold INT_MAX in *; lia).
  rewrite (unle_le 8 p). change (256 ^ Z.of_nat 8) with (2 ^ 64). rewrite (Z.mod_small p) by lia.
  replace (MAXDIMENSIONS <? ndims a) with false by (unfold MAXDIMENSIONS; lia).
  assert (Hu : u32 (48 + 20 * ndims a) = 48 + 20 * ndims a) by (unfold u32; apply Z.mod_small; lia).
  rewrite Hu.
  set (more := if Z.of_nat 288 <? 48 + 20 * ndims a + 32
               then read_into strict f (p + Z.of_nat 288) (48 + 20 * ndims a + 32 - Z.of_nat 288) SB_EXTRA else Ok []).
  assert (Hmore : exists mb rest, more = Ok mb /\ firstn 208 (flat_map enc_dim ds ++ tail) ++ mb = flat_map enc_dim ds ++ rest).
  { unfold more. destruct (Z.of_nat 288 <? 48 + 20 * ndims a + 32) eqn:E.
    - set (k := Z.to_nat (20 * ndims a - 208)).
      replace (48 + 20 * ndims a + 32 - Z.of_nat 288) with (Z.of_nat k) by lia.
      rewrite (read_into_holds strict f p seg 288 k SB_EXTRA Hh);
        [|unfold sb_header_size in *; lia|lia|unfold SB_EXTRA; lia].
      exists (slice seg 288 k), []. split; [reflexivity|].
      rewrite Hseg, slice_app_r by lia. rewrite Lpre. change (288 - 80)%nat with 208%nat.
      rewrite app_nil_r. unfold slice. apply firstn_split. lia.
    - exists [], (firstn (208 - length (flat_map enc_dim ds)) tail). split; [reflexivity|].
      rewrite app_nil_r. apply firstn_pre; [reflexivity|lia]. }
  destruct Hmore as (mb & rest & -> & Hcat). cbn [bind].
  rewrite Hcat.
  replace (Z.to_nat (ndims a)) with (length ds) by (unfold ndims; fold ds; lia).
  rewrite dec_dims_enc by (apply (dims_of_wf (with_pos (ai_e a) 0)); assumption).
  unfold ds. rewrite sb_dims_of by assumption. cbn [bind].
  assert (HL : Z.max (48 + 20 * ndims a) 256 + 32 = sb_header_size a) by (unfold sb_header_size; lia).
  assert (LHd : length (sb_header_al al p a) = Z.to_nat (sb_header_size a)) by (pose proof (sb_header_al_length al p a H9); lia).
  pose proof (content_length _ Hcm) as Lm. pose proof (content_length _ Hcd) as Ld. pose proof (content_length _ Hca) as La.
  set (oh := Z.to_nat (sb_header_size a)) in *.
  assert (Lbs : (oh + length (content (ai_meta a)) + length (content (ai_data a)) + length (content (ai_att a)) <= length seg)%nat)
    by (unfold sb_used in *; lia).
  assert (R1 : (if 0 <? src_size (ai_meta a)
                then read_cast32 strict f (u64 (p + Z.max (48 + 20 * ndims a) 256 + 32)) (src_size (ai_meta a)) else Ok [])
               = Ok (content (ai_meta a))).
  { replace (p + Z.max (48 + 20 * ndims a) 256 + 32) with (p + Z.of_nat oh) by lia.
    rewrite <- Lm. apply (read_part strict f p seg); auto; try lia.
    subst seg. unfold sb_seg_al. apply slice_app_exact; auto. }
  rewrite R1. cbn [bind].
  assert (R2 : (if 0 <? src_size (ai_data a)
                then read_cast32 strict f (u64 (p + Z.max (48 + 20 * ndims a) 256 + 32 + src_size (ai_meta a))) (src_size (ai_data a)) else Ok [])
               = Ok (content (ai_data a))).
  { replace (p + Z.max (48 + 20 * ndims a) 256 + 32 + src_size (ai_meta a))
      with (p + Z.of_nat (oh + length (content (ai_meta a)))) by lia.
    rewrite <- Ld. apply (read_part strict f p seg); auto; try lia.
    subst seg. unfold sb_seg_al. rewrite app_assoc. apply slice_app_exact; auto. rewrite app_length; lia. }
  rewrite R2. cbn [bind].
  assert (R3 : (if 0 <? src_size (ai_att a)
                then read_cast32 strict f (u64 (p + Z.max (48 + 20 * ndims a) 256 + 32 + src_size (ai_meta a) + src_size (ai_data a))) (src_size (ai_att a)) else Ok [])
               = Ok (content (ai_att a))).
  { replace (p + Z.max (48 + 20 * ndims a) 256 + 32 + src_size (ai_meta a) + src_size (ai_data a))
      with (p + Z.of_nat (oh + length (content (ai_meta a)) + length (content (ai_data a)))) by lia.
    rewrite <- La. apply (read_part strict f p seg); auto; try lia.
    subst seg. unfold sb_seg_al. rewrite app_assoc, app_assoc. rewrite slice_app_r by (rewrite !app_length; lia).
    rewrite !app_length. replace (_ - _)%nat with 0%nat by lia. now apply slice_all. }
  rewrite R3. cbn [bind]. unfold read_back. unfold with_pos, with_m. reflexivity.
Qed.

Lemma observe_al strict f al p a :
  add_ok a -> src_size (ai_data a) <= INT_MAX -> holds f p (sb_seg_al al p a) -> f_size f < 2 ^ 63 ->
  observe strict f (with_pos (entry_of_info a) p) = Ok (expected a).
Proof.
  intros H1 H2 H3 H4. unfold observe. cbn [with_pos e_pos]. rewrite (read_subblock_al strict f al p a) by assumption. reflexivity.
Qed.

(** ** Attachments *)
Definition att_seg_al (al p : Z) (a : attinfo) : bytes := att_header_al al p a ++ at_data a.

Lemma att_header_al_length al p a : att_ok a -> length (att_header_al al p a) = 288%nat.
Proof. exact (att_header_length p a). Qed.
Lemma att_seg_al_length al p a : att_ok a -> Z.of_nat (length (att_seg_al al p a)) = 288 + Z.of_nat (length (at_data a)).
Proof. intros H. unfold att_seg_al. rewrite app_length, att_header_al_length by assumption. lia. Qed.
Lemma att_segment_al p a : att_segment p a = att_seg_al (align32 (256 + Z.of_nat (length (at_data a)))) p a
  ++ zeros (align32 (256 + Z.of_nat (length (at_data a))) - (256 + Z.of_nat (length (at_data a)))).
Proof. unfold att_segment, att_seg_al. rewrite <- !app_assoc. reflexivity. Qed.

Lemma write_attachment_in_spec al pos a : att_ok a -> 256 + Z.of_nat (length (at_data a)) <= al < 2 ^ 63 ->
  exists bss z n, write_attachment_in al pos a = (contig pos bss, Ok n)
                  /\ concat bss = att_seg_al al pos a ++ zeros z /\ 0 <= z /\ 288 + Z.of_nat (length (at_data a)) + z <= al + 32.
Proof.
  intros Hok Hal. unfold write_attachment_in, wput.
  rewrite wbind_ok, att_header_al_length by assumption. rewrite wbind_ok.
  set (d := Z.of_nat (length (at_data a))) in *.
  assert (CH : contig pos [att_header_al al pos a; at_data a] = [(pos, att_header_al al pos a); (pos + Z.of_nat 288, at_data a)]).
  { cbn [contig]. rewrite att_header_al_length by assumption. reflexivity. }
  destruct (Z.of_nat 288 + d <? al + 32) eqn:E.
  - destruct (write_zeroes_spec (pos + (Z.of_nat 288 + d)) (al + 32 - (Z.of_nat 288 + d))) as (b & W4 & C4 & Z4); [lia|].
    rewrite W4, wbind_ok. cbn [wret fst snd]. eexists ([att_header_al al pos a; at_data a] ++ b), _, _. split; [|split; [|split]].
    + rewrite contig_app, CH. cbn [app concat]. rewrite !app_length, app_nil_r, att_header_al_length by assumption.
      cbn [length]. f_equal.
      do 2 f_equal. f_equal. rewrite Nat.add_0_r. unfold d. lia.
    + rewrite concat_app, C4. cbn [concat]. rewrite app_nil_r, <- app_assoc. unfold att_seg_al. rewrite <- app_assoc. reflexivity.
    + lia.
    + lia.
  - eexists [att_header_al al pos a; at_data a], 0, _. split; [|split; [|split]].
    + rewrite CH. cbn [wret fst snd app]. reflexivity.
    + cbn [concat]. rewrite app_nil_r. unfold att_seg_al, zeros. cbn [Z.to_nat repeat]. now rewrite app_nil_r.
    + lia.
    + lia.
Qed.

Lemma read_attachment_al strict f al p a :
  att_ok a -> Z.of_nat (length (at_data a)) <= INT_MAX -> holds f p (att_seg_al al p a) ->
  read_attachment strict f p = Ok (at_data a).
Proof.
  intros Hok Hl H. unfold read_attachment. pose proof (att_header_al_length al p a Hok) as Lh.
  unfold att_seg_al in H.
  rewrite (read_exact_all strict f p (att_header_al al p a) 288 (holds_prefix _ _ _ _ H)) by lia. cbn [bind].
  change (slice (att_header_al al p a) 0 16) with MAGIC_ATT. rewrite eqbytes_refl. cbn [negb].
  change (slice (att_header_al al p a) 32 8) with (le 8 (Z.of_nat (length (at_data a)))).
  rewrite s64_unle_le8 by (unfold INT_MAX in *; lia).
  destruct (0 <? Z.of_nat (length (at_data a))) eqn:E.
  - change (p + 288) with (p + Z.of_nat 288).
    rewrite (read_cast32_holds strict f p _ 288 (length (at_data a)) H); [|rewrite !app_length; lia|lia|assumption].
    f_equal. rewrite slice_app_r by lia. rewrite Lh, Nat.sub_diag. now apply slice_all.
  - destruct (at_data a); [reflexivity|cbn [length] in E; lia].
Qed.
