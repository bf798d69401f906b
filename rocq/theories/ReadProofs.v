(** Reading back what was written, segment by segment. *)
From Verif Require Import Base CodecModel MemProofs CodecProofs WriterModel WriterProofs.

(** The file contains [bs] at position [p]. *)
Definition holds (f : file) (p : Z) (bs : bytes) : Prop :=
  0 <= p /\ p + Z.of_nat (length bs) <= f_size f /\ mread (f_mem f) p (length bs) = bs.

Lemma mread_slice m p bs o n :
  mread m p (length bs) = bs -> (o + n <= length bs)%nat -> mread m (p + Z.of_nat o) n = slice bs o n.
Proof.
  intros H Hl. apply (nth_ext _ _ 0 0); [now rewrite mread_length, slice_length|].
  intros k Hk; rewrite mread_length in Hk. rewrite mread_nth by assumption. rewrite nth_slice by assumption.
  rewrite <- H at 1. rewrite mread_nth by lia. f_equal. lia.
Qed.

Lemma read_exact_holds strict f p bs o n :
  holds f p bs -> (o + n <= length bs)%nat -> (0 < n)%nat \/ strict = false ->
  read_exact strict f (p + Z.of_nat o) (Z.of_nat n) = Ok (slice bs o n).
Proof.
  intros (Hp & Hs & Hm) Hl Hn. unfold read_exact, read_into, avail.
  destruct (f_size f <=? p + Z.of_nat o) eqn:E.
  - assert (n = 0%nat) by lia. subst n. destruct Hn as [Hn|Hn]; [lia|]. subst strict.
    cbn. unfold slice. reflexivity.
  - replace (Z.min (Z.of_nat n) (f_size f - (p + Z.of_nat o))) with (Z.of_nat n) by lia.
    rewrite Z.ltb_irrefl, Z.eqb_refl, Nat2Z.id. f_equal. now apply mread_slice.
Qed.

Lemma read_into_holds strict f p bs o n cap :
  holds f p bs -> (o + n <= length bs)%nat -> (0 < n)%nat -> Z.of_nat n <= cap ->
  read_into strict f (p + Z.of_nat o) (Z.of_nat n) cap = Ok (slice bs o n).
Proof.
  intros (Hp & Hs & Hm) Hl Hn Hc. unfold read_into, avail.
  replace (f_size f <=? p + Z.of_nat o) with false by lia.
  replace (Z.min (Z.of_nat n) (f_size f - (p + Z.of_nat o))) with (Z.of_nat n) by lia.
  replace (cap <? Z.of_nat n) with false by lia.
  rewrite Z.eqb_refl, Nat2Z.id. f_equal. now apply mread_slice.
Qed.

Lemma read_cast32_holds strict f p bs o n :
  holds f p bs -> (o + n <= length bs)%nat -> (0 < n)%nat -> Z.of_nat n <= INT_MAX ->
  read_cast32 strict f (p + Z.of_nat o) (Z.of_nat n) = Ok (slice bs o n).
Proof.
  intros (Hp & Hs & Hm) Hl Hn Hc. unfold read_cast32, avail.
  replace (f_size f <=? p + Z.of_nat o) with false by lia.
  replace (Z.min (Z.of_nat n) (f_size f - (p + Z.of_nat o))) with (Z.of_nat n) by lia.
  rewrite s32_id by (unfold in_i32, INT_MIN, INT_MAX in *; lia).
  rewrite Z.eqb_refl, Nat2Z.id. f_equal. now apply mread_slice.
Qed.

Lemma eqbytes_refl a : eqbytes a a = true.
Proof. unfold eqbytes. destruct (list_eq_dec Z.eq_dec a a); congruence. Qed.

(** ** Dimension entries of a sub-block header *)
Lemma sb_add_dims_coord cs c : forall pre e,
  cs = skipn (length pre) dim_chars -> length cs = length c ->
  e_coord e = pre ++ repeat None (length c) ->
  sb_add_dims e (coord_dims cs c) = Ok (with_coord e (pre ++ c)).
Proof.
  revert c; induction cs as [|ch cs IH]; intros [|v c] pre e Hcs Hl He; cbn [length] in Hl; try lia.
  - cbn [coord_dims sb_add_dims]. rewrite app_nil_r in *. f_equal. destruct e; unfold with_coord; cbn in *. now subst.
  - symmetry in Hcs. apply nth_error_skipn_0 in Hcs. destruct Hcs as [Hn Hs].
    destruct (dim_index_table _ _ Hn) as (Hi & H88 & H89 & H77).
    destruct v as [v|]; cbn [coord_dims].
    + cbn [sb_add_dims]. unfold sb_add_dim at 1. cbn [d_char d_start d_size d_stored].
      rewrite H88, H89, H77, Hi. cbn [bind].
      rewrite (IH c (pre ++ [Some v])).
      * f_equal. unfold with_coord. cbn [e_m e_x e_y e_w e_h e_sw e_sh e_pt e_pos e_comp e_pyr].
        now rewrite <- app_assoc.
      * rewrite app_length; cbn [length]. rewrite Nat.add_1_r. now symmetry.
      * lia.
      * cbn [e_coord]. rewrite He. cbn [length repeat]. rewrite upd_app_mid. now rewrite <- app_assoc.
    + rewrite (IH c (pre ++ [None])).
      * now rewrite <- app_assoc.
      * rewrite app_length; cbn [length]. rewrite Nat.add_1_r. now symmetry.
      * lia.
      * rewrite He. cbn [length repeat]. now rewrite <- app_assoc.
Qed.

Lemma sb_add_dims_app ds1 : forall e ds2,
  sb_add_dims e (ds1 ++ ds2) = let* e' := sb_add_dims e ds1 in sb_add_dims e' ds2.
Proof.
  induction ds1 as [|d ds1 IH]; intros e ds2; cbn [app sb_add_dims bind]; [reflexivity|].
  destruct (sb_add_dim e d); cbn [bind]; auto.
Qed.

Lemma sb_dims_of e mv pt fpos comp pyr :
  length (e_coord e) = 9%nat ->
  sb_add_dims (mkSbe no_coord INT_MAX 0 0 0 0 0 0 pt fpos comp pyr) (dims_of e mv)
  = Ok (mkSbe (e_coord e) (if mv then e_m e else INT_MAX) (e_x e) (e_y e) (e_w e) (e_h e) (e_sw e) (e_sh e)
              pt fpos comp pyr).
Proof.
  intros Hc. unfold dims_of. rewrite app_assoc, sb_add_dims_app.
  assert (E : sb_add_dims (mkSbe no_coord INT_MAX 0 0 0 0 0 0 pt fpos comp pyr)
     ([mkDE 88 (e_x e) (e_w e) (e_sw e); mkDE 89 (e_y e) (e_h e) (e_sh e)]
      ++ (if mv then [mkDE 77 (e_m e) 1 1] else []))
     = Ok (mkSbe no_coord (if mv then e_m e else INT_MAX) (e_x e) (e_y e) (e_w e) (e_h e) (e_sw e) (e_sh e) pt fpos comp pyr)).
  { destruct mv; reflexivity. }
  rewrite E. cbn [bind]. rewrite (sb_add_dims_coord dim_chars (e_coord e) []); cbn [length app].
  - reflexivity.
  - reflexivity.
  - now rewrite Hc.
  - rewrite Hc. reflexivity.
Qed.

(** ** Sub-block segments *)

(** The first eighty bytes. *)
Definition sb_pre (p : Z) (a : addinfo) : bytes :=
  MAGIC_SB ++ le 8 (align32 (sb_used a) - 32) ++ le 8 (sb_used a - 32)
  ++ le 4 (src_size (ai_meta a)) ++ le 4 (src_size (ai_att a)) ++ le 8 (src_size (ai_data a))
  ++ [68; 86] ++ le 4 (e_pt (ai_e a)) ++ le 8 p ++ le 4 0 ++ le 4 (e_comp (ai_e a))
  ++ [e_pyr (ai_e a); 0; 0; 0; 0; 0] ++ le 4 (ndims a).

Lemma sb_segment_split p a :
  sb_segment p a = sb_pre p a ++ flat_map enc_dim (dims_of (ai_e a) (ai_mv a))
    ++ zeros (sb_header_size a - (80 + 20 * ndims a))
    ++ content (ai_meta a) ++ content (ai_data a) ++ content (ai_att a)
    ++ zeros (align32 (sb_used a) - sb_used a) .
Proof.
  unfold sb_segment, sb_header.
  assert (L : Z.of_nat (length (seg_header MAGIC_SB (align32 (sb_used a) - 32) (sb_used a - 32)
              ++ le 4 (src_size (ai_meta a)) ++ le 4 (src_size (ai_att a)) ++ le 8 (src_size (ai_data a))
              ++ enc_dv (with_pos (ai_e a) p) (dims_of (ai_e a) (ai_mv a)))) = 80 + 20 * ndims a).
  { unfold seg_header. rewrite !app_length, !le_length.
    pose proof (enc_dv_length (with_pos (ai_e a) p) (dims_of (ai_e a) (ai_mv a))) as L.
    unfold ndims in *. replace (length MAGIC_SB) with 16%nat by reflexivity. lia. }
  rewrite L. unfold sb_pre, enc_dv, seg_header, with_pos.
  cbn [e_pt e_pos e_comp e_pyr]. unfold ndims. rewrite <- !app_assoc. reflexivity.
Qed.

Lemma slice_zero_firstn {A} (l : list A) n : slice l 0 n = firstn n l.
Proof. reflexivity. Qed.

Lemma firstn_pre {A} (a b : list A) n m : length a = n -> (n <= m)%nat -> firstn m (a ++ b) = a ++ firstn (m - n) b.
Proof. intros <- H. rewrite firstn_app. now rewrite firstn_all2 by lia. Qed.

Lemma firstn_split {A} (l t : list A) n k : length l = (n + k)%nat ->
  firstn n (l ++ t) ++ firstn k (skipn n (l ++ t)) = l.
Proof.
  intros H. rewrite firstn_app, skipn_app. replace (n - length l)%nat with 0%nat by lia.
  rewrite firstn_O, app_nil_r, skipn_O. rewrite firstn_app, skipn_length.
  replace (k - (length l - n))%nat with 0%nat by lia. rewrite firstn_O, app_nil_r.
  rewrite (firstn_all2 (skipn n l)) by (rewrite skipn_length; lia). apply firstn_skipn.
Qed.

Lemma sb_pre_fields p a rest :
  let h := sb_pre p a ++ rest in
  slice h 0 16 = MAGIC_SB /\ slice h 32 4 = le 4 (src_size (ai_meta a)) /\ slice h 36 4 = le 4 (src_size (ai_att a))
  /\ slice h 40 8 = le 8 (src_size (ai_data a)) /\ nth 48 h 0 = 68 /\ nth 49 h 0 = 86
  /\ slice h 50 4 = le 4 (e_pt (ai_e a)) /\ slice h 54 8 = le 8 p /\ slice h 66 4 = le 4 (e_comp (ai_e a))
  /\ nth 70 h 0 = e_pyr (ai_e a) /\ slice h 76 4 = le 4 (ndims a) /\ skipn 80 h = rest.
Proof. repeat split. Qed.

(** What ReadSubBlock reports about a segment written for [a] at [p]. *)
Definition read_back (p : Z) (a : addinfo) : sbdata :=
  mkSbd (with_pos (with_m (ai_e a) (if ai_mv a then e_m (ai_e a) else INT_MAX)) p)
        (content (ai_meta a)) (content (ai_data a)) (content (ai_att a)).

Lemma read_part strict f p bs o (c : bytes) :
  holds f p bs -> (o + length c <= length bs)%nat -> slice bs o (length c) = c ->
  Z.of_nat (length c) <= INT_MAX -> p + Z.of_nat (length bs) < 2 ^ 64 ->
  (if 0 <? Z.of_nat (length c) then read_cast32 strict f (u64 (p + Z.of_nat o)) (Z.of_nat (length c)) else Ok []) = Ok c.
Proof.
  intros Hh Hl Hs Hc Hp. destruct (0 <? Z.of_nat (length c)) eqn:E.
  - rewrite u64_id by (destruct Hh; lia). rewrite (read_cast32_holds strict f p bs) by (auto; lia). now rewrite Hs.
  - destruct c; [reflexivity|cbn [length] in E; lia].
Qed.

Lemma read_subblock_ok strict f p a :
  add_ok a -> src_size (ai_data a) <= INT_MAX -> holds f p (sb_segment p a) ->
  p + align32 (sb_used a) < 2 ^ 63 ->
  read_subblock strict f p = Ok (read_back p a).
Proof.
  intros Hok Hd Hh Hp. pose proof Hok as (Hw & Hcm & Hcd & Hca & Hms & Has).
  pose proof Hw as ((H9 & _) & Hm & Hx & Hy & Hww & Hhh & Hsw & Hsh & Hpt & Hpos & Hcomp & Hpyr).
  cbn [with_pos e_coord e_m e_x e_y e_w e_h e_sw e_sh e_pt e_pos e_comp e_pyr] in *.
  pose proof (sb_segment_length p a Hok) as Lseg.
  assert (Hn : 2 <= ndims a <= 12) by (pose proof (dims_of_length (ai_e a) (ai_mv a) H9); unfold ndims; lia).
  assert (LH : 288 <= sb_header_size a) by (unfold sb_header_size; lia).
  assert (Hsizes : 0 <= src_size (ai_meta a) /\ 0 <= src_size (ai_data a) /\ 0 <= src_size (ai_att a))
    by (destruct Hcm as [? _], Hcd as [? _], Hca as [? _]; lia).
  assert (Hused : sb_header_size a <= sb_used a) by (unfold sb_used; lia).
  pose proof (align32_spec (sb_used a)) as (Hal & _); [lia|].
  pose proof (proj1 Hh) as Hp0.
  set (seg := sb_segment p a) in *.
  set (ds := dims_of (ai_e a) (ai_mv a)) in *.
  set (tail := zeros (sb_header_size a - (80 + 20 * ndims a))
    ++ content (ai_meta a) ++ content (ai_data a) ++ content (ai_att a) ++ zeros (align32 (sb_used a) - sb_used a)).
  assert (Hseg : seg = sb_pre p a ++ flat_map enc_dim ds ++ tail) by (subst seg tail; apply sb_segment_split).
  assert (Lds : length (flat_map enc_dim ds) = Z.to_nat (20 * ndims a)) by (rewrite flat_enc_dim_length; unfold ndims; fold ds; lia).
  assert (Lpre : length (sb_pre p a) = 80%nat) by reflexivity.
  unfold read_subblock.
  replace p with (p + Z.of_nat 0) at 1 by lia. change 288 with (Z.of_nat 288).
  rewrite (read_exact_holds strict f p seg 0 288 Hh) by lia. cbn [bind]. change (slice seg 0 288) with (firstn 288 seg).
  assert (Hfirst : firstn 288 seg = sb_pre p a ++ firstn 208 (flat_map enc_dim ds ++ tail)).
  { rewrite Hseg. now rewrite (firstn_pre _ _ 80) by (auto; lia). }
  rewrite Hfirst.
  destruct (sb_pre_fields p a (firstn 208 (flat_map enc_dim ds ++ tail)))
    as (F1 & F2 & F3 & F4 & F5 & F6 & F7 & F8 & F9 & F10 & F11 & F12).
  cbv zeta in F1, F2, F3, F4, F5, F6, F7, F8, F9, F10, F11, F12.
  rewrite F1, F2, F3, F4, F5, F6, F7, F8, F9, F10, F11, F12.
  rewrite eqbytes_refl. cbn [negb].
  change (68 =? 68) with true. change (86 =? 86) with true. cbn [andb].
  rewrite (s32_unle_le4 (ndims a)) by (unfold in_i32, INT_MIN, INT_MAX; lia).
  rewrite (s32_unle_le4 (src_size (ai_meta a))) by (unfold in_i32, INT_MIN, INT_MAX in *; lia).
  rewrite (s32_unle_le4 (src_size (ai_att a))) by (unfold in_i32, INT_MIN, INT_MAX in *; lia).
  rewrite (s32_unle_le4 (e_pt (ai_e a))), (s32_unle_le4 (e_comp (ai_e a))) by assumption.
  rewrite (s64_unle_le8 (src_size (ai_data a))) by (unfold INT_MAX in *; lia).
  rewrite (unle_le 8 p). change (256 ^ Z.of_nat 8) with (2 ^ 64). rewrite (Z.mod_small p) by lia.
  replace (MAXDIMENSIONS <? ndims a) with false by (unfold MAXDIMENSIONS; lia).
  assert (Hu : u32 (48 + 20 * ndims a) = 48 + 20 * ndims a) by (unfold u32; apply Z.mod_small; lia).
  rewrite Hu.
  set (more := if Z.of_nat 288 <? 48 + 20 * ndims a + 32
               then read_into strict f (p + Z.of_nat 288) (48 + 20 * ndims a + 32 - Z.of_nat 288) SB_EXTRA else Ok []).
  assert (Hmore : exists mb rest, more = Ok mb /\ firstn 208 (flat_map enc_dim ds ++ tail) ++ mb = flat_map enc_dim ds ++ rest).
  { unfold more. destruct (Z.of_nat 288 <? 48 + 20 * ndims a + 32) eqn:E.
    - set (k := Z.to_nat (20 * ndims a - 208)).
      replace (48 + 20 * ndims a + 32 - Z.of_nat 288) with (Z.of_nat k) by lia.
      rewrite (read_into_holds strict f p seg 288 k SB_EXTRA Hh);
        [|unfold sb_header_size in *; lia|lia|unfold SB_EXTRA; lia].
      exists (slice seg 288 k), []. split; [reflexivity|].
      rewrite Hseg, slice_app_r by lia. rewrite Lpre. change (288 - 80)%nat with 208%nat.
      rewrite app_nil_r. unfold slice. apply firstn_split. lia.
    - exists [], (firstn (208 - length (flat_map enc_dim ds)) tail). split; [reflexivity|].
      rewrite app_nil_r. apply firstn_pre; [reflexivity|lia]. }
  destruct Hmore as (mb & rest & -> & Hcat). cbn [bind].
  rewrite Hcat.
  replace (Z.to_nat (ndims a)) with (length ds) by (unfold ndims; fold ds; lia).
  rewrite dec_dims_enc by (apply (dims_of_wf (with_pos (ai_e a) 0)); assumption).
  unfold ds. rewrite sb_dims_of by assumption. cbn [bind].
  assert (HL : Z.max (48 + 20 * ndims a) 256 + 32 = sb_header_size a) by (unfold sb_header_size; lia).
  assert (LHd : length (sb_header p a) = Z.to_nat (sb_header_size a)) by (pose proof (sb_header_length p a H9); lia).
  pose proof (content_length _ Hcm) as Lm. pose proof (content_length _ Hcd) as Ld. pose proof (content_length _ Hca) as La.
  set (oh := Z.to_nat (sb_header_size a)) in *.
  assert (Lbs : (oh + length (content (ai_meta a)) + length (content (ai_data a)) + length (content (ai_att a)) <= length seg)%nat)
    by (unfold sb_used in *; lia).
  assert (R1 : (if 0 <? src_size (ai_meta a)
                then read_cast32 strict f (u64 (p + Z.max (48 + 20 * ndims a) 256 + 32)) (src_size (ai_meta a)) else Ok [])
               = Ok (content (ai_meta a))).
  { replace (p + Z.max (48 + 20 * ndims a) 256 + 32) with (p + Z.of_nat oh) by lia.
    rewrite <- Lm. apply (read_part strict f p seg); auto; try lia.
    subst seg. unfold sb_segment. apply slice_app_exact; auto. }
  rewrite R1. cbn [bind].
  assert (R2 : (if 0 <? src_size (ai_data a)
                then read_cast32 strict f (u64 (p + Z.max (48 + 20 * ndims a) 256 + 32 + src_size (ai_meta a))) (src_size (ai_data a)) else Ok [])
               = Ok (content (ai_data a))).
  { replace (p + Z.max (48 + 20 * ndims a) 256 + 32 + src_size (ai_meta a))
      with (p + Z.of_nat (oh + length (content (ai_meta a)))) by lia.
    rewrite <- Ld. apply (read_part strict f p seg); auto; try lia.
    subst seg. unfold sb_segment. rewrite app_assoc. apply slice_app_exact; auto. rewrite app_length; lia. }
  rewrite R2. cbn [bind].
  assert (R3 : (if 0 <? src_size (ai_att a)
                then read_cast32 strict f (u64 (p + Z.max (48 + 20 * ndims a) 256 + 32 + src_size (ai_meta a) + src_size (ai_data a))) (src_size (ai_att a)) else Ok [])
               = Ok (content (ai_att a))).
  { replace (p + Z.max (48 + 20 * ndims a) 256 + 32 + src_size (ai_meta a) + src_size (ai_data a))
      with (p + Z.of_nat (oh + length (content (ai_meta a)) + length (content (ai_data a)))) by lia.
    rewrite <- La. apply (read_part strict f p seg); auto; try lia.
    subst seg. unfold sb_segment. rewrite app_assoc, app_assoc. apply slice_app_exact; auto. rewrite !app_length; lia. }
  rewrite R3. cbn [bind]. unfold read_back. unfold with_pos, with_m. reflexivity.
Qed.
