(** Completion of a document and re-opening it. *)
From Coq Require Import Permutation.
From Verif Require Import Base CodecModel MemProofs CodecProofs WriterModel WriterProofs WriterSpec ReadProofs WriterInv WriterFin.

(** ** Close *)
Lemma wbind_ret {A B} (a : A) (k : A -> W B) : wbind (wret a) k = k a.
Proof. unfold wbind, wret. cbn [fst snd app]. now destruct (k a). Qed.

Lemma placed_deleted ex next need al0 mk p al :
  placed ex next need al0 mk p al -> opt_deleted ex ->
  mk = [] /\ ((exists g, ex = Some g /\ p = sg_pos g /\ al = sg_alloc g /\ need <= al) \/ (p = next /\ al = al0 /\ match ex with Some g => sg_alloc g < need | None => True end)).
Proof.
  intros [(g & -> & -> & -> & -> & H)|(-> & -> & [->|(g & -> & Dg & ->)] & Hf)] D.
  - split; [reflexivity|]. left. exists g. auto.
  - split; [reflexivity|]. right. auto.
  - cbn in D. congruence.
Qed.

Lemma seg_sb_in s g : seg_inv s -> w_sbdir s = Some g -> seg_in (w_next s) g.
Proof.
  intros (_ & _ & H & _) E. unfold specials in H. rewrite E in H. apply Forall_app in H. destruct H as [_ H].
  cbn [opt_list app] in H. now apply Forall_inv in H.
Qed.
Lemma seg_at_in s g : seg_inv s -> w_attdir s = Some g -> seg_in (w_next s) g.
Proof.
  intros (_ & _ & H & _) E. unfold specials in H. rewrite E in H. apply Forall_app in H. destruct H as [_ H].
  apply Forall_app in H. destruct H as [_ H]. now apply Forall_inv in H.
Qed.

Lemma fop_in_app {A} (R : A -> A -> Prop) l1 l2 a b : ForallOrdPairs R (l1 ++ l2) -> In a l1 -> In b l2 -> R a b.
Proof.
  induction l1 as [|x l1 IH]; cbn [app In]; intros H Ha Hb; [tauto|].
  inversion H as [|? ? Hx Hr]; subst. destruct Ha as [->|Ha]; [|auto].
  rewrite Forall_forall in Hx. apply Hx. apply in_or_app. now right.
Qed.

Lemma seg_pairs s : seg_inv s ->
  (forall g h, w_meta s = Some g -> w_sbdir s = Some h -> seg_disj g h)
  /\ (forall g h, w_meta s = Some g -> w_attdir s = Some h -> seg_disj g h)
  /\ (forall g h, w_sbdir s = Some g -> w_attdir s = Some h -> seg_disj g h).
Proof.
  intros (_ & _ & _ & H). unfold specials in H. pose proof (fop_tail _ _ _ H) as H2.
  repeat split; intros g h Eg Eh.
  - rewrite Eg, Eh in H. apply (fop_in_app _ _ _ g h H); [now left|]. apply in_or_app. left. now left.
  - rewrite Eg, Eh in H. apply (fop_in_app _ _ _ g h H); [now left|]. apply in_or_app. right. now left.
  - rewrite Eg, Eh in H2. apply (fop_in_app _ _ _ g h H2); now left.
Qed.

Lemma protected_seg s lo hi g : protected s lo hi -> In g (specials s) -> hi <= sg_pos g \/ seg_end g <= lo.
Proof. intros (_ & _ & H) Hg. rewrite Forall_forall in H. now apply H. Qed.

Lemma in_specials s g : w_meta s = Some g \/ w_sbdir s = Some g \/ w_attdir s = Some g -> In g (specials s).
Proof.
  unfold specials. intros [E|[E|E]]; rewrite E; apply in_or_app; [left; now left|right; apply in_or_app; left; now left|].
  right. apply in_or_app. right. now left.
Qed.

Lemma seg_inv_sb_alloc s : seg_inv s -> seg_alloc_ok (w_sbdir s).
Proof. intros H. destruct (w_sbdir s) as [g|] eqn:E; [|exact I]. apply seg_sb_in in E; [|assumption]. unfold seg_in in E. cbn. lia. Qed.
Lemma seg_inv_at_alloc s : seg_inv s -> seg_alloc_ok (w_attdir s).
Proof. intros H. destruct (w_attdir s) as [g|] eqn:E; [|exact I]. apply seg_at_in in E; [|assumption]. unfold seg_in in E. cbn. lia. Qed.

(** The attachment directory written by Close. *)
Definition att_written (s : wstate) (attws : list wr) (attpos : Z) : Prop :=
  exists al bss z,
    attws = contig attpos [attdir_head al (length (w_atts s)); flat_map enc_att (w_atts s)]
            ++ contig (attpos + 128 * Z.of_nat (length (w_atts s))) bss
    /\ concat bss = zeros z /\ 0 <= z /\ 544 <= attpos
    /\ (if 256 + 128 * Z.of_nat (length (w_atts s)) <? al
        then z = zero_total 0 (al + 32 - 128 * Z.of_nat (length (w_atts s))) else z = 0)
    /\ al = match w_attdir s with
            | Some g => if 256 + 128 * Z.of_nat (length (w_atts s)) <=? sg_alloc g then sg_alloc g
                        else align32 (256 + 128 * Z.of_nat (length (w_atts s)))
            | None => align32 (256 + 128 * Z.of_nat (length (w_atts s)))
            end.

Lemma ws_in_ge lo hi ws : ws_in lo hi ws -> Forall (fun w => lo <= fst w) ws.
Proof. apply Forall_impl. intros w H. destruct w; cbn [fst snd] in *. lia. Qed.

Lemma finish_spec guid s :
  seg_inv s -> opt_deleted (w_sbdir s) -> opt_deleted (w_attdir s) -> Forall ae_ok (w_atts s) ->
  exists dp dal dbss z attws attpos,
    finish guid s = (contig dp dbss ++ attws ++ [(0, file_header guid dp (seg_pos_valid (w_meta s)) attpos)], Ok tt)
    /\ 544 <= dp /\ concat dbss = dir_bytes dal (w_dir s) ++ zeros z /\ 0 <= z
    /\ (forall lo hi, protected s lo hi -> avoid lo hi (contig dp dbss ++ attws))
    /\ (forall g, w_meta s = Some g -> avoid (sg_pos g) (seg_end g) (contig dp dbss ++ attws))
    /\ avoid dp (dp + Z.of_nat (length (concat dbss))) attws
    /\ Forall (fun w => 544 <= fst w) (contig dp dbss ++ attws)
    /\ ((w_atts s = [] /\ attws = [] /\ attpos = 0) \/ (w_atts s <> [] /\ att_written s attws attpos)).
Proof.
  intros Hi Dsb Dat Hae. unfold finish.
  destruct (write_directory_spec (w_sbdir s) (w_next s) (w_dir s) (seg_inv_sb_alloc s Hi))
    as (mk & dp & dal & dbss & z & E & Hp & C & Hz & Hz2 & _).
  apply placed_deleted in Hp; [|assumption]. destruct Hp as [-> Hp]. cbn [app] in E.
  rewrite E, wbind_ok. cbn [fst snd].
  pose proof Hi as (H1 & H2 & _). destruct (seg_pairs s Hi) as (Pms & Pma & Psa).
  assert (Hu : 128 <= dir_used (w_dir s)) by (unfold dir_used; lia).
  destruct (align32_spec (dir_used (w_dir s))) as [Hal _]; [lia|].
  assert (L : Z.of_nat (length (concat dbss)) <= dal + 32).
  { rewrite C, app_length, Nat2Z.inj_add, dir_bytes_length, zeros_length by lia. lia. }
  assert (Hdp : 544 <= dp).
  { destruct Hp as [(g & Eg & -> & _)|(-> & _)]; [|lia]. apply (seg_sb_in s) in Eg; [|assumption]. unfold seg_in in Eg; lia. }
  set (next1 := if dp =? w_next s then w_next s + dal + 32 else w_next s).
  assert (Hwsin : ws_in dp (dp + dal + 32) (contig dp dbss)) by (apply ws_in_contig; lia).
  assert (Dav : forall lo hi, protected s lo hi -> avoid lo hi (contig dp dbss)).
  { intros lo hi Hpr. apply (avoid_of_in lo hi _ _ _ Hwsin).
    destruct Hp as [(g & Eg & -> & -> & _)|(-> & -> & Hfit)].
    - pose proof (protected_seg s lo hi g Hpr ltac:(apply in_specials; auto)) as Q. unfold seg_end in Q. lia.
    - destruct Hpr; lia. }
  assert (Dmeta : forall g, w_meta s = Some g -> avoid (sg_pos g) (seg_end g) (contig dp dbss)).
  { intros g Eg. apply (avoid_of_in _ _ _ _ _ Hwsin).
    destruct Hp as [(h & Eh & -> & -> & _)|(-> & -> & Hfit)].
    - specialize (Pms g h Eg Eh). unfold seg_disj, seg_end in *. lia.
    - apply (seg_meta_in s) in Eg; [|assumption]. unfold seg_in in Eg. lia. }
  destruct (w_atts s) as [|a0 atts'] eqn:Eatts.
  - rewrite wbind_ret. exists dp, dal, dbss, z, [], 0. rewrite !app_nil_r.
    replace (seg_pos_valid (w_attdir s)) with 0 by (destruct (w_attdir s) as [g|]; cbn in *; [now rewrite Dat|reflexivity]).
    cbn [app]. split; [reflexivity|]. do 5 (split; [assumption|]). split; [apply Forall_nil|]. split.
    + apply (ws_in_ge _ _ _ (ws_in_weaken _ _ 544 (dp + dal + 32) _ Hwsin ltac:(lia) ltac:(lia))).
    + left. auto.
  - rewrite <- Eatts in *. 
    destruct (write_attdir_spec (w_attdir s) next1 (w_atts s) (seg_inv_at_alloc s Hi)) as (mk & ap & al & bss & z' & E' & Hp' & C' & Hz' & Hz'' & Hz3).
    { assumption. }
    apply placed_deleted in Hp'; [|assumption]. destruct Hp' as [-> Hp']. cbn [app] in E'.
    set (n := Z.of_nat (length (w_atts s))) in *.
    destruct (align32_spec (256 + 128 * n)) as [Haln _]; [lia|].
    assert (Hnext1 : w_next s <= next1 /\ (dp = w_next s -> next1 = dp + dal + 32)).
    { unfold next1. destruct (dp =? w_next s) eqn:Edp; split; lia. }
    assert (Hap : 544 <= ap).
    { destruct Hp' as [(g & Eg & -> & _)|(-> & _)]; [|lia]. apply (seg_at_in s) in Eg; [|assumption]. unfold seg_in in Eg; lia. }
    set (attws := contig ap [attdir_head al (length (w_atts s)); flat_map enc_att (w_atts s)] ++ contig (ap + 128 * n) bss) in *.
    assert (Hal2 : 256 + 128 * n <= al) by (destruct Hp' as [(g & Eg & -> & -> & Hn)|(-> & -> & Hfit)]; lia).
    assert (Ain : ws_in ap (ap + al + 32) attws).
    { apply ws_in_app. split.
      - apply ws_in_contig. cbn [concat]. rewrite !app_length, attdir_head_length, flat_enc_att_length by assumption. cbn [length]. lia.
      - apply (ws_in_weaken (ap + 128 * n) (ap + al + 32)); [|lia|lia]. apply ws_in_contig.
        rewrite C', zeros_length by lia. lia. }
    assert (Aav : forall lo hi, protected s lo hi -> avoid lo hi attws).
    { intros lo hi Hpr. apply (avoid_of_in lo hi _ _ _ Ain).
      destruct Hp' as [(g & Eg & -> & -> & _)|(-> & -> & Hfit)].
      - pose proof (protected_seg s lo hi g Hpr ltac:(apply in_specials; auto)) as Q. unfold seg_end in Q. lia.
      - destruct Hpr; lia. }
    assert (Ameta : forall g, w_meta s = Some g -> avoid (sg_pos g) (seg_end g) attws).
    { intros g Eg. apply (avoid_of_in _ _ _ _ _ Ain).
      destruct Hp' as [(h & Eh & -> & -> & _)|(-> & -> & Hfit)].
      - specialize (Pma g h Eg Eh). unfold seg_disj, seg_end in *. lia.
      - apply (seg_meta_in s) in Eg; [|assumption]. unfold seg_in in Eg. lia. }
    assert (Adir : avoid dp (dp + Z.of_nat (length (concat dbss))) attws).
    { apply (avoid_of_in _ _ _ _ _ Ain).
      destruct Hp' as [(h & Eh & -> & -> & _)|(-> & -> & Hfit)]; destruct Hp as [(g & Eg & -> & -> & _)|(-> & -> & Hfit2)].
      - specialize (Psa g h Eg Eh). unfold seg_disj, seg_end in *. lia.
      - apply (seg_at_in s) in Eh; [|assumption]. unfold seg_in, seg_end in Eh. lia.
      - apply (seg_sb_in s) in Eg; [|assumption]. unfold seg_in, seg_end in Eg. lia.
      - destruct Hnext1 as [_ Hn1]. specialize (Hn1 eq_refl). lia. }
    exists dp, dal, dbss, z, attws, ap.
    replace (match w_atts s with [] => wret (seg_pos_valid (w_attdir s))
             | _ :: _ => let! (apos, _) := write_attdir (w_attdir s) next1 (w_atts s) in wret apos end)
      with (let! (apos, _) := write_attdir (w_attdir s) next1 (w_atts s) in wret apos) by (now rewrite Eatts).
    rewrite E', wbind_ok. cbn [fst snd wret]. rewrite app_nil_r, wbind_ok. cbn [fst snd].
    split; [reflexivity|]. split; [assumption|]. split; [assumption|]. split; [assumption|].
    split; [intros; apply avoid_app; auto|]. split; [intros; apply avoid_app; auto|].
    split; [assumption|]. split.
    + apply Forall_app. split.
      * apply (ws_in_ge _ _ _ (ws_in_weaken _ _ 544 (dp + dal + 32) _ Hwsin ltac:(lia) ltac:(lia))).
      * apply (ws_in_ge _ _ _ (ws_in_weaken _ _ 544 (ap + al + 32) _ Ain ltac:(lia) ltac:(lia))).
    + right. split; [rewrite Eatts; discriminate|]. exists al, bss, z'. fold n. repeat split; try assumption.
      destruct Hp' as [(g & Eg & -> & -> & Hn)|(-> & -> & Hfit)].
      * rewrite Eg. now replace (256 + 128 * n <=? sg_alloc g) with true by lia.
      * destruct (w_attdir s) as [g|]; [|reflexivity]. destruct (256 + 128 * n <=? sg_alloc g) eqn:Ef; [|reflexivity].
        exfalso. lia.
Qed.

(** ** Reading the pieces back *)
Lemma file_header_fields guid d m a : length guid = 16%nat ->
  length (file_header guid d m a) = 544%nat
  /\ slice (file_header guid d m a) 0 16 = MAGIC_FILE /\ slice (file_header guid d m a) 64 16 = guid
  /\ slice (file_header guid d m a) 84 8 = le 8 d /\ slice (file_header guid d m a) 92 8 = le 8 m
  /\ slice (file_header guid d m a) 104 8 = le 8 a.
Proof.
  intros H. do 16 (destruct guid as [|? guid]; [discriminate H|]). destruct guid; [|discriminate H].
  repeat split.
Qed.

Lemma unle_le8 v : 0 <= v < 2 ^ 64 -> unle (le 8 v) = v.
Proof. intros H. rewrite unle_le. change (256 ^ Z.of_nat 8) with (2 ^ 64). now apply Z.mod_small. Qed.

Lemma read_exact_all strict f p bs n : holds f p bs -> Z.of_nat (length bs) = n -> (0 < length bs)%nat ->
  read_exact strict f p n = Ok bs.
Proof.
  intros H E Hl. replace p with (p + Z.of_nat 0) by lia. rewrite <- E.
  rewrite (read_exact_holds strict f p bs 0 (length bs) H) by lia. f_equal. now apply slice_all.
Qed.

Lemma holds_prefix f p a b : holds f p (a ++ b) -> holds f p a.
Proof.
  intros (H1 & H2 & H3). rewrite app_length in *. split; [assumption|]. split; [lia|].
  rewrite (mread_prefix _ p (a ++ b)); [|rewrite app_length; assumption|rewrite app_length; lia].
  rewrite slice_app_l by lia. now apply slice_all.
Qed.

Lemma read_file_header_ok strict f guid d m a :
  length guid = 16%nat -> 0 <= d < 2 ^ 64 -> 0 <= m < 2 ^ 64 -> 0 <= a < 2 ^ 64 ->
  holds f 0 (file_header guid d m a) -> read_file_header strict f = Ok (mkFh guid d m a).
Proof.
  intros Hg Hd Hm Ha H. destruct (file_header_fields guid d m a Hg) as (L & F1 & F2 & F3 & F4 & F5).
  unfold read_file_header. rewrite (read_exact_all strict f 0 _ 544 H) by lia. cbn [bind].
  rewrite F1, F2, F3, F4, F5, eqbytes_refl, !unle_le8 by assumption. reflexivity.
Qed.

Definition dir_pre (al : Z) (es : list sbe) : bytes :=
  seg_header MAGIC_DIR al (dir_used es) ++ le 4 (Z.of_nat (length es)) ++ zeros 124.

Lemma read_directory_ok strict o f p al es :
  Forall sbe_wf es -> Z.of_nat (length es) <= INT_MAX -> f_size f < 2 ^ 63 ->
  strict = false \/ es <> [] -> holds f p (dir_bytes al es) ->
  read_directory strict o f p = Ok es.
Proof.
  intros Hwf Hn Hs Hst H. pose proof (dir_bytes_length al es) as L.
  assert (Hu : 128 <= dir_used es) by (unfold dir_used; lia).
  assert (Hp : 0 <= p /\ p + (32 + dir_used es) <= f_size f) by (destruct H as (A & B & _); lia).
  unfold read_directory.
  assert (Hpre : holds f p (dir_pre al es)).
  { apply (holds_prefix f p _ (flat_map enc_entry es)). unfold dir_pre. rewrite <- !app_assoc. exact H. }
  rewrite (read_exact_all strict f p (dir_pre al es) 160 Hpre eq_refl) by (cbn; lia). cbn [bind].
  change (slice (dir_pre al es) 0 16) with MAGIC_DIR. rewrite eqbytes_refl. cbn [negb].
  change (slice (dir_pre al es) 24 8) with (le 8 (dir_used es)).
  change (slice (dir_pre al es) 32 4) with (le 4 (Z.of_nat (length es))).
  rewrite unle_le8 by lia. replace (dir_used es =? 0) with false by lia. replace (dir_used es <? 128) with false by lia.
  replace (dir_used es - 128) with (Z.of_nat (length (flat_map enc_entry es))) by (unfold dir_used; lia).
  change (p + 160) with (p + Z.of_nat 160).
  assert (Hne : (0 < length (flat_map enc_entry es))%nat \/ strict = false).
  { destruct Hst as [Hst|Hst]; [now right|left]. destruct es as [|e es']; [congruence|]. cbn [flat_map]. rewrite app_length.
    pose proof (enc_dv_length e (dims_of e (m_valid e))). unfold enc_entry. lia. }
  assert (Lz : length (dir_bytes al es) = (160 + length (flat_map enc_entry es))%nat) by (unfold dir_used in *; lia).
  rewrite (read_exact_holds strict f p (dir_bytes al es) 160 (length (flat_map enc_entry es)) H); [|lia|exact Hne].
  cbn [bind].
  assert (Hsl : slice (dir_bytes al es) 160 (length (flat_map enc_entry es)) = flat_map enc_entry es).
  { change (dir_bytes al es) with (dir_pre al es ++ flat_map enc_entry es).
    assert (L160 : length (dir_pre al es) = 160%nat) by reflexivity.
    rewrite slice_app_r by lia. rewrite L160, Nat.sub_diag. now apply slice_all. }
  rewrite Hsl. rewrite s32_unle_le4 by (unfold in_i32, INT_MIN, INT_MAX in *; lia). rewrite Nat2Z.id.
  apply entries_roundtrip; [assumption|]. unfold dir_used in *. lia.
Qed.

Lemma read_attdir_payload strict f p al n pay :
  length pay = (128 * n)%nat -> Z.of_nat n <= INT_MAX -> holds f p (attdir_head al n ++ pay) ->
  read_attdir strict f p = Ok (dec_atts n pay).
Proof.
  intros L Hn H. unfold read_attdir.
  rewrite (read_exact_all strict f p (attdir_head al n) 288 (holds_prefix _ _ _ _ H) eq_refl) by (cbn; lia). cbn [bind].
  change (slice (attdir_head al n) 0 16) with MAGIC_ATTDIR. rewrite eqbytes_refl. cbn [negb].
  change (slice (attdir_head al n) 32 4) with (le 4 (Z.of_nat n)).
  rewrite s32_unle_le4 by (unfold in_i32, INT_MIN, INT_MAX in *; lia). rewrite Nat2Z.id.
  destruct (0 <? Z.of_nat n) eqn:E.
  - change (p + 288) with (p + Z.of_nat 288). replace (128 * Z.of_nat n) with (Z.of_nat (length pay)) by lia.
    rewrite (read_exact_holds strict f p (attdir_head al n ++ pay) 288 (length pay) H); [|rewrite app_length, attdir_head_length; lia|lia].
    cbn [bind]. rewrite slice_app_r by (rewrite attdir_head_length; lia). rewrite attdir_head_length, Nat.sub_diag.
    now rewrite slice_all.
  - assert (n = 0%nat) by lia. now subst n.
Qed.

(** Attachment entries as parsed: the name is cut to 79 characters. *)
Definition ae_norm (e : attentry) : attentry := mkAttEntry (ae_guid e) (ae_type e) (upd (ae_name e) 79 0) (ae_pos e).

Lemma dec_att_enc e : ae_ok e -> 0 <= ae_pos e < 2 ^ 64 -> dec_att (enc_att e) = Some (ae_norm e).
Proof.
  intros (H1 & H2 & H3) Hp. unfold dec_att.
  change (nth 0 (enc_att e) 0) with 65. change (nth 1 (enc_att e) 0) with 49. cbn [Z.eqb Pos.eqb andb].
  change (slice (enc_att e) 12 8) with (le 8 (ae_pos e)). rewrite unle_le8 by assumption.
  set (pre := ([65; 49] : bytes) ++ zeros 10 ++ le 8 (ae_pos e) ++ le 4 0).
  assert (Lp : length pre = 24%nat) by reflexivity.
  change (enc_att e) with (pre ++ ae_guid e ++ ae_type e ++ ae_name e). clearbody pre.
  rewrite (slice_app_exact _ (ae_guid e)) by auto.
  assert (S1 : slice (pre ++ ae_guid e ++ ae_type e ++ ae_name e) 40 8 = ae_type e).
  { rewrite app_assoc. apply slice_app_exact; [|assumption]. rewrite app_length. lia. }
  assert (S2 : slice (pre ++ ae_guid e ++ ae_type e ++ ae_name e) 48 80 = ae_name e).
  { rewrite app_assoc, app_assoc. rewrite slice_app_r by (rewrite !app_length, Lp, H1, H2; lia).
    rewrite !app_length, Lp, H1, H2. apply slice_all. exact H3. }
  rewrite S1, S2. reflexivity.
Qed.

Lemma dec_atts_enc es rest : Forall (fun e => ae_ok e /\ 0 <= ae_pos e < 2 ^ 64) es ->
  dec_atts (length es) (flat_map enc_att es ++ rest) = map ae_norm es.
Proof.
  induction 1 as [|e es [Hok Hp] _ IH]; [reflexivity|].
  cbn [flat_map length dec_atts map]. pose proof Hok as (H1 & H2 & H3).
  pose proof (enc_att_length e H1 H2 H3) as L. rewrite <- app_assoc.
  rewrite firstn_app, L, Nat.sub_diag, firstn_O, app_nil_r, firstn_all2 by lia.
  rewrite dec_att_enc by assumption. rewrite skipn_app, L, Nat.sub_diag, skipn_O, skipn_all2 by lia. cbn [app]. now rewrite IH.
Qed.

Lemma read_attachment_ok strict f p a :
  att_ok a -> Z.of_nat (length (at_data a)) <= INT_MAX -> holds f p (att_segment p a) ->
  read_attachment strict f p = Ok (at_data a).
Proof.
  intros Hok Hl H. unfold read_attachment. pose proof (att_header_length p a Hok) as Lh.
  unfold att_segment in H.
  rewrite (read_exact_all strict f p (att_header p a) 288 (holds_prefix _ _ _ _ H)) by lia. cbn [bind].
  change (slice (att_header p a) 0 16) with MAGIC_ATT. rewrite eqbytes_refl. cbn [negb].
  change (slice (att_header p a) 32 8) with (le 8 (Z.of_nat (length (at_data a)))).
  rewrite s64_unle_le8 by (unfold INT_MAX in *; lia).
  destruct (0 <? Z.of_nat (length (at_data a))) eqn:E.
  - change (p + 288) with (p + Z.of_nat 288).
    rewrite (read_cast32_holds strict f p _ 288 (length (at_data a)) H); [|rewrite !app_length; lia|lia|assumption].
    f_equal. apply slice_app_exact; auto.
  - destruct (at_data a); [reflexivity|cbn [length] in E; lia].
Qed.

Lemma read_metadata_ok strict f p al xml att :
  Z.of_nat (length xml) <= INT_MAX -> Z.of_nat (length att) <= INT_MAX -> f_size f < 2 ^ 63 ->
  holds f p (meta_bytes al xml att) -> read_metadata strict f p = Ok (xml, att).
Proof.
  intros Hx Ha Hs H. unfold read_metadata.
  set (hd := seg_header MAGIC_META al (meta_used xml att) ++ le 4 (Z.of_nat (length xml)) ++ le 4 (Z.of_nat (length att)) ++ zeros 248).
  assert (Lh : length hd = 288%nat) by reflexivity.
  pose proof (meta_bytes_length al xml att) as L.
  unfold meta_bytes in H. fold hd in H. assert (Hp : 0 <= p /\ p + 288 + Z.of_nat (length xml) + Z.of_nat (length att) <= f_size f).
  { destruct H as (A & B & _). rewrite !app_length, Lh in B. lia. }
  rewrite (read_exact_all strict f p hd 288 (holds_prefix _ _ _ _ H) eq_refl) by lia. cbn [bind].
  change (slice hd 0 16) with MAGIC_META. rewrite eqbytes_refl. cbn [negb].
  change (slice hd 32 4) with (le 4 (Z.of_nat (length xml))).
  change (slice hd 36 4) with (le 4 (Z.of_nat (length att))).
  rewrite !s32_unle_le4 by (unfold in_i32, INT_MIN, INT_MAX in *; lia).
  change 288 with (Z.of_nat 288).
  rewrite (read_part strict f p (hd ++ xml ++ att) 288 xml); [|assumption|rewrite !app_length; lia|now apply slice_app_exact|assumption|rewrite !app_length; lia].
  cbn [bind]. replace (p + Z.of_nat 288 + Z.of_nat (length xml)) with (p + Z.of_nat (288 + length xml)) by lia.
  rewrite (read_part strict f p (hd ++ xml ++ att) (288 + length xml) att); [reflexivity|assumption|rewrite !app_length; lia| |assumption|rewrite !app_length; lia].
  rewrite app_assoc. rewrite slice_app_r by (rewrite app_length; lia). rewrite app_length, Lh, Nat.sub_diag. now apply slice_all.
Qed.
