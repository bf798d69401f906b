(** Proofs about the append-only writer: which writes an operation issues. *)
From Verif Require Import Base CodecModel MemProofs CodecProofs WriterModel.

(** ** Contiguous chains of writes *)
Fixpoint contig (pos : Z) (bss : list bytes) : list wr :=
  match bss with
  | [] => []
  | b :: t => (pos, b) :: contig (pos + Z.of_nat (length b)) t
  end.

Lemma contig_app b1 : forall pos b2,
  contig pos (b1 ++ b2) = contig pos b1 ++ contig (pos + Z.of_nat (length (concat b1))) b2.
Proof.
  induction b1 as [|b b1 IH]; intros pos b2; cbn [app contig concat length].
  - now rewrite Z.add_0_r.
  - rewrite IH, app_length. do 3 f_equal. lia.
Qed.

Lemma mwrite_app m pos a b x :
  mwrite m pos (a ++ b) x = mwrite (mwrite m pos a) (pos + Z.of_nat (length a)) b x.
Proof.
  unfold mwrite. rewrite app_length.
  destruct ((pos + Z.of_nat (length a) <=? x) && (x <? pos + Z.of_nat (length a) + Z.of_nat (length b))) eqn:E1.
  - replace ((pos <=? x) && (x <? pos + Z.of_nat (length a + length b))) with true by lia.
    rewrite app_nth2 by lia. f_equal; lia.
  - destruct ((pos <=? x) && (x <? pos + Z.of_nat (length a))) eqn:E2.
    + replace ((pos <=? x) && (x <? pos + Z.of_nat (length a + length b))) with true by lia.
      apply app_nth1; lia.
    + replace ((pos <=? x) && (x <? pos + Z.of_nat (length a + length b))) with false by lia. reflexivity.
Qed.

Lemma mwrite_nil m pos x : mwrite m pos [] x = m x.
Proof. apply mwrite_out. cbn [length]. lia. Qed.

Lemma apply_writes_ext ws : forall m1 m2, (forall a, m1 a = m2 a) -> forall a, apply_writes m1 ws a = apply_writes m2 ws a.
Proof.
  induction ws as [|w ws IH]; intros m1 m2 H a; [apply H|]. cbn [apply_writes fold_left].
  apply IH. intros b; now apply mwrite_ext.
Qed.

Lemma apply_writes_contig bss : forall m pos a, apply_writes m (contig pos bss) a = mwrite m pos (concat bss) a.
Proof.
  induction bss as [|b bss IH]; intros m pos a; cbn [contig concat].
  - symmetry; apply mwrite_nil.
  - rewrite mwrite_app. cbn [apply_writes fold_left fst snd]. apply IH.
Qed.

Lemma contig_range bss : forall pos w, In w (contig pos bss) ->
  pos <= fst w /\ fst w + Z.of_nat (length (snd w)) <= pos + Z.of_nat (length (concat bss)).
Proof.
  induction bss as [|b bss IH]; intros pos w H; cbn [contig concat] in *; [destruct H|].
  rewrite app_length. destruct H as [<-|H]; cbn [fst snd]; [lia|]. apply IH in H. lia.
Qed.

(** All writes of a list lie in [lo, hi). *)
Definition ws_in (lo hi : Z) (ws : list wr) : Prop :=
  Forall (fun w => lo <= fst w /\ fst w + Z.of_nat (length (snd w)) <= hi) ws.

Lemma ws_in_app lo hi a b : ws_in lo hi (a ++ b) <-> ws_in lo hi a /\ ws_in lo hi b.
Proof. apply Forall_app. Qed.

Lemma ws_in_weaken lo hi lo' hi' ws : ws_in lo hi ws -> lo' <= lo -> hi <= hi' -> ws_in lo' hi' ws.
Proof. intros H H1 H2. eapply Forall_impl; [|exact H]. cbn beta. intros w Hw; lia. Qed.

Lemma contig_in pos bss : ws_in pos (pos + Z.of_nat (length (concat bss))) (contig pos bss).
Proof. apply Forall_forall. intros w H. now apply contig_range in H. Qed.

Lemma ws_in_out lo hi ws m a : ws_in lo hi ws -> ~ (lo <= a < hi) -> apply_writes m ws a = m a.
Proof.
  intros H Ha. apply apply_writes_out. intros w Hw. unfold ws_in in H. rewrite Forall_forall in H.
  specialize (H _ Hw). cbn beta in H. unfold in_wr. intros Hc. cbv beta in *. destruct w as [o d]; cbn [fst snd] in *. lia.
Qed.

Lemma ws_in_mread lo hi ws m p n : ws_in lo hi ws -> p + Z.of_nat n <= lo \/ hi <= p ->
  mread (apply_writes m ws) p n = mread m p n.
Proof. intros H Hd. apply mread_same. intros i Hi. apply (ws_in_out lo hi); [assumption|lia]. Qed.

Lemma mread_contig m pos bss : mread (apply_writes m (contig pos bss)) pos (length (concat bss)) = concat bss.
Proof.
  transitivity (mread (mwrite m pos (concat bss)) pos (length (concat bss))).
  - apply mread_same. intros; apply apply_writes_contig.
  - apply mread_mwrite_same.
Qed.

(** ** WriteZeroes *)
Definition blocks (n : Z) : Z := (n + 4095) / 4096.

Lemma zeros_length n : 0 <= n -> Z.of_nat (length (zeros n)) = n.
Proof. intros; unfold zeros; rewrite repeat_length; lia. Qed.

Lemma zeros_app a b : 0 <= a -> 0 <= b -> zeros a ++ zeros b = zeros (a + b).
Proof. intros. unfold zeros. rewrite <- repeat_app. f_equal. lia. Qed.

Lemma wbind_ok {A B} ws (a : A) (k : A -> W B) : wbind (ws, Ok a) k = (ws ++ fst (k a), snd (k a)).
Proof. reflexivity. Qed.

Definition zero_total (i c : Z) : Z :=
  if (i =? 0) && (c <=? 4096) then c else 4096 * Z.max 0 ((blocks c - i + 1) / 2).

Lemma write_zeroes_loop_spec fuel : forall pos i c,
  0 <= i -> 0 < c < 2 ^ 64 - 4096 -> blocks c - i <= 2 * Z.of_nat fuel ->
  exists bss, write_zeroes_loop fuel pos i c = (contig (pos + i * 4096) bss, Ok (zero_total i c))
              /\ concat bss = zeros (zero_total i c) /\ 0 <= zero_total i c <= c.
Proof.
  induction fuel as [|fuel IH]; intros pos i c Hi Hc Hf.
  - exists []. unfold write_zeroes_loop.
    rewrite u64_id by (change (2 ^ 64) with 18446744073709551616 in *; lia).
    fold (blocks c). replace (i <? blocks c) with false by lia.
    unfold zero_total. unfold blocks in *.
    destruct ((i =? 0) && (c <=? 4096)) eqn:E; [lia|].
    replace (Z.max 0 (((c + 4095) / 4096 - i + 1) / 2)) with 0 by lia.
    split; [reflexivity|]. split; [reflexivity|lia].
  - cbn [write_zeroes_loop].
    rewrite (u64_id (c + 4095)) by (change (2 ^ 64) with 18446744073709551616 in *; lia).
    fold (blocks c). destruct (i <? blocks c) eqn:E.
    2:{ exists []. unfold zero_total. unfold blocks in *.
        destruct ((i =? 0) && (c <=? 4096)) eqn:E2; [lia|].
        replace (Z.max 0 (((c + 4095) / 4096 - i + 1) / 2)) with 0 by lia.
        split; [reflexivity|]. split; [reflexivity|lia]. }
    unfold wput. rewrite wbind_ok. rewrite zeros_length by lia.
    destruct (Z_le_gt_dec c 4096) as [Hs|Hl].
    + (* the last, short block: only possible for i = 0 *)
      assert (i = 0) by (unfold blocks in E; lia). subst i.
      assert (HE : write_zeroes_loop fuel pos (0 + 1) (u64 (c - 4096)) = ([], Ok 0)).
      { assert (Hb : (0 + 1 <? u64 (u64 (c - 4096) + 4095) / 4096) = false).
        { assert (Hu : u64 (u64 (c - 4096) + 4095) = c - 1).
          { unfold u64. rewrite Zplus_mod_idemp_l. replace (c - 4096 + 4095) with (c - 1) by lia.
            apply Z.mod_small. change (2 ^ 64) with 18446744073709551616 in *; lia. }
          rewrite Hu. lia. }
        destruct fuel; cbn [write_zeroes_loop]; rewrite Hb; reflexivity. }
      rewrite HE. exists [zeros c].
      assert (Hz : zero_total 0 c = c) by (unfold zero_total; replace ((0 =? 0) && (c <=? 4096)) with true by lia; reflexivity).
      rewrite Hz. replace (Z.min 4096 c) with c by lia. cbn. rewrite app_nil_r.
      replace (c + 0) with c by lia. split; [reflexivity|]. split; [reflexivity|lia].
    + rewrite (u64_id (c - 4096)) by (change (2 ^ 64) with 18446744073709551616 in *; lia).
      assert (Hb : blocks (c - 4096) = blocks c - 1) by (unfold blocks; lia).
      destruct (IH pos (i + 1) (c - 4096)) as (bss & Hw & Hcc & Hr); [lia| |lia|].
      { lia. }
      rewrite Hw, wbind_ok. exists (zeros 4096 :: bss).
      replace (Z.min 4096 c) with 4096 by lia.
      assert (Hz : 4096 + zero_total (i + 1) (c - 4096) = zero_total i c).
      { unfold zero_total. rewrite Hb.
        replace ((i + 1 =? 0) && (c - 4096 <=? 4096)) with false by lia.
        replace ((i =? 0) && (c <=? 4096)) with false by lia. unfold blocks in *; lia. }
      cbn [wret fst snd contig app concat]. rewrite app_nil_r, Hz, Hcc.
      split; [|split].
      * f_equal. f_equal. f_equal. rewrite zeros_length by lia. lia.
      * rewrite zeros_app by lia. now rewrite Hz.
      * unfold zero_total, blocks in *. destruct ((i =? 0) && (c <=? 4096)); lia.
Qed.

Lemma write_zeroes_spec pos n : 0 < n < 2 ^ 64 - 4096 ->
  exists bss, write_zeroes pos n = (contig pos bss, Ok (zero_total 0 n))
              /\ concat bss = zeros (zero_total 0 n) /\ 0 <= zero_total 0 n <= n.
Proof.
  intros H. unfold write_zeroes.
  destruct (write_zeroes_loop_spec (Z.to_nat (n / 4096 + 1)) pos 0 n) as (bss & H1 & H2 & H3); [lia|lia| |].
  - unfold blocks. lia.
  - exists bss. rewrite H1. split; [|auto]. now replace (pos + 0 * 4096) with pos by lia.
Qed.

Lemma write_zeroes_small pos n : 0 < n <= 4096 ->
  exists bss, write_zeroes pos n = (contig pos bss, Ok n) /\ concat bss = zeros n.
Proof.
  intros H. destruct (write_zeroes_spec pos n) as (bss & H1 & H2 & _);
    [change (2 ^ 64) with 18446744073709551616; lia|].
  exists bss. assert (E : zero_total 0 n = n) by (unfold zero_total; replace ((0 =? 0) && (n <=? 4096)) with true by lia; reflexivity).
  rewrite E in *. auto.
Qed.

(** ** Sources *)
Definition deliver (cs : list (option bytes)) : bytes :=
  flat_map (fun o => match o with Some b => b | None => [] end) cs.
(** The getter delivers at least the declared number of bytes and never a
    null pointer. *)
Definition complete (s : source) : Prop :=
  0 <= src_size s <= Z.of_nat (length (deliver (src_chunks s))) /\ ~ In None (src_chunks s).
Definition content (s : source) : bytes := firstn (Z.to_nat (src_size s)) (deliver (src_chunks s)).

Lemma content_length s : complete s -> Z.of_nat (length (content s)) = src_size s.
Proof. intros [H _]. unfold content. rewrite firstn_length. lia. Qed.

Lemma write_generic_loop_spec cs : forall pos size off,
  0 <= off < size -> size - off <= Z.of_nat (length (deliver cs)) -> ~ In None cs ->
  exists bss, write_generic_loop pos size off cs = (contig (pos + off) bss, Ok size)
              /\ concat bss = firstn (Z.to_nat (size - off)) (deliver cs).
Proof.
  induction cs as [|[b|] cs IH]; intros pos size off Ho Hl Hn.
  - cbn in Hl. lia.
  - cbn [write_generic_loop]. cbn [deliver flat_map] in Hl. fold (deliver cs) in Hl. rewrite app_length in Hl.
    unfold wput. rewrite wbind_ok.
    set (n := Z.to_nat (Z.min (size - off) (Z.of_nat (length b)))).
    assert (Ln : length (firstn n b) = n) by (rewrite firstn_length; lia). rewrite Ln.
    destruct (size <=? off + Z.of_nat n) eqn:E.
    + exists [firstn n b]. cbn [wret fst snd contig concat app].
      assert (n = Z.to_nat (size - off)) by lia.
      split; [f_equal; f_equal; lia|]. rewrite app_nil_r.
      cbn [deliver flat_map]. rewrite firstn_app. replace (Z.to_nat (size - off) - length b)%nat with 0%nat by lia.
      rewrite firstn_O, app_nil_r. now f_equal.
    + assert (Hb : n = length b) by lia.
      destruct (IH pos size (off + Z.of_nat n)) as (bss & Hw & Hc); [lia|lia| |].
      { intros Hi; apply Hn; now right. }
      rewrite Hw. exists (firstn n b :: bss). cbn [fst snd contig concat app].
      split.
      * f_equal. f_equal. f_equal. rewrite Ln. lia.
      * rewrite Hc. cbn [deliver flat_map]. rewrite firstn_app. 
        replace (firstn n b) with b by (rewrite Hb; symmetry; apply firstn_all).
        rewrite (firstn_all2 b) by lia. do 2 f_equal. lia.
  - exfalso. apply Hn. now left.
Qed.

Lemma write_generic_spec pos s : complete s ->
  exists bss, write_generic pos s = (contig pos bss, Ok (src_size s)) /\ concat bss = content s.
Proof.
  intros H. pose proof H as [Hs Hn]. unfold write_generic, content.
  destruct (0 <? src_size s) eqn:E.
  - destruct (write_generic_loop_spec (src_chunks s) pos (src_size s) 0) as (bss & Hw & Hc); [lia|lia|assumption|].
    exists bss. rewrite Hw, Hc. rewrite Z.add_0_r. split; [reflexivity|]. do 2 f_equal. lia.
  - exists []. assert (src_size s = 0) as -> by lia. split; reflexivity.
Qed.

(** ** Sub-block and attachment segments *)
Lemma align32_spec n : 0 <= n -> n <= align32 n < n + 32 /\ align32 n mod 32 = 0.
Proof. intros; unfold align32. split; [lia|]. apply Z.mod_mul. lia. Qed.

Definition sb_segment (pos : Z) (a : addinfo) : bytes :=
  sb_header pos a ++ content (ai_meta a) ++ content (ai_data a) ++ content (ai_att a)
  ++ zeros (align32 (sb_used a) - sb_used a).

(** Well-formed request: representable geometry, complete sources, part sizes
    which fit their fields. *)
Definition add_ok (a : addinfo) : Prop :=
  sbe_wf (with_pos (ai_e a) 0) /\ complete (ai_meta a) /\ complete (ai_data a) /\ complete (ai_att a)
  /\ src_size (ai_meta a) <= INT_MAX /\ src_size (ai_att a) <= INT_MAX.

Lemma sb_core_length pos a :
  length (e_coord (ai_e a)) = 9%nat ->
  Z.of_nat (length (seg_header MAGIC_SB (align32 (sb_used a) - 32) (sb_used a - 32)
              ++ le 4 (src_size (ai_meta a)) ++ le 4 (src_size (ai_att a)) ++ le 8 (src_size (ai_data a))
              ++ enc_dv (with_pos (ai_e a) pos) (dims_of (ai_e a) (ai_mv a)))) = 80 + 20 * ndims a.
Proof.
  intros H. unfold seg_header. rewrite !app_length, !le_length.
  pose proof (enc_dv_length (with_pos (ai_e a) pos) (dims_of (ai_e a) (ai_mv a))) as L.
  unfold ndims in *. replace (length MAGIC_SB) with 16%nat by reflexivity. lia.
Qed.

Lemma sb_header_length pos a : length (e_coord (ai_e a)) = 9%nat ->
  Z.of_nat (length (sb_header pos a)) = sb_header_size a.
Proof.
  intros H. unfold sb_header. rewrite app_length. pose proof (sb_core_length pos a H) as L.
  rewrite Nat2Z.inj_add. rewrite zeros_length; [lia|]. rewrite L. unfold sb_header_size. lia.
Qed.

Lemma sb_segment_length pos a : add_ok a -> Z.of_nat (length (sb_segment pos a)) = align32 (sb_used a).
Proof.
  intros (Hw & Hm & Hd & Ha & _).
  assert (H9 : length (e_coord (ai_e a)) = 9%nat) by apply Hw.
  unfold sb_segment. rewrite !app_length, !Nat2Z.inj_add.
  rewrite sb_header_length, !content_length by assumption.
  assert (0 <= sb_used a). { unfold sb_used, sb_header_size. destruct Hm as [? _], Hd as [? _], Ha as [? _]. lia. }
  pose proof (align32_spec (sb_used a)). rewrite zeros_length by lia. unfold sb_used in *. lia.
Qed.

Lemma write_subblock_spec pos a : add_ok a ->
  exists bss, write_subblock pos a = (contig pos bss, Ok (align32 (sb_used a))) /\ concat bss = sb_segment pos a.
Proof.
  intros Hok. pose proof Hok as (Hw & Hm & Hd & Ha & Hms & Has).
  assert (H9 : length (e_coord (ai_e a)) = 9%nat) by apply Hw.
  unfold write_subblock.
  replace ((INT_MAX <? src_size (ai_meta a)) || (INT_MAX <? src_size (ai_att a))) with false by lia.
  unfold wput. rewrite wbind_ok, sb_header_length by assumption. set (H := sb_header_size a).
  destruct (write_generic_spec (pos + H) (ai_meta a) Hm) as (b1 & W1 & C1). rewrite W1, wbind_ok.
  destruct (write_generic_spec (pos + H + src_size (ai_meta a)) (ai_data a) Hd) as (b2 & W2 & C2). rewrite W2, wbind_ok.
  destruct (write_generic_spec (pos + H + src_size (ai_meta a) + src_size (ai_data a)) (ai_att a) Ha) as (b3 & W3 & C3).
  rewrite W3, wbind_ok.
  set (n := H + src_size (ai_meta a) + src_size (ai_data a) + src_size (ai_att a)).
  assert (Hn : n = sb_used a) by (unfold n, sb_used, H; lia).
  assert (Hpos : 0 <= sb_used a). { unfold sb_used, sb_header_size. destruct Hm as [? _], Hd as [? _], Ha as [? _]. lia. }
  pose proof (align32_spec _ Hpos) as (Hal & _).
  assert (CH : contig pos ([sb_header pos a] ++ b1 ++ b2 ++ b3)
      = (pos, sb_header pos a) :: contig (pos + H) b1 ++ contig (pos + H + src_size (ai_meta a)) b2
        ++ contig (pos + H + src_size (ai_meta a) + src_size (ai_data a)) b3).
  { cbn [app contig]. rewrite sb_header_length by assumption. fold H. f_equal.
    rewrite !contig_app. rewrite C1, C2, !content_length by assumption. reflexivity. }
  destruct (n <? align32 (sb_used a)) eqn:E.
  - destruct (write_zeroes_small (pos + n) (align32 (sb_used a) - n)) as (b4 & W4 & C4); [lia|].
    rewrite W4, wbind_ok. cbn [wret fst snd].
    exists (([sb_header pos a] ++ b1 ++ b2 ++ b3) ++ b4). split.
    + rewrite contig_app, CH.
      assert (LC : Z.of_nat (length (concat ([sb_header pos a] ++ b1 ++ b2 ++ b3))) = n).
      { rewrite !concat_app, C1, C2, C3, !app_length, !Nat2Z.inj_add, !content_length by assumption.
        cbn [concat]. rewrite app_nil_r, sb_header_length by assumption. fold H. unfold n. lia. }
      rewrite LC. cbn [app]. rewrite app_nil_r, <- !app_assoc. f_equal. f_equal; lia.
    + rewrite concat_app, C4. rewrite !concat_app, C1, C2, C3. cbn [concat]. rewrite app_nil_r, <- !app_assoc.
      unfold sb_segment. rewrite Hn. reflexivity.
  - exists ([sb_header pos a] ++ b1 ++ b2 ++ b3). split.
    + rewrite CH. cbn [wret fst snd app]. rewrite app_nil_r. f_equal. f_equal. lia.
    + rewrite !concat_app, C1, C2, C3. cbn [concat]. rewrite app_nil_r.
      unfold sb_segment. replace (align32 (sb_used a) - sb_used a) with 0 by lia. cbn [zeros Z.to_nat repeat].
      unfold zeros. cbn [Z.to_nat repeat]. now rewrite app_nil_r.
Qed.

Definition att_segment (pos : Z) (a : attinfo) : bytes :=
  att_header pos a ++ at_data a
  ++ zeros (align32 (256 + Z.of_nat (length (at_data a))) - (256 + Z.of_nat (length (at_data a)))).

Definition att_ok (a : attinfo) : Prop :=
  length (at_guid a) = 16%nat /\ length (at_type a) = 8%nat /\ length (at_name a) = 80%nat.

Lemma enc_att_length e : length (ae_guid e) = 16%nat -> length (ae_type e) = 8%nat -> length (ae_name e) = 80%nat ->
  length (enc_att e) = 128%nat.
Proof. intros H1 H2 H3. unfold enc_att. rewrite !app_length, !le_length, H1, H2, H3. reflexivity. Qed.

Lemma att_header_length pos a : att_ok a -> length (att_header pos a) = 288%nat.
Proof.
  intros (H1 & H2 & H3). unfold att_header, seg_header. rewrite !app_length, !le_length.
  rewrite enc_att_length by assumption. reflexivity.
Qed.

Definition att_total (a : attinfo) : Z := align32 (256 + Z.of_nat (length (at_data a))) + 32.

Lemma att_segment_length pos a : att_ok a -> Z.of_nat (length (att_segment pos a)) = att_total a.
Proof.
  intros H. unfold att_segment, att_total. rewrite !app_length, !Nat2Z.inj_add, att_header_length by assumption.
  pose proof (align32_spec (256 + Z.of_nat (length (at_data a)))). rewrite zeros_length by lia. lia.
Qed.

Lemma write_attachment_spec pos a : att_ok a ->
  exists bss, write_attachment pos a = (contig pos bss, Ok (att_total a)) /\ concat bss = att_segment pos a.
Proof.
  intros Hok. unfold write_attachment. fold (att_total a). unfold wput.
  rewrite wbind_ok, att_header_length by assumption. rewrite wbind_ok.
  set (d := Z.of_nat (length (at_data a))).
  pose proof (align32_spec (256 + d)) as [Hal _]; [lia|].
  assert (CH : contig pos [att_header pos a; at_data a]
               = [(pos, att_header pos a); (pos + Z.of_nat 288, at_data a)]).
  { cbn [contig]. rewrite att_header_length by assumption. reflexivity. }
  destruct (Z.of_nat 288 + d <? att_total a) eqn:E; unfold att_total in E; fold d in E.
  - destruct (write_zeroes_small (pos + (Z.of_nat 288 + d)) (att_total a - (Z.of_nat 288 + d))) as (b & W4 & C4);
      [unfold att_total; fold d; lia|].
    rewrite W4, wbind_ok. cbn [wret fst snd].
    exists ([att_header pos a; at_data a] ++ b). split.
    + rewrite contig_app, CH. cbn [app concat]. rewrite !app_length, app_nil_r, att_header_length by assumption.
      cbn [length]. f_equal; [|f_equal; lia].
      do 2 f_equal. f_equal. rewrite Nat.add_0_r. unfold d. lia.
    + rewrite concat_app, C4. cbn [concat]. rewrite app_nil_r, <- app_assoc. unfold att_segment, att_total. fold d.
      do 3 f_equal. lia.
  - exists [att_header pos a; at_data a]. split.
    + rewrite CH. cbn [wret fst snd app]. f_equal. f_equal. unfold att_total. fold d. lia.
    + cbn [concat]. rewrite app_nil_r. unfold att_segment. fold d.
      replace (align32 (256 + d) - (256 + d)) with 0 by lia. unfold zeros. cbn [Z.to_nat repeat]. now rewrite app_nil_r.
Qed.
