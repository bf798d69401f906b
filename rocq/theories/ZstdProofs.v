(** Proofs about zstd compression, decoding and the size-mismatch protocol. *)
From Verif Require Import Base CopyModel MemProofs HiLoModel HiLoProofs CodesModel ZstdModel.

Definition impl_ok (k : impl) : Prop := match k with Avx ud => length ud = 16%nat | _ => True end.

Lemma u32_small z : 0 <= z < 2 ^ 32 -> u32 z = z. Proof. intros H. apply Z.mod_small. exact H. Qed.
Lemma u64_small z : 0 <= z < 2 ^ 64 -> u64 z = z. Proof. intros H. apply Z.mod_small. exact H. Qed.

Lemma hilo_unpack_ok k src ssz w stride h dsz dst : impl_ok k -> unpack_pre src ssz w stride h dsz -> 2 * w < 2 ^ 32 ->
  exists m, hilo_unpack k src ssz w stride h dsz dst = Ok m /\ is_unpacked src w stride h (w * h) dst m.
Proof.
  intros K Pr L. pose proof Pr as (B & W & H & S & _). unfold hilo_unpack.
  rewrite u32_small by lia. destruct (stride <? w * 2) eqn:E; [lia|].
  destruct k; [apply unpack_c_ok|apply unpack_avx_ok|apply unpack_neon_ok]; auto.
Qed.
Lemma hilo_pack_ok k src ssz w h stride dsz dst : impl_ok k -> pack_pre src ssz w h stride dsz -> 2 * w < 2 ^ 32 -> ssz < 2 ^ 64 ->
  exists m, hilo_pack k src ssz w h stride dsz dst = Ok m /\ is_packed src w h stride (ssz / 2) dst m.
Proof.
  intros K Pr L L2. pose proof Pr as (B & W & H & S & M & _). unfold hilo_pack.
  rewrite (u64_small (w * h)) by nia. rewrite u64_small by nia. rewrite u32_small by lia.
  destruct (ssz <? _) eqn:E1; [lia|]. destruct (stride <? w * 2) eqn:E; [lia|].
  destruct k; [apply pack_c_ok|apply pack_avx_ok|apply pack_neon_ok]; auto.
Qed.

(** ** Gathering lines *)
Lemma gather_ok src ssz w h stride bpp junk :
  0 < w -> 0 < h -> 0 < bpp -> w * bpp <= stride -> (h - 1) * stride + w * bpp <= ssz -> w * bpp < 2 ^ 32 -> w * bpp * h < 2 ^ 64 ->
  exists p, gather src ssz w h stride bpp junk = Ok p /\ llen p = w * bpp * h /\
    forall y x, 0 <= y < h -> 0 <= x < w * bpp -> padded p (y * (w * bpp) + x) = src (y * stride + x).
Proof.
  intros W H B S Sz L1 L2. unfold gather. rewrite u64_small, u32_small by nia.
  unfold copy_same. cbn [negb g_size g_off g_stride g_bpp]. set (l := w * bpp) in *. assert (Hl : 0 < l) by (unfold l; nia).
  destruct (rows_ok (fun a => src (a / l * stride + a mod l)) (Z.to_nat h)
      (fun y m => memcpy m (l * h) (0 + y * l) src ssz (0 + y * stride) l)
      (fun y => [(y * l, mread src (y * stride) (Z.to_nat l))]) junk) as (m & E & I & _).
  - intros y m Hy. unfold memcpy.
    replace ((0 <=? l) && (0 <=? 0 + y * l) && (0 + y * l + l <=? l * h) && (0 <=? 0 + y * stride) && (0 + y * stride + l <=? ssz)) with true by nia.
    cbn [apply_writes fold_left fst snd]. now rewrite !Z.add_0_l.
  - intros y b Hy [<-|[]] k. cbn [fst snd]. rewrite mread_length. intros K. rewrite mread_nth by lia.
    destruct (idx y l (Z.of_nat k)) as [-> ->]; [lia|]. reflexivity.
  - rewrite E. cbn [bind]. eexists. split; [reflexivity|]. split; [unfold llen; rewrite mread_length; nia|].
    intros y x Hy Hx. unfold padded. rewrite mread_nth by nia. rewrite Z2Nat.id by nia. rewrite Z.add_0_l.
    rewrite (I _ y (y * l, mread src (y * stride) (Z.to_nat l))).
    + destruct (idx y l x) as [-> ->]; [lia|]. reflexivity.
    + lia.
    + now left.
    + unfold in_wr. cbn [fst snd]. rewrite mread_length. lia.
Qed.
Lemma direct_ok src ssz w h bpp :
  0 < w -> 0 < h -> 0 < bpp -> h * (w * bpp) <= ssz -> w * bpp * h < 2 ^ 64 ->
  exists p, direct src ssz w h bpp = Ok p /\ llen p = w * bpp * h /\
    forall y x, 0 <= y < h -> 0 <= x < w * bpp -> padded p (y * (w * bpp) + x) = src (y * (w * bpp) + x).
Proof.
  intros W H B S L. unfold direct. rewrite u64_small by nia. set (l := w * bpp) in *. assert (Hl : 0 < l) by (unfold l; nia).
  destruct (l * h <=? ssz) eqn:E; [|lia].
  eexists. split; [reflexivity|]. split; [unfold llen; rewrite mread_length; nia|].
  intros y x Hy Hx. unfold padded. rewrite mread_nth by nia. f_equal. nia.
Qed.

(** ** Decoding without packing *)
Lemma decompress_ok z c x m sz cap : frame z c x -> llen x <= cap -> llen x <= sz ->
  decompress z c m sz cap (llen x) = Ok (mwrite m 0 x).
Proof.
  intros [F1 F2] L1 L2. unfold decompress. rewrite F2 by auto. rewrite st_ok by (unfold llen in *; lia). cbn [bind].
  now rewrite Z.eqb_refl.
Qed.
Lemma mwrite0 m x a : 0 <= a < llen x -> mwrite m 0 x a = padded x a.
Proof. intros H. unfold llen in H. rewrite mwrite_in by lia. unfold padded. now rewrite Z.sub_0_r. Qed.
Lemma padded_out x a : llen x <= a -> padded x a = 0.
Proof. intros H. unfold padded. apply nth_overflow. unfold llen in H. lia. Qed.

Lemma shows_tight l h m f : 0 < l -> 0 < h -> (forall i, 0 <= i < h * l -> m i = f i) -> shows (l, h * l, m) l h f.
Proof. intros Hl Hh A. unfold shows. split; [lia|]. split; [nia|]. intros y x Hy Hx. apply A. nia. Qed.

Lemma new_tight l h : 0 < l < 2 ^ 32 -> 0 < h -> h * l < 2 ^ 64 -> new_bitmap l h = (l, h * l).
Proof. intros A B C. unfold new_bitmap. rewrite u32_small by lia. rewrite u64_small by nia. reflexivity. Qed.

Lemma decode_strict_ok z c x bpp w h junk : frame z c x -> 0 < w -> 0 < h -> 0 < bpp -> w * bpp < 2 ^ 32 -> h * (w * bpp) < 2 ^ 64 ->
  llen x = h * (w * bpp) ->
  exists b, decode_strict z c bpp w h junk = Ok b /\ shows b (w * bpp) h (padded x).
Proof.
  intros F W H B L1 L2 Lx. unfold decode_strict, content_size. rewrite (proj1 F). cbn [bind].
  set (l := w * bpp) in *. assert (Hl : 0 < l) by (unfold l; nia). rewrite u64_small by nia. rewrite Lx, Z.eqb_refl. cbn [negb].
  rewrite new_tight by auto. rewrite <- Lx, decompress_ok by (auto; lia). cbn [bind]. rewrite Lx.
  eexists. split; [reflexivity|]. apply shows_tight; auto. intros i Hi. apply mwrite0. lia.
Qed.
Lemma decode_strict_mismatch z c x bpp w h junk : frame z c x -> llen x <> u64 (h * (w * bpp)) -> decode_strict z c bpp w h junk = Throw.
Proof. intros F N. unfold decode_strict, content_size. rewrite (proj1 F). cbn [bind]. destruct (llen x =? _) eqn:E; [lia|reflexivity]. Qed.

Lemma decode_lax_ok z c x bpp w h junk junk2 : frame z c x -> 0 < w -> 0 < h -> 0 < bpp -> w * bpp < 2 ^ 32 -> h * (w * bpp) < 2 ^ 64 ->
  exists b, decode_lax z c bpp w h junk junk2 = Ok b /\ shows b (w * bpp) h (padded x).
Proof.
  intros F W H B L1 L2. unfold decode_lax, content_size. rewrite (proj1 F). cbn [bind].
  set (l := w * bpp) in *. assert (Hl : 0 < l) by (unfold l; nia). rewrite u64_small by nia. rewrite new_tight by auto.
  assert (0 <= llen x) by (unfold llen; lia).
  destruct (llen x =? h * l) eqn:E1; [|destruct (llen x <? h * l) eqn:E2].
  - rewrite decompress_ok by (auto; lia). cbn [bind]. eexists. split; [reflexivity|]. apply shows_tight; auto. intros i Hi. apply mwrite0. lia.
  - rewrite decompress_ok by (auto; lia). cbn [bind]. unfold memset0.
    replace ((0 <=? h * l - llen x) && (0 <=? llen x) && (llen x + (h * l - llen x) <=? h * l)) with true by lia. cbn [bind].
    eexists. split; [reflexivity|]. apply shows_tight; auto. intros i Hi.
    destruct (Z_lt_dec i (llen x)).
    + rewrite mwrite_out by lia. apply mwrite0. lia.
    + rewrite mwrite_in by (rewrite repeat_length; lia). rewrite nth_repeat, padded_out by lia. reflexivity.
  - rewrite decompress_ok by (auto; lia). cbn [bind]. unfold memcpy.
    replace ((0 <=? h * l) && (0 <=? 0) && (0 + h * l <=? h * l) && (0 <=? 0) && (0 + h * l <=? llen x)) with true by lia. cbn [bind].
    eexists. split; [reflexivity|]. apply shows_tight; auto. intros i Hi.
    rewrite mwrite_in by (rewrite mread_length; lia). rewrite mread_nth by lia.
    rewrite mwrite0 by lia. f_equal. lia.
Qed.

(** ** Decoding with packing *)
Lemma joined_length d : length (joined d) = (2 * (length d / 2))%nat.
Proof. unfold joined. apply flat_pairs_length. Qed.
Lemma joined_lo d j : 0 <= j -> 2 * j + 1 < llen d -> padded (joined d) (2 * j) = padded d j.
Proof.
  intros J H. unfold padded, joined, llen in *. rewrite nth_pairs by lia.
  replace (Z.to_nat (2 * j)) with (2 * Z.to_nat j)%nat by lia.
  rewrite Nat.even_mul. cbn [Nat.even orb]. rewrite Nat.mul_comm, Nat.div_mul by lia. reflexivity.
Qed.
Lemma joined_hi d j : 0 <= j -> 2 * j + 1 < llen d -> padded (joined d) (2 * j + 1) = padded d (llen d / 2 + j).
Proof.
  intros J H. unfold padded, joined, llen in *. rewrite nth_pairs by lia.
  replace (Z.to_nat (2 * j + 1)) with (1 + 2 * Z.to_nat j)%nat by lia.
  rewrite Nat.even_add, Nat.even_mul. cbn [Nat.even orb Bool.eqb].
  replace ((1 + 2 * Z.to_nat j) / 2)%nat with (Z.to_nat j) by (rewrite Nat.add_comm, Nat.mul_comm, Nat.div_add_l by lia; cbn; lia).
  f_equal. rewrite Z2Nat.inj_add, Z2Nat.inj_div, Nat2Z.id by lia. reflexivity.
Qed.

Lemma mwrite_bytes m o (x : bytes) : byte_mem m -> Forall is_byte x -> byte_mem (mwrite m o x).
Proof.
  intros B F a. destruct (Z_le_dec o a) as [L|L]; [destruct (Z_lt_dec a (o + Z.of_nat (@length byte x))) as [U|U]|].
  - rewrite mwrite_in by lia. rewrite Forall_forall in F. apply F, nth_In. unfold byte in *. lia.
  - rewrite mwrite_out by lia. apply B.
  - rewrite mwrite_out by lia. apply B.
Qed.

(** packed rows show the joined data *)
Lemma packed_shows t x wd h s m0 m z : is_packed t wd h s (llen x / 2) m0 m -> (forall a, 0 <= a < llen x -> t a = padded x a) ->
  0 < wd -> 0 < h -> llen x = 2 * (wd * h) -> 2 * wd <= s -> (h - 1) * s + 2 * wd <= z ->
  shows (s, z, m) (2 * wd) h (padded (joined x)).
Proof.
  intros [P1 _] T W H Lx S Z1. unfold shows. split; [lia|]. split; [lia|]. intros y c Hy Hc.
  assert (Hh : llen x / 2 = wd * h) by lia.
  destruct (Z.Even_or_Odd c) as [[j ->]|[j ->]].
  - destruct (P1 y j Hy ltac:(lia)) as [-> _]. rewrite T by nia.
    replace (y * (2 * wd) + 2 * j) with (2 * (y * wd + j)) by lia. rewrite joined_lo by nia. reflexivity.
  - rewrite Z.add_assoc. destruct (P1 y j Hy ltac:(lia)) as [_ ->]. rewrite T by nia.
    replace (y * (2 * wd) + (2 * j + 1)) with (2 * (y * wd + j) + 1) by lia. rewrite joined_hi by nia. f_equal. lia.
Qed.

Lemma default_pitch_ok w bpp : 0 < w -> 0 < bpp -> w * bpp + 3 < 2 ^ 32 -> let p := default_pitch w bpp in w * bpp <= p < 2 ^ 32.
Proof.
  intros W B L. cbv zeta. unfold default_pitch. rewrite (Z.mul_comm bpp).
  assert (0 < w * bpp) by nia. rewrite (u32_small (w * bpp)) by lia. rewrite (u32_small (w * bpp + 3)) by lia.
  change (2 ^ 32) with 4294967296 in *. rewrite u32_small by (change (2 ^ 32) with 4294967296; lia). lia.
Qed.

Definition joins (bpp : Z) : Prop := bpp = 2 \/ bpp = 6.

Lemma decode_packed_strict_ok z k c x bpp w h junk junk2 : frame z c x -> Forall is_byte x -> byte_mem junk2 -> impl_ok k ->
  0 < w -> 0 < h -> joins bpp -> w * bpp + 3 < 2 ^ 32 -> h * (w * bpp + 3) < 2 ^ 64 -> llen x = h * (w * bpp) ->
  exists b, decode_packed_strict z k c bpp w h junk junk2 = Ok b /\ shows b (w * bpp) h (padded (joined x)).
Proof.
  intros F Bx Bj K W H J L1 L2 Lx. unfold decode_packed_strict, content_size. rewrite (proj1 F). cbn [bind].
  assert (B0 : 0 < bpp) by (destruct J; lia).
  set (l := w * bpp) in *. assert (Hl : 0 < l) by (unfold l; nia). rewrite u64_small by nia. rewrite Lx, Z.eqb_refl. cbn [negb].
  rewrite <- Lx, decompress_ok by (auto; lia). cbn [bind].
  pose proof (default_pitch_ok w bpp W B0 L1) as D. cbv zeta in D. fold l in D. set (p := default_pitch w bpp) in *.
  assert (Dp : p <= l + 3).
  { unfold p, default_pitch. rewrite (Z.mul_comm bpp). fold l. rewrite (u32_small l) by lia. rewrite (u32_small (l + 3)) by lia.
    change (2 ^ 32) with 4294967296 in *. rewrite u32_small by (change (2 ^ 32) with 4294967296; lia). lia. }
  unfold new_bitmap. rewrite (u32_small p) by lia. rewrite (u64_small (h * p)) by nia. rewrite (u32_small l) by lia.
  assert (E2 : exists wd, l = 2 * wd /\ l / 2 = wd /\ 0 < wd).
  { destruct J as [-> | ->]; [exists w|exists (3 * w)]; unfold l in *; lia. }
  destruct E2 as (wd & E2 & E3 & W2). rewrite E3.
  destruct (hilo_pack_ok k (mwrite junk2 0 x) (llen x) wd h p (h * p) junk K) as (m & E & P); try lia.
  { split; [apply mwrite_bytes; auto|]. split; [lia|]. split; [lia|]. split; [lia|]. split; [nia|]. nia. }
  rewrite E. cbn [bind]. eexists. split; [reflexivity|].
  rewrite E2. apply (packed_shows (mwrite junk2 0 x) x wd h p junk m (h * p)); auto.
  - intros a Ha. apply mwrite0. auto.
  - rewrite Lx, E2. ring.
  - lia.
  - replace ((h - 1) * p) with (h * p - p) by ring. lia.
Qed.

Lemma one_line t x m0 m s : is_packed t (llen x / 2) 1 s (llen x / 2) m0 m -> (forall a, 0 <= a < llen x -> t a = padded x a) ->
  forall i, 0 <= i < 2 * (llen x / 2) -> m i = padded (joined x) i.
Proof.
  intros [P1 _] T i Hi. destruct (Z.Even_or_Odd i) as [[j ->]|[j ->]].
  - destruct (P1 0 j ltac:(lia) ltac:(lia)) as [Q _]. rewrite !Z.mul_0_l, !Z.add_0_l in Q. rewrite Q, T by lia. now rewrite joined_lo by lia.
  - destruct (P1 0 j ltac:(lia) ltac:(lia)) as [_ Q]. rewrite !Z.mul_0_l, !Z.add_0_l in Q. rewrite Q, T by lia. rewrite joined_hi by lia. f_equal. lia.
Qed.

(** Gray16: every size, except an odd number of bytes which is too short. *)
Lemma decode_packed_lax_ok z k c x w h junk junk2 junk3 : frame z c x -> Forall is_byte x -> byte_mem junk2 -> impl_ok k ->
  0 < w -> 0 < h -> w * 2 + 3 < 2 ^ 32 -> h * (w * 2 + 3) < 2 ^ 64 ->
  (llen x = h * (w * 2) \/ llen x < 2 ^ 32) -> (Z.even (llen x) = true \/ h * (w * 2) < llen x) ->
  exists b, decode_packed_lax z k c 2 w h junk junk2 junk3 = Ok b /\ shows b (w * 2) h (padded (joined x)).
Proof.
  intros F Bx Bj K W H L1 L2 Lx Ev.
  destruct (Z.eq_dec (llen x) (h * (w * 2))) as [Eq|Ne].
  - destruct (decode_packed_strict_ok z k c x 2 w h junk junk2) as (b & E & S); auto; [now left|].
    exists b. split; [|exact S]. rewrite <- E. unfold decode_packed_lax, decode_packed_strict, content_size. rewrite (proj1 F). cbn [bind].
    rewrite u64_small by nia. rewrite Eq, Z.eqb_refl. cbn [negb]. rewrite Z.div_mul by lia. rewrite (u32_small w), (u32_small (w * 2)), Z.div_mul by lia. reflexivity.
  - assert (Lb : llen x < 2 ^ 32) by tauto. assert (Nn : 0 <= llen x) by (unfold llen; lia).
    unfold decode_packed_lax, content_size. rewrite (proj1 F). cbn [bind].
    rewrite u64_small by nia. destruct (llen x =? h * (w * 2)) eqn:E1; [lia|].
    rewrite decompress_ok by (auto; lia).
    rewrite (u32_small (llen x / 2)) by lia. rewrite (u32_small (llen x)) by lia.
    assert (T : forall a, 0 <= a < llen x -> mwrite junk2 0 x a = padded x a) by (intros; now apply mwrite0).
    destruct (llen x <? h * (w * 2)) eqn:E2.
    + cbn [bind]. rewrite new_tight by lia.
      destruct (hilo_pack_ok k (mwrite junk2 0 x) (llen x) (llen x / 2) 1 (llen x) (h * (w * 2)) junk K) as (m & E & P); try lia.
      { split; [apply mwrite_bytes; auto|]. repeat (split; [lia|]). lia. }
      rewrite E. cbn [bind]. unfold memset0.
      replace ((0 <=? h * (w * 2) - llen x) && (0 <=? llen x) && (llen x + (h * (w * 2) - llen x) <=? h * (w * 2))) with true by lia. cbn [bind].
      eexists. split; [reflexivity|]. apply shows_tight; try lia. intros i Hi.
      assert (Ev' : llen x = 2 * (llen x / 2)). { destruct Ev as [Ev|Ev]; [|lia]. apply Z.even_spec in Ev. destruct Ev as [q ->]. lia. }
      destruct (Z_lt_dec i (llen x)).
      * rewrite mwrite_out by lia. eapply one_line; eauto. lia.
      * rewrite mwrite_in by (rewrite repeat_length; lia). rewrite nth_repeat, padded_out; [reflexivity|].
        unfold llen in *. rewrite joined_length. lia.
    + cbn [bind].
      destruct (hilo_pack_ok k (mwrite junk2 0 x) (llen x) (llen x / 2) 1 (llen x) (llen x) junk3 K) as (m & E & P); try lia.
      { split; [apply mwrite_bytes; auto|]. repeat (split; [lia|]). lia. }
      rewrite E. cbn [bind]. rewrite new_tight by lia. unfold memcpy.
      replace ((0 <=? h * (w * 2)) && (0 <=? 0) && (0 + h * (w * 2) <=? h * (w * 2)) && (0 <=? 0) && (0 + h * (w * 2) <=? llen x)) with true by lia. cbn [bind].
      eexists. split; [reflexivity|]. apply shows_tight; try lia. intros i Hi.
      rewrite mwrite_in by (rewrite mread_length; lia). rewrite mread_nth by lia. rewrite Z2Nat.id by lia. rewrite !Z.add_0_l, Z.sub_0_r.
      eapply one_line; eauto. lia.
Qed.

(** ** Round trips *)
Definition source_ok (src : mem) (ssz w h stride l : Z) : Prop :=
  0 < w /\ 0 < h < 2 ^ 32 /\ l <= stride < 2 ^ 32 /\ (h - 1) * stride + l <= ssz /\ l + 3 < 2 ^ 32 /\ h * (l + 3) < 2 ^ 64.
Definition source_byte (src : mem) (stride l : Z) (i : Z) : byte := src (i / l * stride + i mod l).

Lemma bpp_pos pt bpp : bytes_per_pel pt = Ok bpp -> 0 < bpp.
Proof. destruct pt; cbn; intros [= <-]; lia. Qed.

Lemma shows_ext b l h f g : (forall i, 0 <= i < h * l -> f i = g i) -> shows b l h f -> shows b l h g.
Proof.
  destruct b as [[s z] m]. intros E (A & B & C). split; [auto|]. split; [auto|]. intros y x Hy Hx. rewrite C by auto. apply E. nia.
Qed.

Lemma check_ok w h stride bpp src ssz : 0 < bpp -> source_ok src ssz w h stride (w * bpp) -> check_source w h stride bpp = true.
Proof. intros B (W & [H H32] & S & _ & L & _). unfold check_source. rewrite u32_small by nia. lia. Qed.

Lemma compress0_payload pt bpp src ssz w h stride junk z : bytes_per_pel pt = Ok bpp -> source_ok src ssz w h stride (w * bpp) ->
  exists p, compress0 z pt src ssz w h stride junk = Ok (z_compress z p) /\ llen p = h * (w * bpp) /\
    forall i, 0 <= i < h * (w * bpp) -> padded p i = source_byte src stride (w * bpp) i.
Proof.
  intros Eb So. pose proof (bpp_pos _ _ Eb) as B. pose proof So as (W & [H H32] & [S1 S2] & Sz & L1 & L2).
  assert (Hl : 0 < w * bpp) by (apply Z.mul_pos_pos; lia).
  assert (Hlh : 0 <= w * bpp * h < 2 ^ 64) by (rewrite Z.mul_comm; rewrite Z.mul_add_distr_l in L2; split; [apply Z.mul_nonneg_nonneg; lia|lia]).
  assert (Hsh : 0 <= stride * h < 2 ^ 64) by (split; [apply Z.mul_nonneg_nonneg; lia|change (2 ^ 64) with (2 ^ 32 * 2 ^ 32); apply Z.mul_lt_mono_nonneg; lia]).
  assert (Hhl : h * (w * bpp) < 2 ^ 64) by (rewrite Z.mul_comm; lia).
  unfold compress0. rewrite Eb. cbn [bind]. rewrite (check_ok w h stride bpp src ssz) by auto. cbn [negb].
  rewrite (u64_small (w * bpp * h)), ?(u64_small (stride * h)) by assumption.
  assert (X : forall p, llen p = w * bpp * h -> (forall y x, 0 <= y < h -> 0 <= x < w * bpp -> padded p (y * (w * bpp) + x) = src (y * stride + x)) ->
    llen p = h * (w * bpp) /\ forall i, 0 <= i < h * (w * bpp) -> padded p i = source_byte src stride (w * bpp) i).
  { intros p Lp Q. split; [lia|]. intros i Hi. unfold source_byte. rewrite <- Q.
    - f_equal. rewrite Z.mul_comm. apply Z.div_mod. lia.
    - split; [apply Z.div_pos; lia|apply Z.div_lt_upper_bound; lia].
    - apply Z.mod_pos_bound. lia. }
  destruct (w * bpp * h =? stride * h) eqn:E.
  - assert (stride = w * bpp) by nia. subst stride.
    destruct (direct_ok src ssz w h bpp) as (p & -> & Lp & Q); try assumption; try lia. cbn [bind]. exists p. split; [reflexivity|]. apply X; auto.
  - destruct (gather_ok src ssz w h stride bpp junk) as (p & -> & Lp & Q); try assumption; try lia. cbn [bind]. exists p. split; [reflexivity|]. apply X; auto.
Qed.

Lemma zstd0_round_trip z pt bpp src ssz w h stride junk c lax j1 j2 : zstd_ok z -> bytes_per_pel pt = Ok bpp ->
  source_ok src ssz w h stride (w * bpp) -> compress0 z pt src ssz w h stride junk = Ok (Some c) ->
  exists b, decode0 z lax c pt w h j1 j2 = Ok b /\ shows b (w * bpp) h (source_byte src stride (w * bpp)).
Proof.
  intros Zk Eb So Ec. pose proof (bpp_pos _ _ Eb) as B. pose proof So as (W & [H H32] & [S1 S2] & Sz & L1 & L2).
  destruct (compress0_payload pt bpp src ssz w h stride junk z Eb So) as (p & E & Lp & Q).
  assert (Ez : z_compress z p = Some c) by congruence. destruct (Zk _ _ Ez) as (_ & F). fold (frame z c p) in F.
  unfold decode0. rewrite Eb. cbn [bind]. destruct lax.
  - destruct (decode_lax_ok z c p bpp w h j1 j2) as (b & E2 & S); try assumption; try lia; auto. exists b. split; auto. eapply shows_ext; eauto.
  - destruct (decode_strict_ok z c p bpp w h j1) as (b & E2 & S); try assumption; try lia; auto. exists b. split; auto. eapply shows_ext; eauto.
Qed.

(** payload with packing *)
Lemma unpacked_payload k src ssz w h stride l wd junk : l = 2 * wd -> 0 < wd -> source_ok src ssz w h stride l -> byte_mem src -> impl_ok k ->
  exists m, hilo_unpack k src ssz wd stride h (l * h) junk = Ok m /\
    let p := mread m 0 (Z.to_nat (l * h)) in llen p = h * l /\ Forall is_byte p /\
    forall i, 0 <= i < h * l -> padded (joined p) i = source_byte src stride l i.
Proof.
  intros El Wd (W & [H H32] & [S1 S2] & Sz & L1 & L2) Bs K.
  assert (Hm : wd * 2 * h < 2 ^ 64) by nia.
  destruct (hilo_unpack_ok k src ssz wd stride h (l * h) junk K) as (m & E & [U1 U2]).
  - split; [auto|]. repeat (split; [nia|]). nia.
  - lia.
  - exists m. split; [exact E|]. cbv zeta.
    assert (Lp : llen (mread m 0 (Z.to_nat (l * h))) = h * l) by (unfold llen; rewrite mread_length; nia).
    split; [exact Lp|].
    assert (Pn : forall a, 0 <= a < h * l -> padded (mread m 0 (Z.to_nat (l * h))) a = m a).
    { intros a Ha. unfold padded. rewrite mread_nth by lia. f_equal. lia. }
    assert (My : forall q, 0 <= q < wd * h -> 0 <= q / wd < h /\ 0 <= q mod wd < wd /\ q = q / wd * wd + q mod wd).
    { intros q Hq. split; [split; [apply Z.div_pos; lia|apply Z.div_lt_upper_bound; lia]|]. split; [apply Z.mod_pos_bound; lia|].
      rewrite Z.mul_comm. apply Z.div_mod. lia. }
    assert (Mb : forall a, 0 <= a < h * l -> is_byte (m a)).
    { intros a Ha. destruct (Z_lt_dec a (wd * h)).
      - destruct (My a ltac:(lia)) as (A & A2 & ->). destruct (U1 _ _ A A2) as [-> _]. apply Bs.
      - destruct (My (a - wd * h) ltac:(nia)) as (A & A2 & A3).
        replace a with (((a - wd * h) / wd * wd + (a - wd * h) mod wd) + wd * h) by lia.
        destruct (U1 _ _ A A2) as [_ ->]. apply Bs. }
    split.
    + apply Forall_forall. intros b I. destruct (In_nth _ _ 0 I) as (n & Hn & <-). rewrite mread_length in Hn. rewrite mread_nth by lia. apply Mb. lia.
    + intros i Hi. unfold source_byte.
      set (y := i / l). set (x := i mod l).
      assert (Hx : 0 <= x < l) by (apply Z.mod_pos_bound; lia).
      assert (Hy : 0 <= y < h) by (split; [apply Z.div_pos; lia|apply Z.div_lt_upper_bound; lia]).
      assert (Ei : i = y * l + x) by (unfold y, x; rewrite Z.mul_comm; apply Z.div_mod; lia).
      assert (Hd : h * l / 2 = wd * h) by (subst l; replace (h * (2 * wd)) with (wd * h * 2) by lia; apply Z.div_mul; lia).
      clearbody x y. destruct (Z.Even_or_Odd x) as [[j Ej]|[j Ej]].
      * assert (Hj : 0 <= j < wd) by lia.
        assert (Hq : 0 <= y * wd + j < wd * h) by (clear -Hy Hj; nia).
        assert (Hhl : h * l = 2 * (wd * h)) by (rewrite El; ring).
        replace i with (2 * (y * wd + j)) by (rewrite Ei, Ej, El; ring). rewrite joined_lo by lia. rewrite Pn by lia.
        destruct (U1 y j Hy Hj) as [-> _]. now rewrite Ej.
      * assert (Hj : 0 <= j < wd) by lia.
        assert (Hq : 0 <= y * wd + j < wd * h) by (clear -Hy Hj; nia).
        assert (Hhl : h * l = 2 * (wd * h)) by (rewrite El; ring).
        replace i with (2 * (y * wd + j) + 1) by (rewrite Ei, Ej, El; ring). rewrite joined_hi by lia. rewrite Lp, Hd. rewrite Pn by lia.
        rewrite Z.add_comm. destruct (U1 y j Hy Hj) as [_ ->]. f_equal. lia.
Qed.

Lemma compress1_payload z k ask pt bpp src ssz w h stride junk : bytes_per_pel pt = Ok bpp -> source_ok src ssz w h stride (w * bpp) ->
  byte_mem src -> impl_ok k ->
  exists p, compress1 z k ask pt src ssz w h stride junk =
      Ok (match z_compress z p with None => None | Some c => Some ([3; 1; if ask && is_16bit pt then 1 else 0] ++ c) end) /\
    llen p = h * (w * bpp) /\
    (ask && is_16bit pt = true -> Forall is_byte p) /\
    forall i, 0 <= i < h * (w * bpp) -> padded (if ask && is_16bit pt then joined p else p) i = source_byte src stride (w * bpp) i.
Proof.
  intros Eb So Bs K. pose proof (bpp_pos _ _ Eb) as B. pose proof So as (W & [H H32] & [S1 S2] & Sz & L1 & L2).
  assert (Hl : 0 < w * bpp) by (apply Z.mul_pos_pos; lia).
  assert (Hlh : 0 <= w * bpp * h < 2 ^ 64) by (rewrite Z.mul_comm; rewrite Z.mul_add_distr_l in L2; split; [apply Z.mul_nonneg_nonneg; lia|lia]).
  assert (Hsh : 0 <= stride * h < 2 ^ 64) by (split; [apply Z.mul_nonneg_nonneg; lia|change (2 ^ 64) with (2 ^ 32 * 2 ^ 32); apply Z.mul_lt_mono_nonneg; lia]).
  assert (Hhl : h * (w * bpp) < 2 ^ 64) by (rewrite Z.mul_comm; lia).
  unfold compress1. rewrite Eb. cbn [bind]. rewrite (check_ok w h stride bpp src ssz) by auto. cbn [negb].
  rewrite (u64_small (w * bpp * h)) by assumption. cbv zeta.
  destruct (ask && is_16bit pt) eqn:Ep.
  - assert (E2 : exists wd, w * bpp = 2 * wd /\ w * bpp / 2 = wd /\ 0 < wd).
    { apply andb_true_iff in Ep. destruct Ep as [_ Ep]. destruct pt; try discriminate Ep; cbn in Eb; injection Eb as <-; [exists w|exists (3 * w)]; lia. }
    destruct E2 as (wd & E2 & E3 & W2). rewrite E3, (u32_small wd) by lia.
    destruct (unpacked_payload k src ssz w h stride (w * bpp) wd junk E2 W2 So Bs K) as (m & E & Lp & Fp & Q). rewrite E. cbn [bind].
    exists (mread m 0 (Z.to_nat (w * bpp * h))). split; [destruct (z_compress z (mread m 0 (Z.to_nat (w * bpp * h)))); reflexivity|]. auto.
  - assert (X : forall p, llen p = w * bpp * h -> (forall y x, 0 <= y < h -> 0 <= x < w * bpp -> padded p (y * (w * bpp) + x) = src (y * stride + x)) ->
      llen p = h * (w * bpp) /\ (false = true -> Forall is_byte p) /\ forall i, 0 <= i < h * (w * bpp) -> padded p i = source_byte src stride (w * bpp) i).
    { intros p Lp Q. split; [lia|]. split; [discriminate|]. intros i Hi. unfold source_byte. rewrite <- Q.
      - f_equal. rewrite Z.mul_comm. apply Z.div_mod. lia.
      - split; [apply Z.div_pos; lia|apply Z.div_lt_upper_bound; lia].
      - apply Z.mod_pos_bound. lia. }
    destruct (stride =? w * bpp) eqn:E.
    + assert (stride = w * bpp) by lia. subst stride.
      destruct (direct_ok src ssz w h bpp) as (p & -> & Lp & Q); try assumption; try lia. cbn [bind]. exists p. split; [destruct (z_compress z p); reflexivity|]. apply X; auto.
    + destruct (gather_ok src ssz w h stride bpp junk) as (p & -> & Lp & Q); try assumption; try lia. cbn [bind]. exists p. split; [destruct (z_compress z p); reflexivity|]. apply X; auto.
Qed.

Lemma zstd1_round_trip z k k' ask pt bpp src ssz w h stride junk c lax j1 j2 j3 : zstd_ok z -> impl_ok k -> impl_ok k' ->
  bytes_per_pel pt = Ok bpp -> source_ok src ssz w h stride (w * bpp) -> byte_mem src -> byte_mem j2 ->
  ~ (ask = true /\ pt = Bgr48 /\ lax = true) ->
  compress1 z k ask pt src ssz w h stride junk = Ok (Some c) ->
  exists b, decode1 z k' lax c pt w h j1 j2 j3 = Ok b /\ shows b (w * bpp) h (source_byte src stride (w * bpp)).
Proof.
  intros Zk K K' Eb So Bs Bj Nb Ec. pose proof (bpp_pos _ _ Eb) as B. pose proof So as (W & [H H32] & [S1 S2] & Sz & L1 & L2).
  destruct (compress1_payload z k ask pt bpp src ssz w h stride junk Eb So Bs K) as (p & E & Lp & Fp & Q).
  rewrite Ec in E. destruct (z_compress z p) as [d|] eqn:Ez; [|congruence].
  assert (Ecd : c = [3; 1; if ask && is_16bit pt then 1 else 0] ++ d) by congruence. clear E.
  destruct (Zk _ _ Ez) as (Nd & F). fold (frame z d p) in F.
  assert (Ld : 0 < llen d) by (unfold llen; destruct d; [congruence|cbn [length]; lia]).
  unfold decode1. rewrite Ecd. cbn [app]. unfold parse_header.
  change (3 =? 1) with false. change (3 =? 3) with true. change (1 =? 1) with true. cbn [andb].
  replace (llen (3 :: 1 :: (if ask && is_16bit pt then 1 else 0) :: d) <? 3) with false by (unfold llen in *; cbn [length]; lia).
  cbn [bind]. change (3 =? 0) with false. cbv iota.
  replace (llen (3 :: 1 :: (if ask && is_16bit pt then 1 else 0) :: d) <=? 3) with false by (unfold llen in *; cbn [length]; lia).
  change (Z.to_nat 3) with 3%nat. cbn [skipn]. rewrite Eb. cbn [bind].
  destruct (ask && is_16bit pt) eqn:Ep.
  - change (Z.odd 1) with true. cbn [andb]. apply andb_true_iff in Ep. destruct Ep as [-> Ep]. rewrite Ep. cbn [negb].
    assert (Jo : joins bpp) by (unfold joins; destruct pt; try discriminate Ep; cbn in Eb; injection Eb as <-; lia).
    destruct lax.
    + destruct pt; try discriminate Ep; [|exfalso; apply Nb; auto]. cbn in Eb. injection Eb as <-.
      destruct (decode_packed_lax_ok z k' d p w h j1 j2 j3) as (b & E2 & S); try assumption; try lia; auto.
      * left. rewrite Lp. replace (h * (w * 2)) with (2 * (h * w)) by lia. rewrite Z.even_mul. reflexivity.
      * exists b. split; auto. eapply shows_ext; eauto.
    + destruct (decode_packed_strict_ok z k' d p bpp w h j1 j2) as (b & E2 & S); try assumption; try lia; auto. exists b. split; auto. eapply shows_ext; eauto.
  - change (Z.odd 0) with false. cbn [andb]. destruct lax.
    + destruct (decode_lax_ok z d p bpp w h j1 j2) as (b & E2 & S); try assumption; try lia; auto. exists b. split; auto. eapply shows_ext; eauto.
    + destruct (decode_strict_ok z d p bpp w h j1) as (b & E2 & S); try assumption; try lia; auto. exists b. split; auto. eapply shows_ext; eauto.
Qed.

(** ** Uncompressed sub-blocks *)
Lemma uncompressed_ok d pt bpp w h junk : bytes_per_pel pt = Ok bpp -> 0 < w -> 0 < h -> w * bpp + 3 < 2 ^ 32 -> h * (w * bpp + 3) < 2 ^ 64 ->
  exists b, create_uncompressed true d pt w h junk = Ok b /\ shows b (w * bpp) h (padded d).
Proof.
  intros Eb W H L1 L2. pose proof (bpp_pos _ _ Eb) as B. unfold create_uncompressed. rewrite Eb. cbn [bind].
  set (l := w * bpp) in *. assert (Hl : 0 < l) by (unfold l; nia). rewrite (u32_small l) by lia. rewrite (u64_small (l * h)) by nia.
  destruct (l * h <=? llen d) eqn:E1.
  - eexists. split; [reflexivity|]. split; [lia|]. split; [nia|]. intros y x Hy Hx. reflexivity.
  - cbn [negb]. pose proof (default_pitch_ok w bpp W B L1) as D. cbv zeta in D. fold l in D. set (p := default_pitch w bpp) in *.
    assert (Dp : p <= l + 3).
    { unfold p, default_pitch. rewrite (Z.mul_comm bpp). fold l. rewrite (u32_small l) by lia. rewrite (u32_small (l + 3)) by lia.
      change (2 ^ 32) with 4294967296 in *. rewrite u32_small by (change (2 ^ 32) with 4294967296; lia). lia. }
    unfold new_bitmap. rewrite (u32_small p) by lia. rewrite (u64_small (h * p)) by nia.
    set (n := llen d) in *. assert (Hn : 0 <= n) by (unfold n, llen; lia).
    set (g := fun y : Z =>
      let r := Z.max 0 (n - y * l) in
      if 0 <? r then let k := Z.min r l in
        if r - k =? 0 then [(y * p, mread (lmem d) (y * l) (Z.to_nat k)); (y * p + k, repeat 0 (Z.to_nat (l - k)))] : list wr
        else [(y * p, mread (lmem d) (y * l) (Z.to_nat k))]
      else [(y * p, repeat 0 (Z.to_nat l))]).
    match goal with |- context [for_loop _ _ ?f _] => set (body := f) end.
    assert (Step : forall y m, 0 <= y < h -> body y (m, Z.max 0 (n - y * l)) = Ok (apply_writes m (g y), Z.max 0 (n - (y + 1) * l))).
    { intros y m Hy. unfold body, g. cbv zeta. assert (Hp : (y + 1) * p <= h * p) by nia. assert (0 <= y * p) by nia. assert (0 <= y * l) by nia.
      destruct (0 <? Z.max 0 (n - y * l)) eqn:R.
      - unfold memcpy. set (k := Z.min (Z.max 0 (n - y * l)) l). assert (Hk : 0 <= k <= l /\ k <= n - y * l /\ (k = l \/ k = n - y * l)) by (unfold k; lia).
        replace ((0 <=? k) && (0 <=? y * p) && (y * p + k <=? h * p) && (0 <=? y * l) && (y * l + k <=? n)) with true by lia. cbn [bind].
        destruct (Z.max 0 (n - y * l) - k =? 0) eqn:R2.
        + unfold memset0. replace ((0 <=? l - k) && (0 <=? y * p + k) && (y * p + k + (l - k) <=? h * p)) with true by lia. cbn [bind].
          cbn [apply_writes fold_left fst snd]. f_equal. f_equal. lia.
        + cbn [apply_writes fold_left fst snd]. f_equal. f_equal. lia.
      - unfold memset0. replace ((0 <=? l) && (0 <=? y * p) && (y * p + l <=? h * p)) with true by lia. cbn [bind].
        cbn [apply_writes fold_left fst snd]. f_equal. f_equal. lia. }
    assert (Loop : forall q y m, 0 <= y -> y + Z.of_nat q <= h ->
      for_loop q y body (m, Z.max 0 (n - y * l)) = Ok (apply_writes m (flat_map g (iota y q)), Z.max 0 (n - (y + Z.of_nat q) * l))).
    { clear -Step. induction q as [|q IH]; intros y m Hy Hq; cbn [for_loop iota flat_map].
      - cbn [apply_writes fold_left]. f_equal. f_equal. f_equal. lia.
      - rewrite Step by lia. cbn [bind]. rewrite IH by lia. rewrite apply_writes_app. f_equal. f_equal. f_equal. lia. }
    specialize (Loop (Z.to_nat h) 0 junk ltac:(lia) ltac:(lia)). rewrite Z.mul_0_l, Z.sub_0_r in Loop.
    rewrite Z.max_r in Loop by lia. rewrite Loop. cbn [bind].
    eexists. split; [reflexivity|]. split; [lia|]. split; [nia|].
    assert (Ag : forall b, In b (flat_map g (iota 0 (Z.to_nat h))) -> agrees (fun a => padded d (a / p * l + a mod p)) b).
    { intros b I. apply in_flat_map in I. destruct I as (y & Iy & I). apply in_iota in Iy. unfold g in I. cbv zeta in I.
      assert (Hd : forall k : nat, Z.of_nat k < l -> (y * p + Z.of_nat k) / p * l + (y * p + Z.of_nat k) mod p = y * l + Z.of_nat k).
      { intros k Hk. destruct (idx y p (Z.of_nat k)) as [-> ->]; lia. }
      destruct (0 <? Z.max 0 (n - y * l)) eqn:R.
      - set (k := Z.min (Z.max 0 (n - y * l)) l) in *. assert (Hk : 0 <= k <= l /\ k <= n - y * l /\ (k = l \/ k = n - y * l)) by (unfold k; lia).
        assert (A1 : agrees (fun a => padded d (a / p * l + a mod p)) (y * p, mread (lmem d) (y * l) (Z.to_nat k))).
        { intros i. cbn [fst snd]. rewrite mread_length. intros Hi. rewrite mread_nth by lia. rewrite Hd by lia. reflexivity. }
        destruct (_ =? 0) eqn:R2; [|destruct I as [<-|[]]; exact A1].
        destruct I as [<-|[<-|[]]]; [exact A1|].
        intros i. cbn [fst snd]. rewrite repeat_length. intros Hi. rewrite nth_repeat.
        replace (y * p + k + Z.of_nat i) with (y * p + Z.of_nat (Z.to_nat k + i)) by lia. rewrite Hd by lia. rewrite padded_out; [reflexivity|]. fold n. lia.
      - destruct I as [<-|[]]. intros i. cbn [fst snd]. rewrite repeat_length. intros Hi. rewrite nth_repeat. rewrite Hd by lia.
        rewrite padded_out; [reflexivity|]. fold n. lia. }
    intros y x Hy Hx. rewrite (apply_writes_cover _ _ _ _ Ag).
    + destruct (idx y p x) as [-> ->]; [lia|]. reflexivity.
    + assert (Iy : In y (iota 0 (Z.to_nat h))) by (apply in_iota; lia).
      assert (C : exists b, In b (g y) /\ in_wr b (y * p + x)).
      { unfold g. cbv zeta. destruct (0 <? Z.max 0 (n - y * l)) eqn:R.
        - set (k := Z.min (Z.max 0 (n - y * l)) l) in *. destruct (Z_lt_dec x k).
          + eexists. split; [destruct (_ =? 0); left; reflexivity|]. unfold in_wr. cbn [fst snd]. rewrite mread_length. lia.
          + destruct (_ =? 0) eqn:R2; [|lia]. eexists. split; [right; left; reflexivity|]. unfold in_wr. cbn [fst snd]. rewrite repeat_length. lia.
        - eexists. split; [left; reflexivity|]. unfold in_wr. cbn [fst snd]. rewrite repeat_length. lia. }
      destruct C as (b & I & J). exists b. split; auto. apply in_flat_map. exists y. auto.
Qed.

Lemma uncompressed_strict d pt bpp w h junk : bytes_per_pel pt = Ok bpp -> 0 < w -> 0 < h -> w * bpp < 2 ^ 32 -> h * (w * bpp) < 2 ^ 64 ->
  llen d < h * (w * bpp) -> create_uncompressed false d pt w h junk = Throw.
Proof.
  intros Eb W H L1 L2 N. pose proof (bpp_pos _ _ Eb) as B. unfold create_uncompressed. rewrite Eb. cbn [bind].
  rewrite (u32_small (w * bpp)) by nia. rewrite u64_small by nia. destruct (_ <=? _) eqn:E; [nia|reflexivity].
Qed.

(** ** Defects *)
Definition zid : zstd := mkZstd (fun x => match x with [] => None | _ => Some x end) (fun c => Some (llen c)) (fun c cap => if llen c <=? cap then Some c else None).
Lemma zid_ok : zstd_ok zid.
Proof.
  intros x c. cbn. intros E. destruct x; [discriminate|]. injection E as <-. split; [discriminate|]. split; [reflexivity|].
  intros cap Hc. destruct (_ <=? cap) eqn:E; [reflexivity|lia].
Qed.

(** One Bgr48 pixel compressed with packing and decoded with the default option. *)
Lemma bgr48_lost : exists src z c, zstd_ok z /\ byte_mem src /\ source_ok src 6 1 1 6 6 /\
  compress1 z Scalar true Bgr48 src 6 1 1 6 (fun _ => 0) = Ok (Some c) /\
  forall v, is_byte v ->
  exists b, decode1 z Scalar true c Bgr48 1 1 (fun _ => v) (fun _ => 0) (fun _ => 0) = Ok b /\ pixel_byte b 6 2 = v /\ pixel_byte b 6 5 = v /\
            ~ shows b 6 1 (source_byte src 6 6).
Proof.
  exists (fun a => if (0 <=? a) && (a <? 6) then 10 + a else 0), zid. eexists. split; [apply zid_ok|].
  split; [intros a; unfold is_byte; destruct ((0 <=? a) && (a <? 6)) eqn:E; lia|].
  split; [unfold source_ok; lia|]. split; [vm_compute; reflexivity|].
  intros v Hv. eexists. split; [vm_compute; reflexivity|]. split; [reflexivity|]. split; [reflexivity|].
  intros (_ & _ & S). pose proof (S 0 2 ltac:(lia) ltac:(lia)) as S2. pose proof (S 0 5 ltac:(lia) ltac:(lia)) as S5.
  vm_compute in S2, S5. lia.
Qed.

(** Three bytes for two Gray16 pixels: the third byte of the bitmap is never written. *)
Lemma odd_short_junk v : exists b, decode1 zid Scalar true [3; 1; 1; 10; 20; 30] Gray16 2 1 (fun _ => v) (fun _ => 0) (fun _ => 0) = Ok b /\
  pixel_byte b 4 2 = v.
Proof. eexists. split; vm_compute; reflexivity. Qed.

(** Too little data for Bgr48: only a third of the data given is used, the next bytes of the bitmap are never written. *)
Lemma bgr48_short_junk v : exists b, decode1 zid Scalar true [3; 1; 1; 10; 20; 30; 40; 50; 60] Bgr48 2 1 (fun _ => v) (fun _ => 0) (fun _ => 0) = Ok b /\
  pixel_byte b 12 2 = v /\ pixel_byte b 12 5 = v.
Proof. eexists. split; [vm_compute; reflexivity|split; vm_compute; reflexivity]. Qed.

(** Headers of one or two bytes *)
Lemma header_overrun : forall b0, b0 <> 1 -> b0 <> 3 -> parse_header [b0] = UB /\ parse_header [b0; 1] = UB.
Proof.
  intros b0 N1 N3. unfold parse_header. destruct (b0 =? 1) eqn:E1; [lia|]. destruct (b0 =? 3) eqn:E3; [lia|]. cbn [andb]. split; reflexivity.
Qed.
Lemma header_safe d : match d with [] => True | b0 :: d' => b0 = 1 \/ b0 = 3 \/ (2 <= length d')%nat end -> exists r, parse_header d = Ok r.
Proof.
  destruct d as [|b0 d']; [eexists; reflexivity|]. intros H. unfold parse_header. destruct (b0 =? 1) eqn:E1; [eexists; reflexivity|].
  destruct ((b0 =? 3) && (llen (b0 :: d') <? 3)) eqn:E3; [eexists; reflexivity|].
  assert (L : (2 <= length d')%nat). { unfold llen in E3. cbn [length] in E3. unfold byte in *. lia. }
  destruct d' as [|b1 [|b2 d']]; cbn [length] in L; try lia. destruct (b1 =? 1); eexists; reflexivity.
Qed.

(** A sub-block which claims a line of 2^32 + 4 bytes: the bitmap gets 4 bytes, the decoder clears 2^32 + 4. *)
Lemma wide_overflow d j1 j2 : 0 < llen d <= 4 -> decode0 zid true d Gray32 (2 ^ 30 + 1) 1 j1 j2 = UB.
Proof.
  intros L. unfold decode0. cbn [bytes_per_pel bind]. unfold decode_lax, content_size. cbn [zid z_size bind].
  change (new_bitmap ((2 ^ 30 + 1) * 4) 1) with (4, 4). change (u64 (1 * ((2 ^ 30 + 1) * 4))) with 4294967300.
  destruct (llen d =? 4294967300) eqn:E1; [lia|]. destruct (llen d <? 4294967300) eqn:E2; [|lia].
  unfold decompress. cbn [zid z_decompress]. destruct (llen d <=? 4294967300) eqn:E3; [|lia].
  rewrite st_ok by (unfold llen in L; lia). cbn [bind]. rewrite Z.eqb_refl. cbn [bind]. unfold memset0.
  destruct (_ && _) eqn:E4; [lia|reflexivity].
Qed.

(** ** Packing and unpacking as inverse functions; all implementations agree *)
Lemma unpacked_det src w stride h dst m1 m2 : 0 <= w -> 0 <= h ->
  is_unpacked src w stride h (w * h) dst m1 -> is_unpacked src w stride h (w * h) dst m2 -> forall a, m1 a = m2 a.
Proof.
  intros W H [A1 B1] [A2 B2] a.
  assert (My : forall q, 0 <= q < w * h -> 0 <= q / w < h /\ 0 <= q mod w < w /\ q = q / w * w + q mod w).
  { intros q Hq. assert (0 < w) by nia. split; [split; [apply Z.div_pos; lia|apply Z.div_lt_upper_bound; lia]|]. split; [apply Z.mod_pos_bound; lia|].
    rewrite Z.mul_comm. apply Z.div_mod. lia. }
  destruct (Z_le_dec 0 a) as [L|L]; [destruct (Z_lt_dec a (w * h)) as [U|U]|].
  - destruct (My a ltac:(lia)) as (P & Q & ->). destruct (A1 _ _ P Q) as [-> _]. destruct (A2 _ _ P Q) as [-> _]. reflexivity.
  - destruct (Z_lt_dec a (w * h + w * h)) as [U2|U2].
    + destruct (My (a - w * h) ltac:(lia)) as (P & Q & E).
      replace a with ((a - w * h) / w * w + (a - w * h) mod w + w * h) by lia.
      destruct (A1 _ _ P Q) as [_ ->]. destruct (A2 _ _ P Q) as [_ ->]. reflexivity.
    + rewrite B1, B2 by lia. reflexivity.
  - rewrite B1, B2 by lia. reflexivity.
Qed.
Lemma packed_det src w h stride half dst m1 m2 : 2 * w <= stride ->
  is_packed src w h stride half dst m1 -> is_packed src w h stride half dst m2 -> forall a, m1 a = m2 a.
Proof.
  intros S [A1 B1] [A2 B2] a.
  destruct (Z_le_dec 0 (a / stride)) as [L|L]; [destruct (Z_lt_dec (a / stride) h) as [U|U]; [destruct (Z_lt_dec 0 w) as [W|W]; [destruct (Z_lt_dec (a mod stride) (2 * w)) as [V|V]|]|]|].
  - assert (E : a = a / stride * stride + a mod stride) by (rewrite Z.mul_comm; apply Z.div_mod; lia).
    pose proof (Z.mod_pos_bound a stride ltac:(lia)) as R. set (y := a / stride) in *. set (x := a mod stride) in *. clearbody x y.
    rewrite E. destruct (Z.Even_or_Odd x) as [[j ->]|[j ->]].
    + destruct (A1 y j ltac:(lia) ltac:(lia)) as [-> _]. destruct (A2 y j ltac:(lia) ltac:(lia)) as [-> _]. reflexivity.
    + rewrite Z.add_assoc. destruct (A1 y j ltac:(lia) ltac:(lia)) as [_ ->]. destruct (A2 y j ltac:(lia) ltac:(lia)) as [_ ->]. reflexivity.
  - assert (N : forall y, 0 <= y < h -> ~ (y * stride <= a < y * stride + 2 * w)).
    { intros y Hy I. destruct (idx y stride (a - y * stride)) as [_ E]; [lia|]. replace (y * stride + (a - y * stride)) with a in E by lia. lia. }
    rewrite B1, B2 by auto. reflexivity.
  - assert (N : forall y, 0 <= y < h -> ~ (y * stride <= a < y * stride + 2 * w)) by (intros; lia). rewrite B1, B2 by auto. reflexivity.
  - assert (N : forall y, 0 <= y < h -> ~ (y * stride <= a < y * stride + 2 * w)).
    { intros y Hy I. destruct (idx y stride (a - y * stride)) as [E _]; [lia|]. replace (y * stride + (a - y * stride)) with a in E by lia. lia. }
    rewrite B1, B2 by auto. reflexivity.
  - assert (N : forall y, 0 <= y < h -> ~ (y * stride <= a < y * stride + 2 * w)).
    { intros y Hy I. destruct (idx y stride (a - y * stride)) as [E _]; [lia|]. replace (y * stride + (a - y * stride)) with a in E by lia. lia. }
    rewrite B1, B2 by auto. reflexivity.
Qed.

(** The preconditions: both buffers have room, and no product exceeds the machine integers. *)
Definition room (w h stride size : Z) : Prop := 0 <= w /\ 0 <= h /\ 2 * w <= stride < 2 ^ 32 /\ w * 2 * h < 2 ^ 64 /\ (0 < h -> (h - 1) * stride + 2 * w <= size).

Lemma split_ok k src ssz w stride h dsz dst : impl_ok k -> byte_mem src -> room w h stride ssz -> 2 * (w * h) <= dsz ->
  exists m, hilo_unpack k src ssz w stride h dsz dst = Ok m /\
    (forall y x, 0 <= y < h -> 0 <= x < w -> m (y * w + x) = src (y * stride + 2 * x) /\ m (w * h + (y * w + x)) = src (y * stride + 2 * x + 1)) /\
    (forall a, ~ (0 <= a < 2 * (w * h)) -> m a = dst a).
Proof.
  intros K B (W & H & S & M & Z1) Z2. destruct (hilo_unpack_ok k src ssz w stride h dsz dst K) as (m & E & [A1 A2]); [|lia|].
  - split; [auto|]. repeat (split; [lia|]). lia.
  - exists m. split; [exact E|]. split.
    + intros y x Hy Hx. rewrite (Z.add_comm (w * h)). auto.
    + intros a N. apply A2; nia.
Qed.
Lemma join_ok k src ssz w h stride dsz dst : impl_ok k -> byte_mem src -> room w h stride dsz -> 2 * (w * h) <= ssz < 2 ^ 64 ->
  exists m, hilo_pack k src ssz w h stride dsz dst = Ok m /\
    (forall y x, 0 <= y < h -> 0 <= x < w -> m (y * stride + 2 * x) = src (y * w + x) /\ m (y * stride + 2 * x + 1) = src (ssz / 2 + (y * w + x))) /\
    (forall a, (forall y, 0 <= y < h -> ~ (y * stride <= a < y * stride + 2 * w)) -> m a = dst a).
Proof.
  intros K B (W & H & S & M & Z1) Z2. destruct (hilo_pack_ok k src ssz w h stride dsz dst K) as (m & E & [A1 A2]); [|lia|lia|].
  - split; [auto|]. repeat (split; [lia|]). lia.
  - exists m. split; [exact E|]. split; [|exact A2]. intros y x Hy Hx. rewrite (Z.add_comm (ssz / 2)). auto.
Qed.

Lemma same_split k k' src ssz w stride h dsz dst : impl_ok k -> impl_ok k' -> byte_mem src -> room w h stride ssz -> 2 * (w * h) <= dsz ->
  exists m m', hilo_unpack k src ssz w stride h dsz dst = Ok m /\ hilo_unpack k' src ssz w stride h dsz dst = Ok m' /\ forall a, m a = m' a.
Proof.
  intros K K' B (W & H & S & M & Z1) Z2.
  assert (P : unpack_pre src ssz w stride h dsz) by (split; [auto|]; repeat (split; [lia|]); lia).
  destruct (hilo_unpack_ok k src ssz w stride h dsz dst K P) as (m & E & U); [lia|].
  destruct (hilo_unpack_ok k' src ssz w stride h dsz dst K' P) as (m' & E' & U'); [lia|].
  exists m, m'. split; [auto|]. split; [auto|]. apply (unpacked_det src w stride h dst); auto.
Qed.
Lemma same_join k k' src ssz w h stride dsz dst : impl_ok k -> impl_ok k' -> byte_mem src -> room w h stride dsz -> 2 * (w * h) <= ssz < 2 ^ 64 ->
  exists m m', hilo_pack k src ssz w h stride dsz dst = Ok m /\ hilo_pack k' src ssz w h stride dsz dst = Ok m' /\ forall a, m a = m' a.
Proof.
  intros K K' B (W & H & S & M & Z1) Z2.
  assert (P : pack_pre src ssz w h stride dsz) by (split; [auto|]; repeat (split; [lia|]); lia).
  destruct (hilo_pack_ok k src ssz w h stride dsz dst K P) as (m & E & U); [lia|lia|].
  destruct (hilo_pack_ok k' src ssz w h stride dsz dst K' P) as (m' & E' & U'); [lia|lia|].
  exists m, m'. split; [auto|]. split; [auto|]. apply (packed_det src w h stride (ssz / 2) dst); auto; lia.
Qed.

Lemma split_join k k' src ssz w stride h t0 d0 stride' dsz : impl_ok k -> impl_ok k' -> byte_mem src -> byte_mem t0 ->
  room w h stride ssz -> room w h stride' dsz ->
  exists t d, hilo_unpack k src ssz w stride h (2 * (w * h)) t0 = Ok t /\ hilo_pack k' t (2 * (w * h)) w h stride' dsz d0 = Ok d /\
    (forall y c, 0 <= y < h -> 0 <= c < 2 * w -> d (y * stride' + c) = src (y * stride + c)) /\
    (forall a, (forall y, 0 <= y < h -> ~ (y * stride' <= a < y * stride' + 2 * w)) -> d a = d0 a).
Proof.
  intros K K' B Bt R R'. destruct (split_ok k src ssz w stride h (2 * (w * h)) t0 K B R ltac:(lia)) as (t & E & A1 & A2).
  pose proof R as (W & H & S & M & Z1).
  assert (Tb : byte_mem t).
  { intros a. destruct (Z_le_dec 0 a) as [L|L]; [destruct (Z_lt_dec a (2 * (w * h))) as [U|U]|]; [|rewrite A2 by lia; apply Bt|rewrite A2 by lia; apply Bt].
    assert (W0 : 0 < w) by nia.
    destruct (Z_lt_dec a (w * h)).
    - assert (Ea : a = a / w * w + a mod w) by (rewrite Z.mul_comm; apply Z.div_mod; lia). rewrite Ea.
      destruct (A1 (a / w) (a mod w)) as [-> _]; [split; [apply Z.div_pos; lia|apply Z.div_lt_upper_bound; lia]|apply Z.mod_pos_bound; lia|]. apply B.
    - set (b := a - w * h). assert (Eb : b = b / w * w + b mod w) by (rewrite Z.mul_comm; apply Z.div_mod; lia).
      replace a with (w * h + (b / w * w + b mod w)) by lia.
      destruct (A1 (b / w) (b mod w)) as [_ ->]; [split; [apply Z.div_pos; lia|apply Z.div_lt_upper_bound; lia]|apply Z.mod_pos_bound; lia|]. apply B. }
  destruct (join_ok k' t (2 * (w * h)) w h stride' dsz d0 K' Tb R' ltac:(lia)) as (d & E' & B1 & B2).
  exists t, d. split; [exact E|]. split; [exact E'|]. split; [|exact B2].
  intros y c Hy Hc. replace (2 * (w * h) / 2) with (w * h) in B1 by lia. destruct (Z.Even_or_Odd c) as [[j ->]|[j ->]].
  - destruct (B1 y j Hy ltac:(lia)) as [-> _]. apply A1; lia.
  - rewrite !Z.add_assoc. destruct (B1 y j Hy ltac:(lia)) as [_ ->]. apply A1; lia.
Qed.

(** concrete instances *)
Definition ex_src : mem := fun a => if (0 <=? a) && (a <? 200) then a else 0.
Lemma ex_src_bytes : byte_mem ex_src.
Proof. intros a. unfold ex_src, is_byte. destruct ((0 <=? a) && (a <? 200)) eqn:E; lia. Qed.
Lemma ex_split : impl_ok (Avx (repeat 9 16)) /\ byte_mem ex_src /\ room 19 2 50 100 /\
  match hilo_unpack (Avx (repeat 9 16)) ex_src 100 19 50 2 76 (fun _ => 0) with Ok m => mread m 15 6 ++ mread m 53 6 | _ => [] end =
  [30; 32; 34; 36; 50; 52; 31; 33; 35; 37; 51; 53].
Proof.
  split; [reflexivity|]. split; [apply ex_src_bytes|]. split; [unfold room; lia|]. vm_compute. reflexivity.
Qed.
Lemma ex_zstd1 : zstd_ok zid /\ source_ok ex_src 20 3 2 10 6 /\
  exists c b, compress1 zid Neon true Gray16 ex_src 20 3 2 10 (fun _ => 0) = Ok (Some c) /\ length c = 15%nat /\
  decode1 zid Scalar true c Gray16 3 2 (fun _ => 7) (fun _ => 7) (fun _ => 7) = Ok b /\ map (pixel_byte b 6) [0; 1; 5; 6; 7; 11] = [0; 1; 5; 10; 11; 15].
Proof.
  split; [apply zid_ok|]. split; [unfold source_ok; lia|]. eexists. eexists. split; [vm_compute; reflexivity|]. split; [reflexivity|].
  split; [vm_compute; reflexivity|]. vm_compute. reflexivity.
Qed.
Lemma ex_short : frame zid [1; 2; 3; 4; 5; 6; 7] [1; 2; 3; 4; 5; 6; 7] /\ exists b,
  decode0 zid true [1; 2; 3; 4; 5; 6; 7] Bgr24 2 2 (fun _ => 9) (fun _ => 9) = Ok b /\ map (pixel_byte b 6) [0; 5; 6; 7; 11] = [1; 6; 7; 0; 0].
Proof.
  split; [split; [reflexivity|]; intros cap H; cbn [zid z_decompress]; destruct (_ <=? cap) eqn:E; [reflexivity|apply Z.leb_gt in E; lia]|].
  eexists. split; vm_compute; reflexivity.
Qed.
Lemma ex_uncompressed : exists b, create_uncompressed true [1; 2; 3; 4; 5; 6; 7] Bgr24 2 2 (fun _ => 9) = Ok b /\
  map (pixel_byte b 6) [0; 5; 6; 7; 11] = [1; 6; 7; 0; 0].
Proof. eexists. split; vm_compute; reflexivity. Qed.
