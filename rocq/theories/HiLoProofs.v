(** Proofs about the low/high byte split. *)
From Verif Require Import Base CopyModel MemProofs HiLoModel.

(** ** Writes which agree with a function *)
Definition agrees (F : Z -> byte) (w : wr) : Prop :=
  forall k, (k < length (snd w))%nat -> nth k (snd w) 0 = F (fst w + Z.of_nat k).

Lemma apply_writes_agree F ws : (forall w, In w ws -> agrees F w) -> forall m a,
  apply_writes m ws a = m a /\ (forall w, In w ws -> ~ in_wr w a) \/ apply_writes m ws a = F a.
Proof.
  induction ws as [|w ws IH]; intros H m a; [left; split; [reflexivity|intros w []]|].
  cbn [apply_writes fold_left]. fold (apply_writes (mwrite m (fst w) (snd w)) ws).
  destruct (IH (fun w' I => H w' (or_intror I)) (mwrite m (fst w) (snd w)) a) as [[E N]|E]; [|auto].
  destruct (Z_le_dec (fst w) a) as [L|L]; [destruct (Z_lt_dec a (fst w + Z.of_nat (length (snd w)))) as [U|U]|].
  - right. rewrite E, mwrite_in by lia. rewrite (H w (or_introl eq_refl)) by lia. f_equal. lia.
  - left. rewrite E, mwrite_out by lia. split; auto. intros w' [<-|I]; [unfold in_wr; lia|auto].
  - left. rewrite E, mwrite_out by lia. split; auto. intros w' [<-|I]; [unfold in_wr; lia|auto].
Qed.

Lemma apply_writes_cover F ws m a : (forall w, In w ws -> agrees F w) -> (exists w, In w ws /\ in_wr w a) ->
  apply_writes m ws a = F a.
Proof. intros H (w & I & J). destruct (apply_writes_agree F ws H m a) as [[_ N]|E]; auto. destruct (N _ I J). Qed.

Definition byte_mem (m : mem) : Prop := forall a, is_byte (m a).

Lemma ld_ok m sz off n : 0 <= off -> off + Z.of_nat n <= sz -> ld m sz off n = Ok (mread m off n).
Proof. intros A B. unfold ld. destruct ((0 <=? off) && (off + Z.of_nat n <=? sz)) eqn:E; [reflexivity|lia]. Qed.
Lemma st_ok m sz off d : 0 <= off -> off + Z.of_nat (length d) <= sz -> st m sz off d = Ok (mwrite m off d).
Proof. intros A B. unfold st. destruct ((0 <=? off) && (off + Z.of_nat (length d) <=? sz)) eqn:E; [reflexivity|lia]. Qed.

Lemma unpack_word_ok src ssz soff half dsz doff m : byte_mem src ->
  0 <= soff -> soff + 2 <= ssz -> 0 <= doff -> 0 <= half -> doff + half + 1 <= dsz ->
  unpack_word src ssz soff half dsz doff m = Ok (apply_writes m [(doff, [src soff]); (doff + half, [src (soff + 1)])]).
Proof.
  intros B H1 H2 H3 H4 H5. unfold unpack_word. rewrite ld_ok by (cbn; lia). cbn [bind mread unle].
  pose proof (B soff). pose proof (B (soff + 1)). unfold is_byte in *.
  replace (src soff + 256 * (src (soff + 1) + 256 * 0)) with (src soff + src (soff + 1) * 256) by lia.
  rewrite st_ok by (cbn [length]; lia). cbn [bind]. rewrite st_ok by (cbn [length]; lia).
  cbn [apply_writes fold_left fst snd].
  replace (u8 (src soff + src (soff + 1) * 256)) with (src soff) by (unfold u8; change (2 ^ 8) with 256; lia).
  replace (u8 ((src soff + src (soff + 1) * 256) / 256)) with (src (soff + 1)) by (unfold u8; change (2 ^ 8) with 256; lia).
  reflexivity.
Qed.

Lemma pack_word_ok src ssz soff half dsz doff m : byte_mem src ->
  0 <= soff -> 0 <= half -> soff + half + 1 <= ssz -> 0 <= doff -> doff + 2 <= dsz ->
  pack_word src ssz soff half dsz doff m = Ok (apply_writes m [(doff, [src soff; src (soff + half)])]).
Proof.
  intros B H1 H2 H3 H4 H5. unfold pack_word. rewrite !ld_ok by (cbn; lia). cbn [bind mread nth].
  pose proof (B soff). pose proof (B (soff + half)). unfold is_byte in *.
  replace (le 2 (u16 (src soff + 256 * src (soff + half)))) with [src soff; src (soff + half)].
  - rewrite st_ok by (cbn [length]; lia). reflexivity.
  - unfold u16. change (2 ^ 16) with 65536. cbn [le]. f_equal; [lia|]. f_equal. lia.
Qed.

(** ** What is written where *)
Definition U (src : mem) (w stride half : Z) (a : Z) : byte :=
  if a <? half then src (a / w * stride + 2 * (a mod w))
  else src ((a - half) / w * stride + 2 * ((a - half) mod w) + 1).
Definition P (src : mem) (w stride half : Z) (a : Z) : byte :=
  let y := a / stride in let r := a mod stride in
  if Z.even r then src (y * w + r / 2) else src (y * w + r / 2 + half).

Lemma idx y w x : 0 <= x < w -> (y * w + x) / w = y /\ (y * w + x) mod w = x.
Proof.
  intros H. split.
  - rewrite Z.div_add_l by lia. rewrite Z.div_small by lia. lia.
  - rewrite Z.add_comm, Z_mod_plus_full. apply Z.mod_small. lia.
Qed.

Lemma U_lo src w stride half y x : 0 <= x < w -> y * w + x < half ->
  U src w stride half (y * w + x) = src (y * stride + 2 * x).
Proof. intros H L. unfold U. destruct (idx y w x H) as [-> ->]. destruct (_ <? half) eqn:E; [reflexivity|lia]. Qed.
Lemma U_hi src w stride half y x : 0 <= x < w -> 0 <= y ->
  U src w stride half (y * w + x + half) = src (y * stride + 2 * x + 1).
Proof.
  intros H L. unfold U. replace (y * w + x + half - half) with (y * w + x) by lia. destruct (idx y w x H) as [-> ->].
  destruct (_ <? half) eqn:E; [nia|reflexivity].
Qed.
Lemma P_lo src w stride half y x : 0 <= x < w -> 2 * w <= stride ->
  P src w stride half (y * stride + 2 * x) = src (y * w + x).
Proof.
  intros H S. unfold P. cbv zeta. destruct (idx y stride (2 * x)) as [-> ->]; [lia|].
  assert (E : Z.even (2 * x) = true) by (rewrite Z.even_mul; reflexivity).
  rewrite E. f_equal. f_equal. lia.
Qed.
Lemma P_hi src w stride half y x : 0 <= x < w -> 2 * w <= stride ->
  P src w stride half (y * stride + 2 * x + 1) = src (y * w + x + half).
Proof.
  intros H S. unfold P. cbv zeta. rewrite <- Z.add_assoc. destruct (idx y stride (2 * x + 1)) as [-> ->]; [lia|].
  assert (E : Z.even (2 * x + 1) = false) by (rewrite Z.even_add, Z.even_mul; reflexivity).
  rewrite E. f_equal. f_equal. lia.
Qed.

(** ** Loops over rows, each row written by a list of blocks *)
Lemma rows_ok (F : Z -> byte) (h : nat) (row : Z -> mem -> res mem) (g : Z -> list wr) dst :
  (forall y m, 0 <= y < Z.of_nat h -> row y m = Ok (apply_writes m (g y))) ->
  (forall y w, 0 <= y < Z.of_nat h -> In w (g y) -> agrees F w) ->
  exists m, for_loop h 0 row dst = Ok m /\
    (forall a y w, 0 <= y < Z.of_nat h -> In w (g y) -> in_wr w a -> m a = F a) /\
    (forall a, (forall y w, 0 <= y < Z.of_nat h -> In w (g y) -> ~ in_wr w a) -> m a = dst a).
Proof.
  intros R A. exists (apply_writes dst (flat_map g (iota 0 h))). split; [apply for_loop_writes; auto|].
  assert (Ag : forall w, In w (flat_map g (iota 0 h)) -> agrees F w).
  { intros w I. apply in_flat_map in I. destruct I as (y & Iy & I). apply in_iota in Iy. eapply A; eauto. }
  split.
  - intros a y w Hy I J. apply apply_writes_cover; auto. exists w. split; auto. apply in_flat_map. exists y. split; auto. apply in_iota. auto.
  - intros a N. apply apply_writes_out. intros w I. apply in_flat_map in I. destruct I as (y & Iy & I). apply in_iota in Iy. eapply N; eauto.
Qed.

(** The result of unpacking, for any way of cutting rows into blocks. *)
Definition is_unpacked (src : mem) (w stride h half : Z) (dst m : mem) : Prop :=
  (forall y x, 0 <= y < h -> 0 <= x < w ->
     m (y * w + x) = src (y * stride + 2 * x) /\ m (y * w + x + half) = src (y * stride + 2 * x + 1)) /\
  (forall a, ~ (0 <= a < w * h) -> ~ (half <= a < half + w * h) -> m a = dst a).
Definition is_packed (src : mem) (w h stride half : Z) (dst m : mem) : Prop :=
  (forall y x, 0 <= y < h -> 0 <= x < w ->
     m (y * stride + 2 * x) = src (y * w + x) /\ m (y * stride + 2 * x + 1) = src (y * w + x + half)) /\
  (forall a, (forall y, 0 <= y < h -> ~ (y * stride <= a < y * stride + 2 * w)) -> m a = dst a).

(** Blocks of [n] words at word position [x] of row [y]. *)
Definition ublock (src : mem) (w stride half y x : Z) (n : nat) : list wr :=
  [(y * w + x, map (fun k => src (y * stride + 2 * (x + Z.of_nat k))) (seq 0 n));
   (y * w + x + half, map (fun k => src (y * stride + 2 * (x + Z.of_nat k) + 1)) (seq 0 n))].
Definition pblock (src : mem) (w stride half y x : Z) (n : nat) : list wr :=
  [(y * stride + 2 * x, flat_map (fun k => [src (y * w + (x + Z.of_nat k)); src (y * w + (x + Z.of_nat k) + half)]) (seq 0 n))].

Lemma nth_map_seq {A} (f : nat -> A) n k d : (k < n)%nat -> nth k (map f (seq 0 n)) d = f k.
Proof.
  intros H. rewrite (nth_indep _ d (f 0%nat)) by (rewrite map_length, seq_length; lia).
  rewrite map_nth, seq_nth by lia. reflexivity.
Qed.

Lemma ublock_agrees src w stride half y x n b : 0 <= x -> x + Z.of_nat n <= w -> 0 <= y -> (y + 1) * w <= half ->
  In b (ublock src w stride half y x n) -> agrees (U src w stride half) b.
Proof.
  intros X N Y L [<-|[<-|[]]] k; cbn [fst snd]; rewrite map_length, seq_length; intros K; rewrite nth_map_seq by lia.
  - rewrite <- Z.add_assoc, U_lo; auto; nia.
  - replace (y * w + x + half + Z.of_nat k) with (y * w + (x + Z.of_nat k) + half) by lia. rewrite U_hi; auto. lia.
Qed.

Lemma nth_pairs (f g : nat -> byte) n k :
  (k < 2 * n)%nat -> nth k (flat_map (fun i => [f i; g i]) (seq 0 n)) 0 = if Nat.even k then f (k / 2)%nat else g (k / 2)%nat.
Proof.
  assert (G : forall n s k, (k < 2 * n)%nat -> nth k (flat_map (fun i => [f i; g i]) (seq s n)) 0 =
            if Nat.even k then f (s + k / 2)%nat else g (s + k / 2)%nat).
  { clear. induction n as [|n IH]; intros s k H; [lia|]. cbn [seq flat_map app].
    destruct k as [|[|k]].
    - cbn. now rewrite Nat.add_0_r.
    - cbn. now rewrite Nat.add_0_r.
    - cbn [nth Nat.even]. rewrite IH by lia.
      replace (S (S k) / 2)%nat with (S (k / 2)) by (change (S (S k)) with (1 * 2 + k)%nat; rewrite Nat.div_add_l by lia; lia).
      rewrite !Nat.add_succ_r. reflexivity. }
  intros H. rewrite G by lia. reflexivity.
Qed.
Lemma flat_pairs_length {A} (f g : nat -> A) n s : length (flat_map (fun i => [f i; g i]) (seq s n)) = (2 * n)%nat.
Proof. revert s; induction n as [|n IH]; intros s; cbn [seq flat_map app length]; [lia|]. rewrite IH. lia. Qed.

Lemma pblock_agrees src w stride half y x n b : 0 <= x -> x + Z.of_nat n <= w -> 2 * w <= stride ->
  In b (pblock src w stride half y x n) -> agrees (P src w stride half) b.
Proof.
  intros X N S [<-|[]] k; cbn [fst snd]; rewrite flat_pairs_length; intros K. rewrite nth_pairs by lia.
  destruct (Nat.even k) eqn:E.
  - apply Nat.even_spec in E. destruct E as [j ->]. rewrite Nat.mul_comm, Nat.div_mul by lia.
    replace (y * stride + 2 * x + Z.of_nat (j * 2)) with (y * stride + 2 * (x + Z.of_nat j)) by lia. rewrite P_lo; auto; lia.
  - assert (O : Nat.odd k = true) by (unfold Nat.odd; now rewrite E). apply Nat.odd_spec in O. destruct O as [j ->].
    replace ((2 * j + 1) / 2)%nat with j by (rewrite Nat.mul_comm, Nat.div_add_l by lia; cbn; lia).
    replace (y * stride + 2 * x + Z.of_nat (2 * j + 1)) with (y * stride + 2 * (x + Z.of_nat j) + 1) by lia. rewrite P_hi; auto; lia.
Qed.

(** A cutting of a row: blocks (position, length) which cover [0,w). *)
Definition cutting (w : Z) (bs : list (Z * nat)) : Prop :=
  (forall x n, In (x, n) bs -> 0 <= x /\ x + Z.of_nat n <= w) /\
  (forall p, 0 <= p < w -> exists x n, In (x, n) bs /\ x <= p < x + Z.of_nat n).

Lemma unpack_rows src w stride h half dst row bs :
  0 <= w -> 0 <= h -> half = w * h -> cutting w bs ->
  (forall y m, 0 <= y < h -> row y m = Ok (apply_writes m (flat_map (fun b => ublock src w stride half y (fst b) (snd b)) bs))) ->
  exists m, for_loop (Z.to_nat h) 0 row dst = Ok m /\ is_unpacked src w stride h half dst m.
Proof.
  intros Hw Hh Hf [C1 C2] R.
  destruct (rows_ok (U src w stride half) (Z.to_nat h) row
             (fun y => flat_map (fun b => ublock src w stride half y (fst b) (snd b)) bs) dst) as (m & E & In1 & Out).
  - intros y m Hy. apply R. lia.
  - intros y b Hy I. apply in_flat_map in I. destruct I as ([x n] & I & J). destruct (C1 _ _ I).
    cbn [fst snd] in J. assert (Hy2 : y + 1 <= h) by lia. assert (Hy3 : (y + 1) * w <= half) by nia. apply (ublock_agrees src w stride half y x n); auto; lia.
  - exists m. split; [exact E|]. split.
    + intros y p Hy Hp. destruct (C2 p Hp) as (x & n & I & J). split.
      * rewrite (In1 _ y (y * w + x, map (fun k => src (y * stride + 2 * (x + Z.of_nat k))) (seq 0 n))).
        -- apply U_lo; auto. nia.
        -- lia.
        -- apply in_flat_map. exists (x, n). split; auto. now left.
        -- unfold in_wr. cbn [fst snd]. rewrite map_length, seq_length. lia.
      * rewrite (In1 _ y (y * w + x + half, map (fun k => src (y * stride + 2 * (x + Z.of_nat k) + 1)) (seq 0 n))).
        -- apply U_hi; auto. lia.
        -- lia.
        -- apply in_flat_map. exists (x, n). split; auto. right. now left.
        -- unfold in_wr. cbn [fst snd]. rewrite map_length, seq_length. lia.
    + intros a N1 N2. apply Out. intros y b Hy I J. apply in_flat_map in I. destruct I as ([x n] & I & K). destruct (C1 _ _ I).
      destruct K as [<-|[<-|[]]]; unfold in_wr in J; cbn [fst snd] in J; rewrite map_length, seq_length in J; [apply N1|apply N2]; nia.
Qed.

Lemma pack_rows src w stride h half dst row bs :
  0 <= w -> 0 <= h -> 2 * w <= stride -> cutting w bs ->
  (forall y m, 0 <= y < h -> row y m = Ok (apply_writes m (flat_map (fun b => pblock src w stride half y (fst b) (snd b)) bs))) ->
  exists m, for_loop (Z.to_nat h) 0 row dst = Ok m /\ is_packed src w h stride half dst m.
Proof.
  intros Hw Hh Hs [C1 C2] R.
  destruct (rows_ok (P src w stride half) (Z.to_nat h) row
             (fun y => flat_map (fun b => pblock src w stride half y (fst b) (snd b)) bs) dst) as (m & E & In1 & Out).
  - intros y m Hy. apply R. lia.
  - intros y b Hy I. apply in_flat_map in I. destruct I as ([x n] & I & J). destruct (C1 _ _ I).
    cbn [fst snd] in J. eapply pblock_agrees; eauto; lia.
  - exists m. split; [exact E|]. split.
    + intros y p Hy Hp. destruct (C2 p Hp) as (x & n & I & J).
      assert (B : In (y * stride + 2 * x, flat_map (fun k => [src (y * w + (x + Z.of_nat k)); src (y * w + (x + Z.of_nat k) + half)]) (seq 0 n))
                     (flat_map (fun b => pblock src w stride half y (fst b) (snd b)) bs)).
      { apply in_flat_map. exists (x, n). split; auto. now left. }
      split.
      * rewrite (In1 _ y _ ltac:(lia) B); [apply P_lo; lia|]. unfold in_wr. cbn [fst snd]. rewrite flat_pairs_length. lia.
      * rewrite (In1 _ y _ ltac:(lia) B); [apply P_hi; lia|]. unfold in_wr. cbn [fst snd]. rewrite flat_pairs_length. lia.
    + intros a N. apply Out. intros y b Hy I J. apply in_flat_map in I. destruct I as ([x n] & I & K). destruct (C1 _ _ I).
      destruct K as [<-|[]]. unfold in_wr in J. cbn [fst snd] in J. rewrite flat_pairs_length in J. apply (N y); lia.
Qed.

(** ** The three implementations *)
Lemma half_ok w h : 0 <= w -> 0 <= h -> w * 2 * h < 2 ^ 64 -> u64 (u64 (w * 2) * h) / 2 = w * h.
Proof.
  intros A B C. unfold u64. rewrite Zmult_mod_idemp_l, Z.mod_small by (change (2 ^ 64) with 18446744073709551616 in *; nia).
  replace (w * 2 * h) with (w * h * 2) by lia. apply Z.div_mul. lia.
Qed.

Lemma flat_map_iota_map {A} (f : Z -> Z * nat) (g : Z * nat -> list A) i n :
  flat_map g (map f (iota i n)) = flat_map (fun x => g (f x)) (iota i n).
Proof. revert i; induction n as [|n IH]; intros i; cbn [iota map flat_map]; [reflexivity|]. now rewrite IH. Qed.

Definition cut (q w : Z) : list (Z * nat) :=
  map (fun i => (q * i, Z.to_nat q)) (iota 0 (Z.to_nat (w / q))) ++ map (fun i => (q * (w / q) + i, 1%nat)) (iota 0 (Z.to_nat (w mod q))).
Definition cut1 (w : Z) : list (Z * nat) := map (fun i => (i, 1%nat)) (iota 0 (Z.to_nat w)).

Lemma cut1_ok w : cutting w (cut1 w).
Proof.
  unfold cut1. split.
  - intros x n I. apply in_map_iff in I. destruct I as (i & E & I). apply in_iota in I. inversion E; subst. lia.
  - intros p Hp. exists p, 1%nat. split; [|lia]. apply in_map_iff. exists p. split; auto. apply in_iota. lia.
Qed.
Lemma cut_ok q w : 0 < q -> 0 <= w -> cutting w (cut q w).
Proof.
  intros Hq Hw. pose proof (Z.div_mod w q) as D. pose proof (Z.mod_pos_bound w q Hq) as M. pose proof (Z.div_pos w q Hw Hq) as V.
  unfold cut. split.
  - intros x n I. apply in_app_or in I. destruct I as [I|I]; apply in_map_iff in I; destruct I as (i & E & I); apply in_iota in I;
      inversion E; subst; nia.
  - intros p Hp. destruct (Z_lt_dec p (q * (w / q))) as [L|L].
    + pose proof (Z.div_mod p q) as Dp. pose proof (Z.mod_pos_bound p q Hq) as Mp. pose proof (Z.div_pos p q (proj1 Hp) Hq) as Vp.
      exists (q * (p / q)), (Z.to_nat q). split; [|lia]. apply in_or_app. left. apply in_map_iff. exists (p / q). split; auto.
      apply in_iota. nia.
    + exists p, 1%nat. split; [|lia]. apply in_or_app. right. apply in_map_iff. exists (p - q * (w / q)). split; [f_equal; lia|].
      apply in_iota. lia.
Qed.

Definition unpack_pre (src : mem) (ssz w stride h dsz : Z) : Prop :=
  byte_mem src /\ 0 <= w /\ 0 <= h /\ 2 * w <= stride /\ w * 2 * h < 2 ^ 64 /\ (0 < h -> (h - 1) * stride + 2 * w <= ssz) /\ 2 * (w * h) <= dsz.
Definition pack_pre (src : mem) (ssz w h stride dsz : Z) : Prop :=
  byte_mem src /\ 0 <= w /\ 0 <= h /\ 2 * w <= stride /\ 2 * (w * h) <= ssz /\ (0 < h -> (h - 1) * stride + 2 * w <= dsz).

Lemma word_block src ssz w stride h dsz y x m : unpack_pre src ssz w stride h dsz -> 0 <= y < h -> 0 <= x < w ->
  unpack_word src ssz (y * stride + 2 * x) (w * h) dsz (y * w + x) m = Ok (apply_writes m (ublock src w stride (w * h) y x 1)).
Proof.
  intros (B & W & H & S & M & Z1 & Z2) Hy Hx. rewrite unpack_word_ok; auto; try nia.
  unfold ublock. cbn [seq map]. change (Z.of_nat 0) with 0. rewrite !Z.add_0_r. reflexivity.
Qed.
Lemma word_pblock src ssz w stride h dsz y x m : pack_pre src ssz w h stride dsz -> 0 <= y < h -> 0 <= x < w ->
  pack_word src ssz (y * w + x) (ssz / 2) dsz (y * stride + 2 * x) m = Ok (apply_writes m (pblock src w stride (ssz / 2) y x 1)).
Proof.
  intros (B & W & H & S & M & Z1) Hy Hx. rewrite pack_word_ok; auto; try nia.
  unfold pblock. cbn [seq flat_map app]. change (Z.of_nat 0) with 0. rewrite !Z.add_0_r. reflexivity.
Qed.

Lemma for_words_gen (f : Z -> mem -> res mem) (blk : Z * nat -> list wr) (pos : Z -> Z * nat) n m :
  (forall i m, 0 <= i < Z.of_nat n -> f i m = Ok (apply_writes m (blk (pos i)))) ->
  for_loop n 0 f m = Ok (apply_writes m (flat_map blk (map pos (iota 0 n)))).
Proof.
  intros H. rewrite flat_map_iota_map. apply (for_loop_writes n 0 f (fun i => blk (pos i))). intros j m' Hj. apply H. lia.
Qed.

Lemma unpack_c_ok src ssz w stride h dsz dst : unpack_pre src ssz w stride h dsz ->
  exists m, unpack_c src ssz w stride h dsz dst = Ok m /\ is_unpacked src w stride h (w * h) dst m.
Proof.
  intros Pr. pose proof Pr as (B & W & H & S & M & Z1 & Z2). unfold unpack_c. rewrite half_ok by auto.
  apply (unpack_rows _ _ _ _ _ _ _ (cut1 w)); auto; [apply cut1_ok|].
  intros y m Hy. unfold cut1. apply for_words_gen. intros i m' Hi. cbn [fst snd]. apply (word_block _ _ _ _ h); auto. lia.
Qed.
Lemma pack_c_ok src ssz w h stride dsz dst : pack_pre src ssz w h stride dsz ->
  exists m, pack_c src ssz w h stride dsz dst = Ok m /\ is_packed src w h stride (ssz / 2) dst m.
Proof.
  intros Pr. pose proof Pr as (B & W & H & S & M & Z1). unfold pack_c.
  apply (pack_rows _ _ _ _ _ _ _ (cut1 w)); auto; [apply cut1_ok|].
  intros y m Hy. unfold cut1. apply for_words_gen. intros i m' Hi. cbn [fst snd]. apply (word_pblock _ _ _ _ h); auto. lia.
Qed.

(** Vector steps, on arbitrary register contents *)
Lemma mread_map src n : forall a, mread src a n = map (fun k => src (a + Z.of_nat k)) (seq 0 n).
Proof.
  intros a. apply (nth_ext _ _ 0 0); [now rewrite mread_length, map_length, seq_length|].
  intros k K. rewrite mread_length in K. rewrite nth_map_seq by lia. now rewrite mread_nth by lia.
Qed.
Lemma avx_unpack_reg (f : nat -> byte) : permute4x64 (shuffle_epi8 (map f (seq 0 32)) shuffle_const) 216 =
  map (fun k => f (2 * k)%nat) (seq 0 16) ++ map (fun k => f (2 * k + 1)%nat) (seq 0 16).
Proof. reflexivity. Qed.
Lemma avx_pack_reg (f g : nat -> byte) ud : length ud = 16%nat ->
  unpacklo_epi8 (permute4x64 (map f (seq 0 16) ++ ud) 80) (permute4x64 (map g (seq 0 16) ++ ud) 80) =
  flat_map (fun k => [f k; g k]) (seq 0 16).
Proof. reflexivity. Qed.
Lemma neon_unpack_reg (f : nat -> byte) : evens (map f (seq 0 16)) = map (fun k => f (2 * k)%nat) (seq 0 8) /\
  odds (map f (seq 0 16)) = map (fun k => f (2 * k + 1)%nat) (seq 0 8).
Proof. split; reflexivity. Qed.
Lemma neon_pack_reg (f g : nat -> byte) : interleave (map f (seq 0 8)) (map g (seq 0 8)) = flat_map (fun k => [f k; g k]) (seq 0 8).
Proof. reflexivity. Qed.

Lemma map_ext_seq0 {A} (f g : nat -> A) n : (forall k, f k = g k) -> map f (seq 0 n) = map g (seq 0 n).
Proof. intros H. apply map_ext. auto. Qed.
Lemma avx_unpack_vec src a : permute4x64 (shuffle_epi8 (mread src a 32) shuffle_const) 216 =
  map (fun k => src (a + 2 * Z.of_nat k)) (seq 0 16) ++ map (fun k => src (a + 2 * Z.of_nat k + 1)) (seq 0 16).
Proof. rewrite mread_map, avx_unpack_reg. f_equal; apply map_ext_seq0; intros k; f_equal; lia. Qed.
Lemma avx_pack_vec src a b ud : length ud = 16%nat ->
  unpacklo_epi8 (permute4x64 (mread src a 16 ++ ud) 80) (permute4x64 (mread src b 16 ++ ud) 80) =
  flat_map (fun k => [src (a + Z.of_nat k); src (b + Z.of_nat k)]) (seq 0 16).
Proof. intros L. rewrite !mread_map. apply avx_pack_reg; auto. Qed.
Lemma neon_evens src a : evens (mread src a 16) = map (fun k => src (a + 2 * Z.of_nat k)) (seq 0 8).
Proof. rewrite mread_map, (proj1 (neon_unpack_reg _)). apply map_ext_seq0; intros k; f_equal; lia. Qed.
Lemma neon_odds src a : odds (mread src a 16) = map (fun k => src (a + 2 * Z.of_nat k + 1)) (seq 0 8).
Proof. rewrite mread_map, (proj2 (neon_unpack_reg _)). apply map_ext_seq0; intros k; f_equal; lia. Qed.
Lemma neon_inter src a b : interleave (mread src a 8) (mread src b 8) =
  flat_map (fun k => [src (a + Z.of_nat k); src (b + Z.of_nat k)]) (seq 0 8).
Proof. rewrite !mread_map. apply neon_pack_reg. Qed.

Lemma map_ext_seq {A} (f g : nat -> A) n : (forall k, f k = g k) -> map f (seq 0 n) = map g (seq 0 n).
Proof. intros H. apply map_ext. auto. Qed.
Lemma flat_map_ext_seq {A} (f g : nat -> list A) n : (forall k, f k = g k) -> flat_map f (seq 0 n) = flat_map g (seq 0 n).
Proof. intros H. apply flat_map_ext. auto. Qed.

Lemma firstn_app_len {A} (a b : list A) n : length a = n -> firstn n (a ++ b) = a.
Proof. intros <-. rewrite firstn_app, Nat.sub_diag, firstn_all, firstn_O. apply app_nil_r. Qed.
Lemma skipn_app_len {A} (a b : list A) n : length a = n -> skipn n (a ++ b) = b.
Proof. intros <-. rewrite skipn_app, Nat.sub_diag, skipn_all. reflexivity. Qed.

Lemma quot_bound q w i : 0 < q -> 0 <= w -> 0 <= i < Z.of_nat (Z.to_nat (w / q)) -> q * i + q <= w.
Proof. intros Q W H. pose proof (Z.div_mod w q ltac:(lia)). pose proof (Z.mod_pos_bound w q Q). pose proof (Z.div_pos w q W Q). nia. Qed.
Lemma rem_bound q w i : 0 < q -> 0 <= w -> 0 <= i < Z.of_nat (Z.to_nat (w mod q)) -> 0 <= q * (w / q) + i < w.
Proof. intros Q W H. pose proof (Z.div_mod w q ltac:(lia)). pose proof (Z.mod_pos_bound w q Q). pose proof (Z.div_pos w q W Q). nia. Qed.

Lemma unpack_avx_ok src ssz w stride h dsz dst : unpack_pre src ssz w stride h dsz ->
  exists m, unpack_avx src ssz w stride h dsz dst = Ok m /\ is_unpacked src w stride h (w * h) dst m.
Proof.
  intros Pr. pose proof Pr as (B & W & H & S & M & Z1 & Z2). unfold unpack_avx. rewrite half_ok by auto.
  apply (unpack_rows _ _ _ _ _ _ _ (cut 16 w)); auto; [apply cut_ok; lia|].
  intros y m Hy. unfold cut. rewrite flat_map_app, apply_writes_app.
  rewrite (for_words_gen _ (fun b => ublock src w stride (w * h) y (fst b) (snd b)) (fun i => (16 * i, 16%nat))).
  - cbn [bind]. apply for_words_gen. intros i m' Hi. pose proof (rem_bound 16 w i ltac:(lia) W Hi). cbn [fst snd].
    replace (y * stride + 32 * (w / 16) + 2 * i) with (y * stride + 2 * (16 * (w / 16) + i)) by lia.
    rewrite <- (Z.add_assoc (y * w)). apply (word_block _ _ _ _ h); auto.
  - intros i m' Hi. pose proof (quot_bound 16 w i ltac:(lia) W Hi). cbn [fst snd].
    rewrite ld_ok by nia. cbn [bind]. rewrite avx_unpack_vec.
    rewrite firstn_app_len, skipn_app_len by (rewrite map_length, seq_length; reflexivity).
    rewrite st_ok by (try rewrite map_length, seq_length; nia). cbn [bind].
    rewrite st_ok by (try rewrite map_length, seq_length; nia).
    unfold ublock. cbn [apply_writes fold_left fst snd]. f_equal. f_equal; [f_equal|];
      apply map_ext_seq; intros k; f_equal; lia.
Qed.

Lemma unpack_neon_ok src ssz w stride h dsz dst : unpack_pre src ssz w stride h dsz ->
  exists m, unpack_neon src ssz w stride h dsz dst = Ok m /\ is_unpacked src w stride h (w * h) dst m.
Proof.
  intros Pr. pose proof Pr as (B & W & H & S & M & Z1 & Z2). unfold unpack_neon. rewrite half_ok by auto.
  apply (unpack_rows _ _ _ _ _ _ _ (cut 8 w)); auto; [apply cut_ok; lia|].
  intros y m Hy. unfold cut. rewrite flat_map_app, apply_writes_app.
  rewrite (for_words_gen _ (fun b => ublock src w stride (w * h) y (fst b) (snd b)) (fun i => (8 * i, 8%nat))).
  - cbn [bind]. apply for_words_gen. intros i m' Hi. pose proof (rem_bound 8 w i ltac:(lia) W Hi). cbn [fst snd].
    replace (y * stride + 16 * (w / 8) + 2 * i) with (y * stride + 2 * (8 * (w / 8) + i)) by lia.
    rewrite <- (Z.add_assoc (y * w)). apply (word_block _ _ _ _ h); auto.
  - intros i m' Hi. pose proof (quot_bound 8 w i ltac:(lia) W Hi). cbn [fst snd].
    rewrite ld_ok by nia. cbn [bind]. rewrite neon_evens, neon_odds.
    rewrite st_ok by (try rewrite map_length, seq_length; nia). cbn [bind].
    rewrite st_ok by (try rewrite map_length, seq_length; nia).
    unfold ublock. cbn [apply_writes fold_left fst snd]. f_equal. f_equal; [f_equal|];
      apply map_ext_seq; intros k; f_equal; lia.
Qed.

Lemma pack_avx_ok ud src ssz w h stride dsz dst : length ud = 16%nat -> pack_pre src ssz w h stride dsz ->
  exists m, pack_avx ud src ssz w h stride dsz dst = Ok m /\ is_packed src w h stride (ssz / 2) dst m.
Proof.
  intros LU Pr. pose proof Pr as (B & W & H & S & M & Z1). unfold pack_avx.
  apply (pack_rows _ _ _ _ _ _ _ (cut 16 w)); auto; [apply cut_ok; lia|].
  intros y m Hy. unfold cut. rewrite flat_map_app, apply_writes_app.
  rewrite (for_words_gen _ (fun b => pblock src w stride (ssz / 2) y (fst b) (snd b)) (fun i => (16 * i, 16%nat))).
  - cbn [bind]. apply for_words_gen. intros i m' Hi. pose proof (rem_bound 16 w i ltac:(lia) W Hi). cbn [fst snd].
    replace (y * stride + 32 * (w / 16) + 2 * i) with (y * stride + 2 * (16 * (w / 16) + i)) by lia.
    rewrite <- (Z.add_assoc (y * w)). apply (word_pblock _ _ _ _ h); auto.
  - intros i m' Hi. pose proof (quot_bound 16 w i ltac:(lia) W Hi). cbn [fst snd].
    rewrite ld_ok by nia. cbn [bind]. rewrite ld_ok by nia. cbn [bind]. rewrite avx_pack_vec by auto.
    rewrite st_ok by (try rewrite flat_pairs_length; nia).
    unfold pblock. cbn [apply_writes fold_left fst snd]. f_equal. f_equal; [lia|].
    apply flat_map_ext_seq. intros k. f_equal; [f_equal; lia|]. f_equal. f_equal. lia.
Qed.

Lemma pack_neon_ok src ssz w h stride dsz dst : pack_pre src ssz w h stride dsz ->
  exists m, pack_neon src ssz w h stride dsz dst = Ok m /\ is_packed src w h stride (ssz / 2) dst m.
Proof.
  intros Pr. pose proof Pr as (B & W & H & S & M & Z1). unfold pack_neon.
  apply (pack_rows _ _ _ _ _ _ _ (cut 8 w)); auto; [apply cut_ok; lia|].
  intros y m Hy. unfold cut. rewrite flat_map_app, apply_writes_app.
  rewrite (for_words_gen _ (fun b => pblock src w stride (ssz / 2) y (fst b) (snd b)) (fun i => (8 * i, 8%nat))).
  - cbn [bind]. apply for_words_gen. intros i m' Hi. pose proof (rem_bound 8 w i ltac:(lia) W Hi). cbn [fst snd].
    replace (y * stride + 16 * (w / 8) + 2 * i) with (y * stride + 2 * (8 * (w / 8) + i)) by lia.
    rewrite <- (Z.add_assoc (y * w)). apply (word_pblock _ _ _ _ h); auto.
  - intros i m' Hi. pose proof (quot_bound 8 w i ltac:(lia) W Hi). cbn [fst snd].
    rewrite ld_ok by nia. cbn [bind]. rewrite ld_ok by nia. cbn [bind]. rewrite neon_inter.
    rewrite st_ok by (try rewrite flat_pairs_length; nia).
    unfold pblock. cbn [apply_writes fold_left fst snd]. f_equal. f_equal; [lia|].
    apply flat_map_ext_seq. intros k. f_equal; [f_equal; lia|]. f_equal. f_equal. lia.
Qed.
