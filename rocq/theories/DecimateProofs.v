From Verif Require Import Base CopyModel MemProofs HiLoModel HiLoProofs BitonalModel BitonalProofs.

(** ** Bits of little-endian numbers *)
Lemma testbit_cons b u n : is_byte b -> 0 <= n ->
  Z.testbit (b + 256 * u) n = if n <? 8 then Z.testbit b n else Z.testbit u (n - 8).
Proof.
  intros Hb Hn. unfold is_byte in Hb. destruct (Z.ltb_spec n 8).
  - rewrite <- (Z.mod_pow2_bits_low (b + 256 * u) 8 n) by lia. f_equal.
    change (2 ^ 8) with 256. lia.
  - replace n with ((n - 8) + 8) at 1 by lia. rewrite <- Z.div_pow2_bits by lia. f_equal.
    change (2 ^ 8) with 256. lia.
Qed.

Lemma testbit_unle bs : Forall is_byte bs -> forall n, 0 <= n ->
  Z.testbit (unle bs) n = Z.testbit (nth (Z.to_nat (n / 8)) bs 0) (n mod 8).
Proof.
  induction 1 as [|b bs Hb H IH]; intros n Hn.
  - cbn [unle]. destruct (Z.to_nat (n / 8)); cbn [nth]; now rewrite !Z.bits_0.
  - cbn [unle]. rewrite testbit_cons by assumption. destruct (Z.ltb_spec n 8).
    + replace (n / 8) with 0 by lia. cbn [Z.to_nat nth]. f_equal. lia.
    + rewrite IH by lia. replace (Z.to_nat (n / 8)) with (S (Z.to_nat ((n - 8) / 8))) by lia.
      cbn [nth]. f_equal. lia.
Qed.

Lemma testbit_le k : forall v i j, (i < k)%nat -> 0 <= j < 8 ->
  Z.testbit (nth i (le k v) 0) j = Z.testbit v (8 * Z.of_nat i + j).
Proof.
  induction k as [|k IH]; intros v i j Hi Hj; [lia|]. cbn [le]. destruct i as [|i]; cbn [nth].
  - change 256 with (2 ^ 8). rewrite Z.mod_pow2_bits_low by lia. f_equal.
  - rewrite IH by lia. change 256 with (2 ^ 8). rewrite Z.div_pow2_bits by lia. f_equal. lia.
Qed.

Lemma unle_bound bs n : Forall is_byte bs -> length bs = n -> 0 <= unle bs < 256 ^ Z.of_nat n.
Proof. intros H <-. now apply unle_range. Qed.

Lemma bswap32_bound v : 0 <= bswap32 v < 4294967296.
Proof.
  unfold bswap32. change 4294967296 with (256 ^ Z.of_nat 4). apply unle_bound.
  - apply Forall_rev. apply le_bytes.
  - now rewrite rev_length, le_length.
Qed.
Lemma bswap32_bits v n : 0 <= n < 32 -> Z.testbit (bswap32 v) n = Z.testbit v (8 * (3 - n / 8) + n mod 8).
Proof.
  intros Hn. unfold bswap32. rewrite testbit_unle by (try apply Forall_rev, le_bytes; lia).
  rewrite rev_nth by (rewrite le_length; lia). rewrite le_length.
  rewrite testbit_le by lia. f_equal. lia.
Qed.
Lemma bswap16_bits v n : 0 <= n < 16 -> Z.testbit (bswap16 v) n = Z.testbit v (8 * (1 - n / 8) + n mod 8).
Proof.
  intros Hn. unfold bswap16. rewrite testbit_unle by (try apply Forall_rev, le_bytes; lia).
  rewrite rev_nth by (rewrite le_length; lia). rewrite le_length.
  rewrite testbit_le by lia. f_equal. lia.
Qed.

Lemma testbit_high v n k : 0 <= v < 2 ^ n -> 0 <= n <= k -> Z.testbit v k = false.
Proof.
  intros Hv Hn. destruct (Z.eq_dec v 0) as [->|]; [apply Z.bits_0|].
  apply Z.bits_above_log2; [lia|]. apply Z.log2_lt_pow2; [lia|].
  apply Z.lt_le_trans with (2 ^ n); [lia|]. apply Z.pow_le_mono_r; lia.
Qed.

(** ** The horizontal filter *)
Lemma bit_filter_spec n : forall v k, Z.of_nat n <= 7 -> 7 <= k < 64 ->
  (Z.testbit (bit_filter n v) k = true <-> forall i, - Z.of_nat n <= i <= Z.of_nat n -> Z.testbit v (k + i) = true).
Proof.
  induction n as [|n IH]; intros v k Hn Hk.
  - cbn [bit_filter]. split.
    + intros H i Hi. replace (k + i) with k by lia. exact H.
    + intros H. specialize (H 0 ltac:(lia)). now rewrite Z.add_0_r in H.
  - cbn [bit_filter]. rewrite !Z.land_spec, !andb_true_iff, IH by lia.
    unfold u64. rewrite Z.mod_pow2_bits_low, Z.shiftl_spec, Z.shiftr_spec by lia. split.
    + intros [[H1 H2] H3] i Hi.
      destruct (Z.eq_dec i (Z.of_nat (S n))) as [->|]; [exact H3|].
      destruct (Z.eq_dec i (- Z.of_nat (S n))) as [->|]; [replace (k + - Z.of_nat (S n)) with (k - Z.of_nat (S n)) by lia; exact H2|].
      apply H1. lia.
    + intros H. split; [split|].
      * intros i Hi. apply H. lia.
      * replace (k - Z.of_nat (S n)) with (k + - Z.of_nat (S n)) by lia. apply H. lia.
      * apply H. lia.
Qed.

Definition table_ok (b : nat) : bool :=
  let v := nth b decimate_table 0 in
  (0 <=? v) && (v <? 16) &&
  forallb (fun j => Bool.eqb (Z.testbit v j) (Z.testbit (Z.of_nat b) (2 * j + 1))) [0; 1; 2; 3].
Lemma table_all : forallb table_ok (seq 0 256) = true.
Proof. vm_compute. reflexivity. Qed.

Lemma table_spec v : 0 <= table v < 16 /\ forall j, 0 <= j < 4 -> Z.testbit (table v) j = Z.testbit v (2 * j + 1).
Proof.
  unfold table. pose proof (u8_byte v) as B. unfold is_byte in B.
  pose proof table_all as T. rewrite forallb_forall in T.
  specialize (T (Z.to_nat (u8 v))). rewrite in_seq in T. specialize (T ltac:(lia)).
  unfold table_ok in T. cbv zeta in T. set (t := nth (Z.to_nat (u8 v)) decimate_table 0) in *. clearbody t.
  apply andb_true_iff in T. destruct T as [T1 T2]. split; [lia|].
  intros j Hj. rewrite forallb_forall in T2. specialize (T2 j).
  assert (I : In j [0; 1; 2; 3]) by (cbn [In]; lia). specialize (T2 I). apply eqb_prop in T2.
  rewrite T2, Z2Nat.id by lia. apply u8_bits. lia.
Qed.

Lemma u16_bits v n : 0 <= n < 16 -> Z.testbit (u16 v) n = Z.testbit v n.
Proof. intros H. unfold u16. apply Z.mod_pow2_bits_low. lia. Qed.
Lemma u16_range v : 0 <= u16 v < 65536.
Proof. unfold u16. change (2 ^ 16) with 65536. lia. Qed.

(** the bit of the combined value which is left (s < 0), inside, or right (s >= 32) of the dword *)
Definition hbit (dw before after s : Z) : bool :=
  if s <? 0 then Z.testbit before (- 1 - s) else if s <? 32 then Z.testbit dw (31 - s) else Z.testbit after (39 - s).

Lemma v0_bits dw before after s : is_byte before -> is_byte after -> 0 <= dw < 4294967296 -> -8 <= s < 40 ->
  Z.testbit (Z.lor (Z.lor after (u64 (Z.shiftl dw 8))) (u64 (Z.shiftl before 40))) (39 - s) = hbit dw before after s.
Proof.
  intros Hb Ha Hd Hs. rewrite !Z.lor_spec. unfold u64. rewrite !Z.mod_pow2_bits_low, !Z.shiftl_spec by lia.
  unfold hbit. destruct (Z.ltb_spec s 0).
  - rewrite (testbit_small after) by (try assumption; lia).
    rewrite (testbit_high dw 32) by (change (2 ^ 32) with 4294967296; lia).
    replace (39 - s - 40) with (-1 - s) by lia. reflexivity.
  - destruct (Z.ltb_spec s 32).
    + rewrite (testbit_small after) by (try assumption; lia).
      rewrite (Z.testbit_neg_r before) by lia. replace (39 - s - 8) with (31 - s) by lia. apply orb_false_r.
    + rewrite (Z.testbit_neg_r dw), (Z.testbit_neg_r before) by lia. now rewrite !orb_false_r.
Qed.

Lemma fd_range r dw before after : 0 <= filter_dword r dw before after < 65536.
Proof.
  unfold filter_dword. cbv zeta. set (v := bit_filter _ _). clearbody v.
  pose proof (u16_range (Z.shiftl (table (Z.shiftr v 16)) 4)) as R1.
  pose proof (u16_range (Z.shiftl (table (Z.shiftr v 24)) 8)) as R2.
  pose proof (u16_range (Z.shiftl (table (Z.shiftr v 32)) 12)) as R3.
  pose proof (proj1 (table_spec (Z.shiftr v 8))) as R0.
  set (a := table _) in *. set (b := u16 _) in *. set (c := u16 (Z.shiftl (table (Z.shiftr v 24)) 8)) in *.
  set (d := u16 (Z.shiftl (table (Z.shiftr v 32)) 12)) in *. clearbody a b c d.
  assert (L : forall x y, 0 <= x < 65536 -> 0 <= y < 65536 -> 0 <= Z.lor x y < 65536).
  { intros x y Hx Hy. split; [apply Z.lor_nonneg; lia|].
    assert (E : Z.lor x y = Z.lor x y mod 2 ^ 16).
    { apply Z.bits_inj'. intros n Hn. destruct (Z.ltb_spec n 16).
      - now rewrite Z.mod_pow2_bits_low by lia.
      - rewrite Z.mod_pow2_bits_high, Z.lor_spec by lia.
        rewrite !(testbit_high _ 16) by (change (2 ^ 16) with 65536; lia). reflexivity. }
    rewrite E. change (2 ^ 16) with 65536. lia. }
  apply L; [|lia]. apply L; [|lia]. apply L; lia.
Qed.

Lemma fd_bits_v r dw before after d : 0 <= d < 16 ->
  Z.testbit (filter_dword r dw before after) d =
  Z.testbit (bit_filter (Z.to_nat r) (Z.lor (Z.lor after (u64 (Z.shiftl dw 8))) (u64 (Z.shiftl before 40)))) (9 + 2 * d).
Proof.
  intros Hd. unfold filter_dword. cbv zeta. set (v := bit_filter _ _). clearbody v.
  rewrite !Z.lor_spec. rewrite !u16_bits, !Z.shiftl_spec by lia.
  destruct (table_spec (Z.shiftr v 8)) as [Q0 T0]. destruct (table_spec (Z.shiftr v 16)) as [Q1 T1].
  destruct (table_spec (Z.shiftr v 24)) as [Q2 T2]. destruct (table_spec (Z.shiftr v 32)) as [Q3 T3].
  set (t0 := table (Z.shiftr v 8)) in *. set (t1 := table (Z.shiftr v 16)) in *.
  set (t2 := table (Z.shiftr v 24)) in *. set (t3 := table (Z.shiftr v 32)) in *. clearbody t0 t1 t2 t3.
  assert (HI : forall t k, 0 <= t < 16 -> 4 <= k -> Z.testbit t k = false)
    by (intros t k Ht Hk; apply (testbit_high t 4); [change (2 ^ 4) with 16; lia|lia]).
  destruct (Z.ltb_spec d 4); [|destruct (Z.ltb_spec d 8); [|destruct (Z.ltb_spec d 12)]].
  - rewrite T0, Z.shiftr_spec by lia. rewrite (Z.testbit_neg_r t1), (Z.testbit_neg_r t2), (Z.testbit_neg_r t3) by lia. rewrite !orb_false_r. f_equal. lia.
  - rewrite HI, T1, Z.shiftr_spec by lia. rewrite !(Z.testbit_neg_r _ (d - 8)), !(Z.testbit_neg_r _ (d - 12)) by lia.
    rewrite !orb_false_r. cbn [orb]. f_equal. lia.
  - rewrite !HI, T2, Z.shiftr_spec by lia. rewrite !(Z.testbit_neg_r _ (d - 12)) by lia.
    rewrite !orb_false_r. cbn [orb]. f_equal. lia.
  - rewrite !HI, T3, Z.shiftr_spec by lia. cbn [orb]. f_equal. lia.
Qed.

Lemma fd_spec r dw before after p : 0 <= r <= 7 -> is_byte before -> is_byte after -> 0 <= dw < 4294967296 ->
  0 <= p < 16 ->
  (Z.testbit (filter_dword r dw before after) (15 - p) = true <->
   forall i, - r <= i <= r -> hbit dw before after (2 * p + i) = true).
Proof.
  intros Hr Hb Ha Hd Hp. rewrite fd_bits_v by lia. rewrite bit_filter_spec by lia. rewrite Z2Nat.id by lia. split.
  - intros H i Hi. rewrite <- v0_bits by (try assumption; lia). replace (39 - (2 * p + i)) with (9 + 2 * (15 - p) + - i) by lia.
    apply H. lia.
  - intros H i Hi. replace (9 + 2 * (15 - p) + i) with (39 - (2 * p + - i)) by lia.
    rewrite v0_bits by (try assumption; lia). apply H. lia.
Qed.

(** ** One line *)
Definition before_of (D : Z -> Z) (x : Z) : Z := if x <=? 0 then 255 else u8 (D (x - 1)).

Lemma before_byte D x : is_byte (before_of D x).
Proof. unfold before_of. destruct (x <=? 0); [unfold is_byte; lia|apply u8_byte]. Qed.

Definition line_value (r w : Z) (A G : Z -> Z) (PD : Z) (x : Z) : Z :=
  if x <? w / 32 then filter_dword r (bswap32 (G x)) (before_of (fun x => bswap32 (G x)) x) (A x)
  else filter_dword r (bswap32 PD) (before_of (fun x => bswap32 (G x)) x) 255.

Lemma le2_bits d i j : 0 <= d < 65536 -> (i < 2)%nat -> 0 <= j < 8 ->
  Z.testbit (nth i (le 2 (bswap16 d)) 0) j = Z.testbit d (8 * (1 - Z.of_nat i) + j).
Proof.
  intros Hd Hi Hj. rewrite testbit_le by lia. rewrite bswap16_bits by lia. f_equal. lia.
Qed.

Lemma mwrite_byte_mem m off d : Forall is_byte d -> byte_mem m -> byte_mem (mwrite m off d).
Proof.
  intros Hd Hm a. unfold mwrite. match goal with |- is_byte (if ?c then _ else _) => destruct c eqn:E end; [|apply Hm].
  rewrite Forall_forall in Hd. apply Hd. apply nth_In. lia.
Qed.

Lemma line_ok r y h src sz off w pitch dsz doff dst A G PD :
  0 <= r <= 7 -> 0 < w -> w mod 16 <> 1 -> 0 <= doff -> doff + (w / 2 + 7) / 8 <= dsz -> byte_mem dst ->
  (forall x, 0 <= x < w / 32 -> get_byte_after src sz off (x * 4 + 4) w = Ok (A x)) ->
  (forall x, 0 <= x < w / 32 -> get_dword r y h src sz (off + x * 4) pitch = Ok (G x)) ->
  (w mod 32 <> 0 -> get_dword_partial r y h src sz (off + w / 32 * 4) (w mod 32) pitch = Ok PD) ->
  exists m', decimate_line r y h src sz off w pitch dsz doff dst = Ok m' /\ byte_mem m' /\
    (forall a, a < doff \/ doff + (w / 2 + 7) / 8 <= a -> m' a = dst a) /\
    (forall p, 0 <= p < w / 2 -> Z.testbit (m' (doff + p / 8)) (7 - p mod 8) =
       Z.testbit (line_value r w A G PD (p / 16)) (15 - p mod 16)).
Proof.
  intros Hr Hw H16 Hdo Hds Hdst HA HG HP. unfold decimate_line. cbv zeta.
  set (D := fun x => bswap32 (G x)).
  match goal with |- exists m, bind (for_loop _ _ ?f _) _ = _ /\ _ => set (step := f) end.
  destruct (for_loop_inv (fun k (s : Z * mem) => fst s = before_of D k /\ byte_mem (snd s) /\
      (forall a, a < doff \/ doff + (w / 2 + 7) / 8 <= a -> snd s a = dst a) /\
      (forall p, 0 <= p < 16 * k -> Z.testbit (snd s (doff + p / 8)) (7 - p mod 8) =
         Z.testbit (line_value r w A G PD (p / 16)) (15 - p mod 16))) step (Z.to_nat (w / 32)) 0 (255, dst))
    as ((bb & m1) & E1 & Pb & Pm & Pf & Pp).
  - cbn [fst snd]. split; [reflexivity|]. split; [exact Hdst|]. split; [reflexivity|]. intros p Hp. lia.
  - intros k (bb & m) Hk (Pb & Pm & Pf & Pp). cbn [fst snd] in *. subst step. cbn beta iota.
    rewrite HA by lia. cbn [bind]. rewrite HG by lia. cbn [bind]. cbv zeta.
    set (d := filter_dword r (bswap32 (G k)) bb (A k)).
    pose proof (fd_range r (bswap32 (G k)) bb (A k)) as Rd. fold d in Rd.
    rewrite st_ok by (rewrite ?le_length; lia). cbn [bind].
    eexists. split; [reflexivity|]. cbn [fst snd].
    split; [unfold before_of; destruct (Z.leb_spec (k + 1) 0); [lia|]; replace (k + 1 - 1) with k by lia; reflexivity|].
    split; [apply mwrite_byte_mem; [apply le_bytes|exact Pm]|].
    split.
    + intros a Ha. rewrite mwrite_out; [now apply Pf|]. rewrite le_length. lia.
    + intros p Hp. destruct (Z.ltb_spec p (16 * k)) as [L|L].
      * rewrite mwrite_out; [apply Pp; lia|]. rewrite le_length. lia.
      * rewrite mwrite_in by (rewrite le_length; lia). rewrite le2_bits by lia.
        unfold line_value. replace (p / 16) with k by lia.
        replace (k <? w / 32) with true by lia. fold D. rewrite <- Pb. fold d. f_equal. lia.
  - rewrite E1. cbn [bind fst snd] in *. rewrite Z.add_0_l, Z2Nat.id in * by lia.
    replace (w - w / 32 * 32) with (w mod 32) by lia.
    destruct (Z.ltb_spec 0 (w mod 32)) as [L|L].
    + rewrite HP by lia. cbn [bind]. cbv zeta.
      set (d := filter_dword r (bswap32 PD) bb 255).
      pose proof (fd_range r (bswap32 PD) bb 255) as Rd. fold d in Rd.
      assert (LV : forall p, 16 * (w / 32) <= p < w / 2 -> line_value r w A G PD (p / 16) = d).
      { intros p Hp. unfold line_value. replace (p / 16) with (w / 32) by lia.
        rewrite Z.ltb_irrefl. fold D. rewrite <- Pb. reflexivity. }
      destruct (Z.leb_spec (w mod 32) 16) as [L2|L2].
      * rewrite st_ok by (cbn [length]; lia). eexists. split; [reflexivity|].
        assert (B8 : is_byte (Z.shiftr d 8)) by (rewrite Z.shiftr_div_pow2 by lia; unfold is_byte; change (2 ^ 8) with 256; lia).
        split; [apply mwrite_byte_mem; [constructor; [exact B8|constructor]|exact Pm]|]. split.
        -- intros a Ha. rewrite mwrite_out; [now apply Pf|]. cbn [length]. lia.
        -- intros p Hp. destruct (Z.ltb_spec p (16 * (w / 32))) as [L3|L3].
           ++ rewrite mwrite_out; [apply Pp; lia|]. cbn [length]. lia.
           ++ rewrite mwrite_in by (cbn [length]; lia).
              replace (Z.to_nat (doff + p / 8 - (doff + 2 * (w / 32)))) with 0%nat by lia. cbn [nth].
              rewrite LV by lia. rewrite Z.shiftr_spec by lia. f_equal. lia.
      * rewrite st_ok by (rewrite ?le_length; lia). eexists. split; [reflexivity|].
        split; [apply mwrite_byte_mem; [apply le_bytes|exact Pm]|]. split.
        -- intros a Ha. rewrite mwrite_out; [now apply Pf|]. rewrite le_length. lia.
        -- intros p Hp. destruct (Z.ltb_spec p (16 * (w / 32))) as [L3|L3].
           ++ rewrite mwrite_out; [apply Pp; lia|]. rewrite le_length. lia.
           ++ rewrite mwrite_in by (rewrite le_length; lia). rewrite le2_bits by lia.
              rewrite LV by lia. f_equal. lia.
    + exists m1. split; [reflexivity|]. split; [exact Pm|]. split; [exact Pf|].
      intros p Hp. apply Pp. lia.
Qed.

(** ** The vertical part *)
Lemma ld32_ok m sz off : 0 <= off -> off + 4 <= sz -> ld32 m sz off = Ok (unle (mread m off 4)).
Proof. intros H1 H2. unfold ld32. rewrite ld_ok by (change (Z.of_nat 4) with 4; lia). reflexivity. Qed.

Lemma mread_bytes m off n : byte_mem m -> Forall is_byte (mread m off n).
Proof. intros H. revert off. induction n as [|n IH]; intros off; cbn [mread]; constructor; [apply H|apply IH]. Qed.

(** bit [n] (least significant first) of the dword at [a], by column [s] (most significant bit of the first byte first) *)
Definition ppos (s : Z) : Z := 8 * (s / 8) + (7 - s mod 8).

Lemma bswap_pos v s : 0 <= s < 32 -> Z.testbit (bswap32 v) (31 - s) = Z.testbit v (ppos s).
Proof. intros H. rewrite bswap32_bits by lia. unfold ppos. f_equal. lia. Qed.

Lemma dword_bits m a s : byte_mem m -> 0 <= s < 32 ->
  Z.testbit (unle (mread m a 4)) (ppos s) = Z.testbit (m (a + s / 8)) (7 - s mod 8).
Proof.
  intros Hm Hs. unfold ppos. rewrite testbit_unle by (try apply mread_bytes; try assumption; lia).
  replace ((8 * (s / 8) + (7 - s mod 8)) / 8) with (s / 8) by lia.
  replace ((8 * (s / 8) + (7 - s mod 8)) mod 8) with (7 - s mod 8) by lia.
  rewrite mread_nth by lia. do 2 f_equal. lia.
Qed.

Lemma ppos_range s : 0 <= s < 32 -> 0 <= ppos s < 32.
Proof. unfold ppos. lia. Qed.

Lemma shr255 b k : 0 <= b -> 0 <= k < 8 -> Z.testbit (Z.shiftr 255 b) k = (k + b <? 8).
Proof.
  intros Hb Hk. rewrite Z.shiftr_spec by lia. destruct (Z.ltb_spec (k + b) 8).
  - apply bits_255. lia.
  - apply testbit_small; [unfold is_byte; lia|lia].
Qed.
Lemma shr255_byte b : 0 <= b -> is_byte (Z.shiftr 255 b).
Proof.
  intros Hb. apply bits_byte; [apply Z.shiftr_nonneg; lia|]. intros n Hn. rewrite Z.shiftr_spec by lia.
  apply testbit_small; [unfold is_byte; lia|lia].
Qed.

Definition row_bits (m : mem) (p bits v : Z) : Prop :=
  forall s, 0 <= s < 32 -> Z.testbit v (ppos s) = if s <? bits then Z.testbit (m (p + s / 8)) (7 - s mod 8) else true.

(** splitting the column into byte and bit *)
Lemma by_byte (P : Z -> Prop) : (forall i j, 0 <= i < 4 -> 0 <= j < 8 -> P (8 * i + j)) -> forall s, 0 <= s < 32 -> P s.
Proof. intros H s Hs. replace s with (8 * (s / 8) + s mod 8) by lia. apply H; lia. Qed.

Lemma read_partial_ok m sz p bits : byte_mem m -> 0 < bits < 32 -> 0 <= p -> p + (bits + 7) / 8 <= sz ->
  exists v, read_partial m sz p bits = Ok v /\ row_bits m p bits v.
Proof.
  intros Hm Hb Hp Hz. unfold read_partial.
  assert (HS : forall v k i, is_byte v -> 0 <= k -> 0 <= i -> Z.testbit (Z.shiftl v k) i = if (i <? k) || (k + 8 <=? i) then false else Z.testbit v (i - k)).
  { intros v k i Hv Hk Hi. rewrite Z.shiftl_spec by lia. destruct (Z.ltb_spec i k); [now rewrite Z.testbit_neg_r by lia|].
    destruct (Z.leb_spec (k + 8) i); [|reflexivity]. rewrite testbit_small by (try assumption; lia). reflexivity. }
  assert (HB : forall a b, is_byte a -> is_byte b -> is_byte (Z.lor a b)).
  { intros a b Ha Hbb. unfold is_byte in Ha, Hbb. apply bits_byte; [apply Z.lor_nonneg; lia|]. intros n Hn. rewrite Z.lor_spec, !testbit_small; try lia; assumption. }
  destruct (Z.leb_spec bits 8); [|destruct (Z.leb_spec bits 16); [|destruct (Z.leb_spec bits 24)]].
  - rewrite ld8_ok by lia. cbn [bind]. eexists. split; [reflexivity|]. unfold row_bits. apply by_byte. intros i j Hi Hj.
    replace ((8 * i + j) / 8) with i by lia. replace ((8 * i + j) mod 8) with j by lia. unfold ppos.
    replace ((8 * i + j) / 8) with i by lia. replace ((8 * i + j) mod 8) with j by lia.
    change 4294967040 with (Z.shiftl (Z.ones 24) 8).
    rewrite !Z.lor_spec, Z.shiftl_spec by lia.
    assert (C : i = 0 \/ 1 <= i) by lia. destruct C as [->|C].
    + rewrite Z.testbit_neg_r by lia. cbn [orb]. rewrite Z.add_0_r, Z.mul_0_r, !Z.add_0_l. rewrite shr255 by lia.
      destruct (Z.ltb_spec (7 - j + bits) 8), (Z.ltb_spec j bits); try lia; first [apply orb_true_r | apply orb_false_r].
    + rewrite Z.ones_spec_low by lia. replace (8 * i + j <? bits) with false by lia. reflexivity.
  - rewrite ld8_ok by lia. cbn [bind]. rewrite ld8_ok by lia. cbn [bind]. eexists. split; [reflexivity|].
    unfold row_bits. apply by_byte. intros i j Hi Hj. unfold ppos.
    replace ((8 * i + j) / 8) with i by lia. replace ((8 * i + j) mod 8) with j by lia.
    change 4294901760 with (Z.shiftl (Z.ones 16) 16).
    rewrite !Z.lor_spec. rewrite (HS (Z.lor (m (p + 1)) (Z.shiftr 255 (bits - 8)))) by (try (apply HB; [apply Hm|apply shr255_byte; lia]); lia).
    rewrite Z.shiftl_spec, Z.lor_spec by lia.
    assert (C : i = 0 \/ i = 1 \/ 2 <= i) by lia. destruct C as [->|[->|C]].
    + rewrite Z.testbit_neg_r by lia. replace ((8 * 0 + (7 - j) <? 8) || (8 + 8 <=? 8 * 0 + (7 - j))) with true by lia.
      cbn [orb]. replace (8 * 0 + j <? bits) with true by lia. now rewrite Z.add_0_r, Z.mul_0_r, !Z.add_0_l.
    + rewrite Z.testbit_neg_r by lia. replace ((8 * 1 + (7 - j) <? 8) || (8 + 8 <=? 8 * 1 + (7 - j))) with false by lia.
      rewrite (testbit_small (m p)) by (try apply Hm; lia). cbn [orb]. rewrite orb_false_r.
      replace (8 * 1 + (7 - j) - 8) with (7 - j) by lia. rewrite shr255 by lia.
      destruct (Z.ltb_spec (7 - j + (bits - 8)) 8), (Z.ltb_spec (8 * 1 + j) bits); try lia; first [apply orb_true_r | apply orb_false_r].
    + rewrite Z.ones_spec_low by lia. replace (8 * i + j <? bits) with false by lia. reflexivity.
  - rewrite ld8_ok by lia. cbn [bind]. rewrite ld8_ok by lia. cbn [bind]. rewrite ld8_ok by lia. cbn [bind].
    eexists. split; [reflexivity|].
    unfold row_bits. apply by_byte. intros i j Hi Hj. unfold ppos.
    replace ((8 * i + j) / 8) with i by lia. replace ((8 * i + j) mod 8) with j by lia.
    change 4278190080 with (Z.shiftl (Z.ones 8) 24).
    rewrite !Z.lor_spec.
    rewrite (HS (m (p + 1))) by (try apply Hm; lia).
    rewrite (HS (Z.lor (m (p + 2)) (Z.shiftr 255 (bits - 16)))) by (try (apply HB; [apply Hm|apply shr255_byte; lia]); lia).
    rewrite Z.shiftl_spec, Z.lor_spec by lia.
    assert (C : i = 0 \/ i = 1 \/ i = 2 \/ 3 <= i) by lia. destruct C as [->|[->|[->|C]]].
    + rewrite Z.testbit_neg_r by lia. replace ((8 * 0 + (7 - j) <? 16) || (16 + 8 <=? 8 * 0 + (7 - j))) with true by lia.
      replace ((8 * 0 + (7 - j) <? 8) || (8 + 8 <=? 8 * 0 + (7 - j))) with true by lia.
      cbn [orb]. replace (8 * 0 + j <? bits) with true by lia. now rewrite Z.add_0_r, Z.mul_0_r, !Z.add_0_l.
    + rewrite Z.testbit_neg_r by lia. replace ((8 * 1 + (7 - j) <? 16) || (16 + 8 <=? 8 * 1 + (7 - j))) with true by lia.
      replace ((8 * 1 + (7 - j) <? 8) || (8 + 8 <=? 8 * 1 + (7 - j))) with false by lia.
      rewrite (testbit_small (m p)) by (try apply Hm; lia). cbn [orb]. rewrite orb_false_r.
      replace (8 * 1 + j <? bits) with true by lia. f_equal. lia.
    + rewrite Z.testbit_neg_r by lia. replace ((8 * 2 + (7 - j) <? 16) || (16 + 8 <=? 8 * 2 + (7 - j))) with false by lia.
      replace ((8 * 2 + (7 - j) <? 8) || (8 + 8 <=? 8 * 2 + (7 - j))) with true by lia.
      rewrite (testbit_small (m p)) by (try apply Hm; lia). cbn [orb]. rewrite !orb_false_r.
      replace (8 * 2 + (7 - j) - 16) with (7 - j) by lia. rewrite shr255 by lia.
      destruct (Z.ltb_spec (7 - j + (bits - 16)) 8), (Z.ltb_spec (8 * 2 + j) bits); try lia; first [apply orb_true_r | apply orb_false_r].
    + rewrite Z.ones_spec_low by lia. replace (8 * i + j <? bits) with false by lia. reflexivity.
  - rewrite ld32_ok by lia. cbn [bind]. eexists. split; [reflexivity|]. unfold row_bits. intros s Hs.
    rewrite Z.lor_spec, dword_bits by assumption.
    rewrite HS by (try apply shr255_byte; unfold ppos; lia). unfold ppos.
    destruct (Z.ltb_spec s 24).
    + replace ((8 * (s / 8) + (7 - s mod 8) <? 24) || (24 + 8 <=? 8 * (s / 8) + (7 - s mod 8))) with true by lia.
      replace (s <? bits) with true by lia. apply orb_false_r.
    + replace ((8 * (s / 8) + (7 - s mod 8) <? 24) || (24 + 8 <=? 8 * (s / 8) + (7 - s mod 8))) with false by lia.
      rewrite shr255 by lia. replace (s / 8) with 3 by lia.
      destruct (Z.ltb_spec (8 * 3 + (7 - s mod 8) - 24 + (bits - 24)) 8), (Z.ltb_spec s bits); try lia; first [apply orb_true_r | apply orb_false_r].
Qed.

(** all pixels of column [s] in the rows of the neighbourhood of row [y] *)
Definition column (b : mask) (r y s : Z) : Prop :=
  forall j, Z.max (y - r) 0 <= j <= Z.min (y + r) (mh b - 1) -> mask_bit b s j = true.

Definition col_bits (b : mask) (r y x bits v : Z) : Prop :=
  forall s, 0 <= s < 32 -> (Z.testbit v (ppos s) = true <-> (s < bits -> column b r y (32 * x + s))).

Lemma mask_bit_at b j x s : 0 <= s < 32 ->
  mask_bit b (32 * x + s) j = Z.testbit (mdata b (j * mstride b + 4 * x + s / 8)) (7 - s mod 8).
Proof. intros Hs. unfold mask_bit. f_equal; [f_equal|]; lia. Qed.

Lemma partial_ok b r y : bm_wf b -> 0 <= r -> 0 <= y < mh b -> mw b mod 32 <> 0 ->
  exists v, get_dword_partial r y (mh b) (mdata b) (msize b) (mstride b * y + mw b / 32 * 4) (mw b mod 32) (mstride b) = Ok v /\
    col_bits b r y (mw b / 32) (mw b mod 32) v.
Proof.
  intros (Hw & Hh & Hs & Hz & Hb) Hr Hy Hm. unfold get_dword_partial. cbv zeta.
  set (start := Z.max (y - r) 0). set (end_ := Z.min (y + r) (mh b - 1)).
  assert (S1 : 0 <= start <= end_) by (subst start end_; lia). assert (S2 : end_ < mh b) by (subst end_; lia).
  match goal with |- exists v, for_loop _ _ ?f _ = _ /\ _ => set (step := f) end.
  destruct (for_loop_inv (fun k v => forall s, 0 <= s < 32 -> (Z.testbit v (ppos s) = true <->
      (s < mw b mod 32 -> forall j, start <= j < k -> mask_bit b (32 * (mw b / 32) + s) j = true)))
      step (Z.to_nat (end_ - start + 1)) start 4294967295) as (v & E & P).
  - intros s Hs32. change 4294967295 with (Z.ones 32). rewrite Z.ones_spec_low by (apply ppos_range; exact Hs32).
    split; [intros _ _ j Hj; lia|reflexivity].
  - intros k v Hk Pk. subst step. cbn beta.
    replace (mstride b * y + mw b / 32 * 4 - (y - start) * mstride b + (k - start) * mstride b)
      with (k * mstride b + 4 * (mw b / 32)) by lia.
    assert (0 <= k * mstride b <= mstride b * (mh b - 1)) by nia.
    destruct (read_partial_ok (mdata b) (msize b) (k * mstride b + 4 * (mw b / 32)) (mw b mod 32)) as (u & Eu & Hu);
      [exact Hb|lia|lia|lia|].
    rewrite Eu. cbn [bind]. eexists. split; [reflexivity|]. intros s Hs32.
    rewrite Z.land_spec, andb_true_iff, (Pk s Hs32), (Hu s Hs32). clear Pk Hu.
    destruct (Z.ltb_spec s (mw b mod 32)) as [L|L].
    + rewrite <- mask_bit_at by exact Hs32. split.
      * intros [H1 H2] _ j Hj. destruct (Z.eq_dec j k) as [->|]; [exact H2|]. apply H1; [exact L|lia].
      * intros H0. split; [intros _ j Hj; apply H0; [exact L|lia]|]. apply H0; [exact L|lia].
    + split; [intros _ ?; lia|]. intros _. split; [intros ?; lia|reflexivity].
  - exists v. split; [exact E|]. rewrite Z2Nat.id in P by lia. intros s Hs32. rewrite (P s Hs32). unfold column.
    fold start end_. split; intros H0 L j Hj; apply (H0 L); lia.
Qed.

Lemma dword_in b j x : bm_wf b -> 0 <= j < mh b -> 0 <= x < mw b / 32 ->
  0 <= j * mstride b + 4 * x /\ j * mstride b + 4 * x + 4 <= msize b.
Proof.
  intros (Hw & Hh & Hs & Hz & Hb) Hj Hx. assert (0 <= j * mstride b <= mstride b * (mh b - 1)) by nia. lia.
Qed.

Lemma get_dword_01 b r y x : bm_wf b -> 0 <= r <= 1 -> 0 <= y < mh b -> 0 <= x < mw b / 32 ->
  exists v, get_dword r y (mh b) (mdata b) (msize b) (mstride b * y + x * 4) (mstride b) = Ok v /\
    col_bits b r y x 32 v.
Proof.
  intros H Hr Hy Hx. pose proof H as (Hw & Hh & Hs & Hz & Hb).
  pose proof (dword_in b y x H Hy Hx) as I0.
  replace (mstride b * y + x * 4) with (y * mstride b + 4 * x) by lia. unfold get_dword.
  assert (C : r = 0 \/ r = 1) by lia. destruct C as [->| ->].
  - cbn [Z.eqb]. rewrite ld32_ok by lia. eexists. split; [reflexivity|]. intros s Hs32.
    rewrite dword_bits, <- mask_bit_at by assumption. unfold column. split.
    + intros T _ j Hj. replace j with y by lia. exact T.
    + intros T. apply T; lia.
  - cbn [Z.eqb Pos.eqb]. rewrite ld32_ok by lia. cbn [bind].
    destruct (Z.ltb_spec 0 y) as [L|L].
    + pose proof (dword_in b (y - 1) x H ltac:(lia) Hx) as I1.
      replace (y * mstride b + 4 * x - mstride b) with ((y - 1) * mstride b + 4 * x) by lia.
      rewrite ld32_ok by lia. cbn [bind].
      destruct (Z.ltb_spec y (mh b - 1)) as [L2|L2].
      * pose proof (dword_in b (y + 1) x H ltac:(lia) Hx) as I2.
        replace (y * mstride b + 4 * x + mstride b) with ((y + 1) * mstride b + 4 * x) by lia.
        rewrite ld32_ok by lia. cbn [bind]. eexists. split; [reflexivity|]. intros s Hs32.
        rewrite !Z.land_spec, !andb_true_iff, !dword_bits, <- !mask_bit_at by assumption. unfold column. split.
        -- intros [[T1 T2] T3] _ j Hj. assert (C : j = y - 1 \/ j = y \/ j = y + 1) by lia. destruct C as [->|[->| ->]]; assumption.
        -- intros T. split; [split|]; apply T; lia.
      * eexists. split; [reflexivity|]. intros s Hs32.
        rewrite !Z.land_spec, !andb_true_iff, !dword_bits, <- !mask_bit_at by assumption. unfold column. split.
        -- intros [T1 T2] _ j Hj. assert (C : j = y - 1 \/ j = y) by lia. destruct C as [->| ->]; assumption.
        -- intros T. split; apply T; lia.
    + cbn [bind]. destruct (Z.ltb_spec y (mh b - 1)) as [L2|L2].
      * pose proof (dword_in b (y + 1) x H ltac:(lia) Hx) as I2.
        replace (y * mstride b + 4 * x + mstride b) with ((y + 1) * mstride b + 4 * x) by lia.
        rewrite ld32_ok by lia. cbn [bind]. eexists. split; [reflexivity|]. intros s Hs32.
        rewrite !Z.land_spec, !andb_true_iff, !dword_bits, <- !mask_bit_at by assumption. unfold column. split.
        -- intros [T1 T2] _ j Hj. assert (C : j = y \/ j = y + 1) by lia. destruct C as [->| ->]; assumption.
        -- intros T. split; apply T; lia.
      * eexists. split; [reflexivity|]. intros s Hs32.
        rewrite dword_bits, <- mask_bit_at by assumption. unfold column. split.
        -- intros T _ j Hj. replace j with y by lia. exact T.
        -- intros T. apply T; lia.
Qed.

Lemma get_dword_any b r y x : bm_wf b -> 0 <= r <= 7 -> 0 <= y -> y + 1 < mh b -> 0 <= x < mw b / 32 ->
  exists v, get_dword r y (mh b) (mdata b) (msize b) (mstride b * y + x * 4) (mstride b) = Ok v.
Proof.
  intros H Hr Hy Hy2 Hx. destruct (Z.leb_spec r 1) as [L|L].
  - destruct (get_dword_01 b r y x) as (v & E & _); try assumption; try lia. eauto.
  - pose proof H as (Hw & Hh & Hs & Hz & Hb). unfold get_dword.
    replace (r =? 0) with false by lia. replace (r =? 1) with false by lia. cbv zeta.
    set (start := Z.max (y - r) 0). set (end_ := Z.min (y + r) (mh b - 1)).
    assert (S1 : 0 <= start <= y) by (subst start; lia).
    match goal with |- exists v, for_loop _ _ ?f _ = _ => set (step := f) end.
    destruct (for_loop_inv (fun _ (_ : Z) => True) step (Z.to_nat (end_ - start + 1)) start 4294967295) as (v & E & _).
    + exact Logic.I.
    + intros k v Hk _. subst step. cbn beta.
      pose proof (dword_in b start x H ltac:(lia) Hx) as I1. pose proof (dword_in b (y + 1) x H ltac:(lia) Hx) as I2.
      rewrite ld32_ok; [cbn [bind]; eauto| |]; destruct (k =? start); lia.
    + eauto.
Qed.

Lemma byte_after_any b y x : bm_wf b -> 0 <= y -> y + 1 < mh b -> 0 <= x < mw b / 32 ->
  exists v, get_byte_after (mdata b) (msize b) (mstride b * y) (x * 4 + 4) (mw b) = Ok v /\ is_byte v.
Proof.
  intros (Hw & Hh & Hs & Hz & Hb) Hy Hy2 Hx. unfold get_byte_after.
  destruct (x * 4 + 4 <? mw b); [|exists 255; split; [reflexivity|unfold is_byte; lia]].
  assert (mstride b * (y + 1) <= mstride b * (mh b - 1)) by nia. assert (0 <= mstride b * y) by nia.
  rewrite ld8_ok by lia. eexists. split; [reflexivity|apply Hb].
Qed.

(** ** The whole bitmap *)
Definition dec_stride (b : mask) : Z := (mw b / 2 + 7) / 8.

Definition dec_rows_ok (b : mask) (r : Z) (V : Z -> Z -> bool) : Prop :=
  forall y, 0 <= y < mh b / 2 -> forall dst, byte_mem dst ->
  exists m, decimate_line r (y * 2) (mh b) (mdata b) (msize b) (mstride b * y * 2) (mw b) (mstride b)
              (mh b / 2 * dec_stride b) (dec_stride b * y) dst = Ok m /\ byte_mem m /\
    (forall a, a < dec_stride b * y \/ dec_stride b * (y + 1) <= a -> m a = dst a) /\
    (forall p, 0 <= p < mw b / 2 -> Z.testbit (m (dec_stride b * y + p / 8)) (7 - p mod 8) = V p y).

Lemma decimate_rows b r junk V : bm_wf b -> 0 <= r <= 7 -> byte_mem junk -> dec_rows_ok b r V ->
  exists d, decimate r b junk = Ok d /\ mw d = mw b / 2 /\ mh d = mh b / 2 /\
    mstride d = dec_stride b /\ msize d = mh b / 2 * dec_stride b /\ byte_mem (mdata d) /\
    forall x y, 0 <= x < mw d -> 0 <= y < mh d -> mask_bit d x y = V x y.
Proof.
  intros H Hr Hj HR. unfold decimate. rewrite check_lock_ok by exact H. cbn [bind]. cbv zeta.
  replace (negb ((0 <=? r) && (r <=? 7))) with false by lia. fold (dec_stride b).
  match goal with |- exists d, bind (for_loop _ _ ?f _) _ = _ /\ _ => set (step := f) end.
  pose proof H as (Hw & Hh & _).
  destruct (for_loop_inv (fun k m => byte_mem m /\ forall x y, 0 <= x < mw b / 2 -> 0 <= y < k ->
      Z.testbit (m (dec_stride b * y + x / 8)) (7 - x mod 8) = V x y) step (Z.to_nat (mh b / 2)) 0 junk)
    as (m & E & Bm & Pm).
  - split; [exact Hj|]. intros; lia.
  - intros k m Hk (Bm & Pm). destruct (HR k ltac:(lia) m Bm) as (m' & E & Bm' & F & P).
    exists m'. split; [exact E|]. split; [exact Bm'|]. intros x y Hx Hy.
    destruct (Z.eq_dec y k) as [->|Hne]; [now apply P|].
    rewrite F; [apply Pm; [exact Hx|lia]|]. left. unfold dec_stride in *.
    assert ((mw b / 2 + 7) / 8 * (y + 1) <= (mw b / 2 + 7) / 8 * k) by (apply Z.mul_le_mono_nonneg_l; lia). lia.
  - rewrite E. cbn [bind]. eexists. split; [reflexivity|]. cbn [mw mh mstride msize mdata].
    do 4 (split; [reflexivity|]). split; [exact Bm|]. rewrite Z.add_0_l, Z2Nat.id in Pm by lia.
    intros x y Hx Hy. unfold mask_bit. cbn [mstride mdata].
    replace (y * dec_stride b) with (dec_stride b * y) by lia. now apply Pm.
Qed.

Lemma choose_fun (P : Z -> Z -> Prop) n : (forall x, 0 <= x < n -> exists v, P x v) -> exists f, forall x, 0 <= x < n -> P x (f x).
Proof.
  intros H. assert (G : forall k : nat, Z.of_nat k <= n -> exists f, forall x, 0 <= x < Z.of_nat k -> P x (f x)).
  { induction k as [|k IH]; intros Hk; [exists (fun _ => 0); intros; lia|].
    destruct IH as (f & Hf); [lia|]. destruct (H (Z.of_nat k)) as (v & Hv); [lia|].
    exists (fun x => if x =? Z.of_nat k then v else f x). intros x Hx.
    destruct (Z.eqb_spec x (Z.of_nat k)) as [->|]; [exact Hv|]. apply Hf. lia. }
  destruct (Z.leb_spec 0 n).
  - destruct (G (Z.to_nat n)) as (f & Hf); [lia|]. exists f. rewrite Z2Nat.id in Hf by lia. exact Hf.
  - exists (fun _ => 0). intros; lia.
Qed.

Lemma dec_fit b y : bm_wf b -> 0 <= y < mh b / 2 ->
  0 <= dec_stride b * y /\ dec_stride b * y + (mw b / 2 + 7) / 8 <= mh b / 2 * dec_stride b.
Proof.
  intros (Hw & _) Hy. unfold dec_stride. assert (0 <= (mw b / 2 + 7) / 8) by lia.
  split; [nia|]. assert ((mw b / 2 + 7) / 8 * (y + 1) <= (mw b / 2 + 7) / 8 * (mh b / 2)) by (apply Z.mul_le_mono_nonneg_l; lia). lia.
Qed.

(** every access stays inside of its buffer, for every neighbourhood size *)
Lemma decimate_safe b r junk : bm_wf b -> 0 <= r <= 7 -> byte_mem junk -> mw b mod 16 <> 1 ->
  exists d, decimate r b junk = Ok d /\ mw d = mw b / 2 /\ mh d = mh b / 2.
Proof.
  intros H Hr Hj H16.
  assert (G : forall y, 0 <= y < mh b / 2 -> exists V : Z -> bool, forall dst, byte_mem dst ->
    exists m, decimate_line r (y * 2) (mh b) (mdata b) (msize b) (mstride b * y * 2) (mw b) (mstride b)
              (mh b / 2 * dec_stride b) (dec_stride b * y) dst = Ok m /\ byte_mem m /\
    (forall a, a < dec_stride b * y \/ dec_stride b * (y + 1) <= a -> m a = dst a) /\
    (forall p, 0 <= p < mw b / 2 -> Z.testbit (m (dec_stride b * y + p / 8)) (7 - p mod 8) = V p)).
  { intros y Hy. pose proof H as (Hw & Hh & _).
    destruct (choose_fun (fun x v => get_byte_after (mdata b) (msize b) (mstride b * y * 2) (x * 4 + 4) (mw b) = Ok v) (mw b / 32)) as (A & HA).
    { intros x Hx. replace (mstride b * y * 2) with (mstride b * (y * 2)) by lia.
      destruct (byte_after_any b (y * 2) x) as (v & E & _); try assumption; try lia. eauto. }
    destruct (choose_fun (fun x v => get_dword r (y * 2) (mh b) (mdata b) (msize b) (mstride b * y * 2 + x * 4) (mstride b) = Ok v) (mw b / 32)) as (G & HG).
    { intros x Hx. replace (mstride b * y * 2) with (mstride b * (y * 2)) by lia. apply get_dword_any; try assumption; lia. }
    assert (HP : exists PD, mw b mod 32 <> 0 ->
      get_dword_partial r (y * 2) (mh b) (mdata b) (msize b) (mstride b * y * 2 + mw b / 32 * 4) (mw b mod 32) (mstride b) = Ok PD).
    { destruct (Z.eq_dec (mw b mod 32) 0) as [|Hne]; [exists 0; intros; lia|].
      replace (mstride b * y * 2) with (mstride b * (y * 2)) by lia.
      destruct (partial_ok b r (y * 2)) as (v & E & _); try assumption; try lia. exists v. intros _. exact E. }
    destruct HP as (PD & HP).
    exists (fun p => Z.testbit (line_value r (mw b) A G PD (p / 16)) (15 - p mod 16)). intros dst Hd.
    pose proof (dec_fit b y H Hy) as [F1 F2].
    destruct (line_ok r (y * 2) (mh b) (mdata b) (msize b) (mstride b * y * 2) (mw b) (mstride b) (mh b / 2 * dec_stride b)
      (dec_stride b * y) dst A G PD) as (m & E & B & F & P); try assumption; try lia.
    exists m. split; [exact E|]. split; [exact B|]. split; [|exact P]. intros a Ha. apply F.
    unfold dec_stride in *. lia. }
  destruct (Z.leb_spec (mh b / 2) 0) as [L|L].
  - destruct (decimate_rows b r junk (fun _ _ => true) H Hr Hj) as (d & E & W & Hd & _); [intros y Hy; lia|]. eauto.
  - assert (CH : exists V : Z -> Z -> bool, dec_rows_ok b r V).
    { clear L Hj junk. unfold dec_rows_ok.
      assert (GG : forall k : nat, Z.of_nat k <= mh b / 2 -> exists V : Z -> Z -> bool, forall y, 0 <= y < Z.of_nat k ->
        forall dst, byte_mem dst -> exists m, decimate_line r (y * 2) (mh b) (mdata b) (msize b) (mstride b * y * 2) (mw b) (mstride b)
              (mh b / 2 * dec_stride b) (dec_stride b * y) dst = Ok m /\ byte_mem m /\
        (forall a, a < dec_stride b * y \/ dec_stride b * (y + 1) <= a -> m a = dst a) /\
        (forall p, 0 <= p < mw b / 2 -> Z.testbit (m (dec_stride b * y + p / 8)) (7 - p mod 8) = V p y)).
      { induction k as [|k IH]; intros Hk; [exists (fun _ _ => true); intros; lia|].
        destruct IH as (V & HV); [lia|]. destruct (G (Z.of_nat k)) as (V1 & HV1); [lia|].
        exists (fun p y => if y =? Z.of_nat k then V1 p else V p y). intros y Hy dst Hd.
        destruct (Z.eqb_spec y (Z.of_nat k)) as [->|]; [now apply HV1|]. apply HV; [lia|exact Hd]. }
      destruct (GG (Z.to_nat (mh b / 2))) as (V & HV); [pose proof H as (_ & Hh & _); lia|].
      exists V. intros y Hy. apply HV. lia. }
    destruct CH as (V & HV). destruct (decimate_rows b r junk V H Hr Hj HV) as (d & E & W & Hd & _). eauto.
Qed.

(** ** Values *)
Definition neighbourhood (b : mask) (r x y : Z) : Prop :=
  forall i j, - r <= i <= r -> - r <= j <= r -> 0 <= 2 * x + i < mw b -> 0 <= 2 * y + j < mh b ->
    mask_bit b (2 * x + i) (2 * y + j) = true.

Lemma neighbourhood_column b r x y :
  neighbourhood b r x y <-> forall i, - r <= i <= r -> 0 <= 2 * x + i < mw b -> column b r (y * 2) (2 * x + i).
Proof.
  unfold neighbourhood, column. split.
  - intros H i Hi Hx j Hj. replace j with (2 * y + (j - 2 * y)) by lia. apply H; lia.
  - intros H i j Hi Hj Hx Hy. apply H; lia.
Qed.

Lemma before_bits b r y D x i : (forall x', 0 <= x' < x -> col_bits b r y x' 32 (D x')) -> 0 <= x -> 0 <= i < 8 ->
  (Z.testbit (before_of (fun x => bswap32 (D x)) x) i = true <-> (0 < x -> column b r y (32 * x - 1 - i))).
Proof.
  intros HD Hx Hi. unfold before_of. destruct (Z.leb_spec x 0) as [L|L].
  - rewrite bits_255 by exact Hi. split; [intros _ ?; lia|reflexivity].
  - rewrite u8_bits by exact Hi. replace i with (31 - (31 - i)) at 1 by lia. rewrite bswap_pos by lia.
    rewrite (HD (x - 1) ltac:(lia) (31 - i) ltac:(lia)). replace (32 * (x - 1) + (31 - i)) with (32 * x - 1 - i) by lia. split; auto.
    intros H _. apply H. lia.
Qed.

Lemma value_rows b r : bm_wf b -> 0 <= r <= 7 -> r <= 1 \/ mw b < 32 -> mw b mod 16 <> 1 ->
  exists V, dec_rows_ok b r V /\
    forall x y, 0 <= x < mw b / 2 -> 0 <= y < mh b / 2 -> (V x y = true <-> neighbourhood b r x y).
Proof.
  intros H Hr Hcase H16. pose proof H as (Hw & Hh & _).
  assert (G : forall y, 0 <= y < mh b / 2 -> exists V : Z -> bool, (forall dst, byte_mem dst ->
    exists m, decimate_line r (y * 2) (mh b) (mdata b) (msize b) (mstride b * y * 2) (mw b) (mstride b)
              (mh b / 2 * dec_stride b) (dec_stride b * y) dst = Ok m /\ byte_mem m /\
    (forall a, a < dec_stride b * y \/ dec_stride b * (y + 1) <= a -> m a = dst a) /\
    (forall p, 0 <= p < mw b / 2 -> Z.testbit (m (dec_stride b * y + p / 8)) (7 - p mod 8) = V p)) /\
    forall p, 0 <= p < mw b / 2 -> (V p = true <-> neighbourhood b r p y)).
  { intros y Hy.
    destruct (choose_fun (fun x v => get_byte_after (mdata b) (msize b) (mstride b * y * 2) (x * 4 + 4) (mw b) = Ok v /\ is_byte v) (mw b / 32)) as (A & HA).
    { intros x Hx. replace (mstride b * y * 2) with (mstride b * (y * 2)) by lia.
      apply byte_after_any; try assumption; lia. }
    destruct (choose_fun (fun x v => get_dword r (y * 2) (mh b) (mdata b) (msize b) (mstride b * y * 2 + x * 4) (mstride b) = Ok v /\
       col_bits b r (y * 2) x 32 v) (mw b / 32)) as (G & HG).
    { intros x Hx. replace (mstride b * y * 2) with (mstride b * (y * 2)) by lia. apply get_dword_01; try assumption; lia. }
    assert (HP : exists PD, mw b mod 32 <> 0 ->
      get_dword_partial r (y * 2) (mh b) (mdata b) (msize b) (mstride b * y * 2 + mw b / 32 * 4) (mw b mod 32) (mstride b) = Ok PD /\
      col_bits b r (y * 2) (mw b / 32) (mw b mod 32) PD).
    { destruct (Z.eq_dec (mw b mod 32) 0) as [|Hne]; [exists 0; intros; lia|].
      replace (mstride b * y * 2) with (mstride b * (y * 2)) by lia.
      destruct (partial_ok b r (y * 2)) as (v & E & Cv); try assumption; try lia. exists v. intros _. split; assumption. }
    destruct HP as (PD & HP).
    exists (fun p => Z.testbit (line_value r (mw b) A G PD (p / 16)) (15 - p mod 16)). split.
    - intros dst Hd. pose proof (dec_fit b y H Hy) as [F1 F2].
      destruct (line_ok r (y * 2) (mh b) (mdata b) (msize b) (mstride b * y * 2) (mw b) (mstride b) (mh b / 2 * dec_stride b)
        (dec_stride b * y) dst A G PD) as (m & E & B & F & P); try assumption; try lia.
      { intros x Hx. apply HA. exact Hx. } { intros x Hx. apply HG. exact Hx. } { intros Hne. apply HP. exact Hne. }
      exists m. split; [exact E|]. split; [exact B|]. split; [|exact P]. intros a Ha. apply F.
      unfold dec_stride in *. lia.
    - intros p Hp. rewrite neighbourhood_column. unfold line_value.
      assert (HB : forall i, 0 <= i < 8 -> (Z.testbit (before_of (fun x => bswap32 (G x)) (p / 16)) i = true <->
        (0 < p / 16 -> column b r (y * 2) (32 * (p / 16) - 1 - i)))).
      { intros i Hi. apply before_bits; try lia. intros x' Hx'. apply HG. lia. }
      destruct (Z.ltb_spec (p / 16) (mw b / 32)) as [L|L].
      + (* a full dword: the neighbourhood is at most 1 wide *)
        assert (Hr1 : r <= 1) by lia.
        rewrite fd_spec by (try apply before_byte; try apply HA; try apply bswap32_bound; lia).
        destruct (HG (p / 16) ltac:(lia)) as [_ CG]. split.
        * intros T i Hi Hx. specialize (T i Hi). unfold hbit in T.
          destruct (Z.ltb_spec (2 * (p mod 16) + i) 0) as [N|N].
          -- apply HB in T; [|lia|lia]. replace (2 * p + i) with (32 * (p / 16) - 1 - (- 1 - (2 * (p mod 16) + i))) by lia. exact T.
          -- replace (2 * (p mod 16) + i <? 32) with true in T by lia.
             rewrite bswap_pos in T by lia. apply CG in T; [|lia|lia].
             replace (2 * p + i) with (32 * (p / 16) + (2 * (p mod 16) + i)) by lia. exact T.
        * intros T i Hi. unfold hbit. destruct (Z.ltb_spec (2 * (p mod 16) + i) 0) as [N|N].
          -- apply HB; [lia|]. intros Hpos.
             replace (32 * (p / 16) - 1 - (- 1 - (2 * (p mod 16) + i))) with (2 * p + i) by lia. apply T; lia.
          -- replace (2 * (p mod 16) + i <? 32) with true by lia.
             rewrite bswap_pos by lia. apply CG; [lia|]. intros _.
             replace (32 * (p / 16) + (2 * (p mod 16) + i)) with (2 * p + i) by lia. apply T; lia.
      + (* the remainder of the line *)
        assert (Hpd : p / 16 = mw b / 32) by lia. assert (Hne : mw b mod 32 <> 0) by lia.
        destruct (HP Hne) as [_ CP]. rewrite Hpd in *.
        rewrite fd_spec by (try apply before_byte; try apply bswap32_bound; try (unfold is_byte; lia); lia). split.
        * intros T i Hi Hx. specialize (T i Hi). unfold hbit in T.
          destruct (Z.ltb_spec (2 * (p mod 16) + i) 0) as [N|N].
          -- apply HB in T; [|lia|lia]. replace (2 * p + i) with (32 * (mw b / 32) - 1 - (- 1 - (2 * (p mod 16) + i))) by lia. exact T.
          -- replace (2 * (p mod 16) + i <? 32) with true in T by lia.
             rewrite bswap_pos in T by lia. apply CP in T; [|lia|lia].
             replace (2 * p + i) with (32 * (mw b / 32) + (2 * (p mod 16) + i)) by lia. exact T.
        * intros T i Hi. unfold hbit. destruct (Z.ltb_spec (2 * (p mod 16) + i) 0) as [N|N].
          -- apply HB; [lia|]. intros Hpos.
             replace (32 * (mw b / 32) - 1 - (- 1 - (2 * (p mod 16) + i))) with (2 * p + i) by lia. apply T; lia.
          -- destruct (Z.ltb_spec (2 * (p mod 16) + i) 32) as [N2|N2]; [|apply bits_255; lia].
             rewrite bswap_pos by lia. apply CP; [lia|]. intros Hlt.
             replace (32 * (mw b / 32) + (2 * (p mod 16) + i)) with (2 * p + i) by lia. apply T; lia. }
  assert (GG : forall k : nat, Z.of_nat k <= mh b / 2 -> exists V : Z -> Z -> bool, forall y, 0 <= y < Z.of_nat k ->
    (forall dst, byte_mem dst -> exists m, decimate_line r (y * 2) (mh b) (mdata b) (msize b) (mstride b * y * 2) (mw b) (mstride b)
          (mh b / 2 * dec_stride b) (dec_stride b * y) dst = Ok m /\ byte_mem m /\
    (forall a, a < dec_stride b * y \/ dec_stride b * (y + 1) <= a -> m a = dst a) /\
    (forall p, 0 <= p < mw b / 2 -> Z.testbit (m (dec_stride b * y + p / 8)) (7 - p mod 8) = V p y)) /\
    forall p, 0 <= p < mw b / 2 -> (V p y = true <-> neighbourhood b r p y)).
  { induction k as [|k IH]; intros Hk; [exists (fun _ _ => true); intros; lia|].
    destruct IH as (V & HV); [lia|]. destruct (G (Z.of_nat k)) as (V1 & HV1); [lia|].
    exists (fun p y => if y =? Z.of_nat k then V1 p else V p y). intros y Hy.
    destruct (Z.eqb_spec y (Z.of_nat k)) as [->|]; [exact HV1|]. apply HV; lia. }
  destruct (GG (Z.to_nat (mh b / 2))) as (V & HV); [lia|].
  exists V. split.
  - intros y Hy. apply HV. lia.
  - intros x y Hx Hy. apply HV; lia.
Qed.

Lemma decimate_ok b r junk : bm_wf b -> 0 <= r <= 7 -> byte_mem junk -> r <= 1 \/ mw b < 32 -> mw b mod 16 <> 1 ->
  exists d, decimate r b junk = Ok d /\ mw d = mw b / 2 /\ mh d = mh b / 2 /\
    forall x y, 0 <= x < mw d -> 0 <= y < mh d -> (mask_bit d x y = true <-> neighbourhood b r x y).
Proof.
  intros H Hr Hj Hc H16. destruct (value_rows b r H Hr Hc H16) as (V & HV & Hn).
  destruct (decimate_rows b r junk V H Hr Hj HV) as (d & E & W & Hd & _ & _ & _ & P).
  exists d. split; [exact E|]. split; [exact W|]. split; [exact Hd|]. intros x y Hx Hy.
  rewrite P by assumption. apply Hn; lia.
Qed.
