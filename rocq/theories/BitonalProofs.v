From Verif Require Import Base CopyModel MemProofs HiLoModel HiLoProofs BitonalModel.

Definition with_data (b : mask) (m : mem) : mask := mkMask (mw b) (mh b) (mstride b) (msize b) m.

(** a bitmap the public operations accept *)
Definition bm_wf (b : mask) : Prop :=
  0 < mw b <= INT_MAX /\ 0 < mh b <= INT_MAX /\ (mw b + 7) / 8 <= mstride b <= UINT_MAX /\
  mstride b * (mh b - 1) + (mw b + 7) / 8 <= msize b /\ byte_mem (mdata b).

(** the bits of the buffer after an operation, addressed by line and column (padding included) *)
Definition bits_after (b : mask) (m : mem) (f : Z -> Z -> bool) : Prop :=
  byte_mem m /\
  forall x y, 0 <= x < 8 * mstride b -> 0 <= y -> mask_bit (with_data b m) x y = f x y.

Lemma for_loop_inv {T} (P : Z -> T -> Prop) (f : Z -> T -> res T) n : forall i s,
  P i s -> (forall k s, i <= k < i + Z.of_nat n -> P k s -> exists s', f k s = Ok s' /\ P (k + 1) s') ->
  exists s', for_loop n i f s = Ok s' /\ P (i + Z.of_nat n) s'.
Proof.
  induction n as [|n IH]; intros i s HP Hf.
  - exists s. cbn [for_loop]. split; [reflexivity|]. replace (i + Z.of_nat 0) with i by lia. exact HP.
  - cbn [for_loop]. destruct (Hf i s) as (s1 & E1 & P1); [lia|exact HP|].
    rewrite E1. cbn [bind]. destruct (IH (i + 1) s1) as (s2 & E2 & P2); [exact P1| |].
    + intros k t Hk. apply Hf. lia.
    + exists s2. split; [exact E2|]. replace (i + Z.of_nat (S n)) with (i + 1 + Z.of_nat n) by lia. exact P2.
Qed.

Lemma check_lock_ok b : bm_wf b -> check_lock b = Ok tt.
Proof.
  intros (Hw & Hh & Hs & Hz & _). unfold check_lock, INT_MAX, UINT_MAX in *.
  assert (E : u32 (mw b + 7) = mw b + 7) by (unfold u32; change (2 ^ 32) with 4294967296; lia).
  rewrite E.
  assert (0 <= mstride b * (mh b - 1) <= 4294967295 * 2147483647) by nia.
  assert (E2 : u64 (mstride b * (mh b - 1) + (mw b + 7) / 8) = mstride b * (mh b - 1) + (mw b + 7) / 8).
  { unfold u64. apply Z.mod_small. change (2 ^ 64) with 18446744073709551616. lia. }
  rewrite E2.
  destruct ((mw b =? 0) || (mh b =? 0)) eqn:E3; [lia|].
  destruct (mstride b <? (mw b + 7) / 8) eqn:E4; [lia|].
  destruct (msize b <? _) eqn:E5; [lia|reflexivity].
Qed.

Lemma land_pow2 v k : 0 <= k -> negb (Z.land v (Z.shiftl 1 k) =? 0) = Z.testbit v k.
Proof.
  intros Hk. destruct (Z.testbit v k) eqn:E.
  - destruct (Z.eqb_spec (Z.land v (Z.shiftl 1 k)) 0) as [H|H]; [|reflexivity].
    assert (T : Z.testbit (Z.land v (Z.shiftl 1 k)) k = false) by (rewrite H; apply Z.bits_0).
    rewrite Z.land_spec, E, Z.shiftl_spec in T by lia. replace (k - k) with 0 in T by lia. discriminate T.
  - assert (H : Z.land v (Z.shiftl 1 k) = 0).
    { apply Z.bits_inj'. intros n Hn. rewrite Z.land_spec, Z.bits_0, Z.shiftl_spec by lia.
      destruct (Z.eq_dec n k) as [->|Hne]; [now rewrite E|].
      rewrite Z.shiftl_spec_low || idtac.
      destruct (Z.ltb_spec (n - k) 0); [rewrite (Z.testbit_neg_r 1) by lia; apply andb_false_r|].
      replace (Z.testbit 1 (n - k)) with false; [apply andb_false_r|].
      symmetry. change 1 with (2 ^ 0). apply Z.pow2_bits_false. lia. }
    rewrite H. reflexivity.
Qed.

Lemma ld8_ok m sz off : 0 <= off < sz -> ld8 m sz off = Ok (m off).
Proof. intros H. unfold ld8. rewrite ld_ok by (change (Z.of_nat 1) with 1; lia). reflexivity. Qed.

Lemma pixel_in b x y : bm_wf b -> 0 <= x < mw b -> 0 <= y < mh b ->
  0 <= y * mstride b + x / 8 < msize b /\ 0 <= x / 8 < mstride b.
Proof.
  intros (Hw & Hh & Hs & Hz & _) Hx Hy.
  assert (x / 8 < (mw b + 7) / 8) by lia. assert (0 <= x / 8) by lia.
  assert (0 <= y * mstride b <= mstride b * (mh b - 1)) by nia. lia.
Qed.

Lemma get_pixel_ok b x y : bm_wf b -> 0 <= x < mw b -> 0 <= y < mh b -> get_pixel b x y = Ok (mask_bit b x y).
Proof.
  intros H Hx Hy. unfold get_pixel. rewrite check_lock_ok by exact H. cbn [bind].
  destruct ((mw b <=? x) || (mh b <=? y)) eqn:E; [lia|].
  destruct (pixel_in b x y H Hx Hy) as [Ha _]. rewrite ld8_ok by exact Ha. cbn [bind].
  rewrite land_pow2 by lia. reflexivity.
Qed.

Lemma get_pixel_throw b x y : bm_wf b -> mw b <= x \/ mh b <= y -> get_pixel b x y = Throw.
Proof.
  intros H Hx. unfold get_pixel. rewrite check_lock_ok by exact H. cbn [bind].
  destruct ((mw b <=? x) || (mh b <=? y)) eqn:E; [reflexivity|lia].
Qed.

(** ** Rows of bytes changed by a function *)
Definition maps_bytes (g : byte -> byte) (inb : Z -> bool) (m m' : mem) : Prop :=
  forall a, m' a = if inb a then g (m a) else m a.

Definition inrows (ptr stride n h a : Z) : bool :=
  (0 <=? (a - ptr) / stride) && ((a - ptr) / stride <? h) && ((a - ptr) mod stride <? n).

Lemma div_unique_row a ptr stride n k : 0 < n <= stride ->
  ((a - ptr) / stride = k /\ (a - ptr) mod stride < n) <-> ptr + k * stride <= a < ptr + k * stride + n.
Proof.
  intros Hn. pose proof (Z.div_mod (a - ptr) stride ltac:(lia)) as D.
  pose proof (Z.mod_pos_bound (a - ptr) stride ltac:(lia)) as B.
  set (q := (a - ptr) / stride) in *. set (r := (a - ptr) mod stride) in *. clearbody q r. split.
  - intros [<- Hr]. nia.
  - intros H. assert (q = k) by nia. subst q. nia.
Qed.

Lemma rows_map g ptr stride n h step m :
  0 < n <= stride -> 0 <= h ->
  (forall y m, 0 <= y < h -> exists m', step y m = Ok m' /\
     maps_bytes g (fun a => (ptr + y * stride <=? a) && (a <? ptr + y * stride + n)) m m') ->
  exists m', for_loop (Z.to_nat h) 0 step m = Ok m' /\ maps_bytes g (inrows ptr stride n h) m m'.
Proof.
  intros Hn Hh Hs.
  destruct (for_loop_inv (fun k m' => maps_bytes g (inrows ptr stride n k) m m') step (Z.to_nat h) 0 m)
    as (m' & E & P).
  - intros a. unfold inrows.
    destruct ((0 <=? (a - ptr) / stride) && ((a - ptr) / stride <? 0)) eqn:E; [lia|reflexivity].
  - intros k t Hk Ht. destruct (Hs k t) as (t' & E & M); [lia|]. exists t'. split; [exact E|].
    intros a. rewrite (M a), (Ht a). pose proof (div_unique_row a ptr stride n k Hn) as D. unfold inrows.
    destruct ((ptr + k * stride <=? a) && (a <? ptr + k * stride + n)) eqn:E1.
    + destruct (proj2 D) as [D1 D2]; [lia|]. rewrite D1.
      replace ((0 <=? k) && (k <? k) && ((a - ptr) mod stride <? n)) with false by lia.
      replace ((0 <=? k) && (k <? k + 1) && ((a - ptr) mod stride <? n)) with true by lia. reflexivity.
    + assert (N : ~ ((a - ptr) / stride = k /\ (a - ptr) mod stride < n)) by (intros H; apply D in H; lia).
      clear D Hs M Ht.
      replace ((0 <=? (a - ptr) / stride) && ((a - ptr) / stride <? k + 1) && ((a - ptr) mod stride <? n))
        with ((0 <=? (a - ptr) / stride) && ((a - ptr) / stride <? k) && ((a - ptr) mod stride <? n)).
      * reflexivity.
      * set (q := (a - ptr) / stride) in *. set (r := (a - ptr) mod stride) in *. clearbody q r.
        destruct (Z.eq_dec q k) as [->|]; lia.
  - exists m'. rewrite Z.add_0_l, Z2Nat.id in P by lia. split; assumption.
Qed.

Lemma inrows_px y1 c stride n h y xb :
  0 <= c -> 0 < n -> c + n <= stride -> 0 <= xb < stride ->
  inrows (y1 * stride + c) stride n h (y * stride + xb) =
  (y1 <=? y) && (y <? y1 + h) && (c <=? xb) && (xb <? c + n).
Proof.
  intros Hc Hn Hs Hx. unfold inrows.
  destruct (Z.leb_spec c xb) as [L|L].
  - replace (y * stride + xb - (y1 * stride + c)) with ((xb - c) + (y - y1) * stride) by lia.
    rewrite Z.div_add, Z.mod_add by lia. rewrite Z.div_small, Z.mod_small by lia. lia.
  - replace (y * stride + xb - (y1 * stride + c)) with ((xb - c + stride) + (y - y1 - 1) * stride) by lia.
    rewrite Z.div_add, Z.mod_add by lia. rewrite Z.div_small, Z.mod_small by lia. lia.
Qed.

Lemma nth_repeat_lt {A} (v : A) n i d : (i < n)%nat -> nth i (repeat v n) d = v.
Proof. revert i; induction n as [|n IH]; intros [|i] H; cbn; try lia; auto. apply IH; lia. Qed.

Lemma memset_map m sz off v n : 0 <= n -> 0 <= off -> off + n <= sz ->
  exists m', memset m sz off v n = Ok m' /\ maps_bytes (fun _ => v) (fun a => (off <=? a) && (a <? off + n)) m m'.
Proof.
  intros Hn Ho Hs. unfold memset. destruct ((0 <=? n) && (0 <=? off) && (off + n <=? sz)) eqn:E; [|lia].
  eexists. split; [reflexivity|]. intros a. unfold mwrite. rewrite repeat_length.
  rewrite Z2Nat.id by lia. destruct ((off <=? a) && (a <? off + n)) eqn:E2; [|reflexivity].
  apply nth_repeat_lt. lia.
Qed.

Lemma byte_op_map (g : byte -> byte) m sz off : 0 <= off < sz ->
  exists m', (let* b := ld8 m sz off in st m sz off [g b]) = Ok m' /\
  maps_bytes g (fun a => (off <=? a) && (a <? off + 1)) m m'.
Proof.
  intros H. rewrite ld8_ok by exact H. cbn [bind]. rewrite st_ok by (cbn [length]; lia).
  eexists. split; [reflexivity|]. intros a. unfold mwrite. cbn [length]. change (Z.of_nat 1) with 1.
  destruct ((off <=? a) && (a <? off + 1)) eqn:E; [|reflexivity].
  replace a with off by lia. replace (off - off) with 0 by lia. reflexivity.
Qed.

Lemma set_bytes_ok v ptr stride sz w h m : 0 < w <= stride -> 0 <= h -> 0 <= ptr ->
  ptr + (h - 1) * stride + w <= sz ->
  exists m', set_bytes v ptr stride sz w h m = Ok m' /\ maps_bytes (fun _ => v) (inrows ptr stride w h) m m'.
Proof.
  intros Hw Hh Hp Hz. apply rows_map; [exact Hw|exact Hh|]. intros y t Hy.
  assert (0 <= y * stride <= (h - 1) * stride) by nia.
  apply memset_map; lia.
Qed.

Lemma bytes_op_ok (g : byte -> byte) ptr stride sz h m : 0 < stride -> 0 <= h -> 0 <= ptr ->
  ptr + (h - 1) * stride < sz ->
  exists m', for_loop (Z.to_nat h) 0 (fun y m =>
    let* b := ld8 m sz (ptr + y * stride) in st m sz (ptr + y * stride) [g b]) m = Ok m' /\
    maps_bytes g (inrows ptr stride 1 h) m m'.
Proof.
  intros Hw Hh Hp Hz. apply rows_map; [lia|exact Hh|]. intros y t Hy.
  assert (0 <= y * stride <= (h - 1) * stride) by nia.
  apply byte_op_map; lia.
Qed.

(** ** Setting one pixel *)
Lemma testbit_small v n : is_byte v -> 8 <= n -> Z.testbit v n = false.
Proof.
  intros Hv Hn. unfold is_byte in Hv. destruct (Z.eq_dec v 0) as [->|]; [apply Z.bits_0|].
  apply Z.bits_above_log2; [lia|]. apply Z.log2_lt_pow2; [lia|].
  apply Z.lt_le_trans with (2 ^ 8); [change (2 ^ 8) with 256; lia|]. apply Z.pow_le_mono_r; lia.
Qed.

Lemma bits_byte v : 0 <= v -> (forall n, 8 <= n -> Z.testbit v n = false) -> is_byte v.
Proof.
  intros H0 H. unfold is_byte. split; [exact H0|].
  assert (E : v = v mod 2 ^ 8).
  { apply Z.bits_inj'. intros n Hn. destruct (Z.ltb_spec n 8).
    - now rewrite Z.mod_pow2_bits_low by lia.
    - rewrite Z.mod_pow2_bits_high by lia. apply H. lia. }
  rewrite E. change (2 ^ 8) with 256. lia.
Qed.

Lemma u8_byte v : is_byte (u8 v).
Proof. unfold is_byte, u8. change (2 ^ 8) with 256. lia. Qed.
Lemma u8_bits v n : 0 <= n < 8 -> Z.testbit (u8 v) n = Z.testbit v n.
Proof. intros H. unfold u8. apply Z.mod_pow2_bits_low. lia. Qed.

Lemma one_bit k n : 0 <= k -> 0 <= n -> Z.testbit (Z.shiftl 1 k) n = (n =? k).
Proof.
  intros Hk Hn. rewrite Z.shiftl_1_l. destruct (Z.eqb_spec n k) as [->|].
  - apply Z.pow2_bits_true. exact Hk.
  - apply Z.pow2_bits_false. congruence.
Qed.

Lemma mask_bit_with b m x y : mask_bit (with_data b m) x y = Z.testbit (m (y * mstride b + x / 8)) (7 - x mod 8).
Proof. reflexivity. Qed.

Lemma row_addr_eq stride y y' c c' : 0 <= c < stride -> 0 <= c' < stride ->
  y * stride + c = y' * stride + c' -> y = y' /\ c = c'.
Proof. intros Hc Hc' H. assert (y = y') by nia. subst. lia. Qed.

Lemma set_pixel_ok b x y v : bm_wf b -> 0 <= x < mw b -> 0 <= y < mh b ->
  exists m, set_pixel b x y v = Ok m /\
    bits_after b m (fun x' y' => if (x' =? x) && (y' =? y) then v else mask_bit b x' y').
Proof.
  intros H Hx Hy. unfold set_pixel. rewrite check_lock_ok by exact H. cbn [bind].
  destruct ((mw b <=? x) || (mh b <=? y)) eqn:E; [lia|].
  destruct (pixel_in b x y H Hx Hy) as [Ha Hc]. rewrite ld8_ok by exact Ha. cbn [bind].
  set (a := y * mstride b + x / 8) in *.
  set (w := if v then u8 (Z.lor (mdata b a) (Z.shiftl 1 (7 - x mod 8)))
            else u8 (Z.land (mdata b a) (Z.lnot (Z.shiftl 1 (7 - x mod 8))))).
  assert (Bw : is_byte w) by (subst w; destruct v; apply u8_byte).
  rewrite st_ok by (cbn [length]; lia). eexists. split; [reflexivity|].
  destruct H as (_ & _ & Hs & _ & Hb).
  assert (M : forall a', mwrite (mdata b) a [w] a' = if a' =? a then w else mdata b a').
  { intros a'. unfold mwrite. cbn [length]. change (Z.of_nat 1) with 1.
    destruct (Z.eqb_spec a' a) as [->|].
    - replace ((a <=? a) && (a <? a + 1)) with true by lia. replace (a - a) with 0 by lia. reflexivity.
    - replace ((a <=? a') && (a' <? a + 1)) with false by lia. reflexivity. }
  split.
  - intros a'. rewrite M. destruct (a' =? a); [exact Bw|apply Hb].
  - intros x' y' Hx' Hy'. rewrite mask_bit_with, M.
    destruct (Z.eqb_spec (y' * mstride b + x' / 8) a) as [Eq|Ne].
    + subst a. apply row_addr_eq in Eq; [|lia|exact Hc]. destruct Eq as [-> Ec].
      rewrite Z.eqb_refl, andb_true_r.
      assert (T : Z.testbit w (7 - x' mod 8) = if x' =? x then v else mask_bit b x' y).
      { unfold mask_bit. subst w.
        assert (Hsame : 7 - x' mod 8 = 7 - x mod 8 <-> x' = x) by lia.
        destruct v; rewrite u8_bits by lia.
        - rewrite Z.lor_spec, one_bit by lia. rewrite Ec.
          destruct (Z.eqb_spec x' x) as [->|]; [rewrite Z.eqb_refl; apply orb_true_r|].
          destruct (Z.eqb_spec (7 - x' mod 8) (7 - x mod 8)); [lia|apply orb_false_r].
        - rewrite Z.land_spec, Z.lnot_spec, one_bit by lia. rewrite Ec.
          destruct (Z.eqb_spec x' x) as [->|]; [rewrite Z.eqb_refl; apply andb_false_r|].
          destruct (Z.eqb_spec (7 - x' mod 8) (7 - x mod 8)); [lia|apply andb_true_r]. }
      exact T.
    + destruct ((x' =? x) && (y' =? y)) eqn:E2; [|reflexivity].
      exfalso. apply Ne. subst a. assert (x' = x) by lia. assert (y' = y) by lia. subst. reflexivity.
Qed.

Lemma set_pixel_throw b x y v : bm_wf b -> mw b <= x \/ mh b <= y -> set_pixel b x y v = Throw.
Proof.
  intros H Hx. unfold set_pixel. rewrite check_lock_ok by exact H. cbn [bind].
  destruct ((mw b <=? x) || (mh b <=? y)) eqn:E; [reflexivity|lia].
Qed.

(** ** Setting all pixels *)
Lemma bits_255 n : 0 <= n < 8 -> Z.testbit 255 n = true.
Proof. intros H. change 255 with (Z.ones 8). apply Z.ones_spec_low. exact H. Qed.

Lemma set_all_ok b v : bm_wf b ->
  exists m, set_all b v = Ok m /\
    bits_after b m (fun x y => if (x <? (mw b + 7) / 8 * 8) && (y <? mh b) then v else mask_bit b x y).
Proof.
  intros H. unfold set_all. rewrite check_lock_ok by exact H. cbn [bind].
  destruct H as (Hw & Hh & Hs & Hz & Hb). unfold INT_MAX, UINT_MAX in *.
  assert (E : u32 (mw b + 7) = mw b + 7) by (unfold u32; change (2 ^ 32) with 4294967296; lia).
  rewrite E. set (n := (mw b + 7) / 8) in *. assert (0 < n) by (subst n; lia).
  destruct (set_bytes_ok (if v then 255 else 0) 0 (mstride b) (msize b) n (mh b) (mdata b)) as (m & Em & M);
    try lia.
  exists m. unfold set_bytes in Em. split; [exact Em|]. split.
  - intros a. rewrite (M a). destruct (inrows _ _ _ _ a); [destruct v; unfold is_byte; lia|apply Hb].
  - intros x y Hx Hy. rewrite mask_bit_with, (M _).
    replace (inrows 0 (mstride b) n (mh b) (y * mstride b + x / 8)) with ((x / 8 <? n) && (y <? mh b)).
    2:{ replace 0 with (0 * mstride b + 0) at 1 by lia. rewrite inrows_px by lia. lia. }
    replace ((x <? n * 8) && (y <? mh b)) with ((x / 8 <? n) && (y <? mh b)) by lia.
    destruct ((x / 8 <? n) && (y <? mh b)); [|reflexivity].
    destruct v; [apply bits_255; lia|apply Z.bits_0].
Qed.

(** ** Filling a rectangle *)

(** bits of the border bytes; [p] counts from the most significant bit *)
Lemma left_border_bits w rem p : 1 <= w -> 0 <= rem < 8 -> 0 <= p < 8 ->
  Z.testbit (Z.shiftr (if 8 <=? w then 255 else u8 (Z.shiftl 255 (8 - w))) rem) (7 - p) =
  (rem <=? p) && (p <? rem + w).
Proof.
  intros Hw Hr Hp. rewrite Z.shiftr_spec by lia.
  destruct (Z.leb_spec 8 w) as [L|L].
  - destruct (Z.leb_spec rem p).
    + rewrite bits_255 by lia. lia.
    + rewrite testbit_small; [lia|unfold is_byte; lia|lia].
  - destruct (Z.leb_spec rem p).
    + rewrite u8_bits by lia. rewrite Z.shiftl_spec by lia.
      destruct (Z.ltb_spec p (rem + w)).
      * rewrite bits_255 by lia. reflexivity.
      * rewrite Z.testbit_neg_r by lia. reflexivity.
    + rewrite testbit_small; [lia|apply u8_byte|lia].
Qed.

Lemma right_border_bits rem p : 0 <= rem < 8 -> 0 <= p < 8 ->
  Z.testbit (u8 (Z.shiftl 255 (8 - rem))) (7 - p) = (p <? rem).
Proof.
  intros Hr Hp. rewrite u8_bits by lia. rewrite Z.shiftl_spec by lia.
  destruct (Z.ltb_spec p rem).
  - apply bits_255. lia.
  - apply Z.testbit_neg_r. lia.
Qed.

(** one of the three steps of Fill, as a change of bits *)
Definition fill_bits (v : bool) (sel : Z -> Z -> bool) (stride : Z) (m m' : mem) : Prop :=
  byte_mem m' /\ forall y xb p, 0 <= y -> 0 <= xb < stride -> 0 <= p < 8 ->
    Z.testbit (m' (y * stride + xb)) (7 - p) =
    if sel (8 * xb + p) y then v else Z.testbit (m (y * stride + xb)) (7 - p).

Lemma fill_bits_refl v stride m : byte_mem m -> fill_bits v (fun _ _ => false) stride m m.
Proof. intros H. split; [exact H|reflexivity]. Qed.

Lemma fill_bits_trans v s1 s2 stride m1 m2 m3 : fill_bits v s1 stride m1 m2 -> fill_bits v s2 stride m2 m3 ->
  fill_bits v (fun x y => s1 x y || s2 x y) stride m1 m3.
Proof.
  intros [_ H1] [B H2]. split; [exact B|]. intros y xb p Hy Hx Hp.
  rewrite H2, H1 by assumption. destruct (s1 (8 * xb + p) y), (s2 (8 * xb + p) y); reflexivity.
Qed.

Lemma fill_bits_ext v s1 s2 stride m1 m2 : fill_bits v s1 stride m1 m2 ->
  (forall x y, 0 <= x < 8 * stride -> 0 <= y -> s1 x y = s2 x y) -> fill_bits v s2 stride m1 m2.
Proof.
  intros [B H] E. split; [exact B|]. intros y xb p Hy Hx Hp. rewrite <- E by lia. now apply H.
Qed.

Definition sel_rows (y1 h lo hi x y : Z) : bool := (y1 <=? y) && (y <? y1 + h) && (lo <=? x) && (x <? hi).

Lemma bulk_step (v : bool) y1 c stride sz n h m : byte_mem m -> 0 <= y1 -> 0 <= c -> 0 < n -> c + n <= stride -> 0 <= h ->
  (y1 + h - 1) * stride + c + n <= sz ->
  exists m', set_bytes (if v then 255 else 0) (stride * y1 + c) stride sz n h m = Ok m' /\
    fill_bits v (sel_rows y1 h (8 * c) (8 * (c + n))) stride m m'.
Proof.
  intros B H1 Hc Hn Hs Hh Hz.
  destruct (set_bytes_ok (if v then 255 else 0) (stride * y1 + c) stride sz n h m) as (m' & E & M); [lia|lia|nia|nia|].
  exists m'. split; [exact E|]. split.
  - intros a. rewrite (M a). destruct (inrows _ _ _ _ a); [destruct v; unfold is_byte; lia|apply B].
  - intros y xb p Hy Hx Hp. rewrite (M _). replace (stride * y1 + c) with (y1 * stride + c) by lia.
    rewrite inrows_px by lia. unfold sel_rows.
    replace ((y1 <=? y) && (y <? y1 + h) && (8 * c <=? 8 * xb + p) && (8 * xb + p <? 8 * (c + n)))
      with ((y1 <=? y) && (y <? y1 + h) && (c <=? xb) && (xb <? c + n)) by lia.
    destruct ((y1 <=? y) && (y <? y1 + h) && (c <=? xb) && (xb <? c + n)); [|reflexivity].
    destruct v; [apply bits_255; lia|apply Z.bits_0].
Qed.

Lemma border_step (v : bool) lb y1 c stride sz h m lo hi : byte_mem m -> is_byte lb ->
  0 <= y1 -> 0 <= c < stride -> 0 <= h -> (y1 + h - 1) * stride + c < sz ->
  0 <= lo -> hi <= 8 ->
  (forall p, 0 <= p < 8 -> Z.testbit lb (7 - p) = (lo <=? p) && (p <? hi)) ->
  exists m', (if v then or_bytes lb (c + y1 * stride) stride sz h m
              else and_bytes (u8 (Z.lnot lb)) (c + y1 * stride) stride sz h m) = Ok m' /\
    fill_bits v (sel_rows y1 h (8 * c + lo) (8 * c + hi)) stride m m'.
Proof.
  intros B Bl H1 Hc Hh Hz Hlo Hhi Hb.
  set (g := fun b => if v then Z.lor b lb else Z.land b (u8 (Z.lnot lb))).
  destruct (bytes_op_ok g (c + y1 * stride) stride sz h m) as (m' & E & M); [lia|lia|nia|nia|].
  exists m'. split; [unfold or_bytes, and_bytes; subst g; destruct v; exact E|].
  assert (G : forall b p, is_byte b -> 0 <= p < 8 ->
    Z.testbit (g b) (7 - p) = if (lo <=? p) && (p <? hi) then v else Z.testbit b (7 - p)).
  { intros b p Hbb Hp. subst g. cbn beta. destruct v.
    - rewrite Z.lor_spec, Hb by lia. destruct ((lo <=? p) && (p <? hi)); [apply orb_true_r|apply orb_false_r].
    - rewrite Z.land_spec, u8_bits, Z.lnot_spec, Hb by lia.
      destruct ((lo <=? p) && (p <? hi)); [apply andb_false_r|apply andb_true_r]. }
  assert (GB : forall b, is_byte b -> is_byte (g b)).
  { intros b Hbb. subst g. cbn beta. unfold is_byte in Hbb, Bl. destruct v.
    - apply bits_byte; [apply Z.lor_nonneg; lia|]. intros n Hn. rewrite Z.lor_spec, !testbit_small; try lia; assumption.
    - apply bits_byte; [apply Z.land_nonneg; lia|]. intros n Hn.
      rewrite Z.land_spec, (testbit_small b); [reflexivity|assumption|lia]. }
  split.
  - intros a. rewrite (M a). destruct (inrows _ _ _ _ a); [apply GB|]; apply B.
  - intros y xb p Hy Hx Hp. rewrite (M _). replace (c + y1 * stride) with (y1 * stride + c) by lia.
    rewrite inrows_px by lia. unfold sel_rows.
    destruct ((y1 <=? y) && (y <? y1 + h)) eqn:Ey; [|reflexivity].
    rewrite !andb_true_l. destruct ((c <=? xb) && (xb <? c + 1)) eqn:Ec.
    + rewrite G by (try apply B; lia). assert (xb = c) by lia. subst xb.
      replace ((8 * c + lo <=? 8 * c + p) && (8 * c + p <? 8 * c + hi)) with ((lo <=? p) && (p <? hi)) by lia.
      reflexivity.
    + replace ((8 * c + lo <=? 8 * xb + p) && (8 * xb + p <? 8 * c + hi)) with false by lia. reflexivity.
Qed.

Lemma fill_edge r w n : 0 <= r + w <= INT_MAX -> 0 <= n <= INT_MAX -> s32 (Z.min (u32 (r + w)) n) = Z.min (r + w) n.
Proof.
  intros H Hn. unfold u32. rewrite (Z.mod_small (r + w)) by (unfold INT_MAX in *; change (2 ^ 32) with 4294967296; lia).
  apply s32_id. unfold in_i32, INT_MIN, INT_MAX in *. lia.
Qed.

Definition in_roi (rx ry rw rh w h x y : Z) : bool :=
  (rx <=? x) && (x <? rx + rw) && (ry <=? y) && (y <? ry + rh) && (0 <=? x) && (x <? w) && (0 <=? y) && (y <? h).

Lemma fill_ok b rx ry rw rh v : bm_wf b -> in_i32 rx -> in_i32 ry ->
  0 <= rx + rw <= INT_MAX -> 0 <= ry + rh <= INT_MAX ->
  exists m, fill b rx ry rw rh v = Ok m /\
    bits_after b m (fun x y => if in_roi rx ry rw rh (mw b) (mh b) x y then v else mask_bit b x y).
Proof.
  intros H Hrx Hry Hxw Hyh.
  assert (G : exists m, fill b rx ry rw rh v = Ok m /\
    fill_bits v (in_roi rx ry rw rh (mw b) (mh b)) (mstride b) (mdata b) m).
  { unfold fill. rewrite check_lock_ok by exact H. cbn [bind].
    destruct H as (Hw & Hh & Hs & Hz & Hb).
    rewrite !fill_edge by lia.
    destruct (negb (in_i32b (rx + rw) && in_i32b (ry + rh))) eqn:E.
    { unfold in_i32b, INT_MIN, INT_MAX in *. lia. }
    unfold in_i32, INT_MIN, INT_MAX, UINT_MAX in *. clear E.
    set (x1 := Z.max rx 0). set (y1 := Z.max ry 0).
    set (x2 := Z.min (rx + rw) (mw b)). set (y2 := Z.min (ry + rh) (mh b)).
    assert (SEL : forall x y, 0 <= x -> 0 <= y ->
      in_roi rx ry rw rh (mw b) (mh b) x y = (y1 <=? y) && (y <? y2) && (x1 <=? x) && (x <? x2)).
    { intros x y Hx Hy. unfold in_roi. subst x1 y1 x2 y2. lia. }
    assert (Hx1 : 0 <= x1) by (subst x1; lia). assert (Hy1 : 0 <= y1) by (subst y1; lia).
    assert (Hx2 : x2 <= mw b) by (subst x2; lia). assert (Hy2 : y2 <= mh b) by (subst y2; lia).
    clearbody x1 y1 x2 y2. clear Hrx Hry Hxw Hyh.
    destruct ((x2 - x1 <=? 0) || (y2 - y1 <=? 0)) eqn:E.
    { exists (mdata b). split; [reflexivity|]. apply (fill_bits_ext v (fun _ _ => false)); [now apply fill_bits_refl|].
      intros x y Hx Hy. rewrite SEL by lia. lia. }
    assert (Lx : x1 < x2) by lia. assert (Ly : y1 < y2) by lia. clear E.
    assert (ROW : (y1 + (y2 - y1) - 1) * mstride b <= mstride b * (mh b - 1)) by nia.
    set (x1u := (x1 + 7) / 8 * 8). set (wr := x2 - x1 - (x1u - x1)).
    (* bulk *)
    match goal with |- exists m, bind ?X _ = _ /\ _ => set (bulk := X) end.
    assert (S1 : exists m, bulk = Ok m /\
      fill_bits v (sel_rows y1 (y2 - y1) x1u (if 8 <=? wr then x1u + wr / 8 * 8 else x1u)) (mstride b) (mdata b) m).
    { subst bulk. destruct (Z.leb_spec 8 wr) as [L|L].
      - destruct (bulk_step v y1 (x1u / 8) (mstride b) (msize b) (wr / 8) (y2 - y1) (mdata b)) as (m & Em & F);
          [exact Hb|lia|subst x1u; lia|lia|subst x1u wr; lia|lia|subst x1u wr; lia|].
        exists m. split; [exact Em|]. apply (fill_bits_ext _ _ _ _ _ _ F). intros x y Hx Hy. unfold sel_rows.
        subst x1u wr; lia.
      - exists (mdata b). split; [reflexivity|]. apply (fill_bits_ext v (fun _ _ => false)); [now apply fill_bits_refl|].
        intros x y Hx Hy. unfold sel_rows. lia. }
    clearbody bulk. destruct S1 as (m1 & -> & F1). cbn [bind].
    (* left border *)
    match goal with |- exists m, bind ?X _ = _ /\ _ => set (left := X) end.
    assert (S2 : exists m, left = Ok m /\
      fill_bits v (if x1 mod 8 =? 0 then (fun _ _ => false)
                   else sel_rows y1 (y2 - y1) x1 (Z.min (x1 / 8 * 8 + 8) x2)) (mstride b) m1 m).
    { subst left. destruct (Z.eqb_spec (x1 mod 8) 0) as [R|R]; cbn [negb].
      - exists m1. split; [reflexivity|]. apply fill_bits_refl. apply F1.
      - cbv zeta. edestruct (border_step v (Z.shiftr (if 8 <=? x2 - x1 then 255 else u8 (Z.shiftl 255 (8 - (x2 - x1)))) (x1 mod 8))
          y1 (x1 / 8) (mstride b) (msize b) (y2 - y1) m1 (x1 mod 8) (Z.min 8 (x1 mod 8 + (x2 - x1)))) as (m & Em & F);
          [apply F1| |lia|lia|lia|lia|lia|lia| |].
        + destruct (8 <=? x2 - x1).
          * apply bits_byte; [apply Z.shiftr_nonneg; lia|]. intros n Hn. rewrite Z.shiftr_spec by lia.
            apply testbit_small; [unfold is_byte; lia|lia].
          * apply bits_byte; [apply Z.shiftr_nonneg; apply u8_byte|]. intros n Hn. rewrite Z.shiftr_spec by lia.
            apply testbit_small; [apply u8_byte|lia].
        + intros p Hp. rewrite left_border_bits by lia. lia.
        + exists m. split; [exact Em|]. apply (fill_bits_ext _ _ _ _ _ _ F). intros x y Hx Hy. unfold sel_rows. lia. }
    clearbody left. destruct S2 as (m2 & -> & F2). cbn [bind].
    pose proof (fill_bits_trans _ _ _ _ _ _ _ F1 F2) as F12. clear F1 F2.
    (* right border *)
    match goal with |- exists m, ?X = _ /\ _ => set (right := X) end.
    assert (S3 : exists m, right = Ok m /\
      fill_bits v (if (x1 mod 8 =? 0) || (x1 / 8 <? x2 / 8) then sel_rows y1 (y2 - y1) (x2 / 8 * 8) x2
                   else (fun _ _ => false)) (mstride b) m2 m).
    { subst right. destruct ((x1 mod 8 =? 0) || (x1 / 8 <? x2 / 8)) eqn:C.
      - destruct (Z.eqb_spec (x2 mod 8) 0) as [R|R]; cbn [negb].
        + exists m2. split; [reflexivity|]. apply (fill_bits_ext v (fun _ _ => false)); [apply fill_bits_refl; apply F12|].
          intros x y Hx Hy. unfold sel_rows. lia.
        + cbv zeta. edestruct (border_step v (u8 (Z.shiftl 255 (8 - x2 mod 8)))
            y1 (x2 / 8) (mstride b) (msize b) (y2 - y1) m2 0 (x2 mod 8)) as (m & Em & F);
            [apply F12|apply u8_byte|lia|lia|lia|lia|lia|lia| |].
          * intros p Hp. rewrite right_border_bits by lia. lia.
          * exists m. split; [exact Em|]. apply (fill_bits_ext _ _ _ _ _ _ F). intros x y Hx Hy. unfold sel_rows. lia.
      - exists m2. split; [reflexivity|]. apply fill_bits_refl. apply F12. }
    clearbody right. destruct S3 as (m3 & -> & F3).
    exists m3. split; [reflexivity|].
    apply (fill_bits_ext _ _ _ _ _ _ (fill_bits_trans _ _ _ _ _ _ _ F12 F3)).
    intros x y Hx Hy. rewrite SEL by lia. clear F12 F3 SEL ROW.
    subst x1u wr. unfold sel_rows.
    destruct (Z.eqb_spec (x1 mod 8) 0) as [R|R].
    - rewrite orb_true_l. destruct (Z.leb_spec 8 (x2 - x1 - ((x1 + 7) / 8 * 8 - x1))); lia.
    - rewrite orb_false_l.
      destruct (Z.ltb_spec (x1 / 8) (x2 / 8)); destruct (Z.leb_spec 8 (x2 - x1 - ((x1 + 7) / 8 * 8 - x1))); lia. }
  destruct G as (m & E & B & F). exists m. split; [exact E|]. split; [exact B|].
  intros x y Hx Hy. rewrite mask_bit_with, F by lia. unfold mask_bit.
  replace (8 * (x / 8) + x mod 8) with x by lia. reflexivity.
Qed.
