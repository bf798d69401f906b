(** The digest computed is that of RFC 1321, however the data is split into pieces. *)
From Verif Require Import Base RectModel CopyModel CopyProofs Md5Model Md5Spec.
Open Scope Z_scope.

(** ** Words *)
Definition word32 (x : Z) : Prop := 0 <= x < 2 ^ 32.
Lemma u32_word x : word32 (u32 x). Proof. unfold word32, u32. apply Z.mod_pos_bound. reflexivity. Qed.
Lemma u32_id x : word32 x -> u32 x = x. Proof. intros H. apply Z.mod_small, H. Qed.
Lemma word_high x n : word32 x -> 32 <= n -> Z.testbit x n = false.
Proof. intros H L. rewrite <- (u32_id x H). unfold u32. apply Z.mod_pow2_bits_high. lia. Qed.
Lemma not32_lnot x : word32 x -> not32 x = u32 (Z.lnot x).
Proof. intros H. unfold not32, u32, Z.lnot, word32 in *. change (2 ^ 32) with 4294967296 in *. lia. Qed.
Lemma u32_lnot_bits x n : 0 <= n -> Z.testbit (u32 (Z.lnot x)) n = (n <? 32) && negb (Z.testbit x n).
Proof.
  intros H. unfold u32. destruct (n <? 32) eqn:E.
  - rewrite Z.mod_pow2_bits_low by lia. apply Z.lnot_spec, H.
  - apply Z.mod_pow2_bits_high. lia.
Qed.
Ltac bits := apply Z.bits_inj'; intros n Hn; repeat rewrite ?Z.lxor_spec, ?Z.land_spec, ?Z.lor_spec, ?u32_lnot_bits by exact Hn.
Lemma mF_ok x y z : word32 x -> word32 y -> word32 z -> mF x y z = rF x y z.
Proof.
  intros Hx Hy Hz. unfold mF, rF. rewrite not32_lnot by assumption. bits. destruct (n <? 32) eqn:E.
  - now destruct (Z.testbit x n), (Z.testbit y n), (Z.testbit z n).
  - rewrite !(word_high _ n) by (assumption || lia). reflexivity.
Qed.
Lemma mG_ok x y z : word32 x -> word32 y -> word32 z -> mG x y z = rG x y z.
Proof.
  intros Hx Hy Hz. unfold mG, rG. rewrite not32_lnot by assumption. bits. destruct (n <? 32) eqn:E.
  - now destruct (Z.testbit x n), (Z.testbit y n), (Z.testbit z n).
  - rewrite !(word_high _ n) by (assumption || lia). reflexivity.
Qed.
Lemma mI_ok x y z : word32 z -> mI x y z = rI x y z.
Proof. intros Hz. unfold mI, rI. now rewrite not32_lnot by assumption. Qed.
Lemma lor_add a b k : 0 <= k -> a mod 2 ^ k = 0 -> 0 <= b < 2 ^ k -> Z.lor a b = a + b.
Proof.
  intros Hk Ha Hb. symmetry. assert (L : Z.land a b = 0).
  { apply Z.bits_inj'. intros n Hn. rewrite Z.land_spec, Z.bits_0. destruct (Z_lt_le_dec n k) as [L|L].
    - rewrite <- (Z.mod_pow2_bits_low a k n) by lia. rewrite Ha, Z.bits_0. reflexivity.
    - rewrite <- (Z.mod_small b (2 ^ k)) by assumption. rewrite (Z.mod_pow2_bits_high b k n) by lia. apply andb_false_r. }
  rewrite Z.add_nocarry_lxor by exact L. apply Z.lxor_lor, L.
Qed.
Lemma rotl_ok x s : word32 x -> 0 < s < 32 -> rotate_left x s = rotl x s.
Proof.
  intros Hx Hs. unfold rotate_left, rotl, u32. rewrite Z.shiftl_mul_pow2, Z.shiftr_div_pow2 by lia. apply (lor_add _ _ s); [lia| |].
  - replace (2 ^ 32) with (2 ^ s * 2 ^ (32 - s)) by (rewrite <- Z.pow_add_r by lia; f_equal; lia).
    rewrite <- Znumtheory.Zmod_div_mod; [apply Z_mod_mult|lia|apply Z.mul_pos_pos; apply Z.pow_pos_nonneg; lia|]. exists (2 ^ (32 - s)). ring.
  - split; [apply Z.div_pos; [apply Hx|apply Z.pow_pos_nonneg; lia]|]. apply Z.div_lt_upper_bound; [apply Z.pow_pos_nonneg; lia|]. rewrite <- Z.pow_add_r by lia. replace (32 - s + s) with 32 by lia. apply Hx.
Qed.

(** ** One block *)
Definition reg_at (i j : nat) : reg := nth ((j + 4 - i mod 4) mod 4) [Ra; Rb; Rc] Rd.
Definition gen (i : nat) : step :=
  St (nth (i / 16) [FF; FG; FH] FI) (reg_at i 0) (reg_at i 1) (reg_at i 2) (reg_at i 3) (if (i <? 16)%nat then SET i else GET (round_k i)) (sine (i + 1)) (round_s i).
Lemma steps_gen : md5_steps = map gen (seq 0 64).
Proof. vm_cast_no_check (@eq_refl (list step) md5_steps). Qed.
Definition view (i : nat) (r : regs) : words := (rget r (reg_at i 0), rget r (reg_at i 1), rget r (reg_at i 2), rget r (reg_at i 3)).
Definition words_ok (s : words) : Prop := let '(a, b, c, d) := s in word32 a /\ word32 b /\ word32 c /\ word32 d.
Lemma fn_gen i : (i < 64)%nat -> forall x y z, word32 x -> word32 y -> word32 z -> fn_of (nth (i / 16) [FF; FG; FH] FI) x y z = round_fn i x y z.
Proof.
  intros H x y z Hx Hy Hz. unfold round_fn. assert (C : (i / 16 = 0 \/ i / 16 = 1 \/ i / 16 = 2 \/ i / 16 = 3)%nat) by (assert (i / 16 < 4)%nat by (apply Nat.div_lt_upper_bound; lia); lia).
  destruct C as [->|[->|[->| ->]]]; cbn [nth fn_of]; [now apply mF_ok|now apply mG_ok|reflexivity|now apply mI_ok].
Qed.
Lemma round_s_range i : (i < 64)%nat -> 0 < round_s i < 32.
Proof.
  intros H. unfold round_s. assert (C : (i / 16 = 0 \/ i / 16 = 1 \/ i / 16 = 2 \/ i / 16 = 3)%nat) by (assert (i / 16 < 4)%nat by (apply Nat.div_lt_upper_bound; lia); lia).
  assert (D : (i mod 4 = 0 \/ i mod 4 = 1 \/ i mod 4 = 2 \/ i mod 4 = 3)%nat) by (pose proof (Nat.mod_upper_bound i 4); lia).
  destruct C as [->|[->|[->| ->]]], D as [->|[->|[->| ->]]]; cbn [nth]; lia.
Qed.
Lemma byte_sum a b c d : is_byte a -> is_byte b -> is_byte c -> is_byte d ->
  Z.lor (Z.lor (Z.lor a (Z.shiftl b 8)) (Z.shiftl c 16)) (Z.shiftl d 24) = a + 256 * (b + 256 * (c + 256 * (d + 256 * 0))).
Proof.
  unfold is_byte. intros Ha Hb Hc Hd. rewrite !Z.shiftl_mul_pow2 by lia. change (2 ^ 8) with 256. change (2 ^ 16) with 65536. change (2 ^ 24) with 16777216.
  rewrite (Z.lor_comm a), (lor_add (b * 256) a 8) by (try change (2 ^ 8) with 256; lia).
  rewrite (Z.lor_comm (b * 256 + a)), (lor_add (c * 65536) _ 16) by (try change (2 ^ 16) with 65536; lia).
  rewrite (Z.lor_comm (c * 65536 + (b * 256 + a))), (lor_add (d * 16777216) _ 24) by (try change (2 ^ 24) with 16777216; lia). lia.
Qed.
Lemma nth_byte (l : bytes) n : Forall is_byte l -> is_byte (nth n l 0).
Proof. intros H. destruct (Nat.lt_ge_cases n (length l)) as [L|L]; [|rewrite nth_overflow by exact L; unfold is_byte; lia]. rewrite Forall_forall in H. apply H, nth_In, L. Qed.
Lemma skipn_cons_nth (l : bytes) n : (n < length l)%nat -> skipn n l = nth n l 0 :: skipn (S n) l.
Proof. revert n. induction l as [|a l IH]; intros n H; cbn [length] in H; [lia|]. destruct n as [|n]; [reflexivity|]. cbn [skipn nth]. apply IH. lia. Qed.
Lemma word_at_ok ptr n : Forall is_byte ptr -> length ptr = 64%nat -> (n < 16)%nat -> word_at ptr n = nth n (block_words ptr) 0.
Proof.
  intros B L H. unfold block_words. set (g := fun n => unle (firstn 4 (skipn (4 * n) ptr))). rewrite (nth_indep _ 0 (g 0%nat)) by (rewrite map_length, seq_length; exact H).
  rewrite map_nth, seq_nth by exact H. cbn [Nat.add]. unfold g. unfold word_at. rewrite byte_sum by (apply nth_byte; exact B).
  replace (4 * n)%nat with (n * 4)%nat by lia.
  assert (Q1 : (n * 4 < length ptr)%nat) by (rewrite L; lia). assert (Q2 : (S (n * 4) < length ptr)%nat) by (rewrite L; lia). assert (Q3 : (S (S (n * 4)) < length ptr)%nat) by (rewrite L; lia). assert (Q4 : (S (S (S (n * 4))) < length ptr)%nat) by (rewrite L; lia).
  rewrite (skipn_cons_nth ptr _ Q1), (skipn_cons_nth ptr _ Q2), (skipn_cons_nth ptr _ Q3), (skipn_cons_nth ptr _ Q4).
  cbn [firstn unle]. replace (n * 4 + 1)%nat with (S (n * 4)) by lia. replace (n * 4 + 2)%nat with (S (S (n * 4))) by lia. replace (n * 4 + 3)%nat with (S (S (S (n * 4)))) by lia. reflexivity.
Qed.
Lemma set_block_ok blk i v (X : list Z) : length blk = 16%nat -> (i < 16)%nat -> v = nth i X 0 -> (forall k, (k < i)%nat -> nth k blk 0 = nth k X 0) ->
  length (set_block blk i v) = 16%nat /\ forall k, (k < S i)%nat -> nth k (set_block blk i v) 0 = nth k X 0.
Proof.
  intros L H -> K. unfold set_block. split.
  - rewrite app_length, firstn_length. cbn [length]. rewrite skipn_length. lia.
  - intros k Hk. destruct (Nat.eq_dec k i) as [->|D].
    + rewrite app_nth2; rewrite firstn_length; [|lia]. replace (i - Nat.min i (length blk))%nat with 0%nat by lia. reflexivity.
    + rewrite app_nth1 by (rewrite firstn_length; lia). rewrite <- (K k) by lia. rewrite <- (firstn_skipn i blk) at 2. rewrite app_nth1 by (rewrite firstn_length; lia). reflexivity.
Qed.
Definition blk_ok (ptr : bytes) (i : nat) (blk : list Z) : Prop := length blk = 16%nat /\ forall k, (k < i)%nat -> (k < 16)%nat -> nth k blk 0 = nth k (block_words ptr) 0.
Lemma rot_views i : (i < 64)%nat -> forall r v, view (S i) (rset r (reg_at i 0) v) = let '(a, b, c, d) := view i r in (d, v, b, c).
Proof.
  intros H [[[a b] c] d] v. unfold view, reg_at. replace (S i) with (i + 1)%nat by lia. rewrite (Nat.add_mod i 1 4) by lia.
  assert (D : (i mod 4 = 0 \/ i mod 4 = 1 \/ i mod 4 = 2 \/ i mod 4 = 3)%nat) by (pose proof (Nat.mod_upper_bound i 4); lia).
  destruct D as [->|[->|[->| ->]]]; reflexivity.
Qed.
Lemma round_k_range i : (round_k i < 16)%nat. Proof. unfold round_k. apply Nat.mod_upper_bound. lia. Qed.
Lemma sum32 a f x t : u32 (a + (f + x + t)) = add32 a (add32 f (add32 x t)).
Proof. unfold add32, u32. rewrite (Zplus_mod_idemp_r (x + t) f), (Zplus_mod_idemp_r (f + (x + t)) a). f_equal. lia. Qed.
Lemma step_ok ptr i blk r : Forall is_byte ptr -> length ptr = 64%nat -> (i < 64)%nat -> blk_ok ptr i blk -> words_ok (view i r) ->
  exists blk' r', do_step ptr (blk, r) (gen i) = (blk', r') /\ blk_ok ptr (S i) blk' /\ view (S i) r' = round (block_words ptr) (view i r) i /\ words_ok (view (S i) r').
Proof.
  intros B L H [Lb K] W. unfold do_step. cbn [gen s_x s_f s_1 s_2 s_3 s_4 s_t s_s].
  assert (Hw : exists blk', (if (i <? 16)%nat then SET i else GET (round_k i)) = (if (i <? 16)%nat then SET i else GET (round_k i)) /\
    match (if (i <? 16)%nat then SET i else GET (round_k i)) with SET n => (set_block blk n (word_at ptr n), word_at ptr n) | GET n => (blk, nth n blk 0) end = (blk', nth (round_k i) (block_words ptr) 0) /\ blk_ok ptr (S i) blk').
  { destruct (i <? 16)%nat eqn:E; eexists; (split; [reflexivity|]); (split; [reflexivity||f_equal|]).
    - rewrite word_at_ok by (assumption || lia). unfold round_k. rewrite (Nat.div_small i 16) by lia. cbn [nth]. rewrite Nat.mod_small by lia. reflexivity.
    - destruct (set_block_ok blk i (word_at ptr i) (block_words ptr)) as [S1 S2]; [exact Lb|lia|apply word_at_ok; assumption || lia|intros k Hk; apply K; lia|]. split; [exact S1|]. intros k Hk _. apply S2, Hk.
    - pose proof (round_k_range i). apply K; lia.
    - split; [exact Lb|]. intros k _ Hk. apply K; lia. }
  destruct Hw as (blk' & _ & -> & Hb). eexists _, _. split; [reflexivity|]. split; [exact Hb|].
  rewrite rot_views by exact H. unfold view at 1 2 3. unfold words_ok, view in W. destruct W as (W1 & W2 & W3 & W4). unfold round.
  rewrite fn_gen by assumption. rewrite rotl_ok by (apply u32_word || apply round_s_range, H).
  split; [|repeat split; apply W4 || apply u32_word || apply W2 || apply W3]. rewrite sum32. unfold add32 at 1. unfold u32. now rewrite Z.add_comm.
Qed.
Lemma steps_ok ptr : Forall is_byte ptr -> length ptr = 64%nat -> forall n blk r, (n <= 64)%nat -> length blk = 16%nat -> words_ok r ->
  exists blk' r', fold_left (do_step ptr) (map gen (seq 0 n)) (blk, r) = (blk', r') /\ blk_ok ptr n blk' /\ view n r' = fold_left (round (block_words ptr)) (seq 0 n) r /\ words_ok (view n r').
Proof.
  intros B L n blk r H Lb W. induction n as [|n IH].
  - exists blk, r. split; [reflexivity|]. destruct r as [[[a b] c] d]. split; [split; [exact Lb|lia]|]. split; [reflexivity|exact W].
  - destruct IH as (blk1 & r1 & E & K & V & W1); [lia|]. rewrite seq_S, map_app, !fold_left_app, E. cbn [map fold_left Nat.add].
    destruct (step_ok ptr n blk1 r1) as (blk2 & r2 & E2 & K2 & V2 & W2); try assumption. exists blk2, r2. rewrite E2, V2, V. split; [reflexivity|]. split; [exact K2|]. split; [reflexivity|]. rewrite V2, V in W2. exact W2.
Qed.
Definition state (x : ctx) : words := (x_a x, x_b x, x_c x, x_d x).
Definition same_rest (x x' : ctx) : Prop := x_low x' = x_low x /\ x_high x' = x_high x /\ x_input x' = x_input x.
Lemma block_ok x ptr : Forall is_byte ptr -> length ptr = 64%nat -> length (x_block x) = 16%nat -> words_ok (state x) ->
  state (md5_block x ptr) = compress (state x) ptr /\ same_rest x (md5_block x ptr) /\ length (x_block (md5_block x ptr)) = 16%nat /\ words_ok (state (md5_block x ptr)).
Proof.
  intros B L Lb W. unfold md5_block. rewrite steps_gen.
  destruct (steps_ok ptr B L 64 (x_block x) (state x) (le_n _) Lb W) as (blk' & [[[a b] c] d] & E & [K _] & V & W').
  match goal with |- context [fold_left (do_step ptr) ?l ?s] => replace (fold_left (do_step ptr) l s) with (blk', (a, b, c, d)) by (symmetry; exact E) end. cbn [state x_a x_b x_c x_d x_low x_high x_input x_block same_rest]. unfold compress, state in *. rewrite <- V. unfold view. change (reg_at 64 0) with Ra. change (reg_at 64 1) with Rb. change (reg_at 64 2) with Rc. change (reg_at 64 3) with Rd. cbn [rget].
  split; [|split; [repeat split|split; [exact K|repeat split; apply u32_word]]]. cbn [x_a x_b x_c x_d]. unfold add32, u32. rewrite (Z.add_comm a), (Z.add_comm b), (Z.add_comm c), (Z.add_comm d). reflexivity.
Qed.

(** ** Many blocks *)
Lemma firstn_bytes n (m : bytes) : Forall is_byte m -> Forall is_byte (firstn n m).
Proof. intros H. apply Forall_forall. intros a Ha. rewrite Forall_forall in H. apply H. rewrite <- (firstn_skipn n m). apply in_or_app. now left. Qed.
Lemma skipn_bytes n (m : bytes) : Forall is_byte m -> Forall is_byte (skipn n m).
Proof. intros H. apply Forall_forall. intros a Ha. rewrite Forall_forall in H. apply H. rewrite <- (firstn_skipn n m). apply in_or_app. now right. Qed.
Lemma skipn_skipn' {A} a b (m : list A) : skipn a (skipn b m) = skipn (b + a) m.
Proof. revert m. induction b as [|b IH]; intros m; [reflexivity|]. destruct m; [now rewrite !skipn_nil|]. cbn [skipn Nat.add]. apply IH. Qed.
Lemma compress_all_add n k s m : compress_all (n + k) s m = compress_all k (compress_all n s m) (skipn (64 * n) m).
Proof.
  revert s m. induction n as [|n IH]; intros s m; [reflexivity|]. cbn [Nat.add compress_all]. rewrite IH, skipn_skipn'. f_equal. f_equal. lia.
Qed.
Lemma compress_all_firstn n s m m' : firstn (64 * n) m = firstn (64 * n) m' -> compress_all n s m = compress_all n s m'.
Proof.
  revert s m m'. induction n as [|n IH]; intros s m m' H; [reflexivity|]. cbn [compress_all].
  assert (E : forall l : bytes, firstn 64 l = firstn 64 (firstn (64 * S n) l)) by (intros l; rewrite firstn_firstn; f_equal; lia).
  rewrite (E m), (E m'), H. apply IH. rewrite !(firstn_skipn_comm (64 * n) 64). replace (64 + 64 * n)%nat with (64 * S n)%nat by lia. now rewrite H.
Qed.
Lemma transform_ok : forall n x (data : bytes) fuel, (1 <= n)%nat -> Z.of_nat n < 2 ^ 58 -> (64 * n <= length data)%nat -> (n <= fuel)%nat -> Forall is_byte data ->
  length (x_block x) = 16%nat -> words_ok (state x) ->
  exists x', md5_transform fuel x data (64 * Z.of_nat n) = Ok (x', skipn (64 * n) data) /\ state x' = compress_all n (state x) data /\ same_rest x x' /\ length (x_block x') = 16%nat /\ words_ok (state x').
Proof.
  induction n as [|n IH]; intros x data fuel H1 H2 H3 H4 B Lb W; [lia|]. destruct fuel as [|fuel]; [lia|]. cbn [md5_transform].
  replace (length data <? 64)%nat with false by lia.
  destruct (block_ok x (firstn 64 data)) as (E & R & Lb' & W'); [now apply firstn_bytes|rewrite firstn_length; lia|exact Lb|exact W|].
  change (2 ^ 58) with 288230376151711744 in *. unfold u64. change (2 ^ 64) with 18446744073709551616.
  replace ((64 * Z.of_nat (S n) - 64) mod 18446744073709551616) with (64 * Z.of_nat n) by lia.
  destruct (64 * Z.of_nat n =? 0) eqn:E0.
  - replace n with 0%nat by lia. eexists. split; [reflexivity|]. cbn [compress_all]. auto.
  - destruct (IH (md5_block x (firstn 64 data)) (skipn 64 data) fuel) as (x' & T & E' & R' & L'' & W''); try assumption; try lia; [rewrite skipn_length; lia|now apply skipn_bytes|].
    exists x'. rewrite T, skipn_skipn'. replace (64 + 64 * n)%nat with (64 * S n)%nat by lia. split; [reflexivity|]. cbn [compress_all]. split; [rewrite E', E; reflexivity|].
    split; [|split; assumption]. destruct R as (R1 & R2 & R3), R' as (R1' & R2' & R3'). repeat split; congruence.
Qed.
Lemma transform_1 x (data : bytes) : length data = 64%nat -> Forall is_byte data -> length (x_block x) = 16%nat -> words_ok (state x) ->
  exists x' rest, transform x data 64 = Ok (x', rest) /\ state x' = compress (state x) data /\ same_rest x x' /\ length (x_block x') = 16%nat /\ words_ok (state x').
Proof.
  intros L B Lb W. destruct (transform_ok 1 x data (S (length data))) as (x' & T & E & R); try assumption; try lia. exists x', (skipn (64 * 1) data). split; [exact T|]. split; [|exact R].
  rewrite E. cbn [compress_all]. rewrite firstn_all2 by (rewrite L; lia). reflexivity.
Qed.

(** ** Pieces *)
Record holds (x : ctx) (m : bytes) : Prop := {
  h_input : length (x_input x) = 64%nat;
  h_bytes : Forall is_byte m;
  h_block : length (x_block x) = 16%nat;
  h_words : words_ok (state x);
  h_low : x_low x = Z.of_nat (length m) mod 2 ^ 29;
  h_high : x_high x = (Z.of_nat (length m) / 2 ^ 29) mod 2 ^ 32;
  h_state : state x = compress_all (length m / 64) start m;
  h_rest : firstn (length m mod 64) (x_input x) = skipn (64 * (length m / 64)) m }.
Lemma init_holds input block : length input = 64%nat -> length block = 16%nat -> holds (md5_init input block) [].
Proof. intros Hi Hb. constructor; try assumption; try reflexivity; [constructor|]. repeat split; vm_compute; congruence. Qed.
Lemma land_ones_mod z n : 0 <= n -> Z.land z (2 ^ n - 1) = z mod 2 ^ n.
Proof. intros H. rewrite <- Z.land_ones by exact H. f_equal. rewrite Z.ones_equiv. lia. Qed.
Lemma store_prefix x a v : length (x_input x) = 64%nat -> firstn (length a) (x_input x) = a -> (length a + length v <= 64)%nat ->
  exists i, store x (Z.of_nat (length a)) v = Ok (with_input x i) /\ length i = 64%nat /\ firstn (length (a ++ v)) i = a ++ v.
Proof.
  intros L H1 H2. unfold store. replace ((0 <=? Z.of_nat (length a)) && (Z.of_nat (length a) + Z.of_nat (length v) <=? 64)) with true by lia. eexists. split; [reflexivity|].
  rewrite Nat2Z.id, H1. split.
  - rewrite !app_length, skipn_length, L. lia.
  - rewrite app_assoc, firstn_app, Nat.sub_diag, firstn_all. apply app_nil_r.
Qed.
Lemma mask_ok z : 0 <= z < 2 ^ 32 -> Z.land z (u32 (Z.lnot 0x3f)) = 64 * (z / 64).
Proof.
  intros H. replace (64 * (z / 64)) with (Z.shiftl (Z.shiftr z 6) 6) by (rewrite Z.shiftl_mul_pow2, Z.shiftr_div_pow2 by lia; change (2 ^ 6) with 64; lia).
  change (u32 (Z.lnot 63)) with (Z.shiftl (Z.ones 26) 6). apply Z.bits_inj'. intros n Hn. rewrite Z.land_spec. destruct (Z_lt_le_dec n 6) as [L|L].
  - rewrite !Z.shiftl_spec_low by lia. apply andb_false_r.
  - rewrite !Z.shiftl_spec by lia. rewrite Z.shiftr_spec by lia. replace (n - 6 + 6) with n by lia. destruct (Z_lt_le_dec n 32) as [L'|L'].
    + rewrite Z.ones_spec_low by lia. apply andb_true_r.
    + rewrite (word_high z n) by (exact H || lia). reflexivity.
Qed.
Lemma rest_ok x (p buf : bytes) : (length p mod 64 = 0)%nat -> Forall is_byte buf -> Z.of_nat (length buf) < 2 ^ 32 -> length (x_input x) = 64%nat -> length (x_block x) = 16%nat -> words_ok (state x) ->
  state x = compress_all (length p / 64) start p ->
  exists x', md5_rest x buf = Ok x' /\ x_low x' = x_low x /\ x_high x' = x_high x /\ length (x_input x') = 64%nat /\ length (x_block x') = 16%nat /\ words_ok (state x') /\
    state x' = compress_all (length (p ++ buf) / 64) start (p ++ buf) /\ firstn (length (p ++ buf) mod 64) (x_input x') = skipn (64 * (length (p ++ buf) / 64)) (p ++ buf).
Proof.
  intros Hp B Hn Li Lb W E. set (q := (length p / 64)%nat) in *. set (k := (length buf / 64)%nat).
  assert (Lp : length p = (64 * q)%nat) by (pose proof (Nat.div_mod_eq (length p) 64); unfold q; lia).
  assert (D1 : (length (p ++ buf) / 64 = q + k)%nat) by (rewrite app_length, Lp, (Nat.mul_comm 64 q), Nat.div_add_l by lia; reflexivity).
  assert (D2 : (length (p ++ buf) mod 64 = length buf mod 64)%nat) by (rewrite app_length, Lp, (Nat.mul_comm 64 q), Nat.add_comm, Nat.mod_add by lia; reflexivity).
  assert (D3 : compress_all (length (p ++ buf) / 64) start (p ++ buf) = compress_all k (state x) buf).
  { rewrite D1, compress_all_add. rewrite (compress_all_firstn q start (p ++ buf) p). 2: { rewrite <- Lp, firstn_app, Nat.sub_diag, firstn_all. cbn [firstn]. apply app_nil_r. }
    rewrite E. f_equal. rewrite <- Lp, skipn_app, skipn_all, Nat.sub_diag. reflexivity. }
  assert (D4 : skipn (64 * (length (p ++ buf) / 64)) (p ++ buf) = skipn (64 * k) buf).
  { rewrite D1, skipn_app, skipn_all2 by (rewrite Lp; lia). cbn [app]. f_equal. rewrite Lp. lia. }
  assert (Lk : length (skipn (64 * k) buf) = (length buf mod 64)%nat) by (rewrite skipn_length; pose proof (Nat.div_mod_eq (length buf) 64); unfold k; lia).
  assert (Hm : Z.of_nat (length buf) mod 64 = Z.of_nat (length buf mod 64)) by (rewrite Nat2Z.inj_mod; reflexivity).
  assert (Hr : (length buf mod 64 < 64)%nat) by (apply Nat.mod_upper_bound; lia).
  assert (T : exists x1, (if 64 <=? Z.of_nat (length buf) then transform x buf (Z.land (Z.of_nat (length buf)) (u32 (Z.lnot 63))) else Ok (x, buf)) = Ok (x1, skipn (64 * k) buf) /\
    state x1 = compress_all k (state x) buf /\ same_rest x x1 /\ length (x_block x1) = 16%nat /\ words_ok (state x1)).
  { destruct (64 <=? Z.of_nat (length buf)) eqn:G.
    - rewrite mask_ok by lia. replace (Z.of_nat (length buf) / 64) with (Z.of_nat k) by (unfold k; rewrite Nat2Z.inj_div; reflexivity).
      assert (K1 : (1 <= k)%nat) by (unfold k; apply Nat.div_le_lower_bound; lia). assert (K2 : (64 * k <= length buf)%nat) by (unfold k; apply Nat.mul_div_le; lia).
      change (2 ^ 32) with 4294967296 in Hn. destruct (transform_ok k x buf (S (length buf))) as (x1 & T1 & T2); try assumption; try lia. exists x1. split; [exact T1|exact T2].
    - assert (K0 : k = 0%nat) by (unfold k; apply Nat.div_small; lia). rewrite K0. exists x. split; [reflexivity|]. split; [reflexivity|]. split; [repeat split|]. split; assumption. }
  destruct T as (x1 & T & E1 & (R1 & R2 & R3) & Lb1 & W1). unfold md5_rest. rewrite T. cbn [bind]. rewrite Hm, Lk, Z.leb_refl, Nat2Z.id, (firstn_all2 (skipn (64 * k) buf)) by lia.
  destruct (store_prefix x1 [] (skipn (64 * k) buf)) as (i & Si & Li' & P); [congruence|reflexivity|cbn [length]; lia|]. cbn [length Z.of_nat app] in Si, P. exists (with_input x1 i). split; [exact Si|].
  cbn [with_input x_low x_high x_input x_block]. split; [assumption|]. split; [assumption|]. split; [assumption|]. split; [assumption|]. split; [exact W1|]. split; [rewrite D3; exact E1|]. rewrite D2, D4, <- Lk. exact P.
Qed.
Lemma count_ok N n : 0 <= N -> 0 <= n < 2 ^ 63 -> let low := N mod 2 ^ 29 in let low' := Z.land (u64 (low + n)) 0x1fffffff in
  low' = (N + n) mod 2 ^ 29 /\ u32 ((if low' <? low then u32 ((N / 2 ^ 29) mod 2 ^ 32 + 1) else (N / 2 ^ 29) mod 2 ^ 32) + u32 (Z.shiftr n 29)) = ((N + n) / 2 ^ 29) mod 2 ^ 32.
Proof.
  intros HN Hn low low'. assert (E : low' = (N + n) mod 2 ^ 29).
  { unfold low'. change 0x1fffffff with (2 ^ 29 - 1). rewrite land_ones_mod by lia. unfold u64, low. change (2 ^ 63) with 9223372036854775808 in Hn. change (2 ^ 29) with 536870912. change (2 ^ 64) with 18446744073709551616.
    rewrite (Z.mod_small (N mod 536870912 + n)) by lia. apply Zplus_mod_idemp_l. }
  split; [exact E|]. rewrite E. unfold low, u32. rewrite Z.shiftr_div_pow2 by lia. rewrite Zplus_mod_idemp_r.
  assert (C : (if (N + n) mod 2 ^ 29 <? N mod 2 ^ 29 then ((N / 2 ^ 29) mod 2 ^ 32 + 1) mod 2 ^ 32 else (N / 2 ^ 29) mod 2 ^ 32) = (N / 2 ^ 29 + (if (N + n) mod 2 ^ 29 <? N mod 2 ^ 29 then 1 else 0)) mod 2 ^ 32).
  { destruct ((N + n) mod 2 ^ 29 <? N mod 2 ^ 29); [apply Zplus_mod_idemp_l|now rewrite Z.add_0_r]. }
  rewrite C, Zplus_mod_idemp_l. f_equal. change (2 ^ 29) with 536870912. destruct ((N + n) mod 536870912 <? N mod 536870912) eqn:L; lia.
Qed.
Lemma used_ok N : Z.land (Z.of_nat N mod 2 ^ 29) 63 = Z.of_nat (N mod 64).
Proof. change 63 with (2 ^ 6 - 1). rewrite land_ones_mod by lia. rewrite Nat2Z.inj_mod. change (2 ^ 29) with 536870912. change (2 ^ 6) with 64. change (Z.of_nat 64) with 64. lia. Qed.
Lemma update_ok x m (buf : bytes) : holds x m -> Forall is_byte buf -> Z.of_nat (length buf) < 2 ^ 32 -> exists x', md5_update x buf = Ok x' /\ holds x' (m ++ buf).
Proof.
  intros [Li Bm Lb W Hl Hh Hs Hr] B Hn. unfold md5_update. rewrite Hl, Hh. change (2 ^ 32) with 4294967296 in Hn.
  assert (Hc : 0 <= Z.of_nat (length buf) < 2 ^ 63) by (change (2 ^ 63) with 9223372036854775808; lia).
  destruct (count_ok (Z.of_nat (length m)) (Z.of_nat (length buf))) as [C1 C2]; [lia|exact Hc|]. rewrite C2, C1, used_ok.
  assert (La : Z.of_nat (length m) + Z.of_nat (length buf) = Z.of_nat (length (m ++ buf))) by (rewrite app_length; lia). rewrite La.
  set (x1 := with_count x _ _). assert (Bmb : Forall is_byte (m ++ buf)) by (apply Forall_app; split; assumption).
  set (r := (length m mod 64)%nat) in *. set (q := (length m / 64)%nat) in *. assert (Lm : length m = (64 * q + r)%nat) by (apply Nat.div_mod_eq). assert (Hr64 : (r < 64)%nat) by (apply Nat.mod_upper_bound; lia).
  destruct (Z.of_nat r =? 0) eqn:U.
  - destruct (rest_ok x1 m buf) as (x' & E & R1 & R2 & R3 & R4 & R5 & R6 & R7); try assumption; [fold r; lia|]. exists x'. split; [exact E|]. constructor; assumption.
  - assert (F : u32 (64 - Z.of_nat r) = Z.of_nat (64 - r)) by (unfold u32; change (2 ^ 32) with 4294967296; lia). rewrite F. rewrite Nat2Z.id.
    assert (Lr : length (skipn (64 * q) m) = r) by (rewrite skipn_length; lia).
    destruct (Z.of_nat (length buf) <? Z.of_nat (64 - r)) eqn:G.
    + destruct (store_prefix x1 (skipn (64 * q) m) buf) as (i & S1 & S2 & S3); [exact Li|rewrite Lr; exact Hr|lia|]. rewrite Lr in S1. exists (with_input x1 i). split; [exact S1|].
      assert (D1 : (length (m ++ buf) / 64 = q)%nat) by (rewrite app_length, Lm, <- Nat.add_assoc, (Nat.mul_comm 64 q), Nat.div_add_l, Nat.div_small by lia; lia).
      assert (D2 : (length (m ++ buf) mod 64 = r + length buf)%nat) by (rewrite app_length, Lm, <- Nat.add_assoc, (Nat.mul_comm 64 q), Nat.add_comm, Nat.mod_add, Nat.mod_small by lia; lia).
      constructor; try assumption; try reflexivity.
      * rewrite D1. change (state x = compress_all q start (m ++ buf)). rewrite Hs. apply compress_all_firstn. rewrite firstn_app. replace (64 * q - length m)%nat with 0%nat by lia. cbn [firstn]. now rewrite app_nil_r.
      * rewrite D1, D2. cbn [with_input x_input]. rewrite skipn_app. replace (64 * q - length m)%nat with 0%nat by lia. cbn [skipn]. rewrite app_length, Lr in S3. exact S3.
    + assert (Lf : length (firstn (64 - r) buf) = (64 - r)%nat) by (rewrite firstn_length; lia).
      destruct (store_prefix x1 (skipn (64 * q) m) (firstn (64 - r) buf)) as (i & S1 & S2 & S3); [exact Li|rewrite Lr; exact Hr|lia|]. rewrite Lr in S1. rewrite S1. cbn [bind].
      rewrite app_length, Lr, Lf in S3. replace (r + (64 - r))%nat with 64%nat in S3 by lia. rewrite firstn_all2 in S3 by lia.
      cbn [with_input x_input]. destruct (transform_1 (with_input x1 i) i) as (x2 & rest & T & E2 & (R1 & R2 & R3) & Lb2 & W2); try assumption; [rewrite S3; apply Forall_app; split; [now apply skipn_bytes|now apply firstn_bytes]|].
      rewrite T. cbn [bind]. set (p := m ++ firstn (64 - r) buf). assert (Lp : length p = (64 * (q + 1))%nat) by (unfold p; rewrite app_length; lia).
      destruct (rest_ok x2 p (skipn (64 - r) buf)) as (x' & E & Q1 & Q2 & Q3 & Q4 & Q5 & Q6 & Q7).
      * rewrite Lp, Nat.mul_comm. apply Nat.mod_mul. lia.
      * now apply skipn_bytes.
      * rewrite skipn_length. change (2 ^ 32) with 4294967296. lia.
      * rewrite R3. exact S2.
      * exact Lb2.
      * exact W2.
      * rewrite E2, Lp, Nat.mul_comm, Nat.div_mul by lia. rewrite compress_all_add. cbn [compress_all]. change (state (with_input x1 i)) with (state x). rewrite Hs.
        rewrite (compress_all_firstn q start p m). 2: { unfold p. rewrite firstn_app. replace (64 * q - length m)%nat with 0%nat by lia. cbn [firstn]. now rewrite app_nil_r. }
        f_equal. unfold p. rewrite skipn_app. replace (64 * q - length m)%nat with 0%nat by lia. cbn [skipn]. rewrite S3. symmetry. apply firstn_all2. rewrite app_length. lia.
      * assert (Ep : p ++ skipn (64 - r) buf = m ++ buf) by (unfold p; rewrite <- app_assoc, firstn_skipn; reflexivity). rewrite Ep in Q6, Q7.
        exists x'. split; [exact E|]. constructor; try assumption.
        -- rewrite Q1, R1. reflexivity.
        -- rewrite Q2, R2. reflexivity.
Qed.

(** ** The end *)
Lemma le4_bytes v : [u8 (Z.shiftr v 0); u8 (Z.shiftr v 8); u8 (Z.shiftr v 16); u8 (Z.shiftr v 24)] = le 4 v.
Proof.
  unfold u8. rewrite !Z.shiftr_div_pow2 by lia. change (2 ^ 0) with 1. change (2 ^ 8) with 256. change (2 ^ 16) with (256 * 256). change (2 ^ 24) with (256 * 256 * 256).
  rewrite Z.div_1_r, <- !Z.div_div by lia. reflexivity.
Qed.
Lemma le4_mod v : le 4 (v mod 2 ^ 32) = le 4 v.
Proof.
  cbn [le]. change (2 ^ 32) with 4294967296.
  assert (A : forall a b c d a' b' c' d' : Z, a = a' -> b = b' -> c = c' -> d = d' -> [a; b; c; d] = [a'; b'; c'; d']) by (intros; subst; reflexivity).
  apply A; lia.
Qed.
Lemma le8_split v : le 8 v = le 4 v ++ le 4 (v / 2 ^ 32).
Proof. cbn [le app]. change (2 ^ 32) with (256 * 256 * 256 * 256). rewrite <- !Z.div_div by lia. reflexivity. Qed.
Lemma length_bytes N : 0 <= N -> let low := u32 (Z.shiftl (N mod 2 ^ 29) 3) in let high := (N / 2 ^ 29) mod 2 ^ 32 in
  [u8 (Z.shiftr low 0); u8 (Z.shiftr low 8); u8 (Z.shiftr low 16); u8 (Z.shiftr low 24); u8 (Z.shiftr high 0); u8 (Z.shiftr high 8); u8 (Z.shiftr high 16); u8 (Z.shiftr high 24)] = le 8 (8 * N).
Proof.
  intros H low high. change (le 8 (8 * N)) with (le 8 (8 * N)). rewrite le8_split.
  match goal with |- [?a; ?b; ?c; ?d; ?e; ?f; ?g; ?h] = _ => change [a; b; c; d; e; f; g; h] with ([a; b; c; d] ++ [e; f; g; h]) end. rewrite !le4_bytes. f_equal.
  - rewrite <- (le4_mod (8 * N)). f_equal. unfold low, u32. rewrite Z.shiftl_mul_pow2 by lia. change (2 ^ 29) with 536870912. change (2 ^ 3) with 8. change (2 ^ 32) with 4294967296. lia.
  - rewrite <- (le4_mod (8 * N / 2 ^ 32)). unfold high. f_equal. f_equal. change (2 ^ 29) with 536870912. change (2 ^ 32) with 4294967296. lia.
Qed.
Lemma digest_bytes (a b c d : Z) : flat_map (fun v => [u8 (Z.shiftr v 0); u8 (Z.shiftr v 8); u8 (Z.shiftr v 16); u8 (Z.shiftr v 24)]) [a; b; c; d] = le 4 a ++ le 4 b ++ le 4 c ++ le 4 d.
Proof. cbn [flat_map]. rewrite !le4_bytes, app_nil_r. reflexivity. Qed.
Lemma repeat_bytes n : Forall is_byte (repeat 0 n).
Proof. apply Forall_forall. intros a H. apply repeat_spec in H. subst. unfold is_byte. lia. Qed.
Lemma finish_ok x (p : bytes) s k : length (x_input x) = 64%nat -> x_input x = p -> Forall is_byte p -> length (x_block x) = 16%nat -> words_ok (state x) -> state x = compress_all k start s ->
  firstn 64 (skipn (64 * k) s) = p ->
  exists x' rest, transform x (x_input x) 64 = Ok (x', rest) /\ state x' = compress_all (k + 1) start s /\ same_rest x x' /\ length (x_block x') = 16%nat /\ words_ok (state x').
Proof.
  intros L E B Lb W Es Ep. destruct (transform_1 x (x_input x)) as (x' & rest & T & E' & R & Lb' & W'); try assumption; [now rewrite E|]. exists x', rest. split; [exact T|]. split; [|auto].
  rewrite E', compress_all_add. cbn [compress_all]. rewrite <- Es, Ep, E. reflexivity.
Qed.
Lemma firstn_exact {A} n (a b : list A) : length a = n -> firstn n (a ++ b) = a.
Proof. intros <-. rewrite firstn_app, Nat.sub_diag, firstn_all. apply app_nil_r. Qed.
Lemma skipn_exact {A} n (a b : list A) : length a = n -> skipn n (a ++ b) = b.
Proof. intros <-. rewrite skipn_app, Nat.sub_diag, skipn_all. reflexivity. Qed.
Lemma complete_ok x m : holds x m -> md5_complete x = Ok (md5 m).
Proof.
  intros [Li Bm Lb W Hl Hh Hs Hr]. unfold md5_complete. rewrite Hl, used_ok.
  set (r := (length m mod 64)%nat) in *. set (q := (length m / 64)%nat) in *. assert (Lm : length m = (64 * q + r)%nat) by (apply Nat.div_mod_eq). assert (Hr64 : (r < 64)%nat) by (apply Nat.mod_upper_bound; lia).
  set (t := skipn (64 * q) m) in *. assert (Lt : length t = r) by (unfold t; rewrite skipn_length; lia).
  assert (Bt : Forall is_byte t) by now apply skipn_bytes. assert (B80 : Forall is_byte [128]) by (constructor; [unfold is_byte; lia|constructor]).
  destruct (store_prefix x t [128]) as (i1 & S1 & Li1 & P1); [exact Li|now rewrite Lt|cbn [length]; lia|]. rewrite Lt in S1. rewrite S1. cbn [bind]. clear S1.
  assert (Lt1 : length (t ++ [128]) = (r + 1)%nat) by (rewrite app_length, Lt; reflexivity).
  assert (Fr : u32 (64 - (Z.of_nat r + 1)) = 63 - Z.of_nat r) by (unfold u32; change (2 ^ 32) with 4294967296; lia). rewrite Fr.
  set (L8 := le 8 (8 * Z.of_nat (length m))). assert (B8 : Forall is_byte L8) by apply le_bytes. assert (Ll8 : length L8 = 8%nat) by apply le_length.
  assert (Hq : forall w, firstn (64 * q) (m ++ w) = firstn (64 * q) m) by (intros w; rewrite firstn_app; replace (64 * q - length m)%nat with 0%nat by lia; cbn [firstn]; apply app_nil_r).
  assert (Hsk : forall w, skipn (64 * q) (m ++ w) = t ++ w) by (intros w; rewrite skipn_app; replace (64 * q - length m)%nat with 0%nat by lia; reflexivity).
  destruct (63 - Z.of_nat r <? 8) eqn:C.
  - (* two blocks *)
    destruct (store_prefix (with_input x i1) (t ++ [128]) (repeat 0 (63 - r))) as (i2 & S2 & Li2 & P2); [exact Li1|exact P1|rewrite Lt1, repeat_length; lia|].
    rewrite Lt1 in S2. replace (Z.of_nat r + 1) with (Z.of_nat (r + 1)) by lia. replace (Z.to_nat (63 - Z.of_nat r)) with (63 - r)%nat by lia. rewrite S2. cbn [bind]. clear S2.
    rewrite app_length, Lt1, repeat_length in P2. replace (r + 1 + (63 - r))%nat with 64%nat in P2 by lia. rewrite firstn_all2 in P2 by lia.
    set (s := padded m). assert (Es : s = m ++ [128] ++ repeat 0 (63 - r) ++ repeat 0 56 ++ L8).
    { unfold s, padded. f_equal. f_equal. rewrite app_assoc. f_equal. rewrite <- repeat_app. f_equal. lia. }
    assert (L64 : length ((t ++ [128]) ++ repeat 0 (63 - r)) = 64%nat) by (rewrite app_length, Lt1, repeat_length; lia).
    assert (As : t ++ [128] ++ repeat 0 (63 - r) ++ repeat 0 56 ++ L8 = ((t ++ [128]) ++ repeat 0 (63 - r)) ++ repeat 0 56 ++ L8) by (rewrite <- !app_assoc; reflexivity).
    destruct (finish_ok (with_input (with_input x i1) i2) i2 s q) as (x2 & rest & T & E2 & (R1 & R2 & R3) & Lb2 & W2); try assumption; try reflexivity.
    { rewrite P2. apply Forall_app. split; [apply Forall_app; split; assumption|apply repeat_bytes]. }
    { change (state (with_input (with_input x i1) i2)) with (state x). rewrite Hs. apply compress_all_firstn. rewrite Es. symmetry. apply Hq. }
    { rewrite Es, Hsk, As, P2. apply firstn_exact. exact L64. }
    rewrite T. cbn [bind]. clear T.
    destruct (store_prefix x2 [] (repeat 0 56)) as (i3 & S3 & Li3 & P3); [rewrite R3; exact Li2|reflexivity|rewrite repeat_length; cbn [length]; lia|].
    change (Z.to_nat (u32 (64 - 8))) with 56%nat. change (Z.of_nat (length (@nil byte))) with 0 in S3. rewrite S3. cbn [bind]. clear S3. cbn [app] in P3. rewrite repeat_length in P3.
    change (x_low (with_input x2 i3)) with (x_low x2). change (x_high (with_input x2 i3)) with (x_high x2).
    assert (Hlow : x_low x2 = Z.of_nat (length m) mod 2 ^ 29) by (rewrite R1; exact Hl). assert (Hhigh : x_high x2 = (Z.of_nat (length m) / 2 ^ 29) mod 2 ^ 32) by (rewrite R2; exact Hh).
    rewrite Hlow, Hhigh, length_bytes by lia. fold L8.
    destruct (store_prefix (with_input x2 i3) (repeat 0 56) L8) as (i4 & S4 & Li4 & P4); [exact Li3|rewrite repeat_length; exact P3|rewrite repeat_length; lia|].
    rewrite repeat_length in S4. change (Z.of_nat 56) with 56 in S4. rewrite S4. cbn [bind]. clear S4. rewrite app_length, repeat_length, Ll8 in P4. rewrite firstn_all2 in P4 by lia.
    destruct (finish_ok (with_input (with_input x2 i3) i4) i4 s (q + 1)) as (x5 & rest5 & T5 & E5 & _ & _ & W5); try assumption; try reflexivity.
    { rewrite P4. apply Forall_app. split; [apply repeat_bytes|exact B8]. }
    { rewrite Es, Nat.mul_add_distr_l. rewrite <- skipn_skipn', Hsk, As. change (64 * 1)%nat with 64%nat. rewrite (skipn_exact 64 _ _ L64), P4. apply firstn_all2. rewrite app_length, repeat_length, Ll8. lia. }
    rewrite T5. cbn [bind]. f_equal. unfold md5. fold s.
    assert (Ln : (length s / 64 = q + 1 + 1)%nat).
    { assert (Ls : length s = ((q + 2) * 64)%nat) by (rewrite Es, !app_length, !repeat_length; cbn [length]; unfold bytes, byte in *; lia). rewrite Ls, Nat.div_mul by lia. lia. }
    rewrite Ln, <- E5. unfold state. apply digest_bytes.
  - (* one block *)
    cbn [bind]. assert (F8 : u32 (63 - Z.of_nat r - 8) = Z.of_nat (55 - r)) by (unfold u32; change (2 ^ 32) with 4294967296; lia). rewrite F8, Nat2Z.id.
    destruct (store_prefix (with_input x i1) (t ++ [128]) (repeat 0 (55 - r))) as (i2 & S2 & Li2 & P2); [exact Li1|exact P1|rewrite Lt1, repeat_length; lia|].
    rewrite Lt1 in S2. replace (Z.of_nat r + 1) with (Z.of_nat (r + 1)) by lia. rewrite S2. cbn [bind]. clear S2.
    assert (L2 : length ((t ++ [128]) ++ repeat 0 (55 - r)) = 56%nat) by (rewrite app_length, Lt1, repeat_length; lia).
    change (x_low (with_input (with_input x i1) i2)) with (x_low x). change (x_high (with_input (with_input x i1) i2)) with (x_high x).
    rewrite Hl, Hh, length_bytes by lia. fold L8.
    destruct (store_prefix (with_input (with_input x i1) i2) ((t ++ [128]) ++ repeat 0 (55 - r)) L8) as (i4 & S4 & Li4 & P4); [exact Li2|exact P2|lia|].
    rewrite L2 in S4. change (Z.of_nat 56) with 56 in S4. rewrite S4. cbn [bind]. clear S4. rewrite app_length, L2, Ll8 in P4. rewrite firstn_all2 in P4 by lia.
    set (s := padded m). assert (Es : s = m ++ [128] ++ repeat 0 (55 - r) ++ L8).
    { unfold s, padded. f_equal. f_equal. f_equal. f_equal. lia. }
    destruct (finish_ok (with_input (with_input (with_input x i1) i2) i4) i4 s q) as (x5 & rest5 & T5 & E5 & _ & _ & W5); try assumption; try reflexivity.
    { rewrite P4. apply Forall_app. split; [|exact B8]. apply Forall_app. split; [apply Forall_app; split; assumption|apply repeat_bytes]. }
    { change (state (with_input (with_input (with_input x i1) i2) i4)) with (state x). rewrite Hs. apply compress_all_firstn. rewrite Es. symmetry. apply Hq. }
    { rewrite Es, Hsk, P4, !app_assoc. apply firstn_all2. rewrite app_length, L2, Ll8. lia. }
    rewrite T5. cbn [bind]. f_equal. unfold md5. fold s.
    assert (Ln : (length s / 64 = q + 1)%nat).
    { assert (Ls : length s = ((q + 1) * 64)%nat) by (rewrite Es, !app_length, !repeat_length; cbn [length]; unfold bytes, byte in *; lia). rewrite Ls, Nat.div_mul by lia. lia. }
    rewrite Ln, <- E5. unfold state. apply digest_bytes.
Qed.

(** ** Buffers, pieces, bitmaps *)
Lemma updates_ok l : Forall piece_ok l -> forall x m, holds x m -> exists x', updates x l = Ok x' /\ holds x' (m ++ concat l).
Proof.
  induction 1 as [|b l [B L] F IH]; intros x m H; cbn [updates concat].
  - exists x. rewrite app_nil_r. auto.
  - destruct (update_ok x m b H B L) as (x1 & E & H1). rewrite E. cbn [bind]. destruct (IH x1 _ H1) as (x2 & E2 & H2). exists x2. rewrite <- app_assoc in H2. auto.
Qed.
Lemma md5_pieces input block l : length input = 64%nat -> length block = 16%nat -> Forall piece_ok l ->
  md5_of_pieces input block l = Ok (md5 (concat l)).
Proof. intros Hi Hb F. unfold md5_of_pieces. destruct (updates_ok l F _ _ (init_holds input block Hi Hb)) as (x & E & H). rewrite E. cbn [bind]. apply complete_ok, H. Qed.
Lemma md5_hash_ok input block data : length input = 64%nat -> length block = 16%nat -> Forall is_byte data -> Z.of_nat (length data) < 2 ^ 32 -> md5_hash input block data = Ok (md5 data).
Proof.
  intros Hi Hb B L. unfold md5_hash. destruct (update_ok _ _ data (init_holds input block Hi Hb) B L) as (x & E & H). rewrite E. cbn [bind]. apply complete_ok, H.
Qed.
Lemma row_read b y : bmp_wf b -> mread (bdata b) (Z.of_nat y * bstride b) (Z.to_nat (bw b * bbpp b)) = row b y.
Proof.
  intros (H1 & _ & H3 & _). unfold row. set (o := Z.of_nat y * bstride b). replace (Z.to_nat (bw b * bbpp b)) with (Z.to_nat (bw b) * Z.to_nat (bbpp b))%nat by (rewrite Z2Nat.inj_mul by lia; reflexivity).
  induction (Z.to_nat (bw b)) as [|n IH]; [reflexivity|]. rewrite seq_S, map_app, concat_app, <- IH. cbn [map concat Nat.add]. rewrite app_nil_r.
  replace (S n * Z.to_nat (bbpp b))%nat with (n * Z.to_nat (bbpp b) + Z.to_nat (bbpp b))%nat by lia. rewrite mread_app. f_equal. unfold pix, pix_off. fold o. f_equal. lia.
Qed.
Lemma mread_bytes m off n : (forall a, is_byte (m a)) -> Forall is_byte (mread m off n).
Proof. intros H. revert off. induction n as [|n IH]; intros off; cbn [mread]; constructor; auto. Qed.
Lemma md5_bitmap_ok input block b : length input = 64%nat -> length block = 16%nat -> bmp_wf b -> (forall a, is_byte (bdata b a)) -> bw b * bbpp b < 2 ^ 32 ->
  md5_bitmap input block b = Ok (md5 (rows b)).
Proof.
  intros Hi Hb Wf B L. pose proof Wf as (W1 & W2 & W3 & W4 & W5). unfold md5_bitmap.
  assert (El : u64 (bw b * bbpp b) = bw b * bbpp b). { unfold u64. apply Z.mod_small. change (2 ^ 32) with 4294967296 in L. change (2 ^ 64) with 18446744073709551616. split; [apply Z.mul_nonneg_nonneg; lia|lia]. }
  rewrite El. set (f := fun y x => _).
  assert (G : forall n k x, (k + n = Z.to_nat (bh b))%nat -> holds x (concat (map (row b) (seq 0 k))) -> exists x', for_loop n (Z.of_nat k) f x = Ok x' /\ holds x' (rows b)).
  { induction n as [|n IH]; intros k x Hk H; cbn [for_loop].
    - exists x. split; [reflexivity|]. unfold rows. replace (Z.to_nat (bh b)) with k by lia. exact H.
    - unfold f at 1. assert (0 <= bstride b) by (assert (0 <= bw b * bbpp b) by (apply Z.mul_nonneg_nonneg; lia); lia).
      assert (Hy : Z.of_nat k * bstride b <= (bh b - 1) * bstride b) by (apply Z.mul_le_mono_nonneg_r; lia).
      replace ((0 <=? Z.of_nat k * bstride b) && (Z.of_nat k * bstride b + bw b * bbpp b <=? bsize b)) with true by (assert (0 <= Z.of_nat k * bstride b) by (apply Z.mul_nonneg_nonneg; lia); lia).
      destruct (update_ok x (concat (map (row b) (seq 0 k))) (mread (bdata b) (Z.of_nat k * bstride b) (Z.to_nat (bw b * bbpp b)))) as (x1 & E & H1); [exact H|apply mread_bytes, B|rewrite mread_length; lia|].
      rewrite E. cbn [bind]. replace (Z.of_nat k + 1) with (Z.of_nat (S k)) by lia. apply IH; [lia|]. rewrite seq_S, map_app, concat_app. cbn [map concat Nat.add]. rewrite app_nil_r, <- row_read by exact Wf. exact H1. }
  destruct (G (Z.to_nat (bh b)) 0%nat (md5_init input block)) as (x & E & H); [lia|apply init_holds; assumption|]. cbn [Z.of_nat] in E. rewrite E. cbn [bind]. apply complete_ok, H.
Qed.

(** ** Buffers of 4 GiB and more *)
Lemma transform_over : forall fuel x (data : bytes) size, Z.of_nat (length data) < size <= 2 ^ 64 -> (length data < fuel)%nat -> md5_transform fuel x data size = UB.
Proof.
  induction fuel as [|fuel IH]; intros x data size H F; [lia|]. cbn [md5_transform]. destruct (length data <? 64)%nat eqn:E; [reflexivity|].
  change (2 ^ 64) with 18446744073709551616 in *. assert (Eu : u64 (size - 64) = size - 64) by (unfold u64; change (2 ^ 64) with 18446744073709551616; lia). rewrite Eu.
  replace (size - 64 =? 0) with false by lia. apply IH; rewrite skipn_length; change (2 ^ 64) with 18446744073709551616; lia.
Qed.
Lemma transform_0 x (data : bytes) : Z.of_nat (length data) < 2 ^ 64 -> transform x data 0 = UB.
Proof. intros H. unfold transform. rewrite <- (transform_over (S (length data)) x data (2 ^ 64)); [reflexivity|lia|lia]. Qed.
Lemma mask_large z : 0 <= z -> Z.land z (u32 (Z.lnot 0x3f)) = 64 * ((z mod 2 ^ 32) / 64).
Proof.
  intros H. rewrite <- mask_ok by (apply Z.mod_pos_bound; reflexivity). change (u32 (Z.lnot 63)) with (Z.land (u32 (Z.lnot 63)) (Z.ones 32)). rewrite (Z.land_comm (u32 _) (Z.ones 32)), !Z.land_assoc, !Z.land_ones by lia. now rewrite Z.mod_mod by lia.
Qed.
Lemma hash_large_ub input block data : 2 ^ 32 <= Z.of_nat (length data) < 2 ^ 64 -> Z.of_nat (length data) mod 2 ^ 32 < 64 -> md5_hash input block data = UB.
Proof.
  intros H1 H2. unfold md5_hash, md5_update. cbn [md5_init x_low]. change (Z.land 0 63 =? 0) with true. cbv iota. unfold md5_rest. change (2 ^ 32) with 4294967296 in *.
  replace (64 <=? Z.of_nat (length data)) with true by lia. rewrite mask_large by lia. change (2 ^ 32) with 4294967296. replace (64 * (Z.of_nat (length data) mod 4294967296 / 64)) with 0 by lia.
  rewrite transform_0 by lia. reflexivity.
Qed.
Lemma transform_prefix : forall n x (data data' : bytes) fuel, (1 <= n)%nat -> Z.of_nat n < 2 ^ 58 -> (64 * n <= length data)%nat -> (64 * n <= length data')%nat -> (n <= fuel)%nat -> firstn (64 * n) data = firstn (64 * n) data' ->
  exists x', md5_transform fuel x data (64 * Z.of_nat n) = Ok (x', skipn (64 * n) data) /\ md5_transform fuel x data' (64 * Z.of_nat n) = Ok (x', skipn (64 * n) data').
Proof.
  induction n as [|n IH]; intros x data data' fuel H1 H2 H3 H3' H4 E; [lia|]. destruct fuel as [|fuel]; [lia|]. cbn [md5_transform].
  replace (length data <? 64)%nat with false by lia. replace (length data' <? 64)%nat with false by lia.
  assert (Ef : firstn 64 data = firstn 64 data').
  { assert (Q : forall l : bytes, firstn 64 l = firstn 64 (firstn (64 * S n) l)) by (intros l; rewrite firstn_firstn; f_equal; lia). now rewrite (Q data), (Q data'), E. }
  rewrite <- Ef. change (2 ^ 58) with 288230376151711744 in *. unfold u64. change (2 ^ 64) with 18446744073709551616.
  replace ((64 * Z.of_nat (S n) - 64) mod 18446744073709551616) with (64 * Z.of_nat n) by lia.
  destruct (64 * Z.of_nat n =? 0) eqn:E0.
  - replace n with 0%nat by lia. eexists. split; reflexivity.
  - destruct (IH (md5_block x (firstn 64 data)) (skipn 64 data) (skipn 64 data') fuel) as (x' & T & T'); try lia; [rewrite skipn_length; lia|rewrite skipn_length; lia| |].
    + rewrite !(firstn_skipn_comm (64 * n) 64). replace (64 + 64 * n)%nat with (64 * S n)%nat by lia. now rewrite E.
    + exists x'. rewrite T, T', !skipn_skipn'. replace (64 + 64 * n)%nat with (64 * S n)%nat by lia. split; reflexivity.
Qed.
Lemma firstn_le {A} n k (l l' : list A) : (n <= k)%nat -> firstn k l = firstn k l' -> firstn n l = firstn n l'.
Proof. intros H E. replace n with (Nat.min n k) by lia. rewrite <- !firstn_firstn. now rewrite E. Qed.
Lemma hash_large_prefix input block data data' : length data = length data' -> Z.of_nat (length data) < 2 ^ 64 -> 64 <= Z.of_nat (length data) mod 2 ^ 32 ->
  firstn (Z.to_nat (Z.of_nat (length data) mod 2 ^ 32)) data = firstn (Z.to_nat (Z.of_nat (length data) mod 2 ^ 32)) data' -> md5_hash input block data = md5_hash input block data'.
Proof.
  intros Hl H1 H2 E. unfold md5_hash. f_equal. unfold md5_update. rewrite <- Hl. cbn [md5_init x_low]. change (Z.land 0 63 =? 0) with true. cbv iota. unfold md5_rest. rewrite <- Hl. change (2 ^ 32) with 4294967296 in *. change (2 ^ 64) with 18446744073709551616 in H1.
  replace (64 <=? Z.of_nat (length data)) with true by lia. rewrite mask_large by lia. change (2 ^ 32) with 4294967296. set (N := Z.of_nat (length data)) in *.
  set (k := Z.to_nat (N mod 4294967296 / 64)). replace (64 * (N mod 4294967296 / 64)) with (64 * Z.of_nat k) by lia. set (x := with_count _ _ _). unfold transform. rewrite <- Hl.
  destruct (transform_prefix k x data data' (S (length data))) as (x' & T & T'); try (unfold N in *; change (2 ^ 58) with 288230376151711744; lia).
  { apply (firstn_le _ (Z.to_nat (N mod 4294967296))); [lia|exact E]. }
  rewrite T, T'. cbn [bind]. rewrite !skipn_length, <- Hl. destruct (N mod 64 <=? Z.of_nat (length data - 64 * k)); [|reflexivity]. f_equal.
  rewrite !(firstn_skipn_comm (Z.to_nat (N mod 64)) (64 * k)). f_equal. apply (firstn_le _ (Z.to_nat (N mod 4294967296))); [lia|exact E].
Qed.
