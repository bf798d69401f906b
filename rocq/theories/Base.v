(** Shared vocabulary of the model: outcomes, machine integers, bytes,
    little-endian codecs, list slices and byte memories.  *)
From Coq Require Export List ZArith Lia Bool Arith.
From Coq Require Export ZifyBool ZifyNat.
Export ListNotations.
Open Scope Z_scope.

Ltac Zify.zify_post_hook ::= Z.div_mod_to_equations.

(** Outcome of a C++ operation: a value, a thrown exception, undefined
    behaviour, or (fuelled loops only) fuel exhausted. *)
Inductive res (A : Type) : Type :=
| Ok (a : A)
| Throw
| UB
| OutOfFuel.
Arguments Ok {A} a.
Arguments Throw {A}.
Arguments UB {A}.
Arguments OutOfFuel {A}.

Definition bind {A B} (r : res A) (f : A -> res B) : res B :=
  match r with
  | Ok a => f a
  | Throw => Throw
  | UB => UB
  | OutOfFuel => OutOfFuel
  end.
Notation "'let*' x ':=' r 'in' k" := (bind r (fun x => k))
  (at level 200, x pattern, r at level 100, k at level 200).

Lemma bind_ok {A B} (r : res A) (f : A -> res B) b :
  bind r f = Ok b -> exists a, r = Ok a /\ f a = Ok b.
Proof. destruct r; cbn; intros; try discriminate; eauto. Qed.

(** Machine integers (two's complement, LP64). *)
Definition INT_MIN : Z := -2147483648.
Definition INT_MAX : Z := 2147483647.
Definition UINT_MAX : Z := 4294967295.
Definition in_i32 (z : Z) : Prop := INT_MIN <= z <= INT_MAX.
Definition in_u32 (z : Z) : Prop := 0 <= z <= UINT_MAX.
Definition in_i32b (z : Z) : bool := (INT_MIN <=? z) && (z <=? INT_MAX).
Definition u8 (z : Z) : Z := z mod 2 ^ 8.
Definition u16 (z : Z) : Z := z mod 2 ^ 16.
Definition u32 (z : Z) : Z := z mod 2 ^ 32.
Definition u64 (z : Z) : Z := z mod 2 ^ 64.
(** reinterpretation of an unsigned value as signed (static_cast<int32_t>) *)
Definition s32 (z : Z) : Z := let u := z mod 2 ^ 32 in if u <? 2 ^ 31 then u else u - 2 ^ 32.
Definition s64 (z : Z) : Z := let u := z mod 2 ^ 64 in if u <? 2 ^ 63 then u else u - 2 ^ 64.

Lemma in_i32b_spec z : in_i32b z = true <-> in_i32 z.
Proof. unfold in_i32b, in_i32; lia. Qed.

Lemma s32_id z : in_i32 z -> s32 z = z.
Proof.
  unfold s32, in_i32, INT_MIN, INT_MAX; intros H.
  change (2 ^ 32) with 4294967296. change (2 ^ 31) with 2147483648.
  destruct (z mod 4294967296 <? 2147483648) eqn:E; lia.
Qed.

Lemma s32_range z : in_i32 (s32 z).
Proof.
  unfold s32, in_i32, INT_MIN, INT_MAX.
  change (2 ^ 32) with 4294967296. change (2 ^ 31) with 2147483648.
  destruct (z mod 4294967296 <? 2147483648) eqn:E; lia.
Qed.

Lemma s64_id z : - 2 ^ 63 <= z < 2 ^ 63 -> s64 z = z.
Proof.
  unfold s64; intros H.
  change (2 ^ 64) with 18446744073709551616 in *. change (2 ^ 63) with 9223372036854775808 in *.
  destruct (z mod 18446744073709551616 <? 9223372036854775808) eqn:E; lia.
Qed.

(** Bytes. *)
Definition byte := Z.
Definition is_byte (b : Z) : Prop := 0 <= b < 256.
Definition bytes := list byte.

(** Little-endian encoding of the low [n] bytes of [v], and decoding. *)
Fixpoint le (n : nat) (v : Z) : bytes :=
  match n with
  | O => []
  | S n' => (v mod 256) :: le n' (v / 256)
  end.

Fixpoint unle (bs : bytes) : Z :=
  match bs with
  | [] => 0
  | b :: bs' => b + 256 * unle bs'
  end.

Lemma le_length n v : length (le n v) = n.
Proof. revert v; induction n as [|n IH]; intros v; cbn [le length]; [reflexivity|now rewrite IH]. Qed.

Lemma le_bytes n v : Forall is_byte (le n v).
Proof.
  revert v; induction n as [|n IH]; intros v; cbn [le]; constructor; [|apply IH].
  unfold is_byte; lia.
Qed.

Lemma unle_le n v : unle (le n v) = v mod 256 ^ Z.of_nat n.
Proof.
  revert v; induction n as [|n IH]; intros v.
  - cbn [le unle]. change (256 ^ Z.of_nat 0) with 1. now rewrite Z.mod_1_r.
  - cbn [le unle]. rewrite IH.
    replace (256 ^ Z.of_nat (S n)) with (256 * 256 ^ Z.of_nat n)
      by (rewrite Nat2Z.inj_succ, Z.pow_succ_r; lia).
    rewrite Z.rem_mul_r by (try lia; apply Z.pow_pos_nonneg; lia). lia.
Qed.

Lemma unle_range bs : Forall is_byte bs -> 0 <= unle bs < 256 ^ Z.of_nat (length bs).
Proof.
  induction 1 as [|b bs Hb H IH]; cbn [unle length].
  - change (256 ^ Z.of_nat 0) with 1; lia.
  - rewrite Nat2Z.inj_succ, Z.pow_succ_r by lia. unfold is_byte in Hb. lia.
Qed.

Lemma unle_le4_u32 v : in_u32 v -> unle (le 4 v) = v.
Proof. intros H; rewrite unle_le. unfold in_u32, UINT_MAX in H. change (256 ^ Z.of_nat 4) with 4294967296. lia. Qed.

Lemma s32_unle_le4 v : in_i32 v -> s32 (unle (le 4 v)) = v.
Proof.
  intros H. rewrite unle_le. change (256 ^ Z.of_nat 4) with (2 ^ 32).
  unfold s32. rewrite Z.mod_mod by lia. exact (s32_id v H).
Qed.

Lemma s64_unle_le8 v : - 2 ^ 63 <= v < 2 ^ 63 -> s64 (unle (le 8 v)) = v.
Proof.
  intros H. rewrite unle_le. change (256 ^ Z.of_nat 8) with (2 ^ 64).
  unfold s64. rewrite Z.mod_mod by lia. exact (s64_id v H).
Qed.

(** Slices. *)
Definition slice {A} (l : list A) (off len : nat) : list A := firstn len (skipn off l).

Lemma slice_app_r {A} (l1 l2 : list A) off len :
  (length l1 <= off)%nat -> slice (l1 ++ l2) off len = slice l2 (off - length l1) len.
Proof.
  intros H; unfold slice. rewrite skipn_app, (skipn_all2 l1) by lia. reflexivity.
Qed.

Lemma slice_app_l {A} (l1 l2 : list A) off len :
  (off + len <= length l1)%nat -> slice (l1 ++ l2) off len = slice l1 off len.
Proof.
  intros H; unfold slice. rewrite skipn_app, firstn_app.
  rewrite skipn_length. replace (len - (length l1 - off))%nat with 0%nat by lia.
  cbn. now rewrite app_nil_r.
Qed.

Lemma slice_all {A} (l : list A) len : length l = len -> slice l 0 len = l.
Proof. intros <-; unfold slice; cbn [skipn]; apply firstn_all. Qed.

Lemma slice_app_exact {A} (l1 l2 l3 : list A) off len :
  length l1 = off -> length l2 = len -> slice (l1 ++ l2 ++ l3) off len = l2.
Proof.
  intros H1 H2. rewrite slice_app_r by lia. replace (off - length l1)%nat with 0%nat by lia.
  rewrite slice_app_l by lia. now apply slice_all.
Qed.

Lemma slice_length {A} (l : list A) off len :
  (off + len <= length l)%nat -> length (slice l off len) = len.
Proof. intros; unfold slice; rewrite firstn_length, skipn_length; lia. Qed.

(** Update of one list position (no-op outside). *)
Fixpoint upd {A} (l : list A) (i : nat) (a : A) : list A :=
  match l, i with
  | [], _ => []
  | _ :: l', O => a :: l'
  | x :: l', S i' => x :: upd l' i' a
  end.

Lemma upd_length {A} (l : list A) i a : length (upd l i a) = length l.
Proof. revert i; induction l as [|x l IH]; intros [|i]; cbn; auto. Qed.

Lemma nth_upd_eq {A} (l : list A) i a d : (i < length l)%nat -> nth i (upd l i a) d = a.
Proof. revert i; induction l as [|x l IH]; intros [|i] H; cbn in *; try lia; auto. apply IH; lia. Qed.

Lemma nth_upd_neq {A} (l : list A) i j a d : i <> j -> nth j (upd l i a) d = nth j l d.
Proof.
  revert i j; induction l as [|x l IH]; intros [|i] [|j] H; cbn; auto; try lia.
Qed.

(** Byte memories (files, buffers): total functions from addresses to bytes. *)
Definition mem := Z -> byte.
Definition mwrite (m : mem) (off : Z) (data : bytes) : mem :=
  fun a => if (off <=? a) && (a <? off + Z.of_nat (length data))
           then nth (Z.to_nat (a - off)) data 0 else m a.
Fixpoint mread (m : mem) (off : Z) (len : nat) : bytes :=
  match len with
  | O => []
  | S n => m off :: mread m (off + 1) n
  end.

Lemma mread_length m off len : length (mread m off len) = len.
Proof. revert off; induction len as [|n IH]; intros; cbn; auto. Qed.

Lemma mread_nth m off len i d : (i < len)%nat -> nth i (mread m off len) d = m (off + Z.of_nat i).
Proof.
  revert off i; induction len as [|n IH]; intros off [|i] H; cbn [mread nth]; try lia.
  - f_equal; lia.
  - rewrite IH by lia. f_equal; lia.
Qed.

Lemma mread_ext m1 m2 off1 off2 len :
  (forall i, 0 <= i < Z.of_nat len -> m1 (off1 + i) = m2 (off2 + i)) ->
  mread m1 off1 len = mread m2 off2 len.
Proof.
  intros H. apply (nth_ext _ _ 0 0); [now rewrite !mread_length|].
  intros n Hn; rewrite mread_length in Hn. rewrite !mread_nth by lia. apply H; lia.
Qed.

Lemma mread_mwrite_same m off data : mread (mwrite m off data) off (length data) = data.
Proof.
  apply (nth_ext _ _ 0 0); [now rewrite mread_length|].
  intros n Hn; rewrite mread_length in Hn. rewrite mread_nth by lia.
  unfold mwrite. destruct ((off <=? off + Z.of_nat n) && (off + Z.of_nat n <? off + Z.of_nat (length data))) eqn:E; [|lia].
  f_equal; lia.
Qed.

Lemma mread_mwrite_disj m off data off' len :
  off' + Z.of_nat len <= off \/ off + Z.of_nat (length data) <= off' ->
  mread (mwrite m off data) off' len = mread m off' len.
Proof.
  intros H. apply mread_ext; intros i Hi. unfold mwrite.
  destruct ((off <=? off' + i) && (off' + i <? off + Z.of_nat (length data))) eqn:E; [lia|reflexivity].
Qed.

Lemma mread_app m off n1 n2 : mread m off (n1 + n2) = mread m off n1 ++ mread m (off + Z.of_nat n1) n2.
Proof.
  revert off; induction n1 as [|n IH]; intros off.
  - cbn. now rewrite Z.add_0_r.
  - cbn [Nat.add mread app]. rewrite IH. do 2 f_equal. f_equal; lia.
Qed.

Lemma nth_firstn_lt {A} (l : list A) n i d : (i < n)%nat -> nth i (firstn n l) d = nth i l d.
Proof.
  revert n i; induction l as [|x l IH]; intros [|n] [|i] H; cbn; auto; try lia.
  apply IH; lia.
Qed.

Lemma nth_skipn_add {A} (l : list A) n i d : nth i (skipn n l) d = nth (n + i) l d.
Proof.
  revert n i; induction l as [|x l IH]; intros [|n] i; cbn; auto; destruct i; auto.
Qed.

Lemma nth_slice_aux {A} (l : list A) o len n d :
  (n < len)%nat -> nth n (firstn len (skipn o l)) d = nth (o + n) l d.
Proof. intros H. rewrite nth_firstn_lt by assumption. apply nth_skipn_add. Qed.

Lemma nth_slice {A} (l : list A) o len n d :
  (n < len)%nat -> nth n (slice l o len) d = nth (o + n) l d.
Proof. apply nth_slice_aux. Qed.

Lemma mread_mwrite_inside m off data o len :
  (o + len <= length data)%nat ->
  mread (mwrite m off data) (off + Z.of_nat o) len = slice data o len.
Proof.
  intros H. apply (nth_ext _ _ 0 0); [now rewrite mread_length, slice_length|].
  intros n Hn; rewrite mread_length in Hn. rewrite mread_nth by lia.
  unfold mwrite, slice.
  destruct ((off <=? off + Z.of_nat o + Z.of_nat n) && (off + Z.of_nat o + Z.of_nat n <? off + Z.of_nat (length data))) eqn:E; [|lia].
  replace (Z.to_nat (off + Z.of_nat o + Z.of_nat n - off)) with (o + n)%nat by lia.
  symmetry. apply nth_slice_aux; assumption.
Qed.
