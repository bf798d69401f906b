(** The number strtof reads is the one nearest to the text. *)
From Coq Require Import String QArith Qabs Qpower Lqa Floats.SpecFloat.
From Verif Require Import Base TextModel TextProofs FloatProofs SFloatProofs ScaleModel ScaleNum NumModel NumProofs NumText BgModel.
Open Scope Z_scope.

Lemma round32_op n d N : 0 < n -> 0 < d -> (rat n d < b2 N)%Q -> N <= 127 -> op_ok 24 128 (rat n d) N (fst (round32 n d)).
Proof.
  intros Hn Hd HX HN. unfold round32. cbv zeta. set (k := Z.log2 n - Z.log2 d). set (e := Z.min (fexp 24 128 k) (k - 2)).
  assert (S : exists a b, (if 0 <=? e then (n, d * 2 ^ e) else (n * 2 ^ (- e), d)) = (a, b) /\ 0 < a /\ 0 < b /\ (rat a b == rat n d * b2 (- e))%Q).
  { destruct (Z.leb_spec 0 e) as [K|K]; eexists _, _; (split; [reflexivity|]).
    - assert (0 < 2 ^ e) by (apply Z.pow_pos_nonneg; lia). split; [exact Hn|]. split; [nia|]. symmetry. apply rat_unique; [nia|].
      rewrite inject_Z_mult, <- b2_Z by lia. transitivity (rat n d * inject_Z d * (b2 (- e) * b2 e))%Q; [ring|]. rewrite rat_mul, b2_mult_inv by exact Hd. ring.
    - assert (0 < 2 ^ (- e)) by (apply Z.pow_pos_nonneg; lia). split; [nia|]. split; [exact Hd|]. symmetry. apply rat_unique; [exact Hd|].
      rewrite inject_Z_mult, <- b2_Z by lia. transitivity (rat n d * inject_Z d * b2 (- e))%Q; [ring|]. rewrite rat_mul by exact Hd. ring. }
  destruct S as (a & b & -> & Ha & Hb & S). cbn [fst].
  assert (KL : (b2 (k - 1) < rat n d < b2 (k + 1))%Q).
  { pose proof (Z.log2_spec n Hn) as [n1 n2]. pose proof (Z.log2_spec d Hd) as [d1 d2]. pose proof (Z.log2_nonneg n). pose proof (Z.log2_nonneg d).
    apply injZ_le in n1, d1. apply injZ_lt in n2, d2. rewrite <- b2_Z in n1, n2, d1, d2 by lia.
    pose proof (rat_mul n d Hd) as M. pose proof (rat_pos n d Hn Hd) as XP. set (x := rat n d) in *. clearbody x.
    assert (E1 : (b2 (k - 1) * b2 (Z.succ (Z.log2 d)) == b2 (Z.log2 n))%Q) by (rewrite <- b2_plus; unfold k; replace (Z.log2 n - Z.log2 d - 1 + Z.succ (Z.log2 d)) with (Z.log2 n) by lia; reflexivity).
    assert (E2 : (b2 (k + 1) * b2 (Z.log2 d) == b2 (Z.succ (Z.log2 n)))%Q) by (rewrite <- b2_plus; unfold k; replace (Z.log2 n - Z.log2 d + 1 + Z.log2 d) with (Z.succ (Z.log2 n)) by lia; reflexivity).
    pose proof (b2_pos (k - 1)) as P1. pose proof (b2_pos (k + 1)) as P2. pose proof (b2_pos (Z.log2 d)) as P3. set (dq := inject_Z d) in *. set (nq := inject_Z n) in *.
    set (u := b2 (k - 1)) in *. set (v := b2 (k + 1)) in *. set (ld := b2 (Z.log2 d)) in *. clearbody dq nq u v ld. clear HX.
    split; [clear E2 v P2|clear E1 u P1].
    - destruct (Qlt_le_dec u x) as [L|L]; [exact L|exfalso].
      assert (x * dq <= u * dq)%Q by (apply Qmult_le_r; lra).
      assert (u * dq < u * b2 (Z.succ (Z.log2 d)))%Q by (apply Qmult_lt_l; lra). lra.
    - destruct (Qlt_le_dec x v) as [L|L]; [exact L|exfalso].
      assert (v * dq <= x * dq)%Q by (apply Qmult_le_r; lra).
      assert (v * ld <= v * dq)%Q by (apply Qmult_le_l; lra). lra. }
  assert (FL : (inject_Z (a / b) <= rat a b < inject_Z (a / b) + 1)%Q).
  { pose proof (Z.div_mod a b ltac:(lia)) as E. pose proof (Z.mod_pos_bound a b Hb) as B. pose proof (rat_mul a b Hb) as M. pose proof (injZ_pos b Hb) as P.
    assert (R : (inject_Z a == inject_Z b * inject_Z (a / b) + inject_Z (a mod b))%Q) by (rewrite <- inject_Z_mult, <- inject_Z_plus, <- E; reflexivity).
    assert (0 <= inject_Z (a mod b))%Q by (apply (injZ_le 0); lia). assert (inject_Z (a mod b) < inject_Z b)%Q by (apply injZ_lt; lia). split; nra. }
  assert (ek : e <= k - 2) by (unfold e; lia).
  assert (LO : (b2 (k - 1 - e) < rat a b)%Q). { rewrite S. replace (k - 1 - e) with (k - 1 + - e) by lia. rewrite b2_plus. apply Qmult_lt_r; [apply b2_pos|apply KL]. }
  assert (HI : (rat a b < b2 (k + 1 - e))%Q). { rewrite S. replace (k + 1 - e) with (k + 1 + - e) by lia. rewrite b2_plus. apply Qmult_lt_r; [apply b2_pos|apply KL]. }
  rewrite b2_Z in LO, HI by lia.
  assert (M1 : 2 ^ (k - 1 - e) < a / b + 1) by (apply injZ_lt; rewrite inject_Z_plus; change (inject_Z 1) with 1%Q; eapply Qlt_trans; [exact LO|apply FL]).
  assert (M2 : a / b < 2 ^ (k + 1 - e)) by (apply injZ_lt; eapply Qle_lt_trans; [apply FL|exact HI]).
  pose proof (Z.mod_pos_bound a b Hb) as RB. pose proof (new_location_ok b (a mod b) (a / b) Hb RB) as NL.
  assert (P2 : 0 < 2 ^ (k - 1 - e)) by (apply Z.pow_pos_nonneg; lia).
  destruct (a / b) as [|m|m] eqn:Em; [lia| |lia]. specialize (NL ltac:(lia)).
  apply round_aux_op; try lia; [| |exact HX].
  - eapply inb_eq; [|exact NL]. rewrite <- S. apply rat_unique; [exact Hb|]. pose proof (injZ_pos b Hb) as P.
    transitivity (inject_Z (Zpos m) * inject_Z b + inject_Z (a mod b))%Q.
    + field. intros F. rewrite F in P. now apply Qlt_irrefl in P.
    + rewrite <- inject_Z_mult, <- inject_Z_plus. rewrite <- Em. apply inject_Z_injective. pose proof (Z.div_mod a b ltac:(lia)). lia.
  - assert (k - e <= Zpos (digits2_pos m)) by (apply digits2_ge; [lia|replace (k - e - 1) with (k - 1 - e) by lia; lia]).
    unfold e in *. unfold fexp in *. lia.
Qed.
Lemma of_decimal32_op m e N : 0 < m -> (inject_Z m * t10 e < b2 N)%Q -> N <= 127 -> op_ok 24 128 (inject_Z m * t10 e) N (fst (of_decimal32 false m e)).
Proof.
  intros H HX HN. unfold of_decimal32. destruct (Z.eqb_spec m 0); [lia|]. cbv zeta. change (Qpower 10 e) with (t10 e).
  pose proof (Qred_correct (inject_Z m * t10 e)) as C. set (q := Qred (inject_Z m * t10 e)) in *.
  assert (R : (rat (Qnum q) (Zpos (Qden q)) == inject_Z m * t10 e)%Q).
  { rewrite <- C. destruct q as [a b]. cbn [Qnum Qden]. unfold rat. rewrite <- Qmake_Qdiv. reflexivity. }
  assert (P : (0 < q)%Q) by (rewrite C; apply Qmult_lt_0_compat; [now apply injZ_pos|apply t10_pos]).
  eapply op_ok_eq; [exact R|]. pose proof (round32_op (Qnum q) (Z.pos (Qden q)) N) as O. destruct (round32 (Qnum q) (Z.pos (Qden q))) as [r er]. cbn [fst] in *.
  apply O; [|reflexivity|rewrite R; exact HX|exact HN].
  destruct q as [a b]. unfold Qlt in P. cbn in P. cbn [Qnum]. lia.
Qed.
Lemma of_decimal32_neg m e : of_decimal32 true m e = (SFopp (fst (of_decimal32 false m e)), snd (of_decimal32 false m e)).
Proof. unfold of_decimal32. destruct (m =? 0); [reflexivity|]. destruct (round32 _ _). reflexivity. Qed.
Theorem decimal32_near m e : 0 < m -> (b2 (-126) <= inject_Z m * t10 e)%Q -> (inject_Z m * t10 e < b2 127)%Q ->
  (Qabs (sfQ (fst (of_decimal32 false m e)) - inject_Z m * t10 e) <= inject_Z m * t10 e * b2 (-23))%Q.
Proof.
  intros H L U. pose proof (of_decimal32_op m e 127 H U ltac:(lia)) as O. set (v := (inject_Z m * t10 e)%Q) in *.
  assert (V : (0 <= v)%Q) by (eapply Qle_trans; [|exact L]; apply Qlt_le_weak, b2_pos).
  apply sop_of_op in O; [|exact V]. pose proof (sop_rel 24 128 v 127 _ O) as R. rewrite (Qabs_pos v V) in R. eapply Qle_trans; [exact R|].
  change (emin 24 128 - 1) with (-24 + -126). rewrite b2_plus. assert (E : (b2 (-23) == 2 * b2 (-24))%Q) by reflexivity. rewrite E. change (- (24)) with (-24).
  pose proof (b2_pos (-24)) as P. assert (b2 (-24) * b2 (-126) <= b2 (-24) * v)%Q by (apply Qmult_le_l; assumption). lra.
Qed.
Theorem decimal32_value m e : 0 < m -> (Qpower 2 (-126) <= inject_Z m * Qpower 10 e)%Q -> (inject_Z m * Qpower 10 e < Qpower 2 127)%Q ->
  (Qabs (sfQ (fst (of_decimal32 false m e)) - inject_Z m * Qpower 10 e) <= inject_Z m * Qpower 10 e * Qpower 2 (-23))%Q /\
  fst (of_decimal32 true m e) = SFopp (fst (of_decimal32 false m e)).
Proof. intros H L U. split; [exact (decimal32_near m e H L U)|now rewrite of_decimal32_neg]. Qed.
