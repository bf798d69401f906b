From Coq Require Import QArith Qabs Qminmax Lqa Floats.SpecFloat.
From Verif Require Import Base RectModel CodecModel CopyModel MemProofs CopyProofs TextModel CoordModel StatModel PixelModel FloatProofs SFloatProofs AccessModel AccessSpec ScaleModel ScaleNum ScaleSpec.
Open Scope Z_scope.

Lemma start_grid a b p : 0 <= a <= b -> size_ok b -> size_ok p ->
  exists z, (sfQ (f64_mul (f64_div (f64_of_Z a) (f64_of_Z b)) (f64_of_Z p)) == inject_Z z * b2 (-74))%Q.
Proof.
  intros Ha Hb Hp. destruct (start_near a b p Ha Hb Hp) as (F & N & P). destruct (size_Q b Hb) as [B1 B2]. destruct (size_Q p Hp) as [P1 P2].
  destruct (Z.eq_dec a 0) as [->|A0].
  - exists 0. destruct (quot_near 0 b Ha Hb) as (Fq & Nq & Q0 & Q1).
    assert (E0 : f64_of_Z 0 = S754_zero false) by reflexivity. rewrite E0 in *.
    destruct (of_Z_exact b ltac:(unfold size_ok in Hb; lia)) as [Fb Eb]. destruct (of_Z_exact p ltac:(unfold size_ok in Hp; lia)) as [Fp Ep].
    destruct (f64_of_Z b) as [sb|sb| |sb mb eb] eqn:E1; try (destruct Fb; discriminate).
    + exfalso. cbn [sfQ] in Eb. lra.
    + destruct (f64_of_Z p) as [sp|sp| |sp mp ep] eqn:E2; try (destruct Fp; discriminate); cbn; reflexivity.
  - apply (grid (-21)); [exact F|].
    assert (A1 : (1 <= inject_Z a)%Q) by (change 1%Q with (inject_Z 1); apply injZ_le; lia).
    assert (L : ((1 # 1048576) * 1 <= inject_Z a / inject_Z b * inject_Z p)%Q).
    { apply Qle_trans with ((1 # 1048576) * inject_Z p)%Q; [apply Qmult_le_l'; [discriminate|exact P1]|]. apply Qmult_le_compat_r; [apply Qle_div; lra|lra]. }
    assert (E : (b2 (-21) == 1 # 2097152)%Q) by reflexivity. unfold near in N. lra.
Qed.

Section AxisProof.
  Variable a : axis.
  Hypothesis Ha : axis_ok a.
  Let l := a_pos a. Let lw := a_len a. Let pw := a_pix a. Let o := a_org a. Let ow := a_ext a. Let dn := a_out a.
  Let i := Z.max l o. Let n := Z.min (l + lw) (o + ow) - i.
  Notation Zq := inject_Z.
  Let S0 := (Zq (i - l) / Zq lw * Zq pw)%Q. Let Sn := (Zq n / Zq lw * Zq pw)%Q.
  Let D0 := (Zq (i - o) / Zq ow * Zq dn)%Q. Let Dn := (Zq n / Zq ow * Zq dn)%Q.
  Let rho := tile_step a. Let kappa := (/ rho)%Q.

  Lemma sizes : size_ok lw /\ size_ok pw /\ size_ok ow /\ size_ok dn.
  Proof. destruct Ha as (A & B & C & D & _). repeat split; first [apply A|apply B|apply C|apply D]. Qed.
  Lemma posQ : (1 <= Zq lw /\ 1 <= Zq pw /\ 1 <= Zq ow /\ 1 <= Zq dn /\ 1 <= Zq n)%Q.
  Proof.
    destruct sizes as (A & B & C & D). repeat split; try (now apply size_Q). change 1%Q with (inject_Z 1). apply injZ_le.
    destruct Ha as (_ & _ & _ & _ & _ & _ & O). unfold n, i, l, lw, o, ow. lia.
  Qed.
  Lemma rho_pos : (0 < rho)%Q.
  Proof.
    destruct posQ as (A & B & C & D & _). unfold rho, tile_step. fold pw ow lw dn.
    apply Qlt_shift_div_l; [rewrite <- (Qmult_0_l (Zq dn)); apply Qmult_lt_compat_r; lra|]. rewrite Qmult_0_l. rewrite <- (Qmult_0_l (Zq ow)). apply Qmult_lt_compat_r; lra.
  Qed.
  Lemma kappa_rho : (kappa * rho == 1)%Q.
  Proof. unfold kappa. field. pose proof rho_pos. lra. Qed.
  Lemma step_Sn : (rho * Dn == Sn)%Q.
  Proof. destruct posQ as (A & B & C & D & _). unfold rho, tile_step, Dn, Sn. fold pw ow lw dn. field. repeat split; lra. Qed.
  Lemma kappa_Dn : (kappa * Sn == Dn)%Q.
  Proof. rewrite <- step_Sn, Qmult_assoc, kappa_rho. ring. Qed.
  Lemma rho_range : ((1 # 2) <= rho <= 1048576)%Q.
  Proof.
    destruct posQ as (A & B & C & D & _). destruct sizes as (Z1 & Z2 & Z3 & Z4). destruct Ha as (_ & _ & _ & _ & H1 & H2 & _).
    assert (P : (0 < Zq lw * Zq dn)%Q) by (rewrite <- (Qmult_0_l (Zq dn)); apply Qmult_lt_compat_r; lra).
    unfold rho, tile_step. fold pw ow lw dn. split.
    - apply Qle_div; [exact P|]. fold lw dn pw ow in H2. apply injZ_le in H2. rewrite !inject_Z_mult in H2. change (inject_Z 2) with 2%Q in H2. lra.
    - apply Qdiv_le; [exact P|]. destruct (size_Q ow Z3) as [_ U]. fold pw lw in H1. apply injZ_le in H1.
      apply Qle_trans with (Zq lw * Zq ow)%Q; [apply Qmult_le_compat_r; lra|].
      apply Qle_trans with (Zq lw * 1048576)%Q; [apply Qmult_le_l'; lra|].
      setoid_replace (1048576 * (Zq lw * Zq dn))%Q with (Zq lw * 1048576 * Zq dn)%Q by ring.
      setoid_replace (Zq lw * 1048576)%Q with (Zq lw * 1048576 * 1)%Q at 1 by ring. apply Qmult_le_l'; lra.
  Qed.
  Lemma kappa_range : (0 < kappa <= 2)%Q.
  Proof.
    pose proof rho_range as [R _]. pose proof rho_pos as P. split; [unfold kappa; apply Qinv_lt_0_compat; exact P|].
    setoid_replace kappa with (1 / rho)%Q by (unfold kappa; field; lra). apply Qdiv_le; lra.
  Qed.
  (** part [a] of [b], [p] pixels *)
  Lemma part_range c m b p : 0 <= c -> 1 <= m -> c + m <= b -> size_ok b -> size_ok p ->
    (0 <= Zq c / Zq b * Zq p /\ (1 # 1048576) <= Zq m / Zq b * Zq p /\ Zq c / Zq b * Zq p + Zq m / Zq b * Zq p <= 1048576)%Q.
  Proof.
    intros Hc Hm Hs Hb Hp. destruct (size_Q b Hb) as [B1 B2]. destruct (size_Q p Hp) as [P1 P2].
    destruct (X_range c b ltac:(lia) Hb) as [X1 _]. destruct (X_range (c + m) b ltac:(lia) Hb) as [_ X2].
    assert (M1 : (1 <= Zq m)%Q) by (change 1%Q with (inject_Z 1); apply injZ_le; lia).
    split; [apply Qmult_le_0_compat; lra|]. split.
    - apply Qle_trans with ((1 # 1048576) * Zq p)%Q; [|apply Qmult_le_compat_r; [apply Qle_div; lra|lra]].
      setoid_replace (1 # 1048576)%Q with ((1 # 1048576) * 1)%Q at 1 by ring. apply Qmult_le_l'; lra.
    - setoid_replace (Zq c / Zq b * Zq p + Zq m / Zq b * Zq p)%Q with (Zq (c + m) / Zq b * Zq p)%Q by (rewrite inject_Z_plus; field; lra).
      apply Qle_trans with (1 * Zq p)%Q; [apply Qmult_le_compat_r; lra|lra].
  Qed.
  (** exact positions *)
  Lemma from_eq : (D0 - S0 * kappa == tile_from a)%Q.
  Proof.
    destruct posQ as (A & B & C & D & _). unfold D0, S0, kappa, rho, tile_step, tile_from, out_pos. fold pw ow lw dn l o.
    unfold Z.sub. rewrite !inject_Z_plus, !inject_Z_opp. field. repeat split; lra.
  Qed.
  Lemma to_eq : (tile_from a + Zq pw * kappa == tile_to a)%Q.
  Proof.
    destruct posQ as (A & B & C & D & _). unfold kappa, rho, tile_step, tile_from, tile_to, out_pos. fold pw ow lw dn l o.
    unfold Z.sub. rewrite !inject_Z_plus. field. repeat split; lra.
  Qed.
  Lemma end_eq : (D0 + Dn == Zq (i + n - o) / Zq ow * Zq dn)%Q.
  Proof.
    destruct posQ as (A & B & C & D & _). unfold D0, Dn. replace (i + n - o) with ((i - o) + n) by lia. rewrite (inject_Z_plus (i - o) n). field. lra.
  Qed.
  Lemma start_cases : (D0 == tile_from a)%Q \/ (D0 == 0)%Q /\ (tile_from a <= 0)%Q.
  Proof.
    destruct posQ as (A & B & C & D & _). unfold D0, tile_from, out_pos. fold l o ow dn. unfold i. destruct (Z.max_spec l o) as [[H ->]|[H ->]].
    - right. split; [replace (o - o) with 0 by lia; change (inject_Z 0) with 0%Q; unfold Qdiv; ring|].
      assert (X : (Zq (l - o) <= 0)%Q) by (change 0%Q with (inject_Z 0); apply injZ_le; lia).
      apply Qdiv_le; [lra|]. rewrite Qmult_0_l. assert (0 <= (- Zq (l - o)) * Zq dn)%Q by (apply Qmult_le_0_compat; lra). lra.
    - left. field. lra.
  Qed.
  Lemma end_cases : (D0 + Dn == tile_to a)%Q \/ (D0 + Dn == Zq dn)%Q /\ (Zq dn <= tile_to a)%Q.
  Proof.
    destruct posQ as (A & B & C & D & _). rewrite end_eq. replace (i + n) with (Z.min (l + lw) (o + ow)) by (unfold n; lia). unfold tile_to, out_pos. fold l lw o ow dn.
    destruct (Z.min_spec (l + lw) (o + ow)) as [[H ->]|[H ->]].
    - left. field. lra.
    - right. split; [replace (o + ow - o) with ow by lia; field; lra|]. apply Qle_div; [lra|].
      assert (X : (Zq ow <= Zq (l + lw - o))%Q) by (apply injZ_le; lia). rewrite Qmult_comm. apply Qmult_le_compat_r; lra.
  Qed.

  (** the arguments of the scaling *)
  Let q z b := f64_div (f64_of_Z z) (f64_of_Z b).
  Let s0 := f64_mul (q (i - l) lw) (f64_of_Z pw). Let sn := f64_mul (f64_sub (q (i + n - l) lw) (q (i - l) lw)) (f64_of_Z pw).
  Let d0 := f64_mul (q (i - o) ow) (f64_of_Z dn). Let de := f64_mul (f64_sub (q (i + n - o) ow) (q (i - o) ow)) (f64_of_Z dn).
  Lemma blt_axis_eq : blt_axis i n l lw pw o ow dn = ((s0, sn), (d0, de)).
  Proof. reflexivity. Qed.
  Lemma in_range : 0 <= i - l /\ 1 <= n /\ i - l + n <= lw /\ 0 <= i - o /\ i - o + n <= ow.
  Proof. destruct Ha as (_ & _ & _ & _ & _ & _ & O). unfold n, i, l, lw, o, ow. lia. Qed.

  Theorem axis_scaled : exists x0 x1 f, nn_range s0 sn pw d0 de dn = Ok (x0, x1) /\ 0 <= x0 /\ x1 < dn /\
    (forall x, x0 <= x <= x1 -> nn_source s0 sn pw d0 de x = Ok (f x)) /\ scaled a (fun x => if (x0 <=? x) && (x <=? x1) then Some (f x) else None).
  Proof.
    destruct sizes as (Zl & Zp & Zo & Zd). destruct in_range as (I1 & I2 & I3 & I4 & I5). destruct posQ as (Q1 & Q2 & Q3 & Q4 & Q5).
    destruct (start_near (i - l) lw pw ltac:(lia) Zl Zp) as (Fs0 & Ns0 & Ps0). destruct (start_near (i - o) ow dn ltac:(lia) Zo Zd) as (Fd0 & Nd0 & Pd0).
    destruct (extent_near (i - l) n lw pw I1 I2 I3 Zl Zp) as (Fsn & Nsn). destruct (extent_near (i - o) n ow dn I4 I2 I5 Zo Zd) as (Fdn & Ndn).
    replace (i - l + n) with (i + n - l) in Fsn, Nsn by lia. replace (i - o + n) with (i + n - o) in Fdn, Ndn by lia.
    fold (q (i - l) lw) in *. fold (q (i - o) ow) in *. fold (q (i + n - l) lw) in *. fold (q (i + n - o) ow) in *.
    fold s0 in Fs0, Ns0, Ps0. fold d0 in Fd0, Nd0, Pd0. fold sn in Fsn, Nsn. fold de in Fdn, Ndn. fold S0 in Ns0. fold Sn in Nsn. fold D0 in Nd0. fold Dn in Ndn.
    pose proof (part_range (i - l) n lw pw I1 I2 I3 Zl Zp) as HS. pose proof (part_range (i - o) n ow dn I4 I2 I5 Zo Zd) as HD. fold S0 Sn in HS. fold D0 Dn in HD.
    pose proof (start_grid (i - l) lw pw ltac:(lia) Zl Zp) as Gs. fold (q (i - l) lw) in Gs. fold s0 in Gs.
    assert (V : forall c, 0 <= c < 2 ^ 20 -> _) by exact (inverse_near s0 sn d0 de S0 Sn D0 Dn Fs0 Fsn Fd0 Fdn Ns0 Nsn Nd0 Ndn Ps0 Pd0 HS HD kappa kappa_Dn kappa_range Gs). cbv zeta in V.
    assert (W : forall x, _) by exact (position_near s0 sn d0 de S0 Sn D0 Dn Fs0 Fsn Fd0 Fdn Ns0 Nsn Nd0 Ndn Ps0 Pd0 HS HD rho step_Sn rho_range). cbv zeta in W.
    destruct (V 0 ltac:(lia)) as [Fmin Nmin]. destruct (V (pw - 1) ltac:(unfold size_ok in Zp; lia)) as [Fmax Nmax]. clear V.
    pose proof from_eq as EF. pose proof to_eq as ET. pose proof kappa_range as KR. pose proof rho_range as RR.
    assert (Emin : ((Zq 0 - S0) * kappa + D0 == tile_from a)%Q) by (rewrite <- EF; change (Zq 0) with 0%Q; ring). rewrite Emin in Nmin.
    assert (Emax : ((Zq (pw - 1) - S0) * kappa + D0 == tile_to a - kappa)%Q).
    { rewrite <- ET, <- EF. unfold Z.sub. rewrite inject_Z_plus. change (Zq (- (1))) with (- (1))%Q. ring. } rewrite Emax in Nmax.
    (* sizes *)
    assert (B30 : (b2 30 == 1073741824)%Q) by reflexivity. assert (B21 : (b2 21 == 2097152)%Q) by reflexivity.
    assert (SK : (0 <= S0 * kappa <= 2097152)%Q).
    { split; [apply Qmult_le_0_compat; lra|]. apply Qle_trans with (S0 * 2)%Q; [apply Qmult_le_l'; lra|lra]. }
    assert (PK : (0 <= Zq pw * kappa <= 2097152)%Q).
    { destruct (size_Q pw Zp) as [_ U]. split; [apply Qmult_le_0_compat; lra|]. apply Qle_trans with (Zq pw * 2)%Q; [apply Qmult_le_l'; lra|lra]. }
    destruct (add_near d0 de 21 Fd0 Fdn ltac:(lia) ltac:(rewrite B21; unfold near in *; lra) ltac:(rewrite B21; unfold near in *; lra)) as [Fe Ne].
    assert (E33 : (b2 (21 - 54) == 1 # 8589934592)%Q) by reflexivity. rewrite E33 in Ne.
    destruct (cast_int_ok d0 Fd0 Pd0 ltac:(rewrite B30; unfold near in *; lra)) as (ka & Ka & Ka1 & Ka2).
    destruct (cast_int_ok (f64_add d0 de) Fe ltac:(unfold near in *; lra) ltac:(rewrite B30; unfold near in *; lra)) as (kb & Kb & Kb1 & Kb2).
    destruct (ceil_int_ok _ Fmin ltac:(rewrite B30; unfold near in *; lra) ltac:(rewrite B30; unfold near in *; lra)) as (kc & Kc & Kc1 & Kc2).
    destruct (ceil_int_ok _ Fmax ltac:(rewrite B30; unfold near in *; lra) ltac:(rewrite B30; unfold near in *; lra)) as (kd & Kd & Kd1 & Kd2).
    exists (Z.max kc (Z.max ka 0)), (Z.min kd (Z.min kb (dn - 1))), (fun x => match nn_source s0 sn pw d0 de x with Ok s => s | _ => 0 end).
    split. { unfold nn_range. rewrite Ka. cbn [bind]. rewrite Kb. cbn [bind]. cbv zeta. rewrite Kc. cbn [bind]. rewrite Kd. reflexivity. }
    split; [lia|]. split; [lia|].
    pose proof start_cases as SC. pose proof end_cases as EC.
    (* the source line *)
    assert (SRC : forall x, Z.max kc (Z.max ka 0) <= x <= Z.min kd (Z.min kb (dn - 1)) -> exists s, nn_source s0 sn pw d0 de x = Ok s /\ 0 <= s < pw /\ (Qabs (Zq s - tile_point a x) <= (1 # 2) + (1 # 64))%Q).
    { intros x Hx.
      assert (X1 : (Zq ka <= Zq x)%Q) by (apply injZ_le; lia). assert (X2 : (Zq x <= Zq kb)%Q) by (apply injZ_le; lia).
      destruct (W x ltac:(unfold near in *; lra) ltac:(unfold near in *; lra)) as [Fp Np].
      assert (EI : ((Zq x - D0) * rho + S0 == (Zq x - tile_from a) * rho)%Q) by (rewrite <- EF; setoid_replace ((Zq x - (D0 - S0 * kappa)) * rho)%Q with ((Zq x - D0) * rho + S0 * (kappa * rho))%Q by ring; rewrite kappa_rho; ring).
      rewrite EI in Np. set (y := ((Zq x - tile_from a) * rho)%Q) in *.
      assert (YB : (- (4194304) <= y <= 4194304)%Q).
      { assert (XD : (Qabs (Zq x - D0) <= Dn + 1 + (1 # 8))%Q) by (apply abs_le; unfold near in *; lra).
        assert (M : (Qabs ((Zq x - D0) * rho) <= (Dn + 1 + (1 # 8)) * rho)%Q) by (rewrite Qabs_Qmult, (Qabs_pos rho) by lra; apply Qmult_le_compat_r; lra).
        setoid_replace ((Dn + 1 + (1 # 8)) * rho)%Q with (rho * Dn + (9 # 8) * rho)%Q in M by ring. rewrite step_Sn in M. apply Qabs_Qle_condition in M. lra. }
      destruct (lround_ok _ Fp ltac:(rewrite B30; unfold near in *; lra) ltac:(rewrite B30; unfold near in *; lra)) as (k & K & NK).
      unfold nn_source. rewrite K. cbn [bind]. eexists. split; [reflexivity|].
      assert (PW : 1 <= pw) by apply Zp. split; [destruct (Z.ltb_spec k 0); [lia|]; destruct (Z.leb_spec pw k); lia|].
      assert (EP : (Zq pw - 1 == Zq (pw - 1))%Q) by (unfold Z.sub; rewrite inject_Z_plus; reflexivity).
      unfold tile_point. fold rho pw y. rewrite EP. assert (P0 : (0 <= Zq (pw - 1))%Q) by (change 0%Q with (Zq 0); apply injZ_le; lia).
      apply abs_le; destruct (Z.ltb_spec k 0) as [L|L]; try (destruct (Z.leb_spec pw k) as [G|G]).
      all: try (assert (KL : (Zq k <= Zq (- (1)))%Q) by (apply injZ_le; lia); change (Zq (- (1))) with (- (1))%Q in KL).
      all: try (assert (KG : (Zq (pw - 1) + 1 <= Zq k)%Q) by (rewrite <- injZ_1; apply injZ_le; lia)).
      all: change (Zq 0) with 0%Q in *.
      all: destruct (Q.min_spec y (Zq (pw - 1))) as [[H1 ->]|[H1 ->]].
      all: try (destruct (Q.max_spec 0 y) as [[H2 ->]|[H2 ->]]).
      all: try (destruct (Q.max_spec 0 (Zq (pw - 1))) as [[H3 ->]|[H3 ->]]).
      all: try (assert (KP : (Zq k <= Zq (pw - 1))%Q) by (apply injZ_le; lia)).
      all: try (assert (K0 : (0 <= Zq k)%Q) by (change 0%Q with (Zq 0); apply injZ_le; lia)).
      all: unfold near in *; lra. }
    split. { intros x Hx. destruct (SRC x Hx) as (s & E & _). rewrite E. reflexivity. }
    split.
    - intros x s Hx. destruct ((_ <=? x) && (x <=? _)) eqn:E; [|discriminate].
      assert (Hr : Z.max kc (Z.max ka 0) <= x <= Z.min kd (Z.min kb (dn - 1))) by lia. destruct (SRC x Hr) as (s' & Es & S1 & S2). rewrite Es in Hx. injection Hx as <-.
      split; [fold dn; lia|]. split; [exact S1|]. split; [|exact S2].
      assert (X1 : (Zq kc <= Zq x)%Q) by (apply injZ_le; lia). assert (X2 : (Zq x <= Zq kb)%Q) by (apply injZ_le; lia). split; unfold near in *; lra.
    - intros x Hx X1 X2 X3. fold dn in Hx. fold rho in X3. fold kappa in X3.
      assert (X0 : (0 <= Zq x)%Q) by (change 0%Q with (Zq 0); apply injZ_le; lia).
      assert (XD : (Zq x + 1 <= Zq dn)%Q) by (rewrite <- injZ_1; apply injZ_le; lia).
      assert (C1 : kc <= x). { assert (kc < x + 1); [|lia]. apply injZ_lt. rewrite injZ_1. unfold near in *. lra. }
      assert (C2 : ka <= x). { assert (ka < x + 1); [|lia]. apply injZ_lt. rewrite injZ_1. unfold near in *. lra. }
      assert (C3 : x <= kd). { assert (x < kd + 1); [|lia]. apply injZ_lt. rewrite injZ_1. unfold near in *. lra. }
      assert (C4 : x <= kb). { assert (x < kb + 1); [|lia]. apply injZ_lt. rewrite injZ_1. unfold near in *. lra. }
      replace ((_ <=? x) && (x <=? _)) with true by lia. discriminate.
  Qed.
End AxisProof.

(** ** Drawing *)
Lemma iota_shift i n : iota i n = map (fun k => i + k) (iota 0 n).
Proof.
  assert (G : forall n j, iota (i + j) n = map (fun k => i + k) (iota j n)).
  { induction n0 as [|m IH]; intros j; cbn [iota map]; [reflexivity|]. rewrite <- IH. replace (i + j + 1) with (i + (j + 1)) by lia. reflexivity. }
  rewrite <- (G n 0). f_equal. lia.
Qed.
Lemma flat_map_map {A B C} (f : A -> B) (g : B -> list C) l : flat_map g (map f l) = flat_map (fun x => g (f x)) l.
Proof. induction l as [|x l IH]; cbn [map flat_map]; [reflexivity|]. now rewrite IH. Qed.
Lemma pix_in_buffer b x y : bmp_wf b -> 0 <= x < bw b -> 0 <= y < bh b -> 0 <= y * bstride b + x * bbpp b /\ y * bstride b + x * bbpp b + bbpp b <= bsize b.
Proof.
  intros W Hx Hy. pose proof (region_of_bmp b 0 0 (bw b) (bh b) W ltac:(lia) ltac:(lia) ltac:(lia) ltac:(lia) ltac:(lia) ltac:(lia)) as R.
  pose proof (region_pix_in _ _ _ y x R Hy Hx) as P. cbn [g_off g_stride g_bpp g_size] in P. lia.
Qed.
Lemma mask_in_buffer k x y : mask_wf k -> 0 <= x < mw k -> 0 <= y < mh k -> 0 <= y * mstride k + x / 8 < msize k.
Proof.
  intros (M1 & M2 & M3 & M4) Hx Hy. specialize (M4 ltac:(lia)). assert (0 <= x / 8 < (mw k + 7) / 8) by (split; [apply Z.div_pos; lia|]; lia).
  assert (0 <= mstride k) by lia. nia.
Qed.

Lemma nn_resize_ok conv mk src s d dst x0 x1 fx y0 y1 fy :
  bmp_wf src -> bmp_wf dst -> (forall k, mk = Some k -> mask_wf k) -> (forall v, length v = Z.to_nat (bbpp src) -> length (conv v) = Z.to_nat (bbpp dst)) ->
  nn_range (d_x s) (d_w s) (bw src) (d_x d) (d_w d) (bw dst) = Ok (x0, x1) -> 0 <= x0 -> x1 < bw dst ->
  nn_range (d_y s) (d_h s) (bh src) (d_y d) (d_h d) (bh dst) = Ok (y0, y1) -> 0 <= y0 -> y1 < bh dst ->
  (forall x, x0 <= x <= x1 -> nn_source (d_x s) (d_w s) (bw src) (d_x d) (d_w d) x = Ok (fx x) /\ 0 <= fx x < bw src) ->
  (forall y, y0 <= y <= y1 -> nn_source (d_y s) (d_h s) (bh src) (d_y d) (d_h d) y = Ok (fy y) /\ 0 <= fy y < bh src) ->
  exists d', nn_resize conv mk src s d dst = Ok d' /\
    pix_post dst d' (fun x y => if (x0 <=? x) && (x <=? x1) && (y0 <=? y) && (y <=? y1) && unmasked mk (fx x) (fy y) then Some (conv (pix src (fx x) (fy y))) else None).
Proof.
  intros Ws Wd Wm Wc Rx X0 X1 Ry Y0 Y1 Sx Sy. unfold nn_resize. rewrite Rx. cbn [bind]. rewrite Ry. cbn [bind].
  set (g := fun y x => if unmasked mk (fx (x0 + x)) (fy (y0 + y)) then Some (conv (pix src (fx (x0 + x)) (fy (y0 + y)))) else None).
  set (dr := mkRegion (bsize dst) (y0 * bstride dst + x0 * bbpp dst) (bstride dst) (bbpp dst)).
  assert (PX : forall x y m, x0 <= x <= x1 -> y0 <= y <= y1 -> nn_pixel conv mk src dst (fx x) (fy y) x y m =
      Ok (apply_writes m (match g (y - y0) (x - x0) with Some v => [(y * bstride dst + x * bbpp dst, v)] | None => [] end))).
  { intros x y m Hx Hy. destruct (Sx x Hx) as [_ Bx]. destruct (Sy y Hy) as [_ By]. unfold g. replace (x0 + (x - x0)) with x by lia. replace (y0 + (y - y0)) with y by lia.
    pose proof (pix_in_buffer dst x y Wd ltac:(lia) ltac:(lia)) as P1. pose proof (pix_in_buffer src (fx x) (fy y) Ws Bx By) as P2.
    assert (PUT : convert_pixel conv (mkRegion (bsize dst) 0 (bstride dst) (bbpp dst)) (mkRegion (bsize src) 0 (bstride src) (bbpp src)) (y * bstride dst + x * bbpp dst) (fy y * bstride src + fx x * bbpp src) (bdata src) m
      = Ok (apply_writes m [(y * bstride dst + x * bbpp dst, conv (pix src (fx x) (fy y)))])).
    { unfold convert_pixel. cbn [g_bpp g_size]. match goal with |- context [if ?c then _ else _] => replace c with true by lia end. reflexivity. }
    unfold nn_pixel. cbv zeta. rewrite PUT. destruct mk as [k|]; cbn [unmasked]; [|reflexivity].
    destruct (Z.ltb_spec (fx x) (mw k)) as [L1|L1]; cbn [andb]; [|reflexivity]. destruct (Z.ltb_spec (fy y) (mh k)) as [L2|L2]; cbn [andb]; [|reflexivity].
    pose proof (mask_in_buffer k (fx x) (fy y) (Wm k eq_refl) ltac:(lia) ltac:(lia)) as P3. unfold get_mask_pixel.
    match goal with |- context [if ?c then Ok _ else UB] => replace c with true by lia end. cbn [bind]. rewrite mask_pixel_bit. destruct (mask_bit k (fx x) (fy y)); reflexivity. }
  assert (LOOP : for_range y0 y1 (fun y m => let* sy := nn_source (d_y s) (d_h s) (bh src) (d_y d) (d_h d) y in
      for_range x0 x1 (fun x m => let* sx := nn_source (d_x s) (d_w s) (bw src) (d_x d) (d_w d) x in nn_pixel conv mk src dst sx sy x y m) m) (bdata dst)
      = Ok (apply_writes (bdata dst) (pix_writes dr (x1 - x0 + 1) (y1 - y0 + 1) g))).
  { unfold for_range. rewrite (for_loop_writes _ y0 _ (fun y => flat_map (fun x => match g (y - y0) x with Some v => [(y * bstride dst + (x0 + x) * bbpp dst, v)] | None => [] end) (iota 0 (Z.to_nat (x1 - x0 + 1))))).
    - f_equal. f_equal. unfold pix_writes. rewrite (iota_shift y0), flat_map_map. apply flat_map_ext. intros y. replace (y0 + y - y0) with y by lia. apply flat_map_ext. intros x. destruct (g y x); [|reflexivity].
      unfold dr. cbn [g_off g_stride g_bpp]. f_equal. f_equal. lia.
    - intros y m Hy. destruct (Sy y ltac:(lia)) as [E _]. rewrite E. cbn [bind].
      rewrite (for_loop_writes _ x0 _ (fun x => match g (y - y0) (x - x0) with Some v => [(y * bstride dst + x * bbpp dst, v)] | None => [] end)).
      + f_equal. f_equal. rewrite (iota_shift x0), flat_map_map. apply flat_map_ext. intros x. replace (x0 + x - x0) with x by lia. reflexivity.
      + intros x m' Hx. destruct (Sx x ltac:(lia)) as [E2 _]. rewrite E2. cbn [bind]. apply PX; lia. }
  rewrite LOOP. cbn [bind]. eexists. split; [reflexivity|].
  destruct (Z_lt_le_dec x1 x0) as [EX|EX]; [|destruct (Z_lt_le_dec y1 y0) as [EY|EY]].
  - assert (N : pix_writes dr (x1 - x0 + 1) (y1 - y0 + 1) g = []).
    { unfold pix_writes. replace (Z.to_nat (x1 - x0 + 1)) with 0%nat by lia. cbn [iota flat_map]. induction (iota 0 (Z.to_nat (y1 - y0 + 1))); [reflexivity|assumption]. }
    rewrite N. split; [eexists; reflexivity|]. split; [|reflexivity]. intros x y Hx Hy. replace ((x0 <=? x) && (x <=? x1)) with false by lia. reflexivity.
  - assert (N : pix_writes dr (x1 - x0 + 1) (y1 - y0 + 1) g = []).
    { unfold pix_writes. replace (Z.to_nat (y1 - y0 + 1)) with 0%nat by lia. reflexivity. }
    rewrite N. split; [eexists; reflexivity|]. split; [|reflexivity]. intros x y Hx Hy. replace ((y0 <=? y) && (y <=? y1)) with false by lia.
    replace ((x0 <=? x) && (x <=? x1) && (y0 <=? y) && (y <=? y1)) with false by lia. reflexivity.
  - apply (block_to_pix dst _ x0 y0 (x1 - x0 + 1) (y1 - y0 + 1) g _ Wd); try lia.
    + apply pix_writes_post; [apply region_of_bmp; try assumption; lia|]. intros r c v H. unfold g in H. destruct (unmasked _ _ _); [|discriminate]. injection H as <-. cbn [g_bpp dr]. apply Wc. apply mread_length.
    + intros x y Hx Hy. unfold g. replace (x0 + (x - x0)) with x by lia. replace (y0 + (y - y0)) with y by lia.
      replace ((x0 <=? x) && (x <? x0 + (x1 - x0 + 1)) && (y0 <=? y) && (y <? y0 + (y1 - y0 + 1))) with ((x0 <=? x) && (x <=? x1) && (y0 <=? y) && (y <=? y1)) by lia.
      destruct ((x0 <=? x) && (x <=? x1) && (y0 <=? y) && (y <=? y1)); reflexivity.
Qed.

(** the pixels of a tile shown along an axis *)
Definition axis_map (a : axis) (x : Z) : option Z :=
  let i := Z.max (a_pos a) (a_org a) in
  let '((s0, sn), (d0, de)) := blt_axis i (Z.min (a_pos a + a_len a) (a_org a + a_ext a) - i) (a_pos a) (a_len a) (a_pix a) (a_org a) (a_ext a) (a_out a) in
  match nn_range s0 sn (a_pix a) d0 de (a_out a) with
  | Ok (x0, x1) => if (x0 <=? x) && (x <=? x1) then match nn_source s0 sn (a_pix a) d0 de x with Ok s => Some s | _ => None end else None
  | _ => None
  end.
Lemma scaled_ext a f g : (forall x, f x = g x) -> scaled a f -> scaled a g.
Proof. intros E [A B]. split; [intros x s H; apply A; rewrite E; exact H|]. intros x H1 H2 H3 H4. rewrite <- E. now apply B. Qed.
Lemma axis_map_scaled a : axis_ok a -> scaled a (axis_map a).
Proof.
  intros Ha. destruct (axis_scaled a Ha) as (x0 & x1 & f & R & _ & _ & S & G). eapply scaled_ext; [|exact G]. intros x. unfold axis_map, blt_axis. cbv zeta. rewrite R.
  destruct ((x0 <=? x) && (x <=? x1)) eqn:E; [|reflexivity]. rewrite S by lia. reflexivity.
Qed.

Theorem scale_blt_ok bitmap zoom roi dst k i :
  SFeqb zoom (f32_of_Z 1) = false -> bmp_wf dst -> source_ok bitmap dst k i -> axis_ok (x_axis i roi dst) -> axis_ok (y_axis i roi dst) ->
  exists d', scale_blt bitmap zoom roi dst (k, i) = Ok d' /\ put_pixels dst d' (scaled_value bitmap k (axis_map (x_axis i roi dst)) (axis_map (y_axis i roi dst))).
Proof.
  intros Hz Wd So Ax Ay. unfold scale_blt. cbn [fst snd]. rewrite Hz. cbv zeta.
  assert (C : intersect (sb_rect i) roi = mkRect (Z.max (rx (sb_rect i)) (rx roi)) (Z.max (ry (sb_rect i)) (ry roi))
      (Z.min (rx (sb_rect i) + rw (sb_rect i)) (rx roi + rw roi) - Z.max (rx (sb_rect i)) (rx roi)) (Z.min (ry (sb_rect i) + rh (sb_rect i)) (ry roi + rh roi) - Z.max (ry (sb_rect i)) (ry roi))).
  { unfold intersect. cbv zeta. destruct Ax as (_ & _ & _ & _ & _ & _ & O1). destruct Ay as (_ & _ & _ & _ & _ & _ & O2). cbn [x_axis y_axis a_pos a_len a_org a_ext] in O1, O2.
    match goal with |- (if ?c then _ else _) = _ => replace c with true by lia end. reflexivity. }
  rewrite C. cbn [rx ry rw rh].
  destruct (axis_scaled _ Ax) as (x0 & x1 & fx & Rx & X0 & X1 & Sx & Gx). destruct (axis_scaled _ Ay) as (y0 & y1 & fy & Ry & Y0 & Y1 & Sy & Gy).
  assert (Mx : forall x, axis_map (x_axis i roi dst) x = if (x0 <=? x) && (x <=? x1) then Some (fx x) else None).
  { intros x. unfold axis_map, blt_axis. cbv zeta. rewrite Rx. destruct ((x0 <=? x) && (x <=? x1)) eqn:E; [|reflexivity]. rewrite Sx by lia. reflexivity. }
  assert (My : forall y, axis_map (y_axis i roi dst) y = if (y0 <=? y) && (y <=? y1) then Some (fy y) else None).
  { intros y. unfold axis_map, blt_axis. cbv zeta. rewrite Ry. destruct ((y0 <=? y) && (y <=? y1)) eqn:E; [|reflexivity]. rewrite Sy by lia. reflexivity. }
  cbn [x_axis y_axis a_pos a_len a_pix a_org a_ext a_out] in X0, X1, Y0, Y1, Rx, Ry, Sx, Sy, Gx, Gy.
  unfold blt_axis. cbv zeta. unfold source_ok in So. unfold scaled_value. destruct (bitmap k) as [[b mk] kind]. destruct So as (Wb & Ew & Eh & Wm & Wk).
  assert (Fx : forall x, x0 <= x <= x1 -> 0 <= fx x < sb_pw i).
  { intros x Hx. destruct Gx as [Gx _]. apply (Gx x). replace ((x0 <=? x) && (x <=? x1)) with true by lia. reflexivity. }
  assert (Fy : forall y, y0 <= y <= y1 -> 0 <= fy y < sb_ph i).
  { intros y Hy. destruct Gy as [Gy _]. apply (Gy y). replace ((y0 <=? y) && (y <=? y1)) with true by lia. reflexivity. }
  rewrite <- Ew in Rx, Sx, Fx. rewrite <- Eh in Ry, Sy, Fy.
  match goal with |- exists d', nn_resize _ _ _ ?S ?D _ = _ /\ _ => set (sr := S); set (ds := D) end.
  destruct (nn_resize_ok (kind_conv kind) mk b sr ds dst x0 x1 fx y0 y1 fy Wb Wd Wm) as (d' & E & P); try assumption.
  - intros v Hv. destruct kind as [bo|c]; cbn [kind_conv]; [rewrite <- Wk; exact Hv|now apply Wk].
  - rewrite Ew in *. exact Rx.
  - rewrite Eh in *. exact Ry.
  - intros x Hx. split; [rewrite Ew in *; apply Sx; exact Hx|apply Fx; exact Hx].
  - intros y Hy. split; [rewrite Eh in *; apply Sy; exact Hy|apply Fy; exact Hy].
  - exists d'. split; [exact E|].
    destruct P as (P1 & P2 & P3). split; [exact P1|]. split; [|exact P3]. intros x y Hx Hy. rewrite P2 by assumption. rewrite Mx, My.
    destruct ((x0 <=? x) && (x <=? x1)) eqn:E1; cbn [andb]; [|reflexivity].
    destruct (y0 <=? y) eqn:E2; cbn [andb]; [|reflexivity]. destruct (y <=? y1) eqn:E3; cbn [andb]; [|reflexivity].
    destruct (unmasked mk (fx x) (fy y)); [|reflexivity]. destruct kind; reflexivity.
Qed.
