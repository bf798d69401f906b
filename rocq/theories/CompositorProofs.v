From Verif Require Import Base RectModel RectProofs CopyModel MemProofs CopyProofs HiLoModel HiLoProofs PixelModel PixelSpec FloatProofs PixelProofs FillProofs PixLoopProofs CompositorModel CompositorSpec.
From Coq Require Import QArith Qabs Qminmax Lqa Floats.SpecFloat Permutation.
Open Scope Z_scope.

(** ** intensities *)
Lemma frac_ok p M : 0 <= p <= M -> 0 < M < 2 ^ 24 ->
  let f := f32_div (f32_of_Z p) (f32_of_Z M) in
  fnn f /\ (sfQ f <= 1)%Q /\ (Qabs (sfQ f - inject_Z p / inject_Z M) <= b2 (-24))%Q.
Proof.
  intros Hp HM. cbv zeta. destruct (f32_of_Z_ok p ltac:(lia)) as [N1 Q1]. destruct (f32_of_Z_ok M ltac:(lia)) as [N3 Q3].
  assert (PM : (0 < inject_Z M)%Q) by (change 0%Q with (inject_Z 0); apply injZ_lt; lia).
  destruct (Z.eq_dec p 0) as [->|Hn].
  - assert (E : f32_div (f32_of_Z 0) (f32_of_Z M) = S754_zero false).
    { unfold f32_div. destruct N3 as [_ S3]. destruct (f32_of_Z M) as [s|s| |s m e]; try contradiction.
      - exfalso. cbn [sfQ] in Q3. rewrite <- Q3 in PM. discriminate PM.
      - subst s. reflexivity. }
    rewrite E. split; [split; reflexivity|]. split; [discriminate|]. cbn [sfQ].
    assert (Z0 : (0 - inject_Z 0 / inject_Z M == 0)%Q) by (change (inject_Z 0) with 0%Q; unfold Qdiv; ring). rewrite Z0. vm_compute. discriminate.
  - assert (X : (sfQ (f32_of_Z p) / sfQ (f32_of_Z M) == inject_Z p / inject_Z M)%Q) by (rewrite Q1, Q3; reflexivity).
    assert (X1 : (inject_Z p / inject_Z M <= 1)%Q) by (apply Qle_shift_div_r; [exact PM|]; rewrite Qmult_1_l; apply injZ_le; lia).
    assert (X0 : (b2 (-149) <= inject_Z p / inject_Z M)%Q).
    { apply Qle_shift_div_l; [exact PM|]. apply Qle_trans with (1 * 1)%Q.
      - apply Qle_trans with (b2 (-149) * b2 24)%Q; [|rewrite <- b2_plus; vm_compute; discriminate].
        apply Qmult_le_l; [apply b2_pos|]. rewrite b2_Z by lia. apply injZ_le. lia.
      - rewrite Qmult_1_l. change 1%Q with (inject_Z 1). apply injZ_le. lia. }
    assert (O : fop (inject_Z p / inject_Z M) 1 (f32_div (f32_of_Z p) (f32_of_Z M))).
    { eapply op_ok_eq; [exact X|]. apply SFdiv_op; try lia; try assumption; try (rewrite X; assumption); [rewrite Q3; exact PM|].
      rewrite X, b2_1. lra. }
    split; [apply O|]. split.
    + assert (U : (sfQ (f32_div (f32_of_Z p) (f32_of_Z M)) <= inject_Z 1 * b2 0)%Q).
      { eapply fop_le; [exact O|lia|lia|]. rewrite b2_0. change (inject_Z 1) with 1%Q. lra. }
      rewrite b2_0 in U. exact U.
    + apply (fop_err _ 1 _ O). lia.
Qed.

Lemma tint1_ok k f X : 0 <= k <= 255 -> fnn f -> (sfQ f <= 1)%Q -> (Qabs (sfQ f - X) <= b2 (-24))%Q ->
  exists n, to_byte (f32_mul f (f32_of_Z k)) = Ok n /\ 0 <= n <= k /\ around (inject_Z k * X) n.
Proof.
  intros Hk Hf F1 FX. destruct (f32_of_Z_ok k ltac:(lia)) as [Nk Qk]. pose proof (nn_ge0 24 128 f Hf) as F0.
  assert (K0 : (0 <= inject_Z k)%Q) by (change 0%Q with (inject_Z 0); apply injZ_le; lia).
  assert (K1 : (inject_Z k <= 255)%Q) by (change 255%Q with (inject_Z 255); apply injZ_le; lia).
  assert (P1 : (sfQ f * inject_Z k <= 1 * inject_Z k)%Q) by (apply Qmult_le_compat_r; assumption).
  assert (P0 : (0 <= sfQ f * inject_Z k)%Q) by (apply Qmult_le_0_compat; assumption).
  assert (B8 : (b2 8 == 256)%Q) by reflexivity.
  assert (O : fop (sfQ f * inject_Z k) 8 (f32_mul f (f32_of_Z k))).
  { eapply op_ok_eq; [|apply SFmul_op; try assumption; try lia]; [rewrite Qk; reflexivity|]. rewrite Qk, B8. lra. }
  assert (U : (sfQ (f32_mul f (f32_of_Z k)) <= inject_Z k * b2 0)%Q) by (eapply fop_le; [exact O|lia|lia|]; rewrite b2_0; lra).
  rewrite b2_0 in U. pose proof (fop_err _ _ _ O ltac:(lia)) as E1. apply Qabs_bounds in E1. change (8 - 25) with (-17) in E1.
  destruct O as [Np _]. set (p := f32_mul f (f32_of_Z k)) in *. pose proof (nn_ge0 24 128 p Np).
  destruct f_half_ok as [Nh Qh].
  assert (O2 : fop (sfQ p + sfQ f_half) 8 (f32_add p f_half)) by (apply SFadd_op; try assumption; try lia; rewrite Qh, B8; lra).
  assert (U2 : (sfQ (f32_add p f_half) <= inject_Z (2 * k + 1) * b2 (-1))%Q).
  { eapply fop_le; [exact O2|lia|lia|]. rewrite Qh. assert (Eb : (b2 (-1) == 1 # 2)%Q) by reflexivity. rewrite Eb, inject_Z_plus, inject_Z_mult.
    change (inject_Z 2) with 2%Q. change (inject_Z 1) with 1%Q. lra. }
  pose proof (fop_err _ _ _ O2 ltac:(lia)) as E2. apply Qabs_bounds in E2. rewrite Qh in E2. change (8 - 25) with (-17) in E2.
  assert (Eb : (b2 (-1) == 1 # 2)%Q) by reflexivity. rewrite Eb, inject_Z_plus, inject_Z_mult in U2. change (inject_Z 2) with 2%Q in U2. change (inject_Z 1) with 1%Q in U2.
  destruct O2 as [Nr _]. destruct (f32_cast_nn 0 255 _ Nr ltac:(lia)) as (n & En & Hn & T1 & T2).
  { change (inject_Z (255 + 1)) with 256%Q. lra. }
  exists n. split; [exact En|]. split.
  - split; [lia|]. assert (n < k + 1); [|lia]. apply injZ_lt. rewrite inject_Z_plus. change (inject_Z 1) with 1%Q. lra.
  - unfold around. apply Qabs_bounds in FX. rewrite inject_Z_plus in T2. change (inject_Z 1) with 1%Q in T2.
    assert (M1 : (inject_Z k * (sfQ f - X) <= 255 * b2 (-24))%Q).
    { apply Qle_trans with (inject_Z k * b2 (-24))%Q; [|apply Qmult_le_compat_r; [exact K1|apply Qlt_le_weak, b2_pos]].
      rewrite (Qmult_comm (inject_Z k)), (Qmult_comm (inject_Z k)). apply Qmult_le_compat_r; [lra|exact K0]. }
    assert (M2 : (- (255 * b2 (-24)) <= inject_Z k * (sfQ f - X))%Q).
    { apply Qle_trans with (- (inject_Z k * b2 (-24)))%Q.
      - apply Qopp_le_compat. apply Qmult_le_compat_r; [exact K1|apply Qlt_le_weak, b2_pos].
      - assert (H' : (inject_Z k * (- b2 (-24)) <= inject_Z k * (sfQ f - X))%Q) by (rewrite (Qmult_comm (inject_Z k)), (Qmult_comm (inject_Z k)); apply Qmult_le_compat_r; [lra|exact K0]). lra. }
    assert (B1 : (b2 (-15) == 512 * b2 (-24))%Q) by reflexivity. assert (B2 : (b2 (-17) == 128 * b2 (-24))%Q) by reflexivity.
    rewrite B1. rewrite B2 in *. pose proof (b2_pos (-24)) as Bp. set (B := b2 (-24)) in *. clearbody B.
    assert (D1 : (inject_Z k * (sfQ f - X) == sfQ f * inject_Z k - inject_Z k * X)%Q) by ring. rewrite D1 in *.
    set (U1 := (sfQ f * inject_Z k)%Q) in *. set (V := (inject_Z k * X)%Q) in *. clearbody U1 V. apply Qabs_intro; lra.
Qed.

Lemma tint_ok col f X : byte_color col -> fnn f -> (sfQ f <= 1)%Q -> (Qabs (sfQ f - X) <= b2 (-24))%Q ->
  exists c, tint col f = Ok c /\ tinted col X c.
Proof.
  destruct col as [[cb cg] cr]. intros (Hb & Hg & Hr) Hf F1 FX. unfold tint.
  destruct (tint1_ok cb f X Hb Hf F1 FX) as (b & -> & B1 & B2). destruct (tint1_ok cg f X Hg Hf F1 FX) as (g & -> & G1 & G2).
  destruct (tint1_ok cr f X Hr Hf F1 FX) as (r & -> & R1 & R2). cbn [bind]. exists (b, g, r). split; [reflexivity|].
  unfold tinted, map3. auto.
Qed.

Lemma tinted_eq col X Y c : (X == Y)%Q -> tinted col X c -> tinted col Y c.
Proof.
  intros E. destruct col as [[cb cg] cr], c as [[b g] r]. unfold tinted, map3, around. intros (A & B & C).
  rewrite <- E. tauto.
Qed.

(** ** black and white point *)
Lemma ceil_ok hi f : fnn f -> (sfQ f <= inject_Z hi)%Q -> exists t, f32_ceil_cast hi f = Ok t /\ 0 <= t <= hi /\ (sfQ f <= inject_Z t < sfQ f + 1)%Q.
Proof.
  intros Hf Hh. destruct (sf_trunc_nn 24 128 f Hf) as (t & E & T0 & T1 & T2).
  destruct f as [s|s| |s m e]; try discriminate E; cbn [sf_trunc sfQ] in *.
  - exists 0. split; [reflexivity|]. assert (0 <= hi) by (apply injZ_le; exact Hh). split; [lia|]. split; [discriminate|reflexivity].
  - assert (s = false) by apply Hf. subst s. cbn [f32_ceil_cast]. cbv zeta. destruct (0 <=? e) eqn:Ee.
    + assert (Et : Zpos m * 2 ^ e = t) by congruence. rewrite Et.
      assert (Ev : (inject_Z (Zpos m) * b2 e == inject_Z t)%Q) by (rewrite b2_Z by lia; rewrite <- inject_Z_mult, Et; reflexivity).
      rewrite Ev in *. assert (t <= hi) by (apply injZ_le; exact Hh). replace ((0 <=? t) && (t <=? hi)) with true by lia.
      exists t. split; [reflexivity|]. split; [lia|]. lra.
    + assert (Et : Zpos m / 2 ^ (- e) = t) by congruence. clear E.
      assert (P : 0 < 2 ^ (- e)) by (apply Z.pow_pos_nonneg; lia).
      assert (P' : (0 < inject_Z (2 ^ (- e)))%Q) by (change 0%Q with (inject_Z 0); apply injZ_lt; exact P).
      assert (Ev : (inject_Z (Zpos m) * b2 e * inject_Z (2 ^ (- e)) == inject_Z (Zpos m))%Q).
      { rewrite <- (b2_Z (- e)) by lia. rewrite <- Qmult_assoc, <- b2_plus. replace (e + - e) with 0 by lia. rewrite b2_0. ring. }
      set (V := (inject_Z (Zpos m) * b2 e)%Q) in *. set (D := 2 ^ (- e)) in *. clearbody D.
      set (u := - (Zneg m / D)). assert (Hu : Zpos m <= u * D < Zpos m + D).
      { unfold u. change (Zneg m) with (- Zpos m). pose proof (Z.div_mod (- Zpos m) D ltac:(lia)). pose proof (Z.mod_pos_bound (- Zpos m) D P). lia. }
      change (- Zpos m) with (Zneg m). fold u.
      assert (Hu1 : (V <= inject_Z u)%Q).
      { apply Qmult_le_r with (inject_Z D); [exact P'|]. rewrite Ev, <- inject_Z_mult. apply injZ_le. lia. }
      assert (Hu2 : (inject_Z u < V + 1)%Q).
      { apply Qmult_lt_r with (inject_Z D); [exact P'|].
        assert (E3 : ((V + 1) * inject_Z D == inject_Z (Zpos m + D))%Q) by (rewrite inject_Z_plus, <- Ev; ring).
        rewrite E3, <- inject_Z_mult. apply injZ_lt. lia. }
      assert (0 <= u) by nia. assert (u <= hi).
      { assert (u < hi + 1); [|lia]. apply injZ_lt. rewrite inject_Z_plus. change (inject_Z 1) with 1%Q. lra. }
      replace ((0 <=? u) && (u <=? hi)) with true by lia. exists u. split; [reflexivity|]. split; [lia|]. split; assumption.
Qed.

Lemma floor_ok hi f : fnn f -> (sfQ f <= inject_Z hi)%Q -> exists t, f32_floor_cast hi f = Ok t /\ 0 <= t <= hi /\ (sfQ f - 1 < inject_Z t <= sfQ f)%Q.
Proof.
  intros Hf Hh. destruct (sf_trunc_nn 24 128 f Hf) as (t & E & T0 & T1 & T2). rewrite inject_Z_plus in T2. change (inject_Z 1) with 1%Q in T2.
  assert (t <= hi) by (apply injZ_le; eapply Qle_trans; eassumption).
  exists t. split; [|split; [lia|split; lra]].
  destruct f as [s|s| |s m e]; try discriminate E; cbn [sf_trunc] in E; cbn [f32_floor_cast]; cbv zeta; [congruence|].
  assert (s = false) by apply Hf. subst s.
  assert (Et : (if 0 <=? e then Zpos m * 2 ^ e else Zpos m / 2 ^ (- e)) = t) by congruence. rewrite Et.
  replace ((0 <=? t) && (t <=? hi)) with true by lia. reflexivity.
Qed.

Lemma bw_points_ok M black white : M = 255 \/ M = 65535 -> point_ok black -> point_ok white ->
  exists bp wp, bw_points M black white = Ok (bp, wp) /\ is_black_point M (sfQ black) bp /\ is_white_point M (sfQ white) wp.
Proof.
  intros HM [Nb B1] [Nw W1]. unfold bw_points. destruct (f32_of_Z_ok M ltac:(lia)) as [NM QM].
  assert (M0 : (0 < inject_Z M)%Q) by (change 0%Q with (inject_Z 0); apply injZ_lt; lia).
  assert (M1 : (inject_Z M <= 65535)%Q) by (change 65535%Q with (inject_Z 65535); apply injZ_le; lia).
  assert (G : forall c, fnn c -> (sfQ c <= 1)%Q -> fnn (f32_mul c (f32_of_Z M)) /\ (sfQ (f32_mul c (f32_of_Z M)) <= inject_Z M)%Q /\
     (inject_Z M * sfQ c - b2 (-9) <= sfQ (f32_mul c (f32_of_Z M)) <= inject_Z M * sfQ c + b2 (-9))%Q).
  { intros c Nc C1. pose proof (nn_ge0 24 128 c Nc) as C0.
    assert (PC : (sfQ c * inject_Z M <= 1 * inject_Z M)%Q) by (apply Qmult_le_compat_r; lra).
    assert (B16 : (b2 16 == 65536)%Q) by reflexivity.
    assert (O : fop (sfQ c * inject_Z M) 16 (f32_mul c (f32_of_Z M))).
    { eapply op_ok_eq; [|apply SFmul_op; try assumption; try lia]; [rewrite QM; reflexivity|]. rewrite QM, B16. lra. }
    pose proof (fop_err _ _ _ O ltac:(lia)) as E. apply Qabs_bounds in E. change (16 - 25) with (-9) in E.
    assert (U : (sfQ (f32_mul c (f32_of_Z M)) <= inject_Z M * b2 0)%Q) by (eapply fop_le; [exact O|lia|lia|]; rewrite b2_0; lra). rewrite b2_0 in U.
    split; [apply O|]. split; [lra|]. rewrite (Qmult_comm (inject_Z M)). split; lra. }
  destruct (G black Nb B1) as (G1 & G2 & G3). destruct (ceil_ok M _ G1 G2) as (bp & -> & Hbp & C1 & C2).
  destruct (G white Nw W1) as (G4 & G5 & G6). destruct (floor_ok M _ G4 G5) as (wp & -> & Hwp & C3 & C4). cbn [bind].
  assert (B9 : (b2 (-8) == 2 * b2 (-9))%Q) by reflexivity. pose proof (b2_pos (-9)) as Bp.
  exists bp, wp. split; [reflexivity|]. unfold is_black_point, is_white_point. rewrite B9. set (B := b2 (-9)) in *. clearbody B.
  set (Vb := (inject_Z M * sfQ black)%Q) in *. set (Vw := (inject_Z M * sfQ white)%Q) in *. clearbody Vb Vw.
  split; (split; [lia|]); lra.
Qed.

Lemma bw_float_ok bp wp v M : 0 <= bp <= M -> 0 <= wp <= M -> 0 <= v <= M -> M < 2 ^ 24 ->
  fnn (bw_float (bp, wp) v) /\ (sfQ (bw_float (bp, wp) v) <= 1)%Q /\ (Qabs (sfQ (bw_float (bp, wp) v) - bw_intensity bp wp v) <= b2 (-24))%Q.
Proof.
  intros Hb Hw Hv HM. unfold bw_float, bw_intensity. destruct (v <=? bp) eqn:E1.
  - split; [split; reflexivity|]. split; vm_compute; discriminate.
  - destruct (wp <=? v) eqn:E2.
    + split; [split; reflexivity|]. split; vm_compute; discriminate.
    + apply (frac_ok (v - bp) (wp - bp)); lia.
Qed.

Notation dnn := (nn 53 1024).
Notation dop := (op_ok 53 1024).
Lemma dop_err X N r : dop X N r -> -100 <= N -> (Qabs (sfQ r - X) <= b2 (N - 54))%Q.
Proof.
  intros (_ & E & HE & _ & k & _ & H) HN. eapply Qle_trans; [exact H|].
  assert (Eh : (b2 E * (1 # 2) == b2 (E - 1))%Q) by (replace (E - 1) with (E + -1) by lia; rewrite b2_plus; reflexivity).
  rewrite Eh. apply b2_le. unfold SpecFloat.fexp, emin in HE. lia.
Qed.
Lemma dop_le X N r z F : dop X N r -> -100 <= N -> N - 53 <= F -> (X <= inject_Z z * b2 F)%Q -> (sfQ r <= inject_Z z * b2 F)%Q.
Proof. intros (_ & E & HE & _ & R) H0 HN. apply (rnd_le E); [exact R|]. unfold SpecFloat.fexp, emin in HE. lia. Qed.
Lemma d_cast_nn lo hi f : dnn f -> lo <= 0 -> (sfQ f < inject_Z (hi + 1))%Q ->
  exists t, f32_cast lo hi f = Ok t /\ 0 <= t <= hi /\ (inject_Z t <= sfQ f < inject_Z (t + 1))%Q.
Proof.
  intros Hf Hlo Hhi. destruct (sf_trunc_nn 53 1024 f Hf) as (t & E & T0 & T1 & T2).
  assert (T3 : t <= hi) by (assert (t < hi + 1); [|lia]; apply injZ_lt; eapply Qle_lt_trans; eassumption).
  exists t. split; [|split; [lia|split; assumption]].
  destruct f as [s|s| |s m e]; try discriminate E; cbn [sf_trunc] in E; cbn [f32_cast].
  - congruence.
  - cbv zeta in *. assert (Et : (if s then - (if 0 <=? e then Zpos m * 2 ^ e else Zpos m / 2 ^ (- e)) else if 0 <=? e then Zpos m * 2 ^ e else Zpos m / 2 ^ (- e)) = t) by congruence.
    rewrite Et. replace ((lo <=? t) && (t <=? hi)) with true by lia. reflexivity.
Qed.
Lemma f64_of_f32_op f N : fnn f -> (sfQ f < b2 N)%Q -> N <= 1023 -> dop (sfQ f) N (f64_of_f32 f).
Proof.
  intros [V S] H HN. destruct f as [s|s| |s m e]; try contradiction.
  - subst s. cbn [f64_of_f32 sfQ]. eapply op_ok_eq; [|apply op_ok_0]; try lia. reflexivity.
  - subst s. cbn [f64_of_f32 binary_normalize]. apply round_op; try lia; [|exact H]. reflexivity.
Qed.

Lemma bw_round_ok f X : fnn f -> (sfQ f <= 1)%Q -> (Qabs (sfQ f - X) <= b2 (-24))%Q ->
  exists n, bw_round f = Ok n /\ 0 <= n <= 255 /\ around (255 * X) n.
Proof.
  intros Hf F1 FX. unfold bw_round. destruct (f32_of_Z_ok 255 ltac:(lia)) as [Nk Qk]. pose proof (nn_ge0 24 128 f Hf) as F0.
  change (inject_Z 255) with 255%Q in Qk.
  assert (B8 : (b2 8 == 256)%Q) by reflexivity.
  assert (O : fop (sfQ f * 255) 8 (f32_mul f (f32_of_Z 255))).
  { eapply op_ok_eq; [|apply SFmul_op; try assumption; try lia]; [rewrite Qk; reflexivity|]. rewrite Qk, B8. lra. }
  assert (U : (sfQ (f32_mul f (f32_of_Z 255)) <= inject_Z 255 * b2 0)%Q) by (eapply fop_le; [exact O|lia|lia|]; rewrite b2_0; change (inject_Z 255) with 255%Q; lra).
  rewrite b2_0 in U. change (inject_Z 255) with 255%Q in U. pose proof (fop_err _ _ _ O ltac:(lia)) as E1. apply Qabs_bounds in E1. change (8 - 25) with (-17) in E1.
  destruct O as [Np _]. set (p := f32_mul f (f32_of_Z 255)) in *. pose proof (nn_ge0 24 128 p Np).
  assert (O1 : dop (sfQ p) 8 (f64_of_f32 p)) by (apply f64_of_f32_op; [exact Np|rewrite B8; lra|lia]).
  assert (U1 : (sfQ (f64_of_f32 p) <= inject_Z 255 * b2 0)%Q) by (eapply dop_le; [exact O1|lia|lia|]; rewrite b2_0; change (inject_Z 255) with 255%Q; lra).
  rewrite b2_0 in U1. change (inject_Z 255) with 255%Q in U1. pose proof (dop_err _ _ _ O1 ltac:(lia)) as E3. apply Qabs_bounds in E3. change (8 - 54) with (-46) in E3.
  destruct O1 as [Nd _]. set (d := f64_of_f32 p) in *. pose proof (nn_ge0 53 1024 d Nd).
  assert (Nh : dnn f64_half) by (split; vm_compute; reflexivity). assert (Qh : (sfQ f64_half == 1 # 2)%Q) by (vm_compute; reflexivity).
  assert (O2 : dop (sfQ d + sfQ f64_half) 8 (SFadd 53 1024 d f64_half)) by (apply SFadd_op; try assumption; try lia; rewrite Qh, B8; lra).
  assert (U2 : (sfQ (SFadd 53 1024 d f64_half) <= inject_Z 511 * b2 (-1))%Q).
  { eapply dop_le; [exact O2|lia|lia|]. rewrite Qh. assert (Eb : (b2 (-1) == 1 # 2)%Q) by reflexivity. rewrite Eb. change (inject_Z 511) with 511%Q. lra. }
  pose proof (dop_err _ _ _ O2 ltac:(lia)) as E2. apply Qabs_bounds in E2. rewrite Qh in E2. change (8 - 54) with (-46) in E2.
  assert (Eb : (b2 (-1) == 1 # 2)%Q) by reflexivity. rewrite Eb in U2. change (inject_Z 511) with 511%Q in U2.
  destruct O2 as [Nr _]. destruct (d_cast_nn 0 255 _ Nr ltac:(lia)) as (n & En & Hn & T1 & T2).
  { change (inject_Z (255 + 1)) with 256%Q. lra. }
  exists n. split; [exact En|]. split; [lia|]. unfold around. apply Qabs_bounds in FX.
  rewrite inject_Z_plus in T2. change (inject_Z 1) with 1%Q in T2.
  assert (B1 : (b2 (-15) == 2147483648 * b2 (-46))%Q) by reflexivity. assert (B2 : (b2 (-17) == 536870912 * b2 (-46))%Q) by reflexivity.
  assert (B3 : (b2 (-24) == 4194304 * b2 (-46))%Q) by reflexivity.
  rewrite B1. rewrite B2, B3 in *. pose proof (b2_pos (-46)) as Bp. set (B := b2 (-46)) in *. clearbody B. apply Qabs_intro; lra.
Qed.

Lemma bw_value_ok bp wp v M : 0 <= bp <= M -> 0 <= wp <= M -> 0 <= v <= M -> M < 2 ^ 24 ->
  exists n, bw_value (bp, wp) v = Ok n /\ 0 <= n <= 255 /\ around (255 * bw_intensity bp wp v) n.
Proof.
  intros Hb Hw Hv HM. unfold bw_value, bw_intensity. destruct (v <=? bp) eqn:E1.
  - exists 0. split; [reflexivity|]. split; [lia|]. vm_compute. discriminate.
  - destruct (wp <=? v) eqn:E2.
    + exists 255. split; [reflexivity|]. split; [lia|]. vm_compute. discriminate.
    + destruct (frac_ok (v - bp) (wp - bp)) as (A & B & C); [lia|lia|]. exact (bw_round_ok _ _ A B C).
Qed.

(** ** what a channel contributes *)
Lemma Ok_inj {A} (a b : A) : Ok a = Ok b -> a = b.
Proof. congruence. Qed.
Lemma raw3_mread t m off : raw3 t (mread m off (Z.to_nat (bpp_of t))) =
  match t with
  | Gray8 => (m off, m off, m off) | Gray16 => (g16 m off, g16 m off, g16 m off)
  | Gray32F => let a := m off + 256 * m (off + 1) + 65536 * m (off + 2) + 16777216 * m (off + 3) in (a, a, a)
  | Bgr24 | Bgra32 => (m off, m (off + 1), m (off + 2))
  | Bgr48 => (g16 m off, g16 m (off + 2), g16 m (off + 4))
  end.
Proof. unfold raw3. rewrite comps_mread. destruct t; reflexivity. Qed.

Lemma g16_range m off : byte_mem m -> 0 <= g16 m off <= 65535.
Proof. intros H. unfold g16. pose proof (H off). pose proof (H (off + 1)). unfold is_byte in *. lia. Qed.
Lemma m8_range m off : byte_mem m -> 0 <= m off <= 255.
Proof. intros H. pose proof (H off). unfold is_byte in *. lia. Qed.
Lemma lut_at_ok ch i : h_lutnull ch = false -> byte_mem (h_lut ch) -> 0 <= i < h_lutsize ch -> lut_at ch i = Ok (h_lut ch i) /\ 0 <= h_lut ch i <= 255.
Proof.
  intros N B H. unfold lut_at. rewrite N. cbn [negb andb]. replace ((0 <=? i) && (i <? h_lutsize ch)) with true by lia.
  split; [reflexivity|]. apply m8_range, B.
Qed.

(** [get] yields a colour that is a contribution *)
Definition get_ok (ch : chan) (get : getter) : Prop :=
  forall m sz off, byte_mem m -> 0 <= off -> off + bpp_of (h_px ch) <= sz ->
    exists c, get m sz off = Ok c /\ byte_color c /\ contribution ch (mread m off (Z.to_nat (bpp_of (h_px ch)))) c.

Lemma tinted_byte col X c : byte_color col -> tinted col X c -> byte_color c.
Proof. destruct col as [[cb cg] cr], c as [[b g] r]. unfold tinted, map3, byte_color. intros. lia. Qed.

Lemma tint_frac col p M : byte_color col -> 0 <= p <= M -> 0 < M < 2 ^ 24 ->
  exists c, tint col (f32_div (f32_of_Z p) (f32_of_Z M)) = Ok c /\ byte_color c /\ tinted col (inject_Z p / inject_Z M) c.
Proof.
  intros Hc Hp HM. destruct (frac_ok p M Hp HM) as (A & B & C). destruct (tint_ok col _ _ Hc A B C) as (c & E & T).
  exists c. split; [exact E|]. split; [exact (tinted_byte _ _ _ Hc T)|exact T].
Qed.
Lemma tint_bw col bp wp v M : byte_color col -> 0 <= bp <= M -> 0 <= wp <= M -> 0 <= v <= M -> M < 2 ^ 24 ->
  exists c, tint col (bw_float (bp, wp) v) = Ok c /\ byte_color c /\ tinted col (bw_intensity bp wp v) c.
Proof.
  intros Hc Hb Hw Hv HM. destruct (bw_float_ok bp wp v M Hb Hw Hv HM) as (A & B & C). destruct (tint_ok col _ _ Hc A B C) as (c & E & T).
  exists c. split; [exact E|]. split; [exact (tinted_byte _ _ _ Hc T)|exact T].
Qed.
Lemma frac3 a M : (0 < M)%Z -> (inject_Z a / inject_Z M == inject_Z (a + a + a) / inject_Z (3 * M))%Q.
Proof.
  intros H. rewrite !inject_Z_plus, inject_Z_mult. change (inject_Z 3) with 3%Q. assert (~ inject_Z M == 0)%Q.
  { intros E. change 0%Q with (inject_Z 0) in E. apply (proj1 (inject_Z_injective M 0)) in E. lia. }
  field. exact H0.
Qed.

Ltac rng := repeat match goal with
  | |- context [g16 ?m ?o] => lazymatch goal with H : 0 <= g16 m o <= 65535 |- _ => fail | _ => pose proof (g16_range m o ltac:(assumption)) end
  end.

Lemma plain_ok ch get : is_using_lut ch = false -> is_bw_used ch = false -> h_tint ch = None -> h_px ch <> Gray32F -> get_plain (h_px ch) = Ok get -> get_ok ch get.
Proof.
  intros HL HB HT Hp HG m sz off Hm H0 Hsz. unfold contribution. rewrite raw3_mread. unfold is_using_lut in HL. rewrite HL, HB, HT.
  destruct (h_px ch); cbn [get_plain bpp_of] in *; try discriminate HG; apply Ok_inj in HG; subst get; cbv beta;
  rewrite ?ld8_ok, ?ld16_ok by lia; cbn [bind]; try congruence;
  eexists; (split; [reflexivity|]); cbn [byte_color map3 is_16];
  repeat rewrite (fun o : Z => eq_refl : m o + 256 * m (o + 1) = g16 m o); fold (g16 m off);
  pose proof (m8_range m off Hm); pose proof (m8_range m (off + 1) Hm); pose proof (m8_range m (off + 2) Hm);
  pose proof (g16_range m off Hm); pose proof (g16_range m (off + 2) Hm); pose proof (g16_range m (off + 4) Hm);
  unfold g16 in *; repeat split; try reflexivity; lia.
Qed.

Lemma tinted_get_ok ch col get : is_using_lut ch = false -> is_bw_used ch = false -> h_tint ch = Some col -> byte_color col -> h_px ch <> Gray32F ->
  get_tinted col (h_px ch) = Ok get -> get_ok ch get.
Proof.
  intros HL HB HT Hc Hp HG m sz off Hm H0 Hsz. unfold contribution. rewrite raw3_mread. unfold is_using_lut in HL. rewrite HL, HB, HT.
  pose proof (m8_range m off Hm); pose proof (m8_range m (off + 1) Hm); pose proof (m8_range m (off + 2) Hm);
  pose proof (g16_range m off Hm); pose proof (g16_range m (off + 2) Hm); pose proof (g16_range m (off + 4) Hm).
  destruct (h_px ch); cbn [get_tinted bpp_of maxval sum3] in *; try discriminate HG; apply Ok_inj in HG; subst get; cbv beta;
  rewrite ?ld8_ok, ?ld16_ok by lia; cbn [bind]; try congruence; unfold g16 in *.
  - destruct (tint_frac col (m off) 255 Hc ltac:(lia) ltac:(lia)) as (c & E & B & T). exists c. split; [exact E|]. split; [exact B|].
    eapply tinted_eq; [|exact T]. apply frac3. lia.
  - destruct (tint_frac col (m off + 256 * m (off + 1)) 65535 Hc ltac:(lia) ltac:(lia)) as (c & E & B & T). exists c. split; [exact E|]. split; [exact B|].
    eapply tinted_eq; [|exact T]. apply frac3. lia.
  - apply (tint_frac col _ (3 * 255)); [exact Hc|lia|lia].
  - apply (tint_frac col _ (3 * 255)); [exact Hc|lia|lia].
  - apply (tint_frac col _ (3 * 65535)); [exact Hc|lia|lia].
Qed.

Lemma bw_get_ok ch get : is_using_lut ch = false -> is_bw_used ch = true -> h_tint ch = None -> point_ok (h_black ch) -> point_ok (h_white ch) ->
  get_bw (h_black ch) (h_white ch) (h_px ch) = Ok get -> get_ok ch get.
Proof.
  intros HL HB HT P1 P2 HG m sz off Hm H0 Hsz. unfold contribution. rewrite raw3_mread. unfold is_using_lut in HL. rewrite HL, HB, HT.
  pose proof (m8_range m off Hm); pose proof (m8_range m (off + 1) Hm); pose proof (m8_range m (off + 2) Hm);
  pose proof (g16_range m off Hm); pose proof (g16_range m (off + 2) Hm); pose proof (g16_range m (off + 4) Hm).
  destruct (bw_points_ok (maxval (h_px ch)) (h_black ch) (h_white ch)) as (bp & wp & Ep & I1 & I2); [destruct (h_px ch); cbn [maxval]; auto|assumption|assumption|].
  pose proof (proj1 I1) as J1. pose proof (proj1 I2) as J2.
  destruct (h_px ch); cbn [get_bw bpp_of maxval] in *; try discriminate HG; rewrite Ep in HG; cbn [bind] in HG; apply Ok_inj in HG; subst get; cbv beta;
  rewrite ?ld8_ok, ?ld16_ok by lia; cbn [bind]; unfold g16 in *.
  - destruct (bw_value_ok bp wp (m off) 255) as (n & E & R & A); try lia. rewrite E. cbn [bind]. eexists. split; [reflexivity|].
    split; [cbn [byte_color]; lia|]. exists bp, wp. cbn [map3]. auto 10.
  - destruct (bw_value_ok bp wp (m off + 256 * m (off + 1)) 65535) as (n & E & R & A); try lia. rewrite E. cbn [bind]. eexists. split; [reflexivity|].
    split; [cbn [byte_color]; lia|]. exists bp, wp. cbn [map3]. auto 10.
  - destruct (bw_value_ok bp wp (m off) 255) as (n & E & R & A); try lia.
    destruct (bw_value_ok bp wp (m (off + 1)) 255) as (n2 & E2 & R2 & A2); try lia.
    destruct (bw_value_ok bp wp (m (off + 2)) 255) as (n3 & E3 & R3 & A3); try lia. rewrite E, E2, E3. cbn [bind]. eexists. split; [reflexivity|].
    split; [cbn [byte_color]; lia|]. exists bp, wp. cbn [map3]. auto 10.
  - destruct (bw_value_ok bp wp (m off + 256 * m (off + 1)) 65535) as (n & E & R & A); try lia.
    destruct (bw_value_ok bp wp (m (off + 2) + 256 * m (off + 2 + 1)) 65535) as (n2 & E2 & R2 & A2); try lia.
    destruct (bw_value_ok bp wp (m (off + 4) + 256 * m (off + 4 + 1)) 65535) as (n3 & E3 & R3 & A3); try lia. rewrite E, E2, E3. cbn [bind]. eexists. split; [reflexivity|].
    split; [cbn [byte_color]; lia|]. exists bp, wp. cbn [map3]. auto 10.
Qed.

Lemma bw_tinted_get_ok ch col get : is_using_lut ch = false -> is_bw_used ch = true -> h_tint ch = Some col -> byte_color col -> point_ok (h_black ch) -> point_ok (h_white ch) ->
  get_bw_tinted col (h_black ch) (h_white ch) (h_px ch) = Ok get -> get_ok ch get.
Proof.
  intros HL HB HT Hc P1 P2 HG m sz off Hm H0 Hsz. unfold contribution. rewrite raw3_mread. unfold is_using_lut in HL. rewrite HL, HB, HT.
  pose proof (m8_range m off Hm); pose proof (m8_range m (off + 1) Hm); pose proof (m8_range m (off + 2) Hm);
  pose proof (g16_range m off Hm); pose proof (g16_range m (off + 2) Hm); pose proof (g16_range m (off + 4) Hm).
  destruct (bw_points_ok (maxval (h_px ch)) (h_black ch) (h_white ch)) as (bp & wp & Ep & I1 & I2); [destruct (h_px ch); cbn [maxval]; auto|assumption|assumption|].
  pose proof (proj1 I1) as J1. pose proof (proj1 I2) as J2.
  destruct (h_px ch); cbn [get_bw_tinted bpp_of maxval] in *; try discriminate HG; rewrite Ep in HG; cbn [bind] in HG; apply Ok_inj in HG; subst get; cbv beta;
  rewrite ?ld8_ok, ?ld16_ok by lia; cbn [bind]; unfold g16 in *; unfold u8, u16, gray_of; cbn [is_color sum3];
  rewrite ?Z.mod_small by lia.
  - destruct (tint_bw col bp wp (m off) 255 Hc) as (n & E & R & A); try lia. rewrite E. eauto 10.
  - destruct (tint_bw col bp wp (m off + 256 * m (off + 1)) 65535 Hc) as (n & E & R & A); try lia. rewrite E. eauto 10.
  - destruct (tint_bw col bp wp ((m off + m (off + 1) + m (off + 2) + 1) / 3) 255 Hc) as (n & E & R & A); try lia. rewrite E. eauto 10.
  - destruct (tint_bw col bp wp ((m off + 256 * m (off + 1) + (m (off + 2) + 256 * m (off + 2 + 1)) + (m (off + 4) + 256 * m (off + 4 + 1)) + 1) / 3) 65535 Hc) as (n & E & R & A); try lia. rewrite E. eauto 10.
Qed.

Lemma lut_get_ok ch get : is_using_lut ch = true -> h_tint ch = None -> h_lutnull ch = false -> maxval (h_px ch) + 1 <= h_lutsize ch -> byte_mem (h_lut ch) ->
  get_lut ch (h_px ch) = Ok get -> get_ok ch get.
Proof.
  intros HL HT LN LS LB HG m sz off Hm H0 Hsz. unfold contribution. rewrite raw3_mread. unfold is_using_lut in HL. rewrite HL, HT.
  pose proof (m8_range m off Hm); pose proof (m8_range m (off + 1) Hm); pose proof (m8_range m (off + 2) Hm);
  pose proof (g16_range m off Hm); pose proof (g16_range m (off + 2) Hm); pose proof (g16_range m (off + 4) Hm).
  pose proof (fun i => lut_at_ok ch i LN LB) as LA.
  destruct (h_px ch); cbn [get_lut bpp_of maxval] in *; try discriminate HG; apply Ok_inj in HG; subst get; cbv beta;
  rewrite ?ld8_ok, ?ld16_ok by lia; cbn [bind]; fold (g16 m off) (g16 m (off + 2)) (g16 m (off + 4)).
  - destruct (LA (m off)) as [-> R]; [lia|]. cbn [bind]. eexists. split; [reflexivity|]. cbn [byte_color map3]. auto 10.
  - destruct (LA (g16 m off)) as [-> R]; [lia|]. cbn [bind]. eexists. split; [reflexivity|]. cbn [byte_color map3]. auto 10.
  - destruct (LA (m off)) as [-> R]; [lia|]. destruct (LA (m (off + 1))) as [-> R2]; [lia|]. destruct (LA (m (off + 2))) as [-> R3]; [lia|].
    cbn [bind]. eexists. split; [reflexivity|]. cbn [byte_color map3]. auto 10.
  - destruct (LA (g16 m off)) as [-> R]; [lia|]. destruct (LA (g16 m (off + 2))) as [-> R2]; [lia|]. destruct (LA (g16 m (off + 4))) as [-> R3]; [lia|].
    cbn [bind]. eexists. split; [reflexivity|]. cbn [byte_color map3]. auto 10.
Qed.

Lemma nn_inj x y : fnn x -> fnn y -> (sfQ x == sfQ y)%Q -> x = y.
Proof.
  intros Hx Hy E. assert (C : SFcompare x y = Some (Qcompare (sfQ x) (sfQ y))) by (apply (nn_compare 24 128); try assumption; lia).
  rewrite (proj1 (Qeq_alt _ _) E) in C. destruct Hx as [_ Sx], Hy as [_ Sy].
  destruct x as [s|s| |s m e], y as [s'|s'| |s' m' e']; try contradiction; subst; cbn [SFcompare] in C; try discriminate C; [reflexivity|].
  destruct (Z.compare e e') eqn:Ee; try discriminate C. apply Z.compare_eq in Ee. injection C as C. apply Pos.compare_eq in C. now subst.
Qed.

Lemma lut_tinted_get_ok ch col get : is_using_lut ch = true -> h_tint ch = Some col -> byte_color col -> h_lutnull ch = false -> maxval (h_px ch) + 1 <= h_lutsize ch -> byte_mem (h_lut ch) ->
  get_lut_tinted ch col (h_px ch) = Ok get -> get_ok ch get.
Proof.
  intros HL HT Hc LN LS LB HG m sz off Hm H0 Hsz. unfold contribution. rewrite raw3_mread. unfold is_using_lut in HL. rewrite HL, HT.
  pose proof (m8_range m off Hm); pose proof (m8_range m (off + 1) Hm); pose proof (m8_range m (off + 2) Hm);
  pose proof (g16_range m off Hm); pose proof (g16_range m (off + 2) Hm); pose proof (g16_range m (off + 4) Hm).
  pose proof (fun i => lut_at_ok ch i LN LB) as LA.
  destruct (h_px ch); cbn [get_lut_tinted bpp_of maxval] in *; try discriminate HG; apply Ok_inj in HG; subst get; cbv beta;
  rewrite ?ld8_ok, ?ld16_ok by lia; cbn [bind]; fold (g16 m off) (g16 m (off + 2)) (g16 m (off + 4)).
  - destruct (LA (m off)) as [-> R]; [lia|]. cbn [bind].
    destruct (tint_frac col (h_lut ch (m off)) 255 Hc R ltac:(lia)) as (c & E & B & T). exists c. split; [exact E|]. split; [exact B|].
    eapply tinted_eq; [|exact T]. apply frac3. lia.
  - destruct (LA (g16 m off)) as [-> R]; [lia|]. cbn [bind].
    destruct (tint_frac col (h_lut ch (g16 m off)) 255 Hc R ltac:(lia)) as (c & E & B & T). exists c. split; [exact E|]. split; [exact B|].
    eapply tinted_eq; [|exact T]. apply frac3. lia.
  - destruct (LA (m off)) as [-> R]; [lia|]. destruct (LA (m (off + 1))) as [-> R2]; [lia|]. destruct (LA (m (off + 2))) as [-> R3]; [lia|].
    cbn [bind].
    set (a := h_lut ch (m off)) in *. set (b := h_lut ch (m (off + 1))) in *. set (c := h_lut ch (m (off + 2))) in *. clearbody a b c.
    destruct (f32_of_Z_ok (a + b) ltac:(lia)) as [N1 Q1]. destruct (f32_of_Z_ok c ltac:(lia)) as [N2 Q2].
    assert (S : (sfQ (f32_of_Z (a + b)) + sfQ (f32_of_Z c) == inject_Z (a + b + c))%Q) by (rewrite Q1, Q2, <- inject_Z_plus; reflexivity).
    assert (O : fop (inject_Z (a + b + c)) 10 (f32_add (f32_of_Z (a + b)) (f32_of_Z c))).
    { eapply op_ok_eq; [exact S|]. apply SFadd_op; try assumption; try lia. rewrite S, b2_Z by lia. apply injZ_lt. lia. }
    pose proof (fop_le _ _ _ (a + b + c) 0 O ltac:(lia) ltac:(lia)) as U. pose proof (fop_ge _ _ _ (a + b + c) 0 O ltac:(lia) ltac:(lia)) as L.
    rewrite b2_0, Qmult_1_r in U, L. specialize (U (Qle_refl _)). specialize (L (Qle_refl _)).
    assert (Ev : (sfQ (f32_add (f32_of_Z (a + b)) (f32_of_Z c)) == inject_Z (a + b + c))%Q) by (apply Qle_antisym; assumption).
    destruct (f32_of_Z_ok (a + b + c) ltac:(lia)) as [N3 Q3]. destruct O as [N4 _].
    rewrite (nn_inj _ _ N4 N3) by (rewrite Ev, Q3; reflexivity). apply (tint_frac col _ (3 * 255)); [exact Hc|lia|lia].
  - destruct (LA (g16 m off)) as [-> R]; [lia|]. destruct (LA (g16 m (off + 2))) as [-> R2]; [lia|]. destruct (LA (g16 m (off + 4))) as [-> R3]; [lia|].
    cbn [bind]. apply (tint_frac col _ (3 * 255)); [exact Hc|lia|lia].
Qed.

Lemma channel_getter_ok dst ch : chan_ok dst ch -> exists get, channel_getter ch = Ok get /\ get_ok ch get.
Proof.
  intros (_ & _ & _ & _ & _ & Hp & Ht & HL & HB).
  assert (G : forall r : res getter, (exists get, r = Ok get) -> (forall get, r = Ok get -> get_ok ch get) -> exists get, r = Ok get /\ get_ok ch get).
  { intros r (get & E) H. exists get. split; [exact E|]. now apply H. }
  unfold channel_getter. destruct (is_using_lut ch) eqn:E1.
  - pose proof E1 as E1'. unfold is_using_lut in E1'. destruct HL as (Hb & Hn & N & Hs & B); [lia|]. destruct (h_tint ch) as [col|] eqn:Et; apply G.
    + destruct (h_px ch); try congruence; eexists; reflexivity.
    + intros get. apply lut_tinted_get_ok; try assumption. lia.
    + destruct (h_px ch); try congruence; eexists; reflexivity.
    + intros get. apply lut_get_ok; try assumption. lia.
  - pose proof E1 as E1'. unfold is_using_lut in E1'. destruct (is_bw_used ch) eqn:E2.
    + destruct HB as (Hb & B1 & B2); [lia|reflexivity|].
      destruct (bw_points_ok 255 _ _ (or_introl eq_refl) B1 B2) as (p1 & p2 & P & _).
      destruct (bw_points_ok 65535 _ _ (or_intror eq_refl) B1 B2) as (q1 & q2 & P' & _).
      destruct (h_tint ch) as [col|] eqn:Et; apply G.
      * destruct (h_px ch); try congruence; cbn [get_bw_tinted]; rewrite ?P, ?P'; eexists; reflexivity.
      * intros get. now apply bw_tinted_get_ok.
      * destruct (h_px ch); try congruence; cbn [get_bw]; rewrite ?P, ?P'; eexists; reflexivity.
      * intros get. now apply bw_get_ok.
    + destruct (h_tint ch) as [col|] eqn:Et; apply G.
      * destruct (h_px ch); try congruence; eexists; reflexivity.
      * intros get. now apply tinted_get_ok.
      * destruct (h_px ch); try congruence; eexists; reflexivity.
      * intros get. now apply plain_ok.
Qed.

(** the contribution of a channel to pixel (x, y) *)
Definition ct (ch : chan) (x y : Z) : bgr :=
  match channel_getter ch with
  | Ok g => match g (bdata (h_src ch)) (bsize (h_src ch)) (y * bstride (h_src ch) + x * bpp_of (h_px ch)) with Ok c => c | _ => (0, 0, 0) end
  | _ => (0, 0, 0)
  end.

Lemma pix_in b x y : bmp_wf b -> 0 <= x < bw b -> 0 <= y < bh b -> 0 <= y * bstride b + x * bbpp b /\ y * bstride b + x * bbpp b + bbpp b <= bsize b.
Proof.
  intros (? & ? & ? & W & Z) Hx Hy. specialize (Z ltac:(lia)).
  assert (0 <= bw b * bbpp b) by nia. assert (0 <= bstride b) by lia. assert (0 <= y * bstride b) by nia.
  assert (y * bstride b <= (bh b - 1) * bstride b) by nia. assert (x * bbpp b + bbpp b <= bw b * bbpp b) by nia. nia.
Qed.

Lemma ct_ok dst ch get x y : chan_ok dst ch -> channel_getter ch = Ok get -> 0 <= x < bw dst -> 0 <= y < bh dst ->
  get (bdata (h_src ch)) (bsize (h_src ch)) (y * bstride (h_src ch) + x * bpp_of (h_px ch)) = Ok (ct ch x y) /\
  byte_color (ct ch x y) /\ contribution ch (pix (h_src ch) x y) (ct ch x y).
Proof.
  intros Hc Eg Hx Hy. unfold ct. rewrite Eg. destruct (channel_getter_ok dst ch Hc) as (g & E & G).
  assert (g = get) by congruence. subst g.
  destruct Hc as (Hwf & Hb & W & H & P & _). rewrite <- W in Hx. rewrite <- H in Hy.
  pose proof (pix_in _ x y Hwf Hx Hy) as I. rewrite P in I.
  destruct (G (bdata (h_src ch)) (bsize (h_src ch)) (y * bstride (h_src ch) + x * bpp_of (h_px ch)) Hb) as (c & Ec & B & C); [lia|lia|].
  rewrite Ec. split; [reflexivity|]. split; [exact B|]. unfold pix, pix_off. rewrite P. exact C.
Qed.

(** ** the loop over the channels *)
Definition wmap (f : Z -> Z) (c : bgr) : bgr := let '(b, g, r) := c in (f b, f g, f r).
Definition addpix (v : bytes) (c : bgr) : bytes :=
  let '(b, g, r) := c in [Z.min 255 (nth 0 v 0 + b); Z.min 255 (nth 1 v 0 + g); Z.min 255 (nth 2 v 0 + r)] ++ skipn 3 v.
Definition weigh_ok (w : option f32) (f : Z -> Z) : Prop :=
  forall v, 0 <= v <= 255 -> weigh w v = Ok (f v) /\ 0 <= f v <= INT_MAX - 255.

Lemma mwrite_read m off d : mread (mwrite m off d) off (length d) = d.
Proof.
  apply nth_ext with 0 0; [apply mread_length|]. intros k Hk. rewrite mread_length in Hk.
  rewrite mread_nth by exact Hk. apply mw_in; [reflexivity|exact Hk].
Qed.

Lemma store_first_ok alpha w f m sz off c : weigh_ok w f -> byte_color c -> 0 <= off -> off + dst_bpp alpha <= sz ->
  store_px true alpha w m sz off c = Ok (mwrite m off (saturated alpha (wmap f c))).
Proof.
  destruct c as [[b g] r]. intros Hw (Hb & Hg & Hr) H0 Hsz. cbn [store_px wmap saturated].
  destruct (Hw b Hb) as [-> B]. destruct (Hw g Hg) as [-> G]. destruct (Hw r Hr) as [-> R]. cbn [bind].
  unfold u8. rewrite !Z.mod_small by lia. rewrite (Z.min_comm (f b)), (Z.min_comm (f g)), (Z.min_comm (f r)).
  apply st_ok; [exact H0|]. destruct alpha; cbn [app length dst_bpp] in *; lia.
Qed.

Lemma store_add_ok alpha w f m sz off c : weigh_ok w f -> byte_color c -> 0 <= off -> off + dst_bpp alpha <= sz ->
  Forall is_byte (mread m off (Z.to_nat (dst_bpp alpha))) ->
  exists m', store_px false alpha w m sz off c = Ok m' /\
    mread m' off (Z.to_nat (dst_bpp alpha)) = addpix (mread m off (Z.to_nat (dst_bpp alpha))) (wmap f c) /\
    forall a, ~ (off <= a < off + dst_bpp alpha) -> m' a = m a.
Proof.
  destruct c as [[b g] r]. intros Hw (Hb & Hg & Hr) H0 Hsz Hm. cbn [store_px wmap addpix].
  assert (D3 : 3 <= dst_bpp alpha) by (destruct alpha; cbn [dst_bpp]; lia).
  rewrite !ld8_ok by lia. destruct (Hw b Hb) as [-> B]. destruct (Hw g Hg) as [-> G]. destruct (Hw r Hr) as [-> R]. cbn [bind].
  pose proof (mread_byte m off _ 0 Hm ltac:(lia)) as M0. pose proof (mread_byte m off _ 1 Hm ltac:(lia)) as M1. pose proof (mread_byte m off _ 2 Hm ltac:(lia)) as M2.
  rewrite Z.add_0_r in M0. unfold is_byte in *. unfold add_sat.
  replace (m off + f b <=? INT_MAX) with true by lia. replace (m (off + 1) + f g <=? INT_MAX) with true by lia. replace (m (off + 2) + f r <=? INT_MAX) with true by lia.
  cbn [bind]. unfold u8. rewrite !Z.mod_small by lia.
  rewrite (Z.min_comm (m off + f b)), (Z.min_comm (m (off + 1) + f g)), (Z.min_comm (m (off + 2) + f r)).
  rewrite st_ok; [|exact H0|cbn [length]; lia]. eexists. split; [reflexivity|]. split.
  - assert (E : forall k, (k < Z.to_nat (dst_bpp alpha))%nat -> (3 <= k)%nat -> k = 3%nat) by (destruct alpha; cbn [dst_bpp]; lia).
    set (n := Z.to_nat (dst_bpp alpha)) in *. assert (Hn : (3 <= n)%nat) by lia. clearbody n.
    apply nth_ext with 0 0.
    + rewrite mread_length, app_length, skipn_length, mread_length. cbn [length]. lia.
    + intros k Hk. rewrite mread_length in Hk. rewrite !mread_nth by lia. rewrite Z.add_0_r.
      change (Z.of_nat 1) with 1. change (Z.of_nat 2) with 2.
      destruct (Nat.lt_ge_cases k 3) as [L|L].
      * rewrite app_nth1 by (cbn [length]; lia). apply mw_in; [reflexivity|cbn [length]; lia].
      * rewrite app_nth2 by (cbn [length]; lia). cbn [length]. rewrite mw_out by (cbn [length]; lia).
        rewrite nth_skipn_add, mread_nth by lia. f_equal. lia.
  - intros a Ha. apply mw_out. cbn [length]. lia.
Qed.

Definition bytes_pix (b : bmp) : Prop := forall x y, 0 <= x < bw b -> 0 <= y < bh b -> Forall is_byte (pix b x y).

Lemma copy_tinting_ok (first : bool) alpha w f dst ch get : bmp_wf dst -> bbpp dst = dst_bpp alpha -> chan_ok dst ch -> channel_getter ch = Ok get -> weigh_ok w f ->
  (first = false -> bytes_pix dst) ->
  exists d', copy_tinting get first alpha w (h_src ch) (h_px ch) dst = Ok d' /\
    pix_post dst d' (fun x y => Some (if first then saturated alpha (wmap f (ct ch x y)) else addpix (pix dst x y) (wmap f (ct ch x y)))).
Proof.
  intros Hwf Hb Hc Eg Hw Hfirst. unfold copy_tinting.
  assert (W : bw (h_src ch) = bw dst) by apply Hc. assert (H : bh (h_src ch) = bh dst) by apply Hc. rewrite W, H.
  destruct (pix_map_loop dst (fun _ _ v => first = false -> Forall is_byte v)
    (fun y x m => let* c := get (bdata (h_src ch)) (bsize (h_src ch)) (y * bstride (h_src ch) + x * bpp_of (h_px ch)) in
       store_px first alpha w m (bsize dst) (y * bstride dst + dst_bpp alpha * x) c)
    (fun x y v => if first then saturated alpha (wmap f (ct ch x y)) else addpix v (wmap f (ct ch x y))) Hwf) as (m & E & P).
  - intros x y Hx Hy F. now apply Hfirst.
  - intros x y m Hx Hy Hm. destruct (ct_ok dst ch get x y Hc Eg Hx Hy) as (Ec & Bc & _). rewrite Ec. cbn [bind].
    pose proof (pix_in dst x y Hwf Hx Hy) as I. unfold in_pix, pix_off in *. rewrite Hb in *. rewrite (Z.mul_comm (dst_bpp alpha) x).
    destruct first.
    + rewrite (store_first_ok alpha w f) by (assumption || lia). eexists. split; [reflexivity|].
      assert (L : length (saturated alpha (wmap f (ct ch x y))) = Z.to_nat (dst_bpp alpha)) by (destruct (wmap f (ct ch x y)) as [[? ?] ?]; destruct alpha; reflexivity).
      split; [rewrite <- L; apply mwrite_read|]. intros a Ha. apply mw_out. rewrite L. lia.
    + apply store_add_ok; try assumption; try lia. now apply Hm.
  - rewrite E. cbn [bind]. eexists. split; [reflexivity|exact P].
Qed.

Lemma pix_len b x y : length (pix b x y) = Z.to_nat (bbpp b).
Proof. apply mread_length. Qed.
Lemma skipn_addpix v c : skipn 3 (addpix v c) = skipn 3 v.
Proof. destruct c as [[? ?] ?]. reflexivity. Qed.
Lemma byte_color_total l : Forall (fun c : bgr => let '(b, g, r) := c in 0 <= b /\ 0 <= g /\ 0 <= r) l ->
  let '(b, g, r) := total l in 0 <= b /\ 0 <= g /\ 0 <= r.
Proof.
  induction 1 as [|[[b g] r] l H _ IH]; cbn [total fold_right]; [lia|]. fold (total l). destruct (total l) as [[? ?] ?]. cbn [add3]. lia.
Qed.
Lemma addpix_add v c d : (let '(b, g, r) := d in 0 <= b /\ 0 <= g /\ 0 <= r) -> addpix (addpix v c) d = addpix v (add3 c d).
Proof.
  destruct c as [[b g] r], d as [[b' g'] r']. intros H. unfold addpix. cbn [add3 app nth skipn].
  f_equal; [lia|]. f_equal; [lia|]. f_equal. lia.
Qed.
Lemma addpix_0 v : (3 <= length v)%nat -> Forall is_byte v -> addpix v (0, 0, 0) = v.
Proof.
  intros L F. destruct v as [|a [|b [|c v]]]; cbn [length] in L; try lia. inversion F as [|? ? A F1]; subst. inversion F1 as [|? ? B F2]; subst. inversion F2 as [|? ? C F3]; subst.
  unfold is_byte in *. cbn [addpix nth skipn app]. rewrite !Z.add_0_r, !Z.min_r by lia. reflexivity.
Qed.
Lemma addpix_byte v c : Forall is_byte v -> (let '(b, g, r) := c in 0 <= b /\ 0 <= g /\ 0 <= r) -> Forall is_byte (addpix v c).
Proof.
  intros F H. destruct c as [[b g] r]. unfold addpix.
  assert (N : forall k, 0 <= nth k v 0).
  { intros k. destruct (Nat.lt_ge_cases k (length v)) as [L|L]; [|rewrite nth_overflow by exact L; lia].
    rewrite Forall_forall in F. specialize (F _ (nth_In v 0 L)). unfold is_byte in F. lia. }
  pose proof (N 0%nat). pose proof (N 1%nat). pose proof (N 2%nat). clear N. unfold bytes, byte, is_byte in *.
  cbn [app]. constructor; [lia|]. constructor; [lia|]. constructor; [lia|].
  rewrite <- (firstn_skipn 3 v) in F. apply Forall_app in F. apply F.
Qed.

(** the contributions of channels to a pixel *)
Definition cts (W : chan -> Z -> Z) (chs : list chan) (x y : Z) : bgr := total (map (fun ch => wmap (W ch) (ct ch x y)) chs).

Definition weight_of (mean : option f32) (ch : chan) : option f32 := match mean with None => None | Some mw => Some (f32_div (h_weight ch) mw) end.

Lemma wct_nonneg dst W mean ch x y : chan_ok dst ch -> weigh_ok (weight_of mean ch) (W ch) -> 0 <= x < bw dst -> 0 <= y < bh dst ->
  let '(b, g, r) := wmap (W ch) (ct ch x y) in 0 <= b /\ 0 <= g /\ 0 <= r.
Proof.
  intros Hc Hw Hx Hy. destruct (channel_getter_ok dst ch Hc) as (get & Eg & _). destruct (ct_ok dst ch get x y Hc Eg Hx Hy) as (_ & B & _).
  destruct (ct ch x y) as [[b g] r]. destruct B as (B & G & R). cbn [wmap].
  destruct (Hw b B). destruct (Hw g G). destruct (Hw r R). lia.
Qed.

Lemma cts_nonneg dst W mean chs x y : (forall ch, In ch chs -> chan_ok dst ch /\ weigh_ok (weight_of mean ch) (W ch)) -> 0 <= x < bw dst -> 0 <= y < bh dst ->
  let '(b, g, r) := cts W chs x y in 0 <= b /\ 0 <= g /\ 0 <= r.
Proof.
  intros H Hx Hy. apply byte_color_total. apply Forall_forall. intros c Hc. apply in_map_iff in Hc. destruct Hc as (ch & <- & Hi).
  destruct (H ch Hi) as [H1 H2]. exact (wct_nonneg dst W mean ch x y H1 H2 Hx Hy).
Qed.

Lemma add3_assoc a b c : add3 a (add3 b c) = add3 (add3 a b) c.
Proof. destruct a as [[? ?] ?], b as [[? ?] ?], c as [[? ?] ?]. cbn [add3]. f_equal; [f_equal|]; lia. Qed.

Lemma chan_ok_dims d d' ch : bw d' = bw d -> bh d' = bh d -> chan_ok d ch -> chan_ok d' ch.
Proof. unfold chan_ok. intros -> ->. exact (fun H => H). Qed.

Lemma compose_rest alpha mean W chs : forall d, bmp_wf d -> bbpp d = dst_bpp alpha -> bytes_pix d ->
  (forall ch, In ch chs -> chan_ok d ch /\ weigh_ok (weight_of mean ch) (W ch)) ->
  exists d', compose_loop false alpha mean d chs = Ok d' /\ pix_post d d' (fun x y => Some (addpix (pix d x y) (cts W chs x y))).
Proof.
  induction chs as [|ch chs IH]; intros d Hwf Hb Hp H; cbn [compose_loop].
  - exists d. split; [reflexivity|]. split; [exists (bdata d); now destruct d|]. split; [|reflexivity].
    intros x y Hx Hy. change (cts W [] x y) with ((0, 0, 0) : bgr). rewrite addpix_0; [reflexivity| |now apply Hp].
    rewrite pix_len, Hb. destruct alpha; cbn [dst_bpp]; lia.
  - destruct (H ch (or_introl eq_refl)) as [Hc Hw]. destruct (channel_getter_ok d ch Hc) as (get & Eg & _). cbv zeta. fold (weight_of mean ch). rewrite Eg. cbn [bind].
    destruct (copy_tinting_ok false alpha (weight_of mean ch) (W ch) d ch get Hwf Hb Hc Eg Hw (fun _ => Hp)) as (d1 & E1 & (m & ->) & P1 & R1).
    rewrite E1. cbn [bind].
    destruct (IH (bwith d m)) as (d2 & E2 & (m2 & ->) & P2 & R2); [exact Hwf|exact Hb| | |].
    + intros x y Hx Hy. rewrite (P1 x y Hx Hy). apply addpix_byte; [now apply Hp|]. exact (wct_nonneg d W mean ch x y Hc Hw Hx Hy).
    + intros c Hin. destruct (H c (or_intror Hin)) as [H1 H2]. split; [exact H1|exact H2].
    + eexists. split; [exact E2|]. split; [exists m2; reflexivity|]. split.
      * intros x y Hx Hy. rewrite (P2 x y Hx Hy), (P1 x y Hx Hy). rewrite addpix_add; [reflexivity|].
        apply (cts_nonneg d W mean); [|exact Hx|exact Hy]. intros c Hin. apply H. now right.
      * intros a Ha. rewrite R2 by exact Ha. apply R1. exact Ha.
Qed.

Lemma addpix_saturated alpha c d : (let '(b, g, r) := d in 0 <= b /\ 0 <= g /\ 0 <= r) -> addpix (saturated alpha c) d = saturated alpha (add3 c d).
Proof.
  destruct c as [[b g] r], d as [[b' g'] r']. intros H. unfold addpix, saturated. cbn [add3 app nth skipn].
  f_equal; [lia|]. f_equal; [lia|]. f_equal. lia.
Qed.

Lemma check_luts_ok dst chs : (forall ch, In ch chs -> chan_ok dst ch) -> fold_left (fun r ch => let* _ := r in check_lut ch) chs (Ok tt) = Ok tt.
Proof.
  induction chs as [|ch chs IH]; intros H; cbn [fold_left]; [reflexivity|]. cbn [bind].
  destruct (H ch (or_introl eq_refl)) as (_ & _ & _ & _ & _ & Hp & _ & HL & _).
  assert (E : check_lut ch = Ok tt).
  { unfold check_lut. destruct (0 <? h_lutn ch) eqn:E; [|reflexivity]. destruct HL as (H1 & H2 & H3 & _); [lia|]. rewrite H3.
    destruct (h_px ch); try congruence; cbn [get_lut_size bind maxval] in *; rewrite H2; reflexivity. }
  rewrite E. apply IH. intros c Hc. apply H. now right.
Qed.

Lemma compose_multi_ok dst dst_px alpha chs W : compose_args dst dst_px alpha chs ->
  (forall ch, In ch chs -> weigh_ok (weight_of (calc_weight chs) ch) (W ch)) ->
  exists d', compose_multi dst dst_px alpha chs = Ok d' /\ pix_post dst d' (fun x y => Some (saturated alpha (cts W chs x y))).
Proof.
  intros (Hwf & Hne & Hch & Ha) HW.
  assert (Hb : bbpp dst = dst_bpp alpha /\ px_eqb dst_px (match alpha with Some _ => Bgra32 | None => Bgr24 end) = true /\ match alpha with Some a => 0 <= a <= 255 | None => True end).
  { destruct alpha; [destruct Ha as (-> & -> & ?)|destruct Ha as (-> & ->)]; repeat split; auto; lia. }
  clear Ha. destruct Hb as (Hb & Hpx & Ha). unfold compose_multi, check_arguments. rewrite Hpx.
  destruct chs as [|ch chs]; [congruence|]. set (all := ch :: chs) in *. set (mean := calc_weight all) in *. clearbody mean. change (length all =? 0)%nat with false. cbn [negb].
  assert (F : forallb (fun ch => (bw (h_src ch) =? bw dst) && (bh (h_src ch) =? bh dst)) all = true).
  { apply forallb_forall. intros c Hc. destruct (Hch c Hc) as (_ & _ & -> & -> & _). rewrite !Z.eqb_refl. reflexivity. }
  rewrite F, (check_luts_ok dst) by exact Hch. cbn [bind negb].
  assert (Hc : chan_ok dst ch) by (apply Hch; now left). assert (Hw : weigh_ok (weight_of mean ch) (W ch)) by (apply HW; now left).
  unfold all. cbn [compose_loop]. cbv zeta. fold (weight_of mean ch). destruct (channel_getter_ok dst ch Hc) as (get & Eg & _). rewrite Eg. cbn [bind].
  destruct (copy_tinting_ok true alpha (weight_of mean ch) (W ch) dst ch get Hwf Hb Hc Eg Hw) as (d1 & E1 & (m & ->) & P1 & R1); [discriminate|].
  rewrite E1. cbn [bind].
  destruct (compose_rest alpha mean W chs (bwith dst m)) as (d2 & E2 & (m2 & ->) & P2 & R2); [exact Hwf|exact Hb| | |].
  - intros x y Hx Hy. rewrite (P1 x y Hx Hy). pose proof (wct_nonneg dst W mean ch x y Hc Hw Hx Hy) as N.
    destruct (wmap (W ch) (ct ch x y)) as [[b g] r]. unfold saturated, is_byte. cbn [app].
    constructor; [lia|]. constructor; [lia|]. constructor; [lia|]. destruct alpha; constructor; try constructor; lia.
  - intros c Hin. split; [apply (Hch c); now right|apply HW; now right].
  - eexists. split; [exact E2|]. split; [exists m2; reflexivity|]. split.
    + intros x y Hx Hy. rewrite (P2 x y Hx Hy), (P1 x y Hx Hy). rewrite addpix_saturated; [reflexivity|].
      apply (cts_nonneg dst W mean); [|exact Hx|exact Hy]. intros c Hin. split; [apply Hch|apply HW]; now right.
    + intros a Hx. rewrite R2 by exact Hx. apply R1. exact Hx.
Qed.

(** ** when weights are not used *)
Lemma weight_sum_bad chs : forall acc, (exists ch, In ch chs /\ ~ usable (h_weight ch)) -> weight_sum acc chs = None.
Proof.
  induction chs as [|c chs IH]; intros acc (ch & Hi & Hu); [contradiction|]. cbn [weight_sum]. destruct Hi as [->|Hi].
  - destruct (h_weight ch) as [s|s| |s m e]; cbn [usable] in Hu; try reflexivity; [exfalso; now apply Hu|].
    destruct s; [reflexivity|exfalso; now apply Hu].
  - destruct (h_weight c); try reflexivity; (destruct (SFltb _ _); [reflexivity|]); apply IH; eauto.
Qed.
Lemma weight_sum_zero chs : (forall ch, In ch chs -> usable (h_weight ch)) -> (forall ch, In ch chs -> (sfQ (h_weight ch) == 0)%Q) -> weight_sum (f32_of_Z 0) chs = Some (f32_of_Z 0).
Proof.
  induction chs as [|c chs IH]; intros U H; cbn [weight_sum]; [reflexivity|].
  specialize (H c (or_introl eq_refl)) as H0. specialize (U c (or_introl eq_refl)) as U0.
  destruct (h_weight c) as [s|s| |s m e]; try contradiction.
  - destruct s; cbn [SFltb SFcompare]; (change (f32_add (f32_of_Z 0) (S754_zero _)) with (f32_of_Z 0)); (change (SFltb _ _) with false); cbv iota; apply IH; intros x Hx; (apply U || apply H); now right.
  - exfalso. cbn [usable] in U0. subst s. cbn [sfQ] in H0. assert (0 < inject_Z (Zpos m) * b2 e)%Q.
    { rewrite <- (Qmult_0_r (inject_Z (Zpos m))). apply Qmult_lt_l; [reflexivity|apply b2_pos]. }
    rewrite H0 in H1. discriminate H1.
Qed.
Lemma f32_add_Z a b : 0 <= a -> 0 <= b -> a + b < 2 ^ 24 -> f32_add (f32_of_Z a) (f32_of_Z b) = f32_of_Z (a + b).
Proof.
  intros Ha Hb H. destruct (f32_of_Z_ok a ltac:(lia)) as [N1 Q1]. destruct (f32_of_Z_ok b ltac:(lia)) as [N2 Q2].
  assert (S : (sfQ (f32_of_Z a) + sfQ (f32_of_Z b) == inject_Z (a + b))%Q) by (rewrite Q1, Q2, <- inject_Z_plus; reflexivity).
  assert (O : fop (inject_Z (a + b)) 24 (f32_add (f32_of_Z a) (f32_of_Z b))).
  { eapply op_ok_eq; [exact S|]. apply SFadd_op; try assumption; try lia. rewrite S, b2_Z by lia. apply injZ_lt. lia. }
  pose proof (fop_le _ _ _ (a + b) 0 O ltac:(lia) ltac:(lia)) as U. pose proof (fop_ge _ _ _ (a + b) 0 O ltac:(lia) ltac:(lia)) as L.
  rewrite b2_0, Qmult_1_r in U, L. specialize (U (Qle_refl _)). specialize (L (Qle_refl _)).
  destruct (f32_of_Z_ok (a + b) ltac:(lia)) as [N3 Q3]. destruct O as [N4 _].
  apply nn_inj; try assumption. rewrite Q3. apply Qle_antisym; assumption.
Qed.
Lemma weight_sum_ones chs : forall k, 0 <= k -> k + Z.of_nat (length chs) < 2 ^ 24 -> (forall ch, In ch chs -> h_weight ch = f32_of_Z 1) ->
  weight_sum (f32_of_Z k) chs = Some (f32_of_Z (k + Z.of_nat (length chs))).
Proof.
  induction chs as [|c chs IH]; intros k Hk Hn H; cbn [weight_sum length] in *.
  - now rewrite Z.add_0_r.
  - rewrite (H c (or_introl eq_refl)). change (weight_sum (f32_add (f32_of_Z k) (f32_of_Z 1)) chs = Some (f32_of_Z (k + Z.of_nat (S (length chs))))).
    rewrite f32_add_Z by lia. rewrite IH by (try lia; intros; apply H; now right). do 2 f_equal. lia.
Qed.
Lemma f32_div_self n : 0 < n < 2 ^ 24 -> f32_div (f32_of_Z n) (f32_of_Z n) = f32_of_Z 1.
Proof.
  intros H. destruct (f32_of_Z_ok n ltac:(lia)) as [N1 Q1].
  assert (Pn : (0 < inject_Z n)%Q) by (change 0%Q with (inject_Z 0); apply injZ_lt; lia).
  assert (S : (sfQ (f32_of_Z n) / sfQ (f32_of_Z n) == 1)%Q) by (rewrite Q1; field; intros E; rewrite E in Pn; discriminate Pn).
  assert (O : fop 1 1 (f32_div (f32_of_Z n) (f32_of_Z n))).
  { eapply op_ok_eq; [exact S|]. apply SFdiv_op; try assumption; try lia; [rewrite Q1; exact Pn| |]; rewrite S; [|reflexivity].
    vm_compute. discriminate. }
  pose proof (fop_le _ _ _ 1 0 O ltac:(lia) ltac:(lia)) as U. pose proof (fop_ge _ _ _ 1 0 O ltac:(lia) ltac:(lia)) as L.
  rewrite b2_0 in U, L. specialize (U ltac:(vm_compute; discriminate)). specialize (L ltac:(vm_compute; discriminate)).
  destruct (f32_of_Z_ok 1 ltac:(lia)) as [N3 Q3]. destruct O as [N4 _].
  apply nn_inj; try assumption. rewrite Q3. change (inject_Z 1 * 1)%Q with 1%Q in *. apply Qle_antisym; assumption.
Qed.
Lemma unweighted_none chs : chs <> [] -> unweighted chs -> calc_weight chs = None.
Proof.
  intros Hne [H|[H|[Hn H]]]; unfold calc_weight.
  - now rewrite weight_sum_bad.
  - destruct (Exists_dec (fun ch => ~ usable (h_weight ch)) chs) as [Ex|Nx].
    + intros ch. destruct (h_weight ch) as [s|s| |s m e]; cbn [usable]; try (now right; intros F; apply F); try (now left; intros F; exact F).
      destruct s; [left; discriminate|right; intros F; now apply F].
    + rewrite weight_sum_bad; [reflexivity|]. apply Exists_exists in Ex. exact Ex.
    + rewrite weight_sum_zero; [reflexivity| |exact H]. intros ch Hi. rewrite <- Forall_Exists_neg in Nx. rewrite Forall_forall in Nx. specialize (Nx ch Hi).
      destruct (h_weight ch) as [s|s| |[] m e]; cbn [usable] in *; try exact I; try reflexivity; exfalso; apply Nx; auto; discriminate.
  - rewrite weight_sum_ones by (try lia; exact H). rewrite Z.add_0_l. set (n := Z.of_nat (length chs)) in *.
    assert (Hl : 0 < n) by (destruct chs; [congruence|subst n; cbn [length]; lia]).
    destruct (SFleb (f32_abs (f32_of_Z n)) f_eps) eqn:E; [reflexivity|]. cbv zeta. rewrite f32_div_self by lia.
    replace (existsb _ chs) with false; [reflexivity|]. symmetry. apply not_true_is_false. intros X. apply existsb_exists in X. destruct X as (ch & Hi & Hx).
    rewrite (H ch Hi) in Hx. vm_compute in Hx. discriminate Hx.
Qed.

Lemma check_lut_cases ch : check_lut ch = Ok tt \/ check_lut ch = Throw.
Proof. unfold check_lut. destruct (_ <? _); [|now left]. destruct (h_lutnull ch); [now right|]. destruct (h_px ch); cbn [get_lut_size bind]; try (now right); destruct (_ =? _); auto. Qed.
Lemma check_luts_throw chs : fold_left (fun r ch => let* _ := r in check_lut ch) chs (Throw : res unit) = Throw.
Proof. induction chs as [|c chs IH]; [reflexivity|]. exact IH. Qed.
Lemma check_luts_bad ch chs : In ch chs -> check_lut ch = Throw -> fold_left (fun r ch => let* _ := r in check_lut ch) chs (Ok tt) = Throw.
Proof.
  intros H E. induction chs as [|c chs IH]; [easy|]. cbn [fold_left bind]. destruct H as [->|H].
  - rewrite E. apply check_luts_throw.
  - destruct (check_lut_cases c) as [-> | ->]; [now apply IH|apply check_luts_throw].
Qed.
Lemma compose_refused dst dst_px alpha chs : bad_arguments dst dst_px alpha chs -> compose_multi dst dst_px alpha chs = Throw.
Proof.
  intros H. unfold compose_multi. enough (E : check_arguments dst dst_px alpha chs = Throw) by (rewrite E; reflexivity). unfold check_arguments.
  destruct H as [-> |H]; [reflexivity|]. destruct (length chs =? 0)%nat; [reflexivity|].
  destruct H as [[-> H]|H]; [destruct dst_px; try congruence; reflexivity|].
  destruct H as [[Ha H]|H]; [destruct alpha; [|congruence]; destruct dst_px; try congruence; reflexivity|].
  destruct (negb (px_eqb _ _)); [reflexivity|].
  destruct H as (ch & Hin & H). destruct (forallb _ chs) eqn:F; [|reflexivity]. cbn [negb].
  rewrite forallb_forall in F. specialize (F ch Hin). apply (check_luts_bad ch); [exact Hin|].
  destruct H as [H|[H|[Hn H]]]; [lia|lia|]. unfold check_lut. destruct (Z.ltb_spec 0 (h_lutn ch)); [|lia].
  destruct (h_lutnull ch); [reflexivity|]. destruct (h_px ch); cbn [get_lut_size bind maxval] in *; try reflexivity;
    match goal with |- context [?a =? ?b] => destruct (Z.eqb_spec a b) as [E|]; [|reflexivity] end;
    destruct H as [H|[H|[H|H]]]; try discriminate; exfalso; apply H; rewrite E; reflexivity.
Qed.
