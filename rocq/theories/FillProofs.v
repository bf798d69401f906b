(** Filling of bitmaps: rounding of the colour, every pixel set, nothing else touched. *)
From Verif Require Import Base RectModel RectProofs CopyModel MemProofs CopyProofs HiLoModel HiLoProofs PixelModel PixelSpec FloatProofs PixelProofs.
From Coq Require Import QArith Qabs Qminmax Lqa Floats.SpecFloat.
Open Scope Z_scope.

Notation fnn := (nn 24 128).
Notation fop := (op_ok 24 128).

Lemma fop_err X N r : fop X N r -> -100 <= N -> (Qabs (sfQ r - X) <= b2 (N - 25))%Q.
Proof.
  intros (_ & E & HE & _ & k & _ & H) HN. eapply Qle_trans; [exact H|].
  assert (Eh : (b2 E * (1 # 2) == b2 (E - 1))%Q) by (replace (E - 1) with (E + -1) by lia; rewrite b2_plus; reflexivity).
  rewrite Eh. apply b2_le. unfold SpecFloat.fexp, emin in HE. lia.
Qed.
Lemma fop_le X N r z F : fop X N r -> -100 <= N -> N - 24 <= F -> (X <= inject_Z z * b2 F)%Q -> (sfQ r <= inject_Z z * b2 F)%Q.
Proof. intros (_ & E & HE & _ & R) H0 HN. apply (rnd_le E); [exact R|]. unfold SpecFloat.fexp, emin in HE. lia. Qed.
Lemma fop_ge X N r z F : fop X N r -> -100 <= N -> N - 24 <= F -> (inject_Z z * b2 F <= X)%Q -> (inject_Z z * b2 F <= sfQ r)%Q.
Proof. intros (_ & E & HE & _ & R) H0 HN. apply (rnd_ge E); [exact R|]. unfold SpecFloat.fexp, emin in HE. lia. Qed.

Lemma Qabs_bounds a b : (Qabs a <= b -> - b <= a /\ a <= b)%Q.
Proof. intros H. apply Qabs_Qle_condition in H. exact H. Qed.
Lemma Qabs_intro a b : (- b <= a -> a <= b -> Qabs a <= b)%Q.
Proof. intros A B. apply Qabs_Qle_condition. split; assumption. Qed.

Lemma f_half_ok : fnn f_half /\ (sfQ f_half == 1 # 2)%Q.
Proof. split; [split; vm_compute; reflexivity|vm_compute; reflexivity]. Qed.

Lemma f32_cast_nn lo hi f : fnn f -> lo <= 0 -> (sfQ f < inject_Z (hi + 1))%Q ->
  exists t, f32_cast lo hi f = Ok t /\ 0 <= t <= hi /\ (inject_Z t <= sfQ f < inject_Z (t + 1))%Q.
Proof.
  intros Hf Hlo Hhi. destruct (sf_trunc_nn 24 128 f Hf) as (t & E & T0 & T1 & T2).
  assert (T3 : t <= hi) by (assert (t < hi + 1); [|lia]; apply injZ_lt; eapply Qle_lt_trans; eassumption).
  exists t. split; [|split; [lia|split; assumption]].
  destruct f as [s|s| |s m e]; try discriminate E; cbn [sf_trunc] in E; cbn [f32_cast].
  - congruence.
  - cbv zeta in *. assert (Et : (if s then - (if 0 <=? e then Zpos m * 2 ^ e else Zpos m / 2 ^ (- e)) else if 0 <=? e then Zpos m * 2 ^ e else Zpos m / 2 ^ (- e)) = t) by congruence.
    rewrite Et. replace ((lo <=? t) && (t <=? hi)) with true by lia. reflexivity.
Qed.

(** clampToByte (k = 8), clampToUShort (k = 16) *)
Lemma clamp_ok k f : k = 8 \/ k = 16 -> fnn f ->
  exists n, clamp_to (2 ^ k - 1) f = Ok n /\ 0 <= n <= 2 ^ k - 1 /\
    (Qabs (inject_Z n - Qmin (inject_Z (2 ^ k - 1)) (sfQ f)) <= (1 # 2) + b2 (k - 25))%Q.
Proof.
  intros Hk Hf. set (M := 2 ^ k - 1). assert (HM : 255 <= M /\ M <= 65535) by (unfold M; destruct Hk; subst k; cbn; lia).
  pose proof (nn_ge0 24 128 f Hf) as F0. pose proof (b2_pos (k - 25)) as Bp.
  destruct (f32_of_Z_ok 0 ltac:(lia)) as [N0 Q0]. destruct (f32_of_Z_ok M ltac:(lia)) as [NM QM].
  assert (M0 : (0 <= inject_Z M)%Q) by (change 0%Q with (inject_Z 0); apply injZ_le; lia).
  unfold clamp_to. rewrite !(nn_leb 24 128) by (try assumption; lia).
  destruct (Qle_bool (sfQ f) (sfQ (f32_of_Z 0))) eqn:E0.
  - apply Qle_bool_iff in E0. exists 0. split; [reflexivity|]. split; [lia|].
    rewrite Q0 in E0. change (inject_Z 0) with 0%Q in *. assert (Ef : (sfQ f == 0)%Q) by lra.
    rewrite Q.min_r by lra. rewrite Ef. change (Qabs (0 - 0)) with 0%Q. lra.
  - destruct (Qle_bool (sfQ (f32_of_Z M)) (sfQ f)) eqn:E1.
    + apply Qle_bool_iff in E1. rewrite QM in E1. exists M. split; [reflexivity|]. split; [lia|].
      rewrite Q.min_l by exact E1. assert (Ez : (inject_Z M - inject_Z M == 0)%Q) by ring. rewrite Ez. change (Qabs 0) with 0%Q. lra.
    + assert (HL : (sfQ f < inject_Z M)%Q).
      { apply Qnot_le_lt. intros C. rewrite <- QM in C. apply Qle_bool_iff in C. congruence. }
      destruct f_half_ok as [Nh Qh].
      assert (BM : (inject_Z M + 1 == b2 k)%Q).
      { rewrite b2_Z by (destruct Hk; lia). change 1%Q with (inject_Z 1). rewrite <- inject_Z_plus. unfold M. replace (2 ^ k - 1 + 1) with (2 ^ k) by lia. reflexivity. }
      assert (O : fop (sfQ f + sfQ f_half) k (f32_add f f_half)).
      { apply SFadd_op; try assumption; try lia. rewrite Qh. lra. }
      pose proof (fop_err _ _ _ O ltac:(lia)) as Er. apply Qabs_bounds in Er. rewrite Qh in Er.
      assert (Up : (sfQ (f32_add f f_half) <= inject_Z (2 * M + 1) * b2 (-1))%Q).
      { eapply fop_le; [exact O|lia|lia|]. rewrite Qh. assert (Eb : (b2 (-1) == 1 # 2)%Q) by reflexivity. rewrite Eb, inject_Z_plus, inject_Z_mult.
        change (inject_Z 2) with 2%Q. change (inject_Z 1) with 1%Q. lra. }
      destruct O as [Na _].
      destruct (f32_cast_nn 0 M _ Na ltac:(lia)) as (t & Et & Ht & T1 & T2).
      { eapply Qle_lt_trans; [exact Up|]. assert (Eb : (b2 (-1) == 1 # 2)%Q) by reflexivity. rewrite Eb, !inject_Z_plus, inject_Z_mult.
        change (inject_Z 2) with 2%Q. change (inject_Z 1) with 1%Q. lra. }
      exists t. split; [exact Et|]. split; [exact Ht|]. rewrite Q.min_r by lra. rewrite inject_Z_plus in T2. change (inject_Z 1) with 1%Q in T2.
      apply Qabs_intro; lra.
Qed.

Lemma clamp_neg maxv f : (f = S754_infinity true \/ exists m e, f = S754_finite true m e) -> clamp_to maxv f = Ok 0.
Proof. intros [->|(m & e & ->)]; reflexivity. Qed.
Lemma clamp_inf maxv : 0 < maxv < 2 ^ 24 -> clamp_to maxv (S754_infinity false) = Ok maxv.
Proof.
  intros H. unfold clamp_to. cbn [SFleb SFcompare f32_of_Z binary_normalize].
  destruct (f32_of_Z_ok maxv ltac:(lia)) as [[_ N] _]. destruct (f32_of_Z maxv) as [s|s| |s m e]; try contradiction; reflexivity.
Qed.
Lemma clamp_nan maxv : clamp_to maxv S754_nan = UB.
Proof.
  unfold clamp_to. cbn [SFleb SFcompare]. unfold SFleb. destruct (f32_of_Z maxv) as [s|[]| |s m e]; reflexivity.
Qed.

(** a colour component in 0..1 scaled to 0..2^k-1 *)
Lemma scale_ok k c : k = 8 \/ k = 16 -> fnn c -> (sfQ c <= 1)%Q ->
  exists n, clamp_to (2 ^ k - 1) (f32_mul (f32_of_Z (2 ^ k - 1)) c) = Ok n /\ 0 <= n <= 2 ^ k - 1 /\
    (Qabs (inject_Z n - inject_Z (2 ^ k - 1) * sfQ c) <= (1 # 2) + b2 (k - 24))%Q.
Proof.
  intros Hk Hc H1. set (M := 2 ^ k - 1). assert (HM : 255 <= M /\ M <= 65535) by (unfold M; destruct Hk; subst k; cbn; lia).
  pose proof (nn_ge0 24 128 c Hc) as C0.
  destruct (f32_of_Z_ok M ltac:(lia)) as [NM QM].
  assert (M0 : (0 < inject_Z M)%Q) by (change 0%Q with (inject_Z 0); apply injZ_lt; lia).
  assert (BM : (inject_Z M + 1 == b2 k)%Q).
  { rewrite b2_Z by (destruct Hk; lia). change 1%Q with (inject_Z 1). rewrite <- inject_Z_plus. unfold M. replace (2 ^ k - 1 + 1) with (2 ^ k) by lia. reflexivity. }
  assert (MC : (inject_Z M * sfQ c <= inject_Z M * 1)%Q) by (apply Qmult_le_l; assumption).
  assert (O : fop (inject_Z M * sfQ c) k (f32_mul (f32_of_Z M) c)).
  { eapply op_ok_eq; [|apply SFmul_op; try assumption; try lia]; [rewrite QM; reflexivity|]. rewrite QM. lra. }
  pose proof (fop_err _ _ _ O ltac:(lia)) as Er. apply Qabs_bounds in Er.
  assert (Up : (sfQ (f32_mul (f32_of_Z M) c) <= inject_Z M * b2 0)%Q) by (eapply fop_le; [exact O|lia|lia|rewrite b2_0; exact MC]).
  rewrite b2_0 in Up. destruct O as [Na _]. destruct (clamp_ok k _ Hk Na) as (n & En & Hn & Hd). fold M in En, Hn, Hd.
  exists n. split; [exact En|]. split; [exact Hn|]. rewrite Q.min_r in Hd by lra. apply Qabs_bounds in Hd.
  assert (E2 : (b2 (k - 24) == b2 (k - 25) + b2 (k - 25))%Q) by (replace (k - 24) with (k - 25 + 1) by lia; rewrite b2_plus, b2_1; ring).
  apply Qabs_intro; lra.
Qed.

(** the mean of three colour components *)
Lemma gray_ok k r g b : k = 8 \/ k = 16 -> fnn r -> fnn g -> fnn b -> (sfQ r <= 1)%Q -> (sfQ g <= 1)%Q -> (sfQ b <= 1)%Q ->
  exists n, clamp_to (2 ^ k - 1) (f32_div (f32_mul (f32_of_Z (2 ^ k - 1)) (f32_add (f32_add r g) b)) (f32_of_Z 3)) = Ok n /\ 0 <= n <= 2 ^ k - 1 /\
    (Qabs (inject_Z n - inject_Z (2 ^ k - 1) * (sfQ r + sfQ g + sfQ b) / 3) <= (1 # 2) + b2 (k - 22))%Q.
Proof.
  intros Hk Hr Hg Hb R1 G1 B1. set (M := 2 ^ k - 1). assert (HM : 255 <= M /\ M <= 65535) by (unfold M; destruct Hk; subst k; cbn; lia).
  pose proof (nn_ge0 24 128 r Hr). pose proof (nn_ge0 24 128 g Hg). pose proof (nn_ge0 24 128 b Hb).
  destruct (f32_of_Z_ok M ltac:(lia)) as [NM QM]. destruct (f32_of_Z_ok 3 ltac:(lia)) as [N3 Q3]. change (inject_Z 3) with 3%Q in Q3.
  assert (M0 : (255 <= inject_Z M)%Q) by (change 255%Q with (inject_Z 255); apply injZ_le; lia).
  assert (M1 : (inject_Z M <= 65535)%Q) by (change 65535%Q with (inject_Z 65535); apply injZ_le; lia).
  assert (BM : (inject_Z M + 1 == b2 k)%Q).
  { rewrite b2_Z by (destruct Hk; lia). change 1%Q with (inject_Z 1). rewrite <- inject_Z_plus. unfold M. replace (2 ^ k - 1 + 1) with (2 ^ k) by lia. reflexivity. }
  assert (b2_2 : (b2 2 == 4)%Q) by reflexivity.
  assert (O1 : fop (sfQ r + sfQ g) 2 (f32_add r g)) by (apply SFadd_op; try assumption; try lia; rewrite b2_2; lra).
  assert (U1 : (sfQ (f32_add r g) <= inject_Z 2 * b2 0)%Q) by (eapply fop_le; [exact O1|lia|lia|]; rewrite b2_0; change (inject_Z 2) with 2%Q; lra).
  pose proof (fop_err _ _ _ O1 ltac:(lia)) as E1. apply Qabs_bounds in E1. rewrite b2_0 in U1. change (inject_Z 2) with 2%Q in U1.
  destruct O1 as [Nrg _]. pose proof (nn_ge0 24 128 _ Nrg).
  assert (O2 : fop (sfQ (f32_add r g) + sfQ b) 2 (f32_add (f32_add r g) b)) by (apply SFadd_op; try assumption; try lia; rewrite b2_2; lra).
  assert (U2 : (sfQ (f32_add (f32_add r g) b) <= inject_Z 3 * b2 0)%Q) by (eapply fop_le; [exact O2|lia|lia|]; rewrite b2_0; change (inject_Z 3) with 3%Q; lra).
  pose proof (fop_err _ _ _ O2 ltac:(lia)) as E2. apply Qabs_bounds in E2. rewrite b2_0 in U2. change (inject_Z 3) with 3%Q in U2.
  destruct O2 as [Ns _]. set (s := f32_add (f32_add r g) b) in *. pose proof (nn_ge0 24 128 _ Ns) as S0.
  set (E := (sfQ r + sfQ g + sfQ b)%Q).
  assert (ES : (- b2 (-22) <= sfQ s - E <= b2 (-22))%Q).
  { assert (Eq : (b2 (-22) == 2 * b2 (-23))%Q) by reflexivity. assert (0 < b2 (-23))%Q by apply b2_pos. change (2 - 25) with (-23) in *. unfold E. rewrite Eq. split; lra. }
  clearbody E. clearbody s.
  assert (MS3 : (inject_Z M * sfQ s <= inject_Z M * 3)%Q) by (apply Qmult_le_l; lra).
  assert (MS0 : (0 <= inject_Z M * sfQ s)%Q) by (apply Qmult_le_0_compat; lra).
  assert (b2k2 : (b2 (k + 2) == 4 * b2 k)%Q) by (rewrite b2_plus, b2_2; ring).
  assert (O3 : fop (inject_Z M * sfQ s) (k + 2) (f32_mul (f32_of_Z M) s)).
  { eapply op_ok_eq; [|apply SFmul_op; try assumption; try lia]; [rewrite QM; reflexivity|]. rewrite QM, b2k2. lra. }
  assert (U3 : (sfQ (f32_mul (f32_of_Z M) s) <= inject_Z (3 * M) * b2 0)%Q).
  { eapply fop_le; [exact O3|lia|lia|]. rewrite b2_0, inject_Z_mult. change (inject_Z 3) with 3%Q. lra. }
  rewrite b2_0, inject_Z_mult in U3. change (inject_Z 3) with 3%Q in U3.
  pose proof (fop_err _ _ _ O3 ltac:(lia)) as E3. apply Qabs_bounds in E3.
  set (p := f32_mul (f32_of_Z M) s) in *.
  assert (L3 : p = S754_zero false \/ (inject_Z 3 * b2 (-149) <= sfQ p)%Q).
  { destruct Ns as [Vs Ss]. destruct s as [ss|ss| |ss ms es] eqn:Es; try contradiction; subst ss.
    - left. unfold p, f32_mul. destruct NM as [VM SM]. destruct (f32_of_Z M) as [sm|sm| |sm mm em]; try contradiction; subst sm; reflexivity.
    - right. assert (Es' : (b2 (-149) <= sfQ (S754_finite false ms es))%Q).
      { destruct (nn_bounds 24 128 ms es ltac:(split; [exact Vs|reflexivity])) as [C _]. cbn [sfQ].
        apply Qle_trans with (1 * b2 es)%Q; [rewrite Qmult_1_l; apply b2_le; unfold SpecFloat.fexp, emin in C; lia|].
        apply Qmult_le_compat_r; [change 1%Q with (inject_Z 1); apply injZ_le; lia|apply Qlt_le_weak, b2_pos]. }
      assert (Ep : (inject_Z 3 * b2 (-149) <= inject_Z M * sfQ (S754_finite false ms es))%Q).
      { apply Qle_trans with (inject_Z M * b2 (-149))%Q; [apply Qmult_le_compat_r; [change (inject_Z 3) with 3%Q; lra|apply Qlt_le_weak, b2_pos]|apply Qmult_le_l; lra]. }
      destruct O3 as (_ & Ee & HE & HC & R). destruct (Z_le_dec Ee (-149)) as [L|L].
      + eapply (rnd_ge Ee); [exact R|exact L|exact Ep].
      + destruct HC as [->|HC]; [unfold emin in L; lia|].
        assert (G : (inject_Z 1 * b2 (Ee + 24 - 1) <= sfQ p)%Q) by (eapply (rnd_ge Ee); [exact R|lia|]; change (inject_Z 1) with 1%Q; rewrite Qmult_1_l; exact HC).
        change (inject_Z 1) with 1%Q in G. rewrite Qmult_1_l in G. eapply Qle_trans; [|exact G].
        apply Qle_trans with (b2 2 * b2 (-149))%Q; [apply Qmult_le_compat_r; [vm_compute; discriminate|apply Qlt_le_weak, b2_pos]|].
        rewrite <- b2_plus. apply b2_le. lia. }
  destruct O3 as [Np _]. clearbody p.
  assert (Hmain : exists q, f32_div p (f32_of_Z 3) = q /\ fnn q /\ (sfQ q <= inject_Z M)%Q /\ (- b2 (k - 25) <= sfQ q - sfQ p * (1 # 3) <= b2 (k - 25))%Q).
  { eexists. split; [reflexivity|]. destruct L3 as [Ep|L3].
    - subst p. assert (Ez : f32_div (S754_zero false) (f32_of_Z 3) = S754_zero false) by reflexivity. rewrite Ez.
      split; [split; reflexivity|]. cbn [sfQ]. pose proof (b2_pos (k - 25)). split; [lra|split; lra].
    - assert (X : (sfQ p / sfQ (f32_of_Z 3) == sfQ p * (1 # 3))%Q) by (rewrite Q3; reflexivity).
      assert (O4 : fop (sfQ p * (1 # 3)) k (f32_div p (f32_of_Z 3))).
      { eapply op_ok_eq; [exact X|]. apply SFdiv_op; try assumption; try lia.
        - rewrite Q3. reflexivity.
        - rewrite X. change (emin 24 128) with (-149). change (inject_Z 3) with 3%Q in L3. set (t := b2 (-149)) in *. clearbody t. lra.
        - rewrite X. lra. }
      pose proof (fop_err _ _ _ O4 ltac:(lia)) as E4. apply Qabs_bounds in E4.
      assert (U4 : (sfQ (f32_div p (f32_of_Z 3)) <= inject_Z M * b2 0)%Q) by (eapply fop_le; [exact O4|lia|lia|]; rewrite b2_0; lra).
      rewrite b2_0, Qmult_1_r in U4. destruct O4 as [N4 _]. split; [exact N4|]. split; [exact U4|]. split; lra. }
  destruct Hmain as (q & -> & Nq & Uq & Eq). destruct (clamp_ok k q Hk Nq) as (n & En & Hn & Hd). fold M in En, Hn, Hd.
  exists n. split; [exact En|]. split; [exact Hn|]. rewrite Q.min_r in Hd by lra. apply Qabs_bounds in Hd.
  assert (Ed : (inject_Z M * E / 3 == inject_Z M * E * (1 # 3))%Q) by reflexivity.
  assert (EM : (- (inject_Z M * b2 (-22)) <= inject_Z M * sfQ s - inject_Z M * E <= inject_Z M * b2 (-22))%Q).
  { assert (A1 : (inject_Z M * (- b2 (-22)) <= inject_Z M * (sfQ s - E))%Q) by (apply Qmult_le_l; lra).
    assert (A2 : (inject_Z M * (sfQ s - E) <= inject_Z M * b2 (-22))%Q) by (apply Qmult_le_l; lra). split; lra. }
  assert (K1 : (inject_Z M * b2 (-22) <= b2 (k - 22))%Q).
  { replace (k - 22) with (k + -22) by lia. rewrite b2_plus. apply Qmult_le_compat_r; [lra|apply Qlt_le_weak, b2_pos]. }
  assert (K2 : (b2 (k - 22) == 8 * b2 (k - 25))%Q) by (replace (k - 22) with (3 + (k - 25)) by lia; rewrite b2_plus; reflexivity).
  assert (K3 : (b2 (k + 2 - 25) == 4 * b2 (k - 25))%Q) by (replace (k + 2 - 25) with (2 + (k - 25)) by lia; rewrite b2_plus; reflexivity).
  rewrite K3 in E3. pose proof (b2_pos (k - 25)) as Bp. rewrite Ed, K2. rewrite K2 in K1.
  set (B := b2 (k - 25)) in *. set (T := (inject_Z M * b2 (-22))%Q) in *. set (U := (inject_Z M * E)%Q) in *. set (V := (inject_Z M * sfQ s)%Q) in *.
  clearbody B T U V. apply Qabs_intro; lra.
Qed.

(** division by three, including the smallest floats *)
Lemma div3_gen p k : fnn p -> -100 <= k <= 100 -> (sfQ p < 3 * b2 k)%Q ->
  fnn (f32_div p (f32_of_Z 3)) /\ (Qabs (sfQ (f32_div p (f32_of_Z 3)) - sfQ p * (1 # 3)) <= b2 (k - 25))%Q.
Proof.
  intros Hp Hk Hu. destruct (f32_of_Z_ok 3 ltac:(lia)) as [N3 Q3]. change (inject_Z 3) with 3%Q in Q3.
  destruct (Qlt_le_dec (sfQ p) (inject_Z 3 * b2 (-149))) as [Hs|Hs].
  - assert (C : p = S754_zero false \/ p = S754_finite false 1 (-149) \/ p = S754_finite false 2 (-149)).
    { pose proof Hp as [Vp Sp]. destruct p as [s|s| |s m e]; try contradiction; subst s; [now left|right].
      destruct (nn_bounds 24 128 m e Hp) as [C _]. cbn [sfQ] in Hs.
      assert (Hm : Zpos m < 3 \/ -149 < e).
      { destruct (Z_lt_dec (-149) e) as [L|L]; [now right|left]. assert (e = -149) by (unfold SpecFloat.fexp, emin in C; lia). subst e.
        apply injZ_lt. apply Qmult_lt_r with (b2 (-149)); [apply b2_pos|exact Hs]. }
      assert (He : e = -149).
      { destruct (Z_lt_dec (-149) e) as [L|L]; [exfalso|unfold SpecFloat.fexp, emin in C; lia].
        pose proof (digits_bounds m e) as [D _]. assert (Zpos (digits2_pos m) = 24) by (unfold SpecFloat.fexp, emin in C; lia).
        assert (B : (inject_Z 3 * b2 (-149) <= b2 (-147))%Q) by (replace (-147) with (2 + -149) by lia; rewrite b2_plus; apply Qmult_le_compat_r; [vm_compute; discriminate|apply Qlt_le_weak, b2_pos]).
        assert (B2 : (b2 (-147) <= b2 (Zpos (digits2_pos m) + e - 1))%Q) by (apply b2_le; lia). lra. }
      subst e. destruct Hm as [Hm|Hm]; [|lia]. destruct m as [[]|[]|]; try lia; [right|left]; reflexivity. }
    assert (Hb : (b2 (-140) <= b2 (k - 25))%Q) by (apply b2_le; lia).
    destruct C as [->|[->| ->]]; (split; [split; vm_compute; reflexivity|]); (eapply Qle_trans; [|exact Hb]); vm_compute; discriminate.
  - assert (X : (sfQ p / sfQ (f32_of_Z 3) == sfQ p * (1 # 3))%Q) by (rewrite Q3; reflexivity).
    assert (O4 : fop (sfQ p * (1 # 3)) k (f32_div p (f32_of_Z 3))).
    { eapply op_ok_eq; [exact X|]. apply SFdiv_op; try assumption; try lia.
      - rewrite Q3. reflexivity.
      - rewrite X. change (emin 24 128) with (-149). change (inject_Z 3) with 3%Q in Hs. set (t := b2 (-149)) in *. clearbody t. lra.
      - rewrite X. set (t := b2 k) in *. clearbody t. lra. }
    split; [apply O4|]. apply fop_err; [exact O4|lia].
Qed.

(** ** What filling with a colour means: every component as near as rounding to the pixel type and
    single precision arithmetic allow *)
Definition near (x : Q) (tol : Q) (n : Z) : Prop := (Qabs (inject_Z n - x) <= tol)%Q.
Definition fill_spec (t : px) (r g b : Q) (v : bytes) : Prop :=
  match t with
  | Gray8 => exists n, comps t v = [n] /\ 0 <= n <= 255 /\ near (255 * (r + g + b) / 3) ((1 # 2) + b2 (-14)) n
  | Gray16 => exists n, comps t v = [n] /\ 0 <= n <= 65535 /\ near (65535 * (r + g + b) / 3) ((1 # 2) + b2 (-6)) n
  | Gray32F => exists n, comps t v = [n] /\ (Qabs (f32_val n - (r + g + b) / 3) <= b2 (-22))%Q
  | Bgr24 => exists nb ng nr, comps t v = [nb; ng; nr] /\ Forall (fun n => 0 <= n <= 255) [nb; ng; nr] /\
               near (255 * b) ((1 # 2) + b2 (-16)) nb /\ near (255 * g) ((1 # 2) + b2 (-16)) ng /\ near (255 * r) ((1 # 2) + b2 (-16)) nr
  | Bgra32 => exists nb ng nr, comps t v = [nb; ng; nr; 255] /\ Forall (fun n => 0 <= n <= 255) [nb; ng; nr] /\
               near (255 * b) ((1 # 2) + b2 (-16)) nb /\ near (255 * g) ((1 # 2) + b2 (-16)) ng /\ near (255 * r) ((1 # 2) + b2 (-16)) nr
  | Bgr48 => exists nb ng nr, comps t v = [nb; ng; nr] /\ Forall (fun n => 0 <= n <= 65535) [nb; ng; nr] /\
               near (65535 * b) ((1 # 2) + b2 (-8)) nb /\ near (65535 * g) ((1 # 2) + b2 (-8)) ng /\ near (65535 * r) ((1 # 2) + b2 (-8)) nr
  end.
Definition unit_color (c : rgbf) : Prop :=
  (fnn (c_r c) /\ sfQ (c_r c) <= 1)%Q /\ (fnn (c_g c) /\ sfQ (c_g c) <= 1)%Q /\ (fnn (c_b c) /\ sfQ (c_b c) <= 1)%Q.

Lemma fill_bytes_ok t c : unit_color c ->
  exists v, fill_bytes t c = Ok v /\ length v = Z.to_nat (bpp_of t) /\ fill_spec t (sfQ (c_r c)) (sfQ (c_g c)) (sfQ (c_b c)) v.
Proof.
  intros ((Hr & R1) & (Hg & G1) & (Hb & B1)).
  pose proof (scale_ok 8 _ (or_introl eq_refl) Hr R1) as Sr8. pose proof (scale_ok 8 _ (or_introl eq_refl) Hg G1) as Sg8. pose proof (scale_ok 8 _ (or_introl eq_refl) Hb B1) as Sb8.
  pose proof (scale_ok 16 _ (or_intror eq_refl) Hr R1) as Sr16. pose proof (scale_ok 16 _ (or_intror eq_refl) Hg G1) as Sg16. pose proof (scale_ok 16 _ (or_intror eq_refl) Hb B1) as Sb16.
  change (2 ^ 8 - 1) with 255 in *. change (2 ^ 16 - 1) with 65535 in *. change (8 - 24) with (-16) in *. change (16 - 24) with (-8) in *.
  destruct t; unfold fill_bytes; cbv zeta.
  - destruct (gray_ok 8 _ _ _ (or_introl eq_refl) Hr Hg Hb R1 G1 B1) as (n & E & Hn & Hd). change (2 ^ 8 - 1) with 255 in *. rewrite E. cbn [bind].
    eexists. split; [reflexivity|]. split; [reflexivity|]. exists n. split; [apply comps_b8_1; lia|]. split; [lia|exact Hd].
  - destruct (gray_ok 16 _ _ _ (or_intror eq_refl) Hr Hg Hb R1 G1 B1) as (n & E & Hn & Hd). change (2 ^ 16 - 1) with 65535 in *. rewrite E. cbn [bind].
    eexists. split; [reflexivity|]. split; [reflexivity|]. exists n. split; [apply comps_b16_1; lia|]. split; [lia|exact Hd].
  - eexists. split; [reflexivity|]. split; [apply bf32_len|].
    pose proof (nn_ge0 24 128 _ Hr). pose proof (nn_ge0 24 128 _ Hg). pose proof (nn_ge0 24 128 _ Hb).
    set (r := c_r c) in *. set (g := c_g c) in *. set (b := c_b c) in *.
    assert (b2_2 : (b2 2 == 4)%Q) by reflexivity.
    assert (O1 : fop (sfQ r + sfQ g) 2 (f32_add r g)) by (apply SFadd_op; try assumption; try lia; rewrite b2_2; lra).
    assert (U1 : (sfQ (f32_add r g) <= inject_Z 2 * b2 0)%Q) by (eapply fop_le; [exact O1|lia|lia|]; rewrite b2_0; change (inject_Z 2) with 2%Q; lra).
    pose proof (fop_err _ _ _ O1 ltac:(lia)) as E1. apply Qabs_bounds in E1. rewrite b2_0 in U1. change (inject_Z 2) with 2%Q in U1.
    destruct O1 as [Nrg _]. pose proof (nn_ge0 24 128 _ Nrg).
    assert (O2 : fop (sfQ (f32_add r g) + sfQ b) 2 (f32_add (f32_add r g) b)) by (apply SFadd_op; try assumption; try lia; rewrite b2_2; lra).
    assert (U2 : (sfQ (f32_add (f32_add r g) b) <= inject_Z 3 * b2 0)%Q) by (eapply fop_le; [exact O2|lia|lia|]; rewrite b2_0; change (inject_Z 3) with 3%Q; lra).
    pose proof (fop_err _ _ _ O2 ltac:(lia)) as E2. apply Qabs_bounds in E2. rewrite b2_0 in U2. change (inject_Z 3) with 3%Q in U2.
    destruct O2 as [Ns _]. set (s := f32_add (f32_add r g) b) in *.
    destruct (div3_gen s 1 Ns ltac:(lia)) as [Nq Eq]; [rewrite b2_1; lra|].
    destruct (f32_bits_ok _ Nq) as (_ & V & _). apply Qabs_bounds in Eq.
    eexists. split; [apply bf32_val, Nq|]. rewrite V.
    assert (Ed : ((sfQ r + sfQ g + sfQ b) / 3 == (sfQ r + sfQ g + sfQ b) * (1 # 3))%Q) by reflexivity. rewrite Ed.
    change (2 - 25) with (-23) in *. change (1 - 25) with (-24) in *.
    assert (K : (b2 (-23) == 2 * b2 (-24))%Q) by reflexivity. assert (K' : (b2 (-22) == 4 * b2 (-24))%Q) by reflexivity. rewrite K' . rewrite K in *. pose proof (b2_pos (-24)). set (B := b2 (-24)) in *. clearbody B. apply Qabs_intro; lra.
  - destruct Sb8 as (nb & -> & Hnb & Db), Sg8 as (ng & -> & Hng & Dg), Sr8 as (nr & -> & Hnr & Dr). cbn [bind].
    eexists. split; [reflexivity|]. split; [reflexivity|]. exists nb, ng, nr. split; [apply comps_b8_3; lia|].
    split; [repeat constructor; lia|]. split; [exact Db|]. split; [exact Dg|exact Dr].
  - destruct Sb8 as (nb & -> & Hnb & Db), Sg8 as (ng & -> & Hng & Dg), Sr8 as (nr & -> & Hnr & Dr). cbn [bind].
    eexists. split; [reflexivity|]. split; [reflexivity|]. exists nb, ng, nr. split.
    + unfold b8, u8, comps. cbn [nth app]. rewrite !Z.mod_small by lia. reflexivity.
    + split; [repeat constructor; lia|]. split; [exact Db|]. split; [exact Dg|exact Dr].
  - destruct Sb16 as (nb & -> & Hnb & Db), Sg16 as (ng & -> & Hng & Dg), Sr16 as (nr & -> & Hnr & Dr). cbn [bind].
    eexists. split; [reflexivity|]. split; [reflexivity|]. exists nb, ng, nr. split; [apply comps_b16_3; lia|].
    split; [repeat constructor; lia|]. split; [exact Db|]. split; [exact Dg|exact Dr].
Qed.

Lemma flat_map_none {A B} (l : list A) : flat_map (fun _ => @nil B) l = [].
Proof. induction l; [reflexivity|exact IHl]. Qed.

(** loops over all pixels of a bitmap which store [f y x] *)
Lemma store_loop_ok b (f : Z -> Z -> bytes) : bmp_wf b -> (forall y x, length (f y x) = Z.to_nat (bbpp b)) ->
  exists m, for_loop (Z.to_nat (bh b)) 0 (fun y m =>
    for_loop (Z.to_nat (bw b)) 0 (fun x m => st m (bsize b) (y * bstride b + x * bbpp b) (f y x)) m) (bdata b) = Ok m /\
  pix_post b (bwith b m) (fun x y => Some (f y x)).
Proof.
  intros Hwf Hl. pose proof Hwf as (W0 & H0 & P & S & Z).
  destruct (Z.eq_dec (bw b) 0) as [Ew|Nw]; [|destruct (Z.eq_dec (bh b) 0) as [Eh|Nh]].
  - exists (bdata b). split.
    + rewrite Ew. cbn [Z.to_nat for_loop]. rewrite (for_loop_writes _ 0 _ (fun _ => [])); [now rewrite flat_map_none|reflexivity].
    + split; [now eexists|]. split; [intros; lia|reflexivity].
  - exists (bdata b). split; [rewrite Eh; reflexivity|]. split; [now eexists|]. split; [intros; lia|reflexivity].
  - assert (R := region_of_bmp b 0 0 (bw b) (bh b) Hwf ltac:(lia) ltac:(lia) ltac:(lia) ltac:(lia) ltac:(lia) ltac:(lia)).
    set (dr := mkRegion (bsize b) (0 * bstride b + 0 * bbpp b) (bstride b) (bbpp b)) in *.
    exists (apply_writes (bdata b) (pix_writes dr (bw b) (bh b) (fun y x => Some (f y x)))). split.
    + unfold pix_writes. apply for_loop_writes. intros y m Hy. apply for_loop_writes. intros x m' Hx.
      pose proof (region_pix_in dr (bw b) (bh b) y x R ltac:(lia) ltac:(lia)) as [A1 A2]. unfold dr in *; cbn [g_off g_stride g_bpp g_size] in *.
      replace (0 * bstride b + 0 * bbpp b + y * bstride b + x * bbpp b) with (y * bstride b + x * bbpp b) in * by lia.
      rewrite st_ok; [reflexivity|lia|rewrite Hl; lia].
    + eapply block_to_pix with (x0 := 0) (y0 := 0) (w := bw b) (h := bh b); [exact Hwf|lia|lia|lia|lia|lia|lia| |].
      * apply pix_writes_post; [exact R|]. intros r c d [= <-]. apply Hl.
      * intros x y Hx Hy. cbn beta. match goal with |- context [if ?c then _ else _] => replace c with true by lia end. rewrite !Z.sub_0_r. reflexivity.
Qed.

Lemma fill_px_ok t c b : bmp_wf b -> bbpp b = bpp_of t -> unit_color c ->
  exists v d', fill_px t c b = Ok d' /\ fill_spec t (sfQ (c_r c)) (sfQ (c_g c)) (sfQ (c_b c)) v /\ pix_post b d' (fun _ _ => Some v).
Proof.
  intros Hwf Hb Hc. destruct (fill_bytes_ok t c Hc) as (v & E & L & S). rewrite <- Hb in L.
  destruct (store_loop_ok b (fun _ _ => v) Hwf (fun _ _ => L)) as (m & Em & P).
  exists v, (bwith b m). split; [|split; [exact S|exact P]]. unfold fill_px. rewrite E. cbn [bind]. rewrite <- Hb, Em. reflexivity.
Qed.

(** a colour which is not a number is undefined behaviour *)
Lemma fill_nan b : fill_px Bgr24 (mkRgbf (f32_of_Z 0) (f32_of_Z 0) S754_nan) b = UB.
Proof. unfold fill_px. assert (E : fill_bytes Bgr24 (mkRgbf (f32_of_Z 0) (f32_of_Z 0) S754_nan) = UB) by (vm_compute; reflexivity). now rewrite E. Qed.
Lemma fill_inf_cancel b : fill_px Gray8 (mkRgbf (S754_infinity false) (S754_infinity true) (f32_of_Z 0)) b = UB.
Proof. unfold fill_px. assert (E : fill_bytes Gray8 (mkRgbf (S754_infinity false) (S754_infinity true) (f32_of_Z 0)) = UB) by (vm_compute; reflexivity). now rewrite E. Qed.
