(** Composition with weights: each channel is scaled by its weight relative to the mean weight. *)
From Verif Require Import Base RectModel RectProofs CopyModel MemProofs CopyProofs HiLoModel HiLoProofs PixelModel PixelSpec FloatProofs PixelProofs FillProofs PixLoopProofs CompositorModel CompositorSpec CompositorProofs.
From Coq Require Import QArith Qabs Qminmax Lqa Floats.SpecFloat Permutation.
Open Scope Z_scope.

Lemma find_exp X lo hi : (b2 lo <= X < b2 hi)%Q -> exists N, lo < N <= hi /\ (b2 (N - 1) <= X < b2 N)%Q.
Proof.
  intros [H1 H2]. assert (L : lo < hi).
  { destruct (Z_lt_le_dec lo hi) as [?|G]; [assumption|]. apply b2_le in G. exfalso. apply (Qlt_irrefl X). eapply Qlt_le_trans; [exact H2|]. eapply Qle_trans; eassumption. }
  remember (Z.to_nat (hi - lo)) as n eqn:En. revert hi H2 L En. induction n as [|n IH]; intros hi H2 L En; [lia|].
  destruct (Qlt_le_dec X (b2 (hi - 1))) as [A|A].
  - destruct (Z.eq_dec (hi - 1) lo) as [E|Hn]; [rewrite E in A; exfalso; apply (Qlt_irrefl X); eapply Qlt_le_trans; eassumption|].
    destruct (IH (hi - 1)) as (N & HN & B); [exact A|lia|lia|]. exists N. split; [lia|exact B].
  - exists hi. split; [lia|]. split; assumption.
Qed.

Lemma rel_err X r lo hi : (forall N, (X < b2 N)%Q -> N <= 126 -> fop X N r) -> (b2 lo <= X < b2 hi)%Q -> -100 <= lo -> hi <= 126 ->
  fnn r /\ (X - X * b2 (-24) <= sfQ r <= X + X * b2 (-24))%Q /\ (b2 lo <= sfQ r)%Q.
Proof.
  intros Hop HX Hlo Hhi. destruct (find_exp X lo hi HX) as (N & HN & HX1 & HX2). specialize (Hop N HX2 ltac:(lia)).
  pose proof (fop_err _ _ _ Hop ltac:(lia)) as E. apply Qabs_bounds in E.
  assert (B : (b2 (N - 25) <= X * b2 (-24))%Q).
  { replace (N - 25) with (N - 1 + -24) by lia. rewrite b2_plus. apply Qmult_le_compat_r; [exact HX1|apply Qlt_le_weak, b2_pos]. }
  assert (G : (b2 (N - 1) <= sfQ r)%Q).
  { pose proof (fop_ge _ _ _ 1 (N - 1) Hop ltac:(lia) ltac:(lia)) as G. change (inject_Z 1) with 1%Q in G. rewrite !Qmult_1_l in G. exact (G HX1). }
  assert (G2 : (b2 lo <= b2 (N - 1))%Q) by (apply b2_le; lia).
  split; [apply Hop|]. split; [split; lra|lra].
Qed.

Lemma add_rel x y lo hi : fnn x -> fnn y -> (b2 lo <= sfQ x + sfQ y < b2 hi)%Q -> -100 <= lo -> hi <= 126 ->
  let X := (sfQ x + sfQ y)%Q in let r := f32_add x y in
  fnn r /\ (X - X * b2 (-24) <= sfQ r <= X + X * b2 (-24))%Q /\ (b2 lo <= sfQ r)%Q.
Proof. intros Hx Hy H Hl Hh. cbv zeta. eapply rel_err; [|exact H|exact Hl|exact Hh]. intros N HN HN2. apply SFadd_op; try assumption; lia. Qed.
Lemma mul_rel x y lo hi : fnn x -> fnn y -> (b2 lo <= sfQ x * sfQ y < b2 hi)%Q -> -100 <= lo -> hi <= 126 ->
  let X := (sfQ x * sfQ y)%Q in let r := f32_mul x y in
  fnn r /\ (X - X * b2 (-24) <= sfQ r <= X + X * b2 (-24))%Q /\ (b2 lo <= sfQ r)%Q.
Proof. intros Hx Hy H Hl Hh. cbv zeta. eapply rel_err; [|exact H|exact Hl|exact Hh]. intros N HN HN2. apply SFmul_op; try assumption; lia. Qed.
Lemma div_rel x y lo hi : fnn x -> fnn y -> (0 < sfQ y)%Q -> (b2 lo <= sfQ x / sfQ y < b2 hi)%Q -> -100 <= lo -> hi <= 126 ->
  let X := (sfQ x / sfQ y)%Q in let r := f32_div x y in
  fnn r /\ (X - X * b2 (-24) <= sfQ r <= X + X * b2 (-24))%Q /\ (b2 lo <= sfQ r)%Q.
Proof.
  intros Hx Hy Py H Hl Hh. cbv zeta. eapply rel_err; [|exact H|exact Hl|exact Hh]. intros N HN HN2. apply SFdiv_op; try assumption; try lia.
  eapply Qle_trans; [|apply H]. apply b2_le. unfold emin. lia.
Qed.

Lemma fnn_zero x : fnn x -> (sfQ x == 0)%Q -> x = S754_zero false.
Proof. intros H E. apply nn_inj; [exact H|split; reflexivity|exact E]. Qed.
Lemma fnn_usable x : fnn x -> usable x.
Proof. intros [_ H]. destruct x; try contradiction; cbn [usable]; auto. Qed.

Lemma Qsum_nonneg chs : (forall ch, In ch chs -> weight_ok (h_weight ch)) -> (0 <= Qsum (map (fun ch => sfQ (h_weight ch)) chs))%Q.
Proof.
  induction chs as [|c chs IH]; intros H; cbn [map Qsum fold_right]; [lra|]. fold (Qsum (map (fun ch => sfQ (h_weight ch)) chs)).
  specialize (IH (fun x Hx => H x (or_intror Hx))). destruct (H c (or_introl eq_refl)) as [N _]. pose proof (nn_ge0 24 128 _ N). lra.
Qed.
Lemma Qsum_ge chs ch : (forall ch, In ch chs -> weight_ok (h_weight ch)) -> In ch chs -> (sfQ (h_weight ch) <= Qsum (map (fun ch => sfQ (h_weight ch)) chs))%Q.
Proof.
  induction chs as [|c chs IH]; intros H Hi; [contradiction|]. cbn [map Qsum fold_right]. fold (Qsum (map (fun ch => sfQ (h_weight ch)) chs)).
  destruct Hi as [->|Hi].
  - pose proof (Qsum_nonneg chs (fun x Hx => H x (or_intror Hx))). lra.
  - specialize (IH (fun x Hx => H x (or_intror Hx)) Hi). destruct (H c (or_introl eq_refl)) as [N _]. pose proof (nn_ge0 24 128 _ N). lra.
Qed.
Lemma Qsum_le chs : (forall ch, In ch chs -> weight_ok (h_weight ch)) -> (Qsum (map (fun ch => sfQ (h_weight ch)) chs) <= inject_Z (Z.of_nat (length chs)) * b2 40)%Q.
Proof.
  induction chs as [|c chs IH]; intros H; cbn [map Qsum fold_right length]; [vm_compute; discriminate|]. fold (Qsum (map (fun ch => sfQ (h_weight ch)) chs)).
  specialize (IH (fun x Hx => H x (or_intror Hx))). rewrite Nat2Z.inj_succ, <- Z.add_1_l, inject_Z_plus. change (inject_Z 1) with 1%Q.
  assert (sfQ (h_weight c) <= b2 40)%Q.
  { destruct (H c (or_introl eq_refl)) as [_ [E|[_ E]]]; [rewrite E; apply Qlt_le_weak, b2_pos|exact E]. }
  lra.
Qed.

Lemma weight_sum_step acc c chs : fnn (h_weight c) -> weight_sum acc (c :: chs) = weight_sum (f32_add acc (h_weight c)) chs.
Proof. intros [_ S]. cbn [weight_sum]. destruct (h_weight c); try contradiction; subst; reflexivity. Qed.

Lemma weight_sum_ok chs : forall acc (Sp T : Q) k, (forall ch, In ch chs -> weight_ok (h_weight ch)) -> fnn acc -> ((sfQ acc == 0)%Q \/ (b2 (-40) <= sfQ acc)%Q) ->
  0 <= k -> k + Z.of_nat (length chs) <= 1024 -> (Sp + Qsum (map (fun ch => sfQ (h_weight ch)) chs) == T)%Q -> (0 <= Sp)%Q -> (T <= b2 50)%Q ->
  (Qabs (sfQ acc - Sp) <= inject_Z k * (b2 (-23) * T))%Q ->
  exists s, weight_sum acc chs = Some s /\ fnn s /\ (Qabs (sfQ s - T) <= inject_Z (k + Z.of_nat (length chs)) * (b2 (-23) * T))%Q.
Proof.
  induction chs as [|c chs IH]; intros acc Sp T k Hw Ha Hz Hk Hn HT HS HT2 HE; cbn [map Qsum fold_right length] in *.
  - exists acc. split; [reflexivity|]. split; [exact Ha|]. rewrite Z.add_0_r. rewrite <- HT at 1. rewrite Qplus_0_r. exact HE.
  - fold (Qsum (map (fun ch => sfQ (h_weight ch)) chs)) in HT. destruct (Hw c (or_introl eq_refl)) as [Nw Ww]. pose proof (nn_ge0 24 128 _ Nw) as W0.
    pose proof (nn_ge0 24 128 _ Ha) as A0. pose proof (Qsum_nonneg chs (fun x Hx => Hw x (or_intror Hx))) as R0. set (R := Qsum (map (fun ch => sfQ (h_weight ch)) chs)) in *.
    rewrite (weight_sum_step acc c chs Nw).
    assert (KT : (inject_Z k * (b2 (-23) * T) <= T)%Q).
    { assert (0 <= T)%Q by lra. apply Qle_trans with (1024 * (b2 (-23) * T))%Q.
      - apply Qmult_le_compat_r; [change 1024%Q with (inject_Z 1024); apply injZ_le; lia|]. apply Qmult_le_0_compat; [apply Qlt_le_weak, b2_pos|assumption].
      - assert (E1 : (b2 (-23) == 1 # 8388608)%Q) by reflexivity. rewrite E1. lra. }
    apply Qabs_bounds in HE.
    assert (HA : fnn (f32_add acc (h_weight c)) /\ ((sfQ (f32_add acc (h_weight c)) == 0)%Q \/ (b2 (-40) <= sfQ (f32_add acc (h_weight c)))%Q) /\
       (sfQ acc + sfQ (h_weight c) - (sfQ acc + sfQ (h_weight c)) * b2 (-24) <= sfQ (f32_add acc (h_weight c)) <= sfQ acc + sfQ (h_weight c) + (sfQ acc + sfQ (h_weight c)) * b2 (-24))%Q).
    { assert (Z00 : (sfQ acc == 0)%Q /\ (sfQ (h_weight c) == 0)%Q \/ (b2 (-40) <= sfQ acc + sfQ (h_weight c))%Q).
      { destruct Hz as [Hz|Hz]; destruct Ww as [E|[E _]]; [left; auto|right|right|right]; lra. }
      destruct Z00 as [[Z1 Z2]|Z3].
      - rewrite (fnn_zero _ Ha Z1), (fnn_zero _ Nw Z2). change (f32_add (S754_zero false) (S754_zero false)) with (S754_zero false). cbn [sfQ].
        split; [split; reflexivity|]. split; [left; reflexivity|]. split; vm_compute; discriminate.
      - destruct (add_rel acc (h_weight c) (-40) 52 Ha Nw) as (P1 & P2 & P3); [|lia|lia|split; [exact P1|split; [right; exact P3|exact P2]]].
        split; [exact Z3|]. assert (E1 : (b2 50 == 1125899906842624)%Q) by reflexivity. assert (E2 : (b2 52 == 4503599627370496)%Q) by reflexivity. rewrite E2. rewrite E1 in HT2. lra. }
    destruct HA as (HA1 & HA2 & HA3).
    destruct (IH (f32_add acc (h_weight c)) (Sp + sfQ (h_weight c))%Q T (k + 1)) as (s & Es & Ns & Hs); try assumption; try lia.
    + intros x Hx. apply Hw. now right.
    + rewrite <- HT. ring.
    + lra.
    + assert (D : (inject_Z (k + 1) * (b2 (-23) * T) == inject_Z k * (b2 (-23) * T) + b2 (-23) * T)%Q) by (rewrite inject_Z_plus; change (inject_Z 1) with 1%Q; ring). rewrite D.
      set (K := (inject_Z k * (b2 (-23) * T))%Q) in *. clearbody K.
      assert (E1 : (b2 (-23) == 1 # 8388608)%Q) by reflexivity. assert (E2 : (b2 (-24) == 1 # 16777216)%Q) by reflexivity. rewrite E1. rewrite E2 in HA3.
      set (r := sfQ (f32_add acc (h_weight c))) in *. clearbody r. apply Qabs_intro; lra.
    + exists s. split; [exact Es|]. split; [exact Ns|]. replace (k + Z.of_nat (S (length chs))) with (k + 1 + Z.of_nat (length chs)) by lia. exact Hs.
Qed.

Lemma SFabs_round s m e : SFabs (binary_round 24 128 s m e) = binary_round 24 128 false m e.
Proof.
  unfold binary_round. destruct (shl_align m e _) as [mz ez]. unfold binary_round_aux.
  destruct (shr_fexp 24 128 (Zpos mz) ez loc_Exact) as [mrs' e']. destruct (shr_fexp 24 128 _ e' loc_Exact) as [mrs'' e''].
  destruct (shr_m mrs''); [reflexivity| |reflexivity]. destruct (e'' <=? 128 - 24); reflexivity.
Qed.

Lemma sub_abs_op x y N : fnn x -> fnn y -> (Qabs (sfQ x - sfQ y) < b2 N)%Q -> N <= 126 ->
  fop (Qabs (sfQ x - sfQ y)) N (f32_abs (f32_sub x y)).
Proof.
  intros Hx Hy HX HN. pose proof (nn_ge0 24 128 _ Hx) as X0. pose proof (nn_ge0 24 128 _ Hy) as Y0. pose proof Hx as Hx'. pose proof Hy as Hy'.
  destruct x as [sx|sx| |sx mx ex], Hx as [Vx Sx]; try contradiction; destruct y as [sy|sy| |sy my ey], Hy as [Vy Sy]; try contradiction; subst; unfold f32_sub, f32_abs.
  - cbn [SFsub Bool.eqb negb SFabs]. eapply op_ok_eq; [|apply op_ok_0]; try lia. reflexivity.
  - cbn [SFsub SFabs negb]. assert (E : (sfQ (S754_finite false my ey) == Qabs (sfQ (S754_zero false) - sfQ (S754_finite false my ey)))%Q).
    { cbn [sfQ] in *. setoid_replace (0 - inject_Z (Zpos my) * b2 ey)%Q with (- (inject_Z (Zpos my) * b2 ey))%Q by ring. rewrite Qabs_opp, Qabs_pos by exact Y0. reflexivity. }
    eapply op_ok_eq; [exact E|]. apply nn_op; try assumption; try lia; rewrite E; exact HX.
  - cbn [SFsub SFabs]. assert (E : (sfQ (S754_finite false mx ex) == Qabs (sfQ (S754_finite false mx ex) - sfQ (S754_zero false)))%Q).
    { cbn [sfQ] in *. setoid_replace (inject_Z (Zpos mx) * b2 ex - 0)%Q with (inject_Z (Zpos mx) * b2 ex)%Q by ring. rewrite Qabs_pos by exact X0. reflexivity. }
    eapply op_ok_eq; [exact E|]. apply nn_op; try assumption; try lia; rewrite E; exact HX.
  - cbn [SFsub cond_Zopp]. cbv zeta. set (ez := Z.min ex ey).
    pose proof (shl_align_ok mx ex ez) as Hx. pose proof (shl_align_ok my ey ez) as Hy. cbv zeta in Hx, Hy.
    destruct Hx as (X1 & _ & X3 & _). destruct Hy as (Y1 & _ & Y3 & _). rewrite X3 in X1 by lia. rewrite Y3 in Y1 by lia.
    set (p := fst (shl_align mx ex ez)) in *. set (q := fst (shl_align my ey ez)) in *. clearbody p q. cbn [sfQ] in *.
    assert (D : (inject_Z (Zpos mx) * b2 ex - inject_Z (Zpos my) * b2 ey == inject_Z (Zpos p - Zpos q) * b2 ez)%Q).
    { rewrite <- X1, <- Y1. unfold Z.sub. rewrite inject_Z_plus, inject_Z_opp. ring. }
    rewrite D in HX. eapply op_ok_eq; [rewrite D; reflexivity|].
    destruct (Zpos p - Zpos q) as [|d|d] eqn:Ed; cbn [binary_normalize].
    + cbn [SFabs]. eapply op_ok_eq; [|apply op_ok_0]; try lia. rewrite Qmult_0_l. reflexivity.
    + rewrite SFabs_round.
      assert (G : (Qabs (inject_Z (Zpos d) * b2 ez) == inject_Z (Zpos d) * b2 ez)%Q) by (apply Qabs_pos, Qmult_le_0_compat; [discriminate|apply Qlt_le_weak, b2_pos]).
      eapply op_ok_eq; [symmetry; exact G|]. rewrite G in HX. apply round_op; try lia; [reflexivity|exact HX].
    + rewrite SFabs_round.
      assert (G : (Qabs (inject_Z (Zneg d) * b2 ez) == inject_Z (Zpos d) * b2 ez)%Q).
      { setoid_replace (inject_Z (Zneg d) * b2 ez)%Q with (- (inject_Z (Zpos d) * b2 ez))%Q by (change (inject_Z (Zneg d)) with (- inject_Z (Zpos d))%Q; ring).
        rewrite Qabs_opp. apply Qabs_pos, Qmult_le_0_compat; [discriminate|apply Qlt_le_weak, b2_pos]. }
      eapply op_ok_eq; [symmetry; exact G|]. rewrite G in HX. apply round_op; try lia; [reflexivity|exact HX].
Qed.

(** the mean as computed *)
Lemma calc_weight_ok chs : chs <> [] -> weights_ok chs ->
  exists m, fnn m /\ (mean_weight chs - mean_weight chs * b2 (-12) <= sfQ m <= mean_weight chs + mean_weight chs * b2 (-12))%Q /\
    (calc_weight chs = Some m \/
     calc_weight chs = None /\ forall ch, In ch chs -> (Qabs (sfQ m - sfQ (h_weight ch)) < b2 (-22))%Q).
Proof.
  intros Hne (Hn & Hw & Hm). set (n := Z.of_nat (length chs)) in *.
  assert (Hn0 : 0 < n) by (destruct chs; [congruence|subst n; cbn [length]; lia]).
  set (T := Qsum (map (fun ch => sfQ (h_weight ch)) chs)). set (mu := mean_weight chs) in *.
  assert (Pn : (1 <= inject_Z n)%Q) by (change 1%Q with (inject_Z 1); apply injZ_le; lia).
  assert (Pn2 : (inject_Z n <= 1024)%Q) by (change 1024%Q with (inject_Z 1024); apply injZ_le; lia).
  assert (ET : (T == mu * inject_Z n)%Q) by (unfold mu, mean_weight; fold T; fold n; field; intros E; rewrite E in Pn; apply Pn; reflexivity).
  assert (T50 : (T <= b2 50)%Q).
  { eapply Qle_trans; [apply Qsum_le; exact Hw|]. fold n. change 50 with (10 + 40). rewrite b2_plus. apply Qmult_le_compat_r; [exact Pn2|apply Qlt_le_weak, b2_pos]. }
  assert (Mu0 : (0 < mu)%Q) by (eapply Qlt_le_trans; [apply (b2_pos (-10))|exact Hm]).
  destruct (weight_sum_ok chs (f32_of_Z 0) 0 T 0 Hw) as (s & Es & Ns & Hs); try lia; try assumption.
  { apply f32_of_Z_ok. lia. } { left. reflexivity. } { unfold T. ring. } { lra. }
  { setoid_replace (sfQ (f32_of_Z 0) - 0)%Q with 0%Q by reflexivity. rewrite Qmult_0_l. discriminate. }
  fold n in Hs. rewrite Z.add_0_l in Hs. unfold calc_weight. rewrite Es. fold n.
  assert (Hs' : (T - T * b2 (-13) <= sfQ s <= T + T * b2 (-13))%Q).
  { assert (T0 : (0 <= T)%Q) by (unfold T; now apply Qsum_nonneg).
    assert (inject_Z n * (b2 (-23) * T) <= T * b2 (-13))%Q.
    { apply Qle_trans with (1024 * (b2 (-23) * T))%Q; [apply Qmult_le_compat_r; [exact Pn2|apply Qmult_le_0_compat; [apply Qlt_le_weak, b2_pos|exact T0]]|].
      change (-13) with (10 + -23). rewrite b2_plus. change (b2 10) with 1024%Q. lra. }
    apply Qabs_bounds in Hs. lra. }
  clear Hs. set (q := (sfQ s / inject_Z n)%Q).
  assert (Eq : (sfQ s == q * inject_Z n)%Q) by (unfold q; field; intros E; rewrite E in Pn; apply Pn; reflexivity).
  assert (Hq : (mu - mu * b2 (-13) <= q <= mu + mu * b2 (-13))%Q).
  { rewrite Eq, ET in Hs'. destruct Hs' as [S1 S2]. split.
    - apply Qmult_le_r with (inject_Z n); [lra|]. lra.
    - apply Qmult_le_r with (inject_Z n); [lra|]. lra. }
  assert (E13 : (b2 (-13) == 1 # 8192)%Q) by reflexivity. assert (E12 : (b2 (-12) == 1 # 4096)%Q) by reflexivity. assert (E24 : (b2 (-24) == 1 # 16777216)%Q) by reflexivity.
  assert (E10 : (b2 (-10) == 1 # 1024)%Q) by reflexivity. assert (E11 : (b2 (-11) == 1 # 2048)%Q) by reflexivity. assert (E52 : (b2 52 == 4503599627370496)%Q) by reflexivity. assert (E50 : (b2 50 == 1125899906842624)%Q) by reflexivity.
  assert (Fs : SFleb (f32_abs s) f_eps = false).
  { replace (f32_abs s) with s by (destruct Ns as [_ Ss]; destruct s; try contradiction; subst; reflexivity).
    assert (Ne : fnn f_eps) by (split; vm_compute; reflexivity). destruct (SFleb s f_eps) eqn:E; [|reflexivity]. exfalso.
    rewrite (nn_leb 24 128) in E by (assumption || lia). apply Qle_bool_iff in E.
    assert (Ee : (sfQ f_eps == 1 # 8388608)%Q) by (vm_compute; reflexivity). rewrite Ee in E. rewrite E13 in *. rewrite E10 in Hm.
    assert (mu <= T)%Q by (rewrite ET; apply Qle_trans with (mu * 1)%Q; [lra|apply Qmult_le_l; assumption]). lra. }
  rewrite Fs. cbv zeta. destruct (f32_of_Z_ok n ltac:(lia)) as [Nn Qn].
  assert (Eq2 : (sfQ s / sfQ (f32_of_Z n) == q)%Q) by (unfold q; rewrite Qn; reflexivity).
  destruct (div_rel s (f32_of_Z n) (-11) 52 Ns Nn) as (Nm & Hm1 & _); [rewrite Qn; lra| |lia|lia|].
  { rewrite Eq2, E11, E52. rewrite E13 in Hq. rewrite E10 in Hm.
    assert (mu <= 1125899906842624)%Q. { rewrite ET, E50 in T50. apply Qle_trans with (mu * inject_Z n)%Q; [|exact T50]. apply Qle_trans with (mu * 1)%Q; [lra|apply Qmult_le_l; assumption]. }
    split; lra. }
  cbv zeta in Hm1. rewrite Eq2 in Hm1. set (m := f32_div s (f32_of_Z n)) in *. exists m. split; [exact Nm|].
  assert (Hm2 : (mu - mu * b2 (-12) <= sfQ m <= mu + mu * b2 (-12))%Q) by (rewrite E12; rewrite E13 in Hq; rewrite E24 in Hm1; lra).
  split; [exact Hm2|].
  destruct (existsb _ chs) eqn:Ex; [left; reflexivity|right]. split; [reflexivity|]. intros ch Hi.
  assert (Ex1 : SFltb f_eps (f32_abs (f32_sub m (h_weight ch))) = false).
  { destruct (SFltb f_eps (f32_abs (f32_sub m (h_weight ch)))) eqn:E; [|reflexivity]. exfalso.
    enough (existsb (fun ch0 => SFltb f_eps (f32_abs (f32_sub m (h_weight ch0)))) chs = true) by congruence. apply existsb_exists. eauto. }
  destruct (Qlt_le_dec (Qabs (sfQ m - sfQ (h_weight ch))) (b2 (-22))) as [?|G]; [assumption|]. exfalso.
  destruct (Hw ch Hi) as [Nw Ww].
  assert (Wb : (sfQ (h_weight ch) <= b2 40)%Q) by (destruct Ww as [E|[_ E]]; [rewrite E; apply Qlt_le_weak, b2_pos|exact E]).
  pose proof (nn_ge0 24 128 _ Nw) as W0. pose proof (nn_ge0 24 128 _ Nm) as M0.
  assert (HX : (Qabs (sfQ m - sfQ (h_weight ch)) < b2 52)%Q).
  { rewrite E12 in Hm2. assert (mu <= 1125899906842624)%Q. { rewrite ET, E50 in T50. apply Qle_trans with (mu * inject_Z n)%Q; [|exact T50]. apply Qle_trans with (mu * 1)%Q; [lra|apply Qmult_le_l; assumption]. }
    assert (E40 : (b2 40 == 1099511627776)%Q) by reflexivity. rewrite E40 in Wb. rewrite E52. apply Qabs_Qlt_condition. split; lra. }
  destruct (rel_err (Qabs (sfQ m - sfQ (h_weight ch))) (f32_abs (f32_sub m (h_weight ch))) (-22) 52) as (Na & _ & L); [|split; assumption|lia|lia|].
  { intros N HN HN2. now apply sub_abs_op. }
  assert (Ne : fnn f_eps) by (split; vm_compute; reflexivity).
  assert (SFltb f_eps (f32_abs (f32_sub m (h_weight ch))) = true); [|congruence].
  apply (nn_ltb 24 128); try assumption; try lia. assert (Ee : (sfQ f_eps == 1 # 8388608)%Q) by (vm_compute; reflexivity). rewrite Ee.
  assert (E22 : (b2 (-22) == 1 # 4194304)%Q) by reflexivity. rewrite E22 in L. lra.
Qed.

Lemma weigh_none_weighted w m mu v : (b2 (-10) <= mu)%Q -> (mu - mu * b2 (-12) <= m <= mu + mu * b2 (-12))%Q -> (0 <= w)%Q -> (Qabs (m - w) < b2 (-22))%Q -> 0 <= v <= 255 -> weighted w mu v v.
Proof.
  intros Hmu Hm Hw Hd Hv. split; [lia|]. apply Qabs_Qlt_condition in Hd.
  assert (E12 : (b2 (-12) == 1 # 4096)%Q) by reflexivity. assert (E10 : (b2 (-10) == 1 # 1024)%Q) by reflexivity. assert (E22 : (b2 (-22) == 1 # 4194304)%Q) by reflexivity.
  rewrite E12 in Hm. rewrite E22 in Hd. rewrite E10 in *. assert (P : (0 < mu)%Q) by lra.
  set (a := (w / mu)%Q). assert (Ea : (w == a * mu)%Q) by (unfold a; field; intros E; rewrite E in P; discriminate P).
  assert (A1 : (1 - (1 # 2048) <= a)%Q) by (apply Qmult_le_r with mu; [exact P|]; rewrite <- Ea; lra).
  assert (A2 : (a <= 1 + (1 # 2048))%Q) by (apply Qmult_le_r with mu; [exact P|]; rewrite <- Ea; lra).
  clearbody a. clear Ea. assert (V0 : (0 <= inject_Z v)%Q) by (change 0%Q with (inject_Z 0); apply injZ_le; lia). assert (V1 : (inject_Z v <= 255)%Q) by (change 255%Q with (inject_Z 255); apply injZ_le; lia).
  set (V := inject_Z v) in *. clearbody V.
  assert (P1 : (V * (1 - (1 # 2048)) <= V * a)%Q) by (rewrite !(Qmult_comm V); apply Qmult_le_compat_r; assumption).
  assert (P2 : (V * a <= V * (1 + (1 # 2048)))%Q) by (rewrite !(Qmult_comm V); apply Qmult_le_compat_r; assumption).
  set (Va := (V * a)%Q) in *. clearbody Va. apply Qabs_intro; lra.
Qed.

Lemma weigh_some_ok w m mu n v : fnn m -> weight_ok w -> (b2 (-10) <= mu <= b2 40)%Q -> (mu - mu * b2 (-12) <= sfQ m <= mu + mu * b2 (-12))%Q ->
  0 < n <= 1024 -> (sfQ w <= inject_Z n * mu)%Q -> 0 <= v <= 255 ->
  exists k, weigh (Some (f32_div w m)) v = Ok k /\ 0 <= k <= INT_MAX - 255 /\ weighted (sfQ w) mu v k.
Proof.
  intros Nm [Nw Ww] [Hmu Hmu2] Hm Hn Hwn Hv. cbn [weigh]. unfold to_int.
  assert (E12 : (b2 (-12) == 1 # 4096)%Q) by reflexivity. assert (E10 : (b2 (-10) == 1 # 1024)%Q) by reflexivity. assert (E24 : (b2 (-24) == 1 # 16777216)%Q) by reflexivity.
  assert (E40 : (b2 40 == 1099511627776)%Q) by reflexivity.
  rewrite E12 in Hm. assert (P : (0 < mu)%Q) by (rewrite E10 in Hmu; lra). assert (Pm : (0 < sfQ m)%Q) by lra. pose proof (nn_ge0 24 128 _ Nw) as W0.
  destruct (f32_of_Z_ok v ltac:(lia)) as [Nv Qv].
  assert (Zero : forall X, (X == 0)%Q -> exists k, f32_cast INT_MIN INT_MAX (f32_add (S754_zero false) f_half) = Ok k /\ 0 <= k <= INT_MAX - 255 /\ 0 <= k /\ (Qabs (inject_Z k - X) <= (5 # 8) + X * b2 (-10))%Q).
  { intros X EX. exists 0. split; [vm_compute; reflexivity|]. split; [split; vm_compute; discriminate|]. split; [vm_compute; discriminate|]. rewrite EX. vm_compute. discriminate. }
  destruct Ww as [Ew|[Ew1 Ew2]].
  - rewrite (fnn_zero _ Nw Ew). assert (Ed : f32_div (S754_zero false) m = S754_zero false).
    { destruct Nm as [_ Sm]. destruct m; try contradiction; subst; [discriminate Pm|reflexivity]. }
    rewrite Ed. assert (Em : f32_mul (f32_of_Z v) (S754_zero false) = S754_zero false).
    { destruct Nv as [_ Sv]. destruct (f32_of_Z v); try contradiction; subst; reflexivity. }
    rewrite Em. apply Zero. cbn [sfQ]. unfold Qdiv. ring.
  - destruct (Z.eq_dec v 0) as [->|Hv0].
    + assert (Em : forall r, fnn r -> f32_mul (f32_of_Z 0) r = S754_zero false) by (intros r [_ Sr]; destruct r; try contradiction; subst; reflexivity).
      destruct (div_rel w m (-90) 60 Nw Nm Pm) as (Nr & _); [|lia|lia|].
      * split; [apply Qle_shift_div_l; [exact Pm|]|apply Qlt_shift_div_r; [exact Pm|]].
        -- apply Qle_trans with (b2 (-40)); [|exact Ew1]. apply Qle_trans with (b2 (-90) * b2 50)%Q; [|rewrite <- b2_plus; apply Qle_refl].
           rewrite !(Qmult_comm (b2 (-90))). apply Qmult_le_compat_r; [|apply Qlt_le_weak, b2_pos]. assert (E50 : (b2 50 == 1125899906842624)%Q) by reflexivity. rewrite E50. rewrite E40 in Hmu2. lra.
        -- apply Qle_lt_trans with (b2 40); [exact Ew2|]. apply Qlt_le_trans with (b2 60 * b2 (-11))%Q; [rewrite <- b2_plus; reflexivity|].
           rewrite !(Qmult_comm (b2 60)). apply Qmult_le_compat_r; [|apply Qlt_le_weak, b2_pos]. assert (E11 : (b2 (-11) == 1 # 2048)%Q) by reflexivity. rewrite E11. rewrite E10 in Hmu. lra.
      * rewrite (Em _ Nr). apply Zero. change (inject_Z 0) with 0%Q. ring.
    + set (b := (sfQ w / sfQ m)%Q). set (a := (sfQ w / mu)%Q).
      assert (Eb : (sfQ w == b * sfQ m)%Q) by (unfold b; field; intros E; rewrite E in Pm; discriminate Pm).
      assert (Ea : (sfQ w == a * mu)%Q) by (unfold a; field; intros E; rewrite E in P; discriminate P).
      assert (Nn : (0 < inject_Z n)%Q) by (change 0%Q with (inject_Z 0); apply injZ_lt; lia). assert (Nn2 : (inject_Z n <= 1024)%Q) by (change 1024%Q with (inject_Z 1024); apply injZ_le; lia).
      assert (A0 : (0 < a)%Q). { unfold a. apply Qlt_shift_div_l; [exact P|]. rewrite Qmult_0_l. eapply Qlt_le_trans; [apply (b2_pos (-40))|exact Ew1]. }
      assert (B0 : (0 < b)%Q). { unfold b. apply Qlt_shift_div_l; [exact Pm|]. rewrite Qmult_0_l. eapply Qlt_le_trans; [apply (b2_pos (-40))|exact Ew1]. }
      assert (A1 : (a <= inject_Z n)%Q) by (apply Qmult_le_r with mu; [exact P|]; rewrite <- Ea; exact Hwn).
      assert (BA : (b * (1 - (1 # 4096)) <= a <= b * (1 + (1 # 4096)))%Q).
      { split; (apply Qmult_le_r with mu; [exact P|]); rewrite <- Ea, Eb, <- Qmult_assoc; (apply Qmult_le_l; [exact B0|]); lra. }
      assert (Bl : (b2 (-90) <= b)%Q).
      { unfold b. apply Qle_shift_div_l; [exact Pm|]. apply Qle_trans with (b2 (-40)); [|exact Ew1]. apply Qle_trans with (b2 (-90) * b2 50)%Q; [|rewrite <- b2_plus; apply Qle_refl].
        rewrite !(Qmult_comm (b2 (-90))). apply Qmult_le_compat_r; [|apply Qlt_le_weak, b2_pos]. assert (E50 : (b2 50 == 1125899906842624)%Q) by reflexivity. rewrite E50. rewrite E40 in Hmu2. lra. }
      assert (Bu : (b < 2048)%Q) by lra.
      destruct (div_rel w m (-90) 11 Nw Nm Pm) as (Nr & Hr & Rl); [split; [exact Bl|exact Bu]|lia|lia|]. cbv zeta in Hr. fold b in Hr. rewrite E24 in Hr.
      set (r := f32_div w m) in *.
      assert (V1 : (1 <= inject_Z v)%Q) by (change 1%Q with (inject_Z 1); apply injZ_le; lia). assert (V2 : (inject_Z v <= 255)%Q) by (change 255%Q with (inject_Z 255); apply injZ_le; lia).
      assert (Ep : (sfQ (f32_of_Z v) * sfQ r == inject_Z v * sfQ r)%Q) by (rewrite Qv; reflexivity).
      assert (R0 : (0 < sfQ r)%Q) by (eapply Qlt_le_trans; [apply (b2_pos (-90))|exact Rl]).
      assert (VR1 : (1 * sfQ r <= inject_Z v * sfQ r)%Q) by (apply Qmult_le_compat_r; lra).
      assert (VR2 : (inject_Z v * sfQ r <= 255 * sfQ r)%Q) by (apply Qmult_le_compat_r; lra).
      destruct (mul_rel (f32_of_Z v) r (-90) 20 Nv Nr) as (Np & Hp & _); [|lia|lia|].
      { rewrite Ep. split; [lra|]. assert (E20 : (b2 20 == 1048576)%Q) by reflexivity. rewrite E20. lra. }
      cbv zeta in Hp. rewrite Ep, E24 in Hp. set (p := f32_mul (f32_of_Z v) r) in *. destruct f_half_ok as [Nh Qh].
      assert (P0 : (0 <= sfQ p)%Q) by (apply (nn_ge0 24 128); exact Np).
      destruct (add_rel p f_half (-1) 21 Np Nh) as (Nt & Ht & _); [|lia|lia|].
      { rewrite Qh. assert (E20 : (b2 21 == 2097152)%Q) by reflexivity. assert (E1 : (b2 (-1) == 1 # 2)%Q) by reflexivity. rewrite E20, E1. split; lra. }
      cbv zeta in Ht. rewrite Qh, E24 in Ht. set (t := f32_add p f_half) in *.
      assert (T0 : (sfQ t < 1048576)%Q) by lra.
      destruct (f32_cast_nn INT_MIN INT_MAX t Nt) as (k & Ek & Hk & K1 & K2); [vm_compute; discriminate| |].
      { eapply Qlt_le_trans; [exact T0|]. vm_compute. discriminate. }
      exists k. split; [exact Ek|]. split; [split; [lia|]|].
      { assert (k < 1048576); [|unfold INT_MAX; lia]. apply injZ_lt. change (inject_Z 1048576) with 1048576%Q. lra. }
      split; [lia|]. fold a. rewrite E10. rewrite inject_Z_plus in K2. change (inject_Z 1) with 1%Q in K2.
      assert (VB1 : (inject_Z v * (b * (1 - (1 # 4096))) <= inject_Z v * a)%Q) by (apply Qmult_le_l; lra).
      assert (VB2 : (inject_Z v * a <= inject_Z v * (b * (1 + (1 # 4096))))%Q) by (apply Qmult_le_l; lra).
      assert (VB3 : (inject_Z v * (b - b * (1 # 16777216)) <= inject_Z v * sfQ r)%Q) by (apply Qmult_le_l; lra).
      assert (VB4 : (inject_Z v * sfQ r <= inject_Z v * (b + b * (1 # 16777216)))%Q) by (apply Qmult_le_l; lra).
      assert (VA0 : (0 <= inject_Z v * a)%Q) by (apply Qmult_le_0_compat; lra).
      assert (Z1 : (inject_Z v * (b * (1 - (1 # 4096))) == (inject_Z v * b) * (4095 # 4096))%Q) by ring.
      assert (Z2 : (inject_Z v * (b * (1 + (1 # 4096))) == (inject_Z v * b) * (4097 # 4096))%Q) by ring.
      assert (Z3 : (inject_Z v * (b - b * (1 # 16777216)) == (inject_Z v * b) * (16777215 # 16777216))%Q) by ring.
      assert (Z4 : (inject_Z v * (b + b * (1 # 16777216)) == (inject_Z v * b) * (16777217 # 16777216))%Q) by ring.
      rewrite Z1 in VB1. rewrite Z2 in VB2. rewrite Z3 in VB3. rewrite Z4 in VB4.
      set (vb := (inject_Z v * b)%Q) in *. set (va := (inject_Z v * a)%Q) in *. set (vr := (inject_Z v * sfQ r)%Q) in *. clearbody vb va vr.
      apply Qabs_intro; lra.
Qed.

Definition wfun (chs : list chan) (ch : chan) (v : Z) : Z := match weigh (weight_of (calc_weight chs) ch) v with Ok k => k | _ => 0 end.

Lemma mean_le chs : chs <> [] -> (forall ch, In ch chs -> weight_ok (h_weight ch)) -> (mean_weight chs <= b2 40)%Q.
Proof.
  intros Hne H. unfold mean_weight. assert (0 < Z.of_nat (length chs)) by (destruct chs; [congruence|cbn [length]; lia]).
  apply Qle_shift_div_r; [change 0%Q with (inject_Z 0); apply injZ_lt; assumption|]. rewrite Qmult_comm. now apply Qsum_le.
Qed.
Lemma weight_le_mean chs ch : chs <> [] -> (forall ch, In ch chs -> weight_ok (h_weight ch)) -> In ch chs ->
  (sfQ (h_weight ch) <= inject_Z (Z.of_nat (length chs)) * mean_weight chs)%Q.
Proof.
  intros Hne H Hi. assert (N : 0 < Z.of_nat (length chs)) by (destruct chs; [congruence|cbn [length]; lia]).
  unfold mean_weight. rewrite Qmult_div_r; [now apply Qsum_ge|].
  intros E. change 0%Q with (inject_Z 0) in E. apply (proj1 (inject_Z_injective _ 0)) in E. lia.
Qed.

Lemma wfun_ok chs ch : chs <> [] -> weights_ok chs -> In ch chs ->
  weigh_ok (weight_of (calc_weight chs) ch) (wfun chs ch) /\
  forall v, 0 <= v <= 255 -> weighted (sfQ (h_weight ch)) (mean_weight chs) v (wfun chs ch v).
Proof.
  intros Hne HW Hi. destruct (calc_weight_ok chs Hne HW) as (m & Nm & Hm & Hc). pose proof HW as (Hn & Hw & Hmu).
  assert (G : forall v, 0 <= v <= 255 -> exists k, weigh (weight_of (calc_weight chs) ch) v = Ok k /\ 0 <= k <= INT_MAX - 255 /\ weighted (sfQ (h_weight ch)) (mean_weight chs) v k).
  { intros v Hv. destruct Hc as [->|[-> Hd]]; cbn [weight_of].
    - apply (weigh_some_ok _ m _ (Z.of_nat (length chs))); try assumption; [now apply Hw|split; [exact Hmu|now apply mean_le]| |now apply weight_le_mean].
      destruct chs; [congruence|cbn [length] in *; lia].
    - exists v. split; [reflexivity|]. split; [unfold INT_MAX; lia|].
      apply (weigh_none_weighted _ (sfQ m)); try assumption; [|now apply Hd]. apply (nn_ge0 24 128). now apply Hw. }
  split.
  - intros v Hv. destruct (G v Hv) as (k & E & B & _). unfold wfun. rewrite E. split; [reflexivity|exact B].
  - intros v Hv. destruct (G v Hv) as (k & E & _ & B). unfold wfun. rewrite E. exact B.
Qed.

Lemma wmap_id c : wmap (fun v => v) c = c.
Proof. destruct c as [[? ?] ?]. reflexivity. Qed.

Lemma compose_unweighted : exists contrib : chan -> Z -> Z -> bgr,
  (forall dst ch x y, chan_ok dst ch -> 0 <= x < bw dst -> 0 <= y < bh dst -> byte_color (contrib ch x y) /\ contribution ch (pix (h_src ch) x y) (contrib ch x y)) /\
  forall dst dst_px alpha chs, compose_args dst dst_px alpha chs -> unweighted chs ->
    exists d', compose_multi dst dst_px alpha chs = Ok d' /\
      pix_post dst d' (fun x y => Some (saturated alpha (total (map (fun ch => contrib ch x y) chs)))).
Proof.
  exists ct. split.
  - intros dst ch x y Hc Hx Hy. destruct (channel_getter_ok dst ch Hc) as (get & Eg & _). now destruct (ct_ok dst ch get x y Hc Eg Hx Hy) as (_ & B & C).
  - intros dst dst_px alpha chs Ha Hu. pose proof (unweighted_none chs (proj1 (proj2 Ha)) Hu) as E.
    destruct (compose_multi_ok dst dst_px alpha chs (fun _ v => v) Ha) as (d' & Ed & P).
    + intros ch Hi v Hv. rewrite E. cbn [weight_of weigh]. split; [reflexivity|unfold INT_MAX; lia].
    + exists d'. split; [exact Ed|]. destruct P as (P1 & P2 & P3). split; [exact P1|]. split; [|exact P3].
      intros x y Hx Hy. rewrite (P2 x y Hx Hy). unfold cts. f_equal. f_equal. apply map_ext. intros c. apply wmap_id.
Qed.

Lemma total_perm l l' : Permutation l l' -> total l = total l'.
Proof.
  induction 1 as [|c l l' _ IH|c d l|l l' l'' _ IH1 _ IH2]; [reflexivity| | |congruence].
  - change (add3 c (total l) = add3 c (total l')). now rewrite IH.
  - change (add3 d (add3 c (total l)) = add3 c (add3 d (total l))). rewrite !add3_assoc. f_equal. destruct c as [[? ?] ?], d as [[? ?] ?]. cbn [add3]. f_equal; [f_equal|]; lia.
Qed.
Lemma unweighted_perm chs chs' : Permutation chs chs' -> unweighted chs -> unweighted chs'.
Proof.
  intros P [(ch & H1 & H2)|[H|[Hn H]]].
  - left. exists ch. split; [now apply (Permutation_in _ P)|exact H2].
  - right; left. intros ch Hc. apply H. apply Permutation_sym in P. now apply (Permutation_in _ P).
  - right; right. rewrite <- (Permutation_length P). split; [exact Hn|]. intros ch Hc. apply H. apply Permutation_sym in P. now apply (Permutation_in _ P).
Qed.
Lemma compose_args_perm dst dst_px alpha chs chs' : Permutation chs chs' -> compose_args dst dst_px alpha chs -> compose_args dst dst_px alpha chs'.
Proof.
  intros P (H1 & H2 & H3 & H4). split; [exact H1|]. split; [intros ->; apply H2; now apply Permutation_nil, Permutation_sym|]. split; [|exact H4].
  intros ch Hc. apply H3. apply Permutation_sym in P. now apply (Permutation_in _ P).
Qed.

Lemma compose_order : forall dst dst_px alpha chs chs', compose_args dst dst_px alpha chs -> unweighted chs -> Permutation chs chs' ->
  exists d d', compose_multi dst dst_px alpha chs = Ok d /\ compose_multi dst dst_px alpha chs' = Ok d' /\
    forall x y, 0 <= x < bw dst -> 0 <= y < bh dst -> pix d x y = pix d' x y.
Proof.
  intros dst dst_px alpha chs chs' Ha Hu P. destruct compose_unweighted as (contrib & _ & H).
  destruct (H dst dst_px alpha chs Ha Hu) as (d & Ed & _ & P1 & _).
  destruct (H dst dst_px alpha chs' (compose_args_perm _ _ _ _ _ P Ha) (unweighted_perm _ _ P Hu)) as (d' & Ed' & _ & P2 & _).
  exists d, d'. split; [exact Ed|]. split; [exact Ed'|]. intros x y Hx Hy. rewrite (P1 x y Hx Hy), (P2 x y Hx Hy). f_equal.
  apply total_perm. now apply Permutation_map.
Qed.

Lemma compose_weighted : forall dst dst_px alpha chs, compose_args dst dst_px alpha chs -> weights_ok chs ->
  exists d' (contrib stored : chan -> Z -> Z -> bgr), compose_multi dst dst_px alpha chs = Ok d' /\
    pix_post dst d' (fun x y => Some (saturated alpha (total (map (fun ch => stored ch x y) chs)))) /\
    forall ch x y, In ch chs -> 0 <= x < bw dst -> 0 <= y < bh dst ->
      contribution ch (pix (h_src ch) x y) (contrib ch x y) /\
      map3 (weighted (sfQ (h_weight ch)) (mean_weight chs)) (contrib ch x y) (stored ch x y).
Proof.
  intros dst dst_px alpha chs Ha HW. assert (Hne : chs <> []) by apply Ha.
  destruct (compose_multi_ok dst dst_px alpha chs (wfun chs) Ha) as (d' & Ed & P); [intros ch Hi; now apply wfun_ok|].
  exists d', ct, (fun ch x y => wmap (wfun chs ch) (ct ch x y)). split; [exact Ed|]. split; [exact P|].
  intros ch x y Hi Hx Hy. assert (Hc : chan_ok dst ch) by (now apply Ha). destruct (channel_getter_ok dst ch Hc) as (get & Eg & _).
  destruct (ct_ok dst ch get x y Hc Eg Hx Hy) as (_ & B & C). split; [exact C|].
  destruct (wfun_ok chs ch Hne HW Hi) as [_ F]. destruct (ct ch x y) as [[b g] r]. destruct B as (B1 & B2 & B3). cbn [wmap map3].
  repeat split; apply F; assumption.
Qed.

Lemma weighted_same w mu c k : (w == mu)%Q -> (0 < mu)%Q -> 0 <= c <= 255 -> weighted w mu c k -> k = c.
Proof.
  intros E P Hc [_ H]. assert (R : (w / mu == 1)%Q) by (rewrite E; field; intros Z; rewrite Z in P; discriminate P). rewrite R in H.
  assert (E10 : (b2 (-10) == 1 # 1024)%Q) by reflexivity. rewrite E10 in H. apply Qabs_bounds in H.
  assert (C1 : (inject_Z c <= 255)%Q) by (change 255%Q with (inject_Z 255); apply injZ_le; lia).
  assert (k < c + 1) by (apply injZ_lt; rewrite inject_Z_plus; change (inject_Z 1) with 1%Q; lra).
  assert (c < k + 1) by (apply injZ_lt; rewrite inject_Z_plus; change (inject_Z 1) with 1%Q; lra). lia.
Qed.
Lemma mean_same chs w : chs <> [] -> (forall ch, In ch chs -> (sfQ (h_weight ch) == w)%Q) -> (mean_weight chs == w)%Q.
Proof.
  intros Hne H. assert (S : forall l, (forall ch, In ch l -> (sfQ (h_weight ch) == w)%Q) -> (Qsum (map (fun ch => sfQ (h_weight ch)) l) == inject_Z (Z.of_nat (length l)) * w)%Q).
  { induction l as [|c l IH]; intros Hl; cbn [map Qsum fold_right length]; [reflexivity|]. fold (Qsum (map (fun ch => sfQ (h_weight ch)) l)).
    rewrite (Hl c (or_introl eq_refl)), IH by (intros; apply Hl; now right). rewrite Nat2Z.inj_succ, <- Z.add_1_l, inject_Z_plus. change (inject_Z 1) with 1%Q. ring. }
  unfold mean_weight. rewrite S by exact H. field. intros E. change 0%Q with (inject_Z 0) in E. apply (proj1 (inject_Z_injective _ 0)) in E. destruct chs; [congruence|cbn [length] in E; lia].
Qed.

Lemma compose_equal_weights : forall dst dst_px alpha chs chs' w, compose_args dst dst_px alpha chs -> weights_ok chs ->
  (forall ch, In ch chs -> (sfQ (h_weight ch) == w)%Q) ->
  chs' = map (fun ch => mkChan (h_src ch) (h_px ch) (f32_of_Z 1) (h_tint ch) (h_black ch) (h_white ch) (h_lutn ch) (h_lutnull ch) (h_lut ch) (h_lutsize ch)) chs ->
  exists d d', compose_multi dst dst_px alpha chs = Ok d /\ compose_multi dst dst_px alpha chs' = Ok d' /\
    forall x y, 0 <= x < bw dst -> 0 <= y < bh dst -> pix d x y = pix d' x y.
Proof.
  intros dst dst_px alpha chs chs' w Ha HW Hs ->. set (f := fun ch => mkChan _ _ _ _ _ _ _ _ _ _). assert (Hne : chs <> []) by apply Ha.
  destruct (compose_multi_ok dst dst_px alpha chs (wfun chs) Ha) as (d & Ed & _ & P & _); [intros ch Hi; now apply wfun_ok|].
  assert (Ha' : compose_args dst dst_px alpha (map f chs)).
  { destruct Ha as (H1 & H2 & H3 & H4). split; [exact H1|]. split; [destruct chs; [congruence|discriminate]|]. split; [|exact H4].
    intros ch Hi. apply in_map_iff in Hi. destruct Hi as (c & <- & Hi). exact (H3 c Hi). }
  assert (Hu : unweighted (map f chs)).
  { right; right. rewrite map_length. destruct HW as (Hn & _). split; [lia|]. intros ch Hi. apply in_map_iff in Hi. now destruct Hi as (c & <- & Hi). }
  pose proof (unweighted_none (map f chs) (proj1 (proj2 Ha')) Hu) as E.
  destruct (compose_multi_ok dst dst_px alpha (map f chs) (fun _ v => v) Ha') as (d' & Ed' & _ & P' & _).
  { intros ch Hi v Hv. rewrite E. cbn [weight_of weigh]. split; [reflexivity|unfold INT_MAX; lia]. }
  exists d, d'. split; [exact Ed|]. split; [exact Ed'|]. intros x y Hx Hy. rewrite (P x y Hx Hy), (P' x y Hx Hy).
  f_equal. unfold cts. f_equal. rewrite map_map. apply map_ext_in. intros ch Hi. rewrite wmap_id.
  change (ct (f ch) x y) with (ct ch x y). assert (Hc : chan_ok dst ch) by (now apply Ha).
  destruct (channel_getter_ok dst ch Hc) as (get & Eg & _). destruct (ct_ok dst ch get x y Hc Eg Hx Hy) as (_ & B & _).
  destruct (wfun_ok chs ch Hne HW Hi) as [_ F]. destruct (ct ch x y) as [[b g] r]. destruct B as (B1 & B2 & B3). cbn [wmap].
  assert (Q : forall v, 0 <= v <= 255 -> wfun chs ch v = v).
  { intros v Hv. apply (weighted_same (sfQ (h_weight ch)) (mean_weight chs)); try assumption; [|eapply Qlt_le_trans; [apply (b2_pos (-10))|apply HW]|now apply F].
    rewrite (Hs ch Hi). symmetry. now apply mean_same. }
  rewrite !Q by assumption. reflexivity.
Qed.
