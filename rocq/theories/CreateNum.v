(** The positions of the tiles of a mosaic: numbers. *)
From Coq Require Import QArith Qabs Lqa Floats.SpecFloat.
From Verif Require Import Base RectModel CodesModel CoordModel PixelModel FloatProofs SFloatProofs FloatMono ScaleNum PixelProofs FillProofs LutModel LutSpec LutProofs LutToe
  CreateModel CreateSpec.
Open Scope Z_scope.

(** ** lrint *)
Lemma rne_near m d : 0 < d -> 2 * Z.abs (d * rne m d - m) <= d.
Proof.
  intros D. unfold rne. pose proof (Z.div_mod m d ltac:(lia)) as E. pose proof (Z.mod_pos_bound m d D) as B.
  set (q := m / d) in *. set (r := m mod d) in *. clearbody q r. subst m. clear -D B.
  destruct (2 * r <? d) eqn:H1; [nia|]. destruct (d <? 2 * r) eqn:H2; [nia|]. destruct (Z.even q); nia.
Qed.
Lemma lrint_near f : fnn f -> exists k, lrint f = Ok k /\ 0 <= k /\ (inject_Z k - (1 # 2) <= sfQ f)%Q /\ (sfQ f <= inject_Z k + (1 # 2))%Q.
Proof.
  intros [_ S]. destruct f as [s|s| |s m e]; try contradiction; cbn [lrint].
  - exists 0. split; [reflexivity|]. cbn [sfQ]. split; [lia|]. split; vm_compute; discriminate.
  - subst s. destruct (0 <=? e) eqn:H.
    + eexists. split; [reflexivity|]. cbn [sfQ]. rewrite inject_Z_mult, <- b2_Z by lia.
      split; [apply Z.mul_nonneg_nonneg; [lia|apply Z.pow_nonneg; lia]|]. split; lra.
    + eexists. split; [reflexivity|]. assert (D : 0 < 2 ^ (- e)) by (apply Z.pow_pos_nonneg; lia).
      pose proof (rne_near (Zpos m) (2 ^ (- e)) D) as N. cbn [sfQ].
      assert (K : 0 <= rne (Zpos m) (2 ^ (- e))).
      { unfold rne. pose proof (Z.div_pos (Zpos m) (2 ^ (- e)) ltac:(lia) D). repeat match goal with |- context [if ?b then _ else _] => destruct b end; lia. }
      set (k := rne (Zpos m) (2 ^ (- e))) in *. clearbody k.
      assert (A : (2 * (b2 (- e) * inject_Z k - inject_Z (Zpos m)) <= b2 (- e))%Q).
      { rewrite b2_Z by lia. change 2%Q with (inject_Z 2). rewrite <- inject_Z_mult.
        unfold Qminus. rewrite <- inject_Z_opp, <- inject_Z_plus, <- inject_Z_mult. apply injZ_le. lia. }
      assert (B : (2 * (inject_Z (Zpos m) - b2 (- e) * inject_Z k) <= b2 (- e))%Q).
      { rewrite b2_Z by lia. change 2%Q with (inject_Z 2). rewrite <- inject_Z_mult.
        unfold Qminus. rewrite <- inject_Z_opp, <- inject_Z_plus, <- inject_Z_mult. apply injZ_le. lia. }
      pose proof (b2_pos e) as P. pose proof (b2_mult_inv e) as I.
      assert (A' : (2 * (b2 (- e) * inject_Z k - inject_Z (Zpos m)) * b2 e <= b2 (- e) * b2 e)%Q) by (apply Qmult_le_compat_r; lra).
      assert (B' : (2 * (inject_Z (Zpos m) - b2 (- e) * inject_Z k) * b2 e <= b2 (- e) * b2 e)%Q) by (apply Qmult_le_compat_r; lra).
      assert (C : (2 * (b2 (- e) * inject_Z k - inject_Z (Zpos m)) * b2 e == 2 * ((b2 (- e) * b2 e) * inject_Z k - inject_Z (Zpos m) * b2 e))%Q) by ring.
      assert (C' : (2 * (inject_Z (Zpos m) - b2 (- e) * inject_Z k) * b2 e == 2 * (inject_Z (Zpos m) * b2 e - (b2 (- e) * b2 e) * inject_Z k))%Q) by ring.
      rewrite C, I in A'. rewrite C', I in B'. split; [exact K|]. split; lra.
Qed.
Lemma lrint_mono f g a b : fnn f -> fnn g -> (sfQ f <= sfQ g)%Q -> lrint f = Ok a -> lrint g = Ok b -> a <= b.
Proof.
  intros Nf Ng L A B. destruct (Z_le_gt_dec a b) as [H|H]; [exact H|exfalso].
  destruct (lrint_near f Nf) as (a' & A' & _ & F1 & F2). rewrite A' in A. injection A as <-.
  destruct (lrint_near g Ng) as (b' & B' & _ & G1 & G2). rewrite B' in B. injection B as <-.
  assert (M : (inject_Z (b' + 1) <= inject_Z a')%Q) by (apply injZ_le; lia). rewrite inject_Z_plus in M. change (inject_Z 1) with 1%Q in M.
  assert (E : (sfQ f == sfQ g)%Q) by lra. apply (FloatMono.nn_inj 24 128 f g Nf Ng) in E. subst g. rewrite A' in B'. injection B' as ->. lia.
Qed.

(** ** the overlap *)
Definition share (percent : option Z) : Z := match percent with None => 0 | Some p => p end.
Definition percent_ok (percent : option Z) : Prop := match percent with None => True | Some p => 1 <= p <= 100 end.

Lemma hundred : fnn (f32_of_Z 100) /\ (sfQ (f32_of_Z 100) == 100)%Q.
Proof. split; [split; reflexivity|reflexivity]. Qed.
Lemma overlap_ok percent : percent_ok percent -> fnn (overlap_of percent) /\ (sfQ (overlap_of percent) <= 1)%Q /\
  rel (sfQ (overlap_of percent)) (inject_Z (share percent) / 100) ee.
Proof.
  destruct percent as [p|]; cbn [percent_ok share overlap_of]; intros H.
  - destruct (sf_of_Z_exact 24 128 ltac:(lia) ltac:(lia) p ltac:(lia)) as [Np Qp]. change (sf_of_Z 24 128 p) with (f32_of_Z p) in *.
    destruct hundred as [Nh Qh].
    assert (L1 : (1 <= inject_Z p)%Q) by (change 1%Q with (inject_Z 1); apply injZ_le; lia).
    assert (L2 : (inject_Z p <= 100)%Q) by (change 100%Q with (inject_Z 100); apply injZ_le; lia).
    assert (E : (sfQ (f32_of_Z p) / sfQ (f32_of_Z 100) == inject_Z p / 100)%Q) by (rewrite Qp, Qh; reflexivity).
    assert (B1 : (1 # 100 <= inject_Z p / 100)%Q) by (apply Qle_shift_div_l; [reflexivity|]; lra).
    assert (B2 : (inject_Z p / 100 <= 1)%Q) by (apply Qle_shift_div_r; [reflexivity|]; lra).
    assert (O : op32 (inject_Z p / 100) 1 (f32_div (f32_of_Z p) (f32_of_Z 100))).
    { eapply op_ok_eq; [exact E|]. apply SFdiv_op; try assumption; try lia; rewrite ?E.
      - rewrite Qh. reflexivity.
      - apply Qle_trans with (1 # 100)%Q; [vm_compute; discriminate|exact B1].
      - apply Qle_lt_trans with 1%Q; [exact B2|reflexivity]. }
    split; [apply O|]. split.
    + destruct f_one_ok as [N1 Q1]. rewrite <- Q1. apply (op_le _ _ _ _ O N1). now rewrite Q1.
    + refine (op_rel _ _ _ _ O _); [lra|]. right. apply Qle_trans with (1 # 100)%Q; [vm_compute; discriminate|exact B1].
  - split; [split; reflexivity|]. split; [vm_compute; discriminate|]. unfold rel, ee. split; vm_compute; discriminate.
Qed.

Lemma as_float p : 0 <= p < 2 ^ 32 -> op32 (inject_Z p) 33 (f32_of_Z p) /\ rel (sfQ (f32_of_Z p)) (inject_Z p) ee.
Proof.
  intros H. assert (B : (inject_Z p < b2 33)%Q) by (rewrite b2_Z by lia; apply injZ_lt; lia).
  assert (P0 : (0 <= inject_Z p)%Q) by (change 0%Q with (inject_Z 0); apply injZ_le; lia).
  pose proof (sf_of_Z_op 24 128 ltac:(lia) ltac:(lia) p 33 ltac:(lia) B ltac:(lia)) as O. change (sf_of_Z 24 128 p) with (f32_of_Z p) in O.
  split; [exact O|]. apply (op_rel _ _ _ P0 O). destruct (Z.eq_dec p 0) as [->|N]; [left; reflexivity|right].
  apply Qle_trans with (inject_Z 1); [vm_compute; discriminate|apply injZ_le; lia].
Qed.
Lemma float_mono p q : 0 <= p <= q -> q < 2 ^ 32 -> (sfQ (f32_of_Z p) <= sfQ (f32_of_Z q))%Q.
Proof.
  intros H B. destruct (Z.eq_dec p q) as [->|N]; [apply Qle_refl|]. destruct (as_float p ltac:(lia)) as [O _]. destruct (as_float q ltac:(lia)) as [O' _].
  apply (op_mono 24 128 ltac:(lia) _ _ _ _ _ _ O O'). apply injZ_lt. lia.
Qed.

(** how far a tile is moved back *)
Definition back (percent : option Z) (p : Z) : f32 := f32_mul (f32_of_Z p) (overlap_of percent).
Lemma times_share p k : (inject_Z p * (inject_Z k / 100) == inject_Z (p * k) / 100)%Q.
Proof. rewrite inject_Z_mult. field. Qed.
Lemma back_ok percent p : percent_ok percent -> 0 <= p < 2 ^ 32 ->
  fnn (back percent p) /\ (sfQ (back percent p) <= sfQ (f32_of_Z p))%Q /\
  rel (sfQ (back percent p)) (inject_Z (p * share percent) / 100) (1 # 2097152) /\
  op32 (sfQ (f32_of_Z p) * sfQ (overlap_of percent)) 34 (back percent p).
Proof.
  intros HP H. destruct (overlap_ok percent HP) as (No & O1 & R). destruct (as_float p H) as [Op Rp].
  assert (Np : fnn (f32_of_Z p)) by apply Op. pose proof (nn_ge0 24 128 _ Np) as P0. pose proof (nn_ge0 24 128 _ No) as Q0.
  assert (S0 : (0 <= inject_Z (share percent))%Q) by (change 0%Q with (inject_Z 0); apply injZ_le; destruct percent; cbn in *; lia).
  assert (I0 : (0 <= inject_Z p)%Q) by (change 0%Q with (inject_Z 0); apply injZ_le; lia).
  assert (I1 : (inject_Z p <= 4294967296)%Q) by (change 4294967296%Q with (inject_Z 4294967296); apply injZ_le; lia).
  assert (X : (sfQ (f32_of_Z p) * sfQ (overlap_of percent) <= sfQ (f32_of_Z p))%Q).
  { rewrite <- (Qmult_1_r (sfQ (f32_of_Z p))) at 2. rewrite !(Qmult_comm (sfQ (f32_of_Z p))). apply Qmult_le_compat_r; assumption. }
  assert (X0 : (0 <= sfQ (f32_of_Z p) * sfQ (overlap_of percent))%Q) by (apply Qmult_le_0_compat; assumption).
  assert (V : (sfQ (f32_of_Z p) < b2 34)%Q).
  { destruct Rp as [_ U]. eapply Qle_lt_trans; [exact U|]. unfold ee. change (b2 34) with (17179869184%Q). lra. }
  assert (O : op32 (sfQ (f32_of_Z p) * sfQ (overlap_of percent)) 34 (back percent p)).
  { apply SFmul_op; try assumption; try lia. eapply Qle_lt_trans; [exact X|exact V]. }
  split; [apply O|]. split; [apply (op_le _ _ _ _ O Np X)|]. split; [|exact O].
  assert (R2 : rel (sfQ (f32_of_Z p) * sfQ (overlap_of percent)) (inject_Z (p * share percent) / 100) (1 # 4000000)).
  { eapply rel_eq; [reflexivity|apply times_share|].
    assert (D0 : (0 <= inject_Z (share percent) / 100)%Q) by (apply Qle_shift_div_l; [reflexivity|lra]).
    apply (rel_mult _ _ ee _ _ ee); try assumption; try (unfold ee; split; vm_compute; discriminate). vm_compute; discriminate. }
  destruct (Qlt_le_dec 0 (sfQ (f32_of_Z p) * sfQ (overlap_of percent))) as [Y|Y].
  - assert (Rr : rel (sfQ (back percent p)) (sfQ (f32_of_Z p) * sfQ (overlap_of percent)) ee).
    { apply (op_rel _ _ _ X0 O). right. assert (p <> 0).
      { intros ->. change (f32_of_Z 0) with (S754_zero false) in Y. cbn [sfQ] in Y. rewrite Qmult_0_l in Y. discriminate Y. }
      destruct percent as [k|]; [|cbn [overlap_of sfQ] in Y; rewrite Qmult_0_r in Y; discriminate Y]. cbn [percent_ok share] in *.
      assert (K1 : (1 <= inject_Z (p * k))%Q) by (change 1%Q with (inject_Z 1); apply injZ_le; nia).
      destruct R2 as [R2 _].
      assert (K2 : (1 # 100 <= inject_Z (p * k) / 100)%Q) by (apply Qle_shift_div_l; [reflexivity|]; lra).
      apply Qle_trans with (1 # 1000)%Q; [vm_compute; discriminate|]. lra. }
    eapply (rel_trans _ _ _ ee (1 # 4000000)); [exact Rr|exact R2| | | |].
    + apply Qle_shift_div_l; [reflexivity|]. rewrite inject_Z_mult. ring_simplify. apply Qmult_le_0_compat; assumption.
    + unfold ee; split; vm_compute; discriminate.
    + split; vm_compute; discriminate.
    + vm_compute; discriminate.
  - assert (Z0 : (sfQ (f32_of_Z p) * sfQ (overlap_of percent) == 0)%Q) by (apply Qle_antisym; assumption).
    assert (B0 : (sfQ (back percent p) == 0)%Q).
    { apply (op_exact _ _ _ (S754_zero false) O); [split; reflexivity|exact Z0]. }
    destruct R2 as [R2 R3]. rewrite Z0 in R2, R3. unfold rel. rewrite B0.
    assert (G : (0 <= inject_Z (p * share percent) / 100)%Q).
    { apply Qle_shift_div_l; [reflexivity|]. rewrite inject_Z_mult. ring_simplify. apply Qmult_le_0_compat; assumption. }
    split; lra.
Qed.
Lemma back_mono percent p q : percent_ok percent -> 0 <= p <= q -> q < 2 ^ 32 -> (sfQ (back percent p) <= sfQ (back percent q))%Q.
Proof.
  intros HP H B. destruct (back_ok percent p HP ltac:(lia)) as (_ & _ & _ & O). destruct (back_ok percent q HP ltac:(lia)) as (_ & _ & _ & O').
  destruct (overlap_ok percent HP) as (No & _ & _). destruct (as_float p ltac:(lia)) as [[Np _] _]. destruct (as_float q ltac:(lia)) as [[Nq _] _].
  unfold back in *. apply (mono_cases 24 128 (fun f => f32_mul f (overlap_of percent)) _ _ Np Nq (float_mono p q H B)).
  intros L. pose proof (nn_ge0 24 128 _ No) as Q0. destruct (Qlt_le_dec 0 (sfQ (overlap_of percent))) as [Y|Y].
  - apply (op_mono 24 128 ltac:(lia) _ _ _ _ _ _ O O'). apply Qmult_lt_compat_r; assumption.
  - assert (Z0 : (sfQ (overlap_of percent) == 0)%Q) by (apply Qle_antisym; assumption).
    rewrite (op_exact _ _ _ (S754_zero false) O); [|split; reflexivity|rewrite Z0; cbn [sfQ]; ring].
    rewrite (op_exact _ _ _ (S754_zero false) O'); [|split; reflexivity|rewrite Z0; cbn [sfQ]; ring]. apply Qle_refl.
Qed.

(** ** positions *)
Lemma s32_u32_id z : in_i32 z -> s32 (u32 z) = z.
Proof. unfold in_i32, INT_MIN, INT_MAX, s32, u32. intros H. rewrite Z.mod_mod by lia. destruct (Z_le_gt_dec 0 z).
  - rewrite Z.mod_small by lia. destruct (z <? 2 ^ 31) eqn:E; lia.
  - replace z with (z + 2 ^ 32 + (-1) * 2 ^ 32) at 1 2 by lia. rewrite Z.mod_add by lia. rewrite Z.mod_small by lia. destruct (z + 2 ^ 32 <? 2 ^ 31) eqn:E; lia.
Qed.
(** the position of the tile [k] *)
Lemma tile_pos_ok percent k size : percent_ok percent -> 0 <= k -> 0 <= size -> k * size <= INT_MAX ->
  exists o, lrint (back percent (k * size)) = Ok o /\ 0 <= o <= k * size + 300 /\ tile_pos k size (overlap_of percent) = Ok (k * size - o) /\
    about (share percent) k size (k * size - o).
Proof.
  intros HP Hk Hs B. set (p := k * size) in *. assert (P0 : 0 <= p) by (unfold p; nia). assert (P1 : p < 2 ^ 31) by (unfold INT_MAX in B; lia).
  destruct (back_ok percent p HP ltac:(lia)) as (Nb & Lb & [R1 R2] & _). destruct (lrint_near _ Nb) as (o & Eo & O0 & N1 & N2).
  destruct (as_float p ltac:(lia)) as [_ [_ F]].
  assert (I0 : (0 <= inject_Z p)%Q) by (change 0%Q with (inject_Z 0); apply injZ_le; lia).
  assert (I1 : (inject_Z p <= 2147483648)%Q) by (change 2147483648%Q with (inject_Z 2147483648); apply injZ_le; lia).
  assert (U : o <= p + 300).
  { apply injZ_le. rewrite inject_Z_plus. change (inject_Z 300) with 300%Q. unfold ee in F. lra. }
  exists o. split; [exact Eo|]. split; [lia|]. split.
  - unfold tile_pos. fold p. replace (u32 p) with p by (unfold u32; symmetry; apply Z.mod_small; lia).
    change (f32_mul (f32_of_Z p) (overlap_of percent)) with (back percent p). rewrite Eo. cbn [bind].
    replace (u32 o) with o by (unfold u32; symmetry; apply Z.mod_small; lia).
    rewrite s32_u32_id; [reflexivity|]. unfold in_i32, INT_MIN, INT_MAX. lia.
  - unfold about. fold p. assert (E : 100 * (p - o) - p * (100 - share percent) = p * share percent - 100 * o) by ring. rewrite E.
    set (t := p * share percent) in *.
    assert (D : (100 * (inject_Z t / 100) == inject_Z t)%Q) by field.
    assert (A1 : (inject_Z 2097152 * (inject_Z t - 100 * inject_Z o - 50) <= inject_Z t)%Q).
    { change (inject_Z 2097152) with 2097152%Q. lra. }
    assert (A2 : (inject_Z 2097152 * (100 * inject_Z o - inject_Z t - 50) <= inject_Z t)%Q).
    { change (inject_Z 2097152) with 2097152%Q. lra. }
    change 100%Q with (inject_Z 100) in A1, A2. change 50%Q with (inject_Z 50) in A1, A2. unfold Qminus in A1, A2.
    rewrite <- inject_Z_mult, <- !inject_Z_opp, <- !inject_Z_plus, <- inject_Z_mult in A1. rewrite <- inject_Z_mult, <- !inject_Z_opp, <- !inject_Z_plus, <- inject_Z_mult in A2.
    apply (proj1 (injZ_le _ _)) in A1. apply (proj1 (injZ_le _ _)) in A2. change (2 ^ 21) with 2097152. lia.
Qed.
Lemma back_0 p : 0 <= p < 2 ^ 32 -> back None p = S754_zero false.
Proof.
  intros H. destruct (back_ok None p I H) as (N & _ & [_ R] & _). pose proof (nn_ge0 24 128 _ N) as G. apply (FloatMono.nn_inj 24 128); [exact N|split; reflexivity|].
  cbn [share] in R. rewrite Z.mul_0_r in R. cbn [sfQ]. apply Qle_antisym; [|exact G]. eapply Qle_trans; [exact R|]. vm_compute. discriminate.
Qed.
Lemma tile_pos_plain k size : 0 <= k -> 0 <= size -> k * size <= INT_MAX -> tile_pos k size (overlap_of None) = Ok (k * size).
Proof.
  intros. destruct (tile_pos_ok None k size I) as (o & E & _ & T & _); try assumption. rewrite back_0 in E by (unfold INT_MAX in *; nia). cbn [lrint] in E. injection E as <-.
  now rewrite Z.sub_0_r in T.
Qed.
(** the next tile begins at the latest where this one ends *)
Lemma tile_pos_step percent k size a b : percent_ok percent -> 0 <= k -> 0 <= size -> (k + 1) * size <= INT_MAX ->
  tile_pos k size (overlap_of percent) = Ok a -> tile_pos (k + 1) size (overlap_of percent) = Ok b -> b <= a + size.
Proof.
  intros HP Hk Hs B A A'. destruct (tile_pos_ok percent k size HP Hk Hs ltac:(lia)) as (o & E & _ & T & _).
  destruct (tile_pos_ok percent (k + 1) size HP ltac:(lia) Hs B) as (o' & E' & _ & T' & _).
  rewrite T in A. injection A as <-. rewrite T' in A'. injection A' as <-.
  destruct (back_ok percent (k * size) HP ltac:(unfold INT_MAX in B; nia)) as (N & _). destruct (back_ok percent ((k + 1) * size) HP ltac:(unfold INT_MAX in B; nia)) as (N' & _).
  pose proof (lrint_mono _ _ _ _ N N' (back_mono percent (k * size) ((k + 1) * size) HP ltac:(nia) ltac:(unfold INT_MAX in B; lia)) E E'). lia.
Qed.
