(** Look-up tables for a gamma below one. *)
From Coq Require Import QArith Qabs Lqa Floats.SpecFloat.
From Verif Require Import Base RectModel CopyModel CoordModel StatModel ScaleModel PixelModel CompositorModel
  FloatProofs SFloatProofs FloatMono ScaleNum PixelProofs FillProofs LutModel LutSpec LutProofs.
Open Scope Z_scope.

Notation op32 := (op_ok 24 128).
Lemma f_one_ok : fnn f_one /\ (sfQ f_one == 1)%Q.
Proof. split; [split; reflexivity|reflexivity]. Qed.

(** ** a float is its own rounding *)
Lemma op_exact X N r a : op32 X N r -> fnn a -> (X == sfQ a)%Q -> (sfQ r == sfQ a)%Q.
Proof.
  intros (_ & E & _ & HE & R) Na HX. destruct (nn_grid 24 128 a E Na) as [k K].
  { destruct HE as [HE|HE]; [now left|right]. now rewrite <- HX. }
  rewrite <- HX. apply (rnd_exact E E k X); [exact R|lia|]. now rewrite HX.
Qed.
Lemma big a : fnn a -> exists N, (sfQ a < b2 N)%Q.
Proof.
  intros [_ Ha]. destruct a as [s|s| |s m e]; try contradiction; [exists 0; reflexivity|]. subst s. exists (Zpos (digits2_pos m) + e). apply digits_bounds.
Qed.
Lemma op_le X N r a : op32 X N r -> fnn a -> (X <= sfQ a)%Q -> (sfQ r <= sfQ a)%Q.
Proof.
  intros O Na L. destruct (Qlt_le_dec X (sfQ a)) as [H|H].
  - destruct (big a Na) as [M HM]. apply (op_mono 24 128 ltac:(lia) _ _ _ _ M _ O (nn_op 24 128 a M Na HM) H).
  - rewrite (op_exact X N r a O Na); [apply Qle_refl|]. now apply Qle_antisym.
Qed.
Lemma op_ge X N r a : op32 X N r -> fnn a -> (sfQ a <= X)%Q -> (sfQ a <= sfQ r)%Q.
Proof.
  intros O Na L. destruct (Qlt_le_dec (sfQ a) X) as [H|H].
  - destruct (big a Na) as [M HM]. apply (op_mono 24 128 ltac:(lia) _ M _ _ _ _ (nn_op 24 128 a M Na HM) O H).
  - rewrite (op_exact X N r a O Na); [apply Qle_refl|]. now apply Qle_antisym.
Qed.

Lemma pos_form d : fnn d -> (0 < sfQ d)%Q -> exists m e, d = S754_finite false m e.
Proof.
  intros [_ SD] P. destruct d as [s|s| |s m e]; try contradiction.
  - exfalso. apply (Qlt_irrefl 0). exact P.
  - subst s. eauto.
Qed.
Lemma zero_div d : fnn d -> (0 < sfQ d)%Q -> f32_div (S754_zero false) d = S754_zero false.
Proof. intros N P. destruct (pos_form d N P) as (m & e & ->). reflexivity. Qed.
Lemma mul_zero d : fnn d -> (0 < sfQ d)%Q -> f32_mul d (S754_zero false) = S754_zero false.
Proof. intros N P. destruct (pos_form d N P) as (m & e & ->). reflexivity. Qed.

(** ** relative errors *)
Definition ee : Q := 1 # 8388608.
Lemma op_rel X N r : (0 <= X)%Q -> op32 X N r -> (X == 0)%Q \/ (b2 (-120) <= X)%Q -> rel (sfQ r) X ee.
Proof.
  intros X0 O [Z|L].
  - unfold rel. rewrite (op_exact X N r (S754_zero false) O); [|split; reflexivity|exact Z]. rewrite Z. cbn [sfQ]. split; vm_compute; discriminate.
  - pose proof (sop_rel 24 128 X N r (sop_of_op 24 128 _ _ _ X0 O)) as A. apply Qabs_Qle_condition in A. rewrite (Qabs_pos X X0) in A. change (b2 (-(24))) with (1 # 16777216)%Q in A.
    assert (T : (b2 (emin 24 128 - 1) <= b2 (-120) * (1 # 16777216))%Q) by (vm_compute; discriminate). unfold rel, ee. split; lra.
Qed.
Lemma rel_trans v X Y e1 e2 e : rel v X e1 -> rel X Y e2 -> (0 <= Y)%Q -> (0 <= e1 <= 1)%Q -> (0 <= e2 <= 1)%Q -> (e1 + e2 + e1 * e2 <= e)%Q -> rel v Y e.
Proof.
  unfold rel. intros [A B] [C D] HY [H1 H1'] [H2 H2'] H. assert (P : (0 <= e1 * e2)%Q) by (apply Qmult_le_0_compat; assumption). split.
  - assert (M : (Y * (1 - e2) * (1 - e1) <= X * (1 - e1))%Q) by (apply Qmult_le_compat_r; lra).
    assert (G : (Y * (1 - e) <= Y * ((1 - e2) * (1 - e1)))%Q) by (rewrite !(Qmult_comm Y); apply Qmult_le_compat_r; lra). lra.
  - assert (M : (X * (1 + e1) <= Y * (1 + e2) * (1 + e1))%Q) by (apply Qmult_le_compat_r; lra).
    assert (G : (Y * ((1 + e2) * (1 + e1)) <= Y * (1 + e))%Q) by (rewrite !(Qmult_comm Y); apply Qmult_le_compat_r; lra). lra.
Qed.
Lemma rel_scale c v X e : rel v X e -> (0 <= c)%Q -> rel (c * v) (c * X) e.
Proof.
  unfold rel. intros [A B] C. rewrite <- !Qmult_assoc, !(Qmult_comm c). split; apply Qmult_le_compat_r; assumption.
Qed.
Lemma rel_eq v w X Y e : (v == w)%Q -> (X == Y)%Q -> rel v X e -> rel w Y e.
Proof. intros H1 H2. unfold rel. rewrite H1, H2. trivial. Qed.
Lemma rel_inv d D e : rel d D e -> (0 < D)%Q -> (0 <= e <= 1 # 4)%Q -> rel (/ d) (/ D) (2 * e).
Proof.
  intros [A B] HD [E0 E1].
  assert (P : (0 < D * (1 - e))%Q) by (apply Qmult_lt_0_compat; lra). assert (d0 : (0 < d)%Q) by lra. assert (I := Qinv_lt_0_compat D HD).
  assert (J := Qinv_lt_0_compat d d0). assert (dn : ~ (d == 0)%Q) by lra. assert (Dn : ~ (D == 0)%Q) by lra.
  assert (T : (1 <= (1 - e) * (1 + 2 * e))%Q). { setoid_replace ((1 - e) * (1 + 2 * e))%Q with (1 + e * (1 - 2 * e))%Q by ring. assert (0 <= e * (1 - 2 * e))%Q by (apply Qmult_le_0_compat; lra). lra. }
  assert (T2 : ((1 + e) * (1 - 2 * e) <= 1)%Q). { setoid_replace ((1 + e) * (1 - 2 * e))%Q with (1 - e * (1 + 2 * e))%Q by ring. assert (0 <= e * (1 + 2 * e))%Q by (apply Qmult_le_0_compat; lra). lra. }
  unfold rel. split.
  - setoid_replace (/ d)%Q with (1 / d)%Q by (field; lra). apply Qle_shift_div_l; [exact d0|].
    eapply Qle_trans; [|exact T2].
    assert (M : (d * (/ D * (1 - 2 * e)) <= D * (1 + e) * (/ D * (1 - 2 * e)))%Q) by (apply Qmult_le_compat_r; [exact B|apply Qmult_le_0_compat; lra]).
    setoid_replace (D * (1 + e) * (/ D * (1 - 2 * e)))%Q with ((1 + e) * (1 - 2 * e))%Q in M by (field; lra). lra.
  - setoid_replace (/ d)%Q with (1 / d)%Q by (field; lra). apply Qle_shift_div_r; [exact d0|].
    eapply Qle_trans; [exact T|].
    assert (M : (D * (1 - e) * (/ D * (1 + 2 * e)) <= d * (/ D * (1 + 2 * e)))%Q) by (apply Qmult_le_compat_r; [exact A|apply Qmult_le_0_compat; lra]).
    setoid_replace (D * (1 - e) * (/ D * (1 + 2 * e)))%Q with ((1 - e) * (1 + 2 * e))%Q in M by (field; lra). lra.
Qed.
Lemma rel_mult v X e1 w Y e2 e : rel v X e1 -> rel w Y e2 -> (0 <= v)%Q -> (0 <= Y)%Q -> (0 <= X)%Q -> (0 <= e1 <= 1)%Q -> (0 <= e2 <= 1)%Q -> (e1 + e2 + e1 * e2 <= e)%Q -> rel (v * w) (X * Y) e.
Proof.
  intros A B V Y0 X0 H1 H2 H. apply (rel_trans _ (v * Y) _ e2 e1); [apply rel_scale; assumption| |apply Qmult_le_0_compat; assumption|assumption|assumption|lra].
  eapply rel_eq; [apply Qmult_comm|apply Qmult_comm|]. now apply rel_scale.
Qed.

(** ** p - 1 *)
Lemma above_grid p : above p -> (sfQ p == 1)%Q \/ (1 + b2 (-23) <= sfQ p)%Q.
Proof.
  intros [Np P]. destruct (nn_grid 24 128 p (-23) Np) as [k K]; [right; exact P|]. change (b2 (-23)) with (1 # 8388608)%Q in *.
  destruct (Z_le_gt_dec k 8388608) as [L|L].
  - left. apply Qle_antisym; [|exact P]. rewrite K. assert (M : (inject_Z k * (1 # 8388608) <= inject_Z 8388608 * (1 # 8388608))%Q) by (apply Qmult_le_compat_r; [now apply injZ_le|discriminate]). eapply Qle_trans; [exact M|]. vm_compute. discriminate.
  - right. rewrite K. assert (M : (inject_Z 8388609 * (1 # 8388608) <= inject_Z k * (1 # 8388608))%Q) by (apply Qmult_le_compat_r; [apply injZ_le; lia|discriminate]).
    eapply Qle_trans; [|exact M]. vm_compute. discriminate.
Qed.
Lemma sub_one_op p N : above p -> (sfQ p < b2 N)%Q -> N <= 127 -> op32 (sfQ p - 1) N (f32_sub p f_one).
Proof.
  intros Hp L HN. destruct (above_grid p Hp) as [E|G]; destruct Hp as [Np P].
  - rewrite (nn_inj 24 128 p f_one Np (proj1 f_one_ok)) by (rewrite E; reflexivity). change (f32_sub f_one f_one) with (S754_zero false).
    apply (op_ok_eq 24 128 0); [|apply op_ok_0; lia]. rewrite (proj2 f_one_ok). reflexivity.
  - change (b2 (-23)) with (1 # 8388608)%Q in G. destruct f_one_ok as [N1 Q1].
    assert (S : sop 24 128 (sfQ p - sfQ f_one) N (f32_sub p f_one)).
    { apply SFsub_sop; try lia; [now apply nn_finite|now apply nn_finite|]. rewrite Q1, Qabs_pos by lra. lra. }
    apply (sop_eq _ _ _ (sfQ p - 1)) in S; [|rewrite Q1; reflexivity].
    apply op_of_sop; [lra|exact S|]. apply nn_of_pos; [apply S|].
    pose proof (sop_rel 24 128 _ N _ S) as A. apply Qabs_Qle_condition in A. rewrite Qabs_pos in A by lra. change (b2 (-(24))) with (1 # 16777216)%Q in A.
    assert (T : (b2 (emin 24 128 - 1) <= (1 # 8388608) * (1 # 16777216))%Q) by (vm_compute; discriminate). lra.
Qed.
Lemma sub_one_mono p q : above p -> above q -> (sfQ q < b2 127)%Q -> fle p q -> fle (f32_sub p f_one) (f32_sub q f_one).
Proof.
  intros Hp Hq L H. unfold fle in H. apply (mono_cases 24 128 (fun x => f32_sub x f_one)); [apply Hp|apply Hq|exact H|]. intros ST.
  apply (op_mono 24 128 ltac:(lia) _ _ _ _ _ _ (sub_one_op p 127 Hp ltac:(lra) ltac:(lia)) (sub_one_op q 127 Hq L ltac:(lia))). lra.
Qed.

(** ** gamma below one *)
Section GammaDown.
  Variables (pw : f32 -> f32 -> f32) (mx cnt : Z) (b w g : f32).
  Hypothesis (Hmx : 1 <= mx <= 65535) (Hcnt : 0 <= cnt <= 65536) (Hb : unit_float b) (Hw : unit_float w) (HL : fle b w).
  Hypothesis (Hg : SFltb g f_one = true) (HP : pow_above pw g).
  Variable a : f32.
  Hypothesis (Na : fnn a) (Ha : (sfQ a < b2 90)%Q).
  Let a1 := f32_add a f_one.
  Hypothesis (HA : (1 < sfQ (pw a1 g))%Q).
  Let D := f32_sub (pw a1 g) f_one.
  Let M1 := Z_ge1 mx (proj1 Hmx).

  Lemma mx_le : (inject_Z mx <= 65535)%Q.
  Proof. change 65535%Q with (inject_Z 65535). apply injZ_le. lia. Qed.
  Lemma add_one_op x : fnn x -> (sfQ x < b2 90)%Q -> op32 (sfQ x + 1) 91 (f32_add x f_one).
  Proof.
    intros Nx Lx. destruct f_one_ok as [N1 Q1]. eapply op_ok_eq; [rewrite <- Q1; reflexivity|]. apply SFadd_op; try assumption; try lia.
    rewrite Q1. change 91 with (90 + 1). rewrite b2_plus, b2_1. assert (1 <= b2 90)%Q by (vm_compute; discriminate). lra.
  Qed.
  Lemma add_one_above x : fnn x -> (sfQ x < b2 90)%Q -> above (f32_add x f_one) /\ (sfQ (f32_add x f_one) < b2 92)%Q.
  Proof.
    intros Nx Lx. pose proof (add_one_op x Nx Lx) as O. pose proof (nn_ge0 24 128 x Nx) as X0. split; [split; [apply O|]|].
    - rewrite <- (proj2 f_one_ok). apply (op_ge _ _ _ _ O); [split; reflexivity|]. rewrite (proj2 f_one_ok). lra.
    - destruct (op_rel (sfQ x + 1) 91 _ ltac:(lra) O) as [_ U]; [right; apply Qle_trans with 1%Q; [vm_compute; discriminate|lra]|].
      assert (B : (1 <= b2 90)%Q) by (vm_compute; discriminate). change 92 with (90 + 2). rewrite b2_plus. change (b2 2) with 4%Q.
      eapply Qle_lt_trans; [exact U|]. unfold ee. lra.
  Qed.
  Lemma add_one_mono x y : fnn x -> fnn y -> (sfQ y < b2 90)%Q -> fle x y -> fle (f32_add x f_one) (f32_add y f_one).
  Proof.
    intros Nx Ny Ly H. unfold fle in H. apply (mono_cases 24 128 (fun x => f32_add x f_one)); try assumption. intros ST.
    apply (op_mono 24 128 ltac:(lia) _ _ _ _ _ _ (add_one_op x Nx ltac:(lra)) (add_one_op y Ny Ly)). lra.
  Qed.
  Lemma a1_ok : above a1 /\ (sfQ a1 < b2 92)%Q.
  Proof. exact (add_one_above a Na Ha). Qed.
  Lemma pw_ok y : above y -> (sfQ y < b2 92)%Q -> above (pw y g) /\ (sfQ (pw y g) < b2 92)%Q.
  Proof. intros Hy Ly. destruct HP as [P _]. destruct (P y Hy) as [A B]. unfold fle in B. split; [exact A|lra]. Qed.

  (** the parameter is not tiny *)
  Lemma a_ge : (b2 (-26) <= sfQ a)%Q.
  Proof.
    destruct a1_ok as [A A']. destruct HP as [P _]. destruct (P a1 A) as [_ B]. unfold fle in B.
    destruct (above_grid a1 A) as [E|G]; [lra|]. pose proof (nn_ge0 24 128 a Na) as A0. pose proof (add_one_op a Na Ha) as O. fold a1 in O.
    destruct (op_rel (sfQ a + 1) 91 _ ltac:(lra) O) as [_ U]; [right; apply Qle_trans with 1%Q; [vm_compute; discriminate|lra]|].
    destruct (Qlt_le_dec (sfQ a) (b2 (-26))) as [L|L]; [exfalso|exact L].
    pose proof (sop_rel 24 128 _ _ _ (sop_of_op 24 128 (sfQ a + 1) 91 a1 ltac:(lra) O)) as R. apply Qabs_Qle_condition in R. rewrite Qabs_pos in R by lra.
    assert (T : (b2 (emin 24 128 - 1) <= 1 # 68719476736)%Q) by (vm_compute; discriminate). change (b2 (- (24))) with (1 # 16777216)%Q in R. change (b2 (-26)) with (1 # 67108864)%Q in L.
    change (b2 (-23)) with (1 # 8388608)%Q in G. lra.
  Qed.

  (** ** the steps *)
  Lemma step_mul x : unit_float x -> op32 (sfQ a * sfQ x) 90 (f32_mul a x) /\ (sfQ (f32_mul a x) <= sfQ a)%Q.
  Proof.
    intros [Nx Ux]. pose proof (nn_ge0 24 128 a Na) as A0. pose proof (nn_ge0 24 128 x Nx) as X0.
    assert (L : (sfQ a * sfQ x <= sfQ a)%Q). { assert (sfQ x * sfQ a <= 1 * sfQ a)%Q by (apply Qmult_le_compat_r; assumption). lra. }
    assert (O : op32 (sfQ a * sfQ x) 90 (f32_mul a x)) by (apply f32_mul_op; [assumption|assumption|lra|lia]).
    split; [exact O|]. apply (op_le _ _ _ _ O Na L).
  Qed.
  Definition yy (x : f32) : f32 := f32_add (f32_mul a x) f_one.
  Lemma yy_ok x : unit_float x -> above (yy x) /\ (sfQ (yy x) < b2 92)%Q /\ fle (yy x) a1.
  Proof.
    intros Hx. destruct (step_mul x Hx) as [O L]. destruct (add_one_above (f32_mul a x) (proj1 O) ltac:(lra)) as [A B].
    split; [exact A|]. split; [exact B|]. apply add_one_mono; [apply O|exact Na|exact Ha|exact L].
  Qed.
  Lemma yy_mono x y : unit_float x -> unit_float y -> fle x y -> fle (yy x) (yy y).
  Proof.
    intros Hx Hy L. destruct (step_mul x Hx) as [O1 L1]. destruct (step_mul y Hy) as [O2 L2]. apply add_one_mono; [apply O1|apply O2|lra|].
    apply (mono_cases 24 128 (fun z => f32_mul a z)); [apply Hx|apply Hy|exact L|]. intros ST.
    apply (op_mono 24 128 ltac:(lia) _ _ _ _ _ _ O1 O2). rewrite !(Qmult_comm (sfQ a)). apply Qmult_lt_compat_r; [|exact ST].
    eapply Qlt_le_trans; [|exact a_ge]. reflexivity.
  Qed.
  Definition ss (x : f32) : f32 := f32_sub (pw (yy x) g) f_one.
  Lemma pa_ok : above (pw a1 g) /\ (sfQ (pw a1 g) < b2 92)%Q.
  Proof. apply pw_ok; apply a1_ok. Qed.
  Lemma D_op : op32 (sfQ (pw a1 g) - 1) 92 D.
  Proof. apply sub_one_op; [apply pa_ok|apply pa_ok|lia]. Qed.
  Lemma D_rel : rel (sfQ D) (sfQ (pw a1 g) - 1) ee.
  Proof. apply (op_rel _ 92); [lra|apply D_op|right]. destruct (above_grid _ (proj1 pa_ok)) as [E|G]; [lra|]. assert (b2 (-120) <= b2 (-23))%Q by (vm_compute; discriminate). lra. Qed.
  Lemma pa_ge : (1 + b2 (-23) <= sfQ (pw a1 g))%Q.
  Proof. destruct (above_grid _ (proj1 pa_ok)) as [E|G]; [lra|exact G]. Qed.
  Lemma D_ok : fnn D /\ (b2 (-24) <= sfQ D)%Q /\ (sfQ D < b2 93)%Q.
  Proof.
    split; [apply D_op|]. destruct D_rel as [A B]. pose proof pa_ge as G. destruct pa_ok as [_ U].
    assert (E24 : (b2 (-23) == 2 * b2 (-24))%Q) by reflexivity. assert (P := b2_pos (-24)).
    change 93 with (92 + 1). rewrite b2_plus. change (b2 1) with 2%Q. unfold ee in *. split; lra.
  Qed.
  Lemma ss_ok x : unit_float x -> op32 (sfQ (pw (yy x) g) - 1) 92 (ss x) /\ rel (sfQ (ss x)) (sfQ (pw (yy x) g) - 1) ee /\ fle (ss x) D /\
    (1 <= sfQ (pw (yy x) g) <= sfQ (pw a1 g))%Q /\ ((sfQ (pw (yy x) g) == 1)%Q \/ (1 + b2 (-23) <= sfQ (pw (yy x) g))%Q).
  Proof.
    intros Hx. destruct (yy_ok x Hx) as (A & B & C). destruct (pw_ok _ A B) as [P Q]. assert (O : op32 (sfQ (pw (yy x) g) - 1) 92 (ss x)) by (apply sub_one_op; [assumption|assumption|lia]).
    assert (LE : fle (pw (yy x) g) (pw a1 g)) by (apply HP; [exact A|apply a1_ok|exact C]).
    assert (GR := above_grid _ P). pose proof (proj2 P) as P1. split; [exact O|]. split; [|split; [|split; [split; [exact P1|exact LE]|exact GR]]].
    - apply (op_rel _ 92); [lra|exact O|]. destruct GR as [E|G]; [left; lra|right]. assert (b2 (-120) <= b2 (-23))%Q by (vm_compute; discriminate). lra.
    - apply sub_one_mono; [exact P|apply pa_ok| |exact LE]. apply Qlt_le_trans with (b2 92); [apply pa_ok|]. vm_compute. discriminate.
  Qed.
  Definition tt (x : f32) : f32 := f32_mul (f32_of_Z mx) (ss x).
  Lemma tt_op s : fnn s -> (sfQ s < b2 93)%Q -> op32 (inject_Z mx * sfQ s) 109 (f32_mul (f32_of_Z mx) s).
  Proof.
    intros Ns Ls. destruct (f32_of_Z_ok mx ltac:(lia)) as [Nm Qm]. pose proof (nn_ge0 24 128 s Ns) as S0. eapply op_ok_eq; [rewrite <- Qm; reflexivity|]. apply f32_mul_op; try assumption; [|lia].
    rewrite Qm. change 109 with (93 + 16). rewrite b2_plus. change (b2 16) with 65536%Q. pose proof mx_le as MX. pose proof M1 as MY.
    assert (sfQ s * inject_Z mx <= sfQ s * 65535)%Q by (rewrite !(Qmult_comm (sfQ s)); apply Qmult_le_compat_r; assumption). pose proof (b2_pos 93). lra.
  Qed.
  Lemma tt_mono s t : fnn s -> fnn t -> (sfQ t < b2 93)%Q -> fle s t -> fle (f32_mul (f32_of_Z mx) s) (f32_mul (f32_of_Z mx) t).
  Proof.
    intros Ns Nt Lt H. unfold fle in H. apply (mono_cases 24 128 (fun z => f32_mul (f32_of_Z mx) z)); try assumption. intros ST.
    apply (op_mono 24 128 ltac:(lia) _ _ _ _ _ _ (tt_op s Ns ltac:(lra)) (tt_op t Nt Lt)). pose proof M1. rewrite !(Qmult_comm (inject_Z mx)). apply Qmult_lt_compat_r; lra.
  Qed.
  Lemma div_op t : fnn t -> (sfQ t == 0)%Q \/ (b2 (-25) <= sfQ t)%Q -> (sfQ t <= 65537 * sfQ D)%Q -> op32 (sfQ t / sfQ D) 17 (f32_div t D).
  Proof.
    intros Nt C U. destruct D_ok as (ND & D1 & D2). assert (P := b2_pos (-24)). assert (D0 : (0 < sfQ D)%Q) by lra. destruct C as [Z|G].
    - assert (Et : t = S754_zero false) by (apply (nn_inj 24 128); [exact Nt|split; reflexivity|rewrite Z; reflexivity]). subst t.
      apply (op_ok_eq 24 128 0); [symmetry; unfold Qdiv; rewrite Z; apply Qmult_0_l|].
      assert (ED : f32_div (S754_zero false) D = S754_zero false).
      { now apply zero_div. }
      rewrite ED. apply op_ok_0; lia.
    - apply SFdiv_op; try assumption; try lia.
      + apply Qle_shift_div_l; [exact D0|]. eapply Qle_trans; [|exact G].
        assert (X : (b2 (emin 24 128) * sfQ D <= b2 (emin 24 128) * b2 93)%Q) by (rewrite !(Qmult_comm (b2 (emin 24 128))); apply Qmult_le_compat_r; [lra|apply Qlt_le_weak, b2_pos]).
        eapply Qle_trans; [exact X|]. vm_compute. discriminate.
      + apply Qlt_shift_div_r; [exact D0|]. change (b2 17) with 131072%Q. lra.
  Qed.
  Definition uu (x : f32) : f32 := f32_div (tt x) D.
  Lemma tt_ok x : unit_float x -> fnn (tt x) /\ ((sfQ (tt x) == 0)%Q \/ (b2 (-25) <= sfQ (tt x))%Q) /\ (sfQ (tt x) <= 65537 * sfQ D)%Q /\ rel (sfQ (tt x)) (inject_Z mx * sfQ (ss x)) ee.
  Proof.
    intros Hx. destruct (ss_ok x Hx) as (O & R & L & _ & G). destruct D_ok as (ND & D1 & D2). unfold fle in L. pose proof mx_le as MX. pose proof M1 as MY.
    pose proof (nn_ge0 24 128 _ (proj1 O)) as S0. pose proof (tt_op (ss x) (proj1 O) ltac:(lra)) as T. fold (tt x) in T.
    assert (S1 : (sfQ (ss x) == 0)%Q \/ (b2 (-24) <= sfQ (ss x))%Q).
    { destruct R as [RA RB]. assert (E24 : (b2 (-23) == 2 * b2 (-24))%Q) by reflexivity. assert (P := b2_pos (-24)). destruct G as [E|G].
      - left. assert (Z : (sfQ (pw (yy x) g) - 1 == 0)%Q) by (rewrite E; reflexivity). rewrite Z in RB. lra.
      - right. unfold ee in *. lra. }
    assert (RT : rel (sfQ (tt x)) (inject_Z mx * sfQ (ss x)) ee).
    { apply (op_rel _ 109); [apply Qmult_le_0_compat; lra|exact T|]. destruct S1 as [Z|G']; [left; rewrite Z; apply Qmult_0_r|right].
      assert (1 * sfQ (ss x) <= inject_Z mx * sfQ (ss x))%Q by (apply Qmult_le_compat_r; lra). assert (b2 (-120) <= b2 (-24))%Q by (vm_compute; discriminate). lra. }
    split; [apply T|]. split; [|split; [|exact RT]]; destruct RT as [RA RB]; pose proof (nn_ge0 24 128 _ (proj1 T)) as T0.
    - destruct S1 as [Z|G']; [left|right].
      + assert (Z2 : (inject_Z mx * sfQ (ss x) == 0)%Q) by (rewrite Z; apply Qmult_0_r). rewrite Z2 in RB. lra.
      + assert (X : (1 * sfQ (ss x) <= inject_Z mx * sfQ (ss x))%Q) by (apply Qmult_le_compat_r; lra). assert (E25 : (b2 (-24) == 2 * b2 (-25))%Q) by reflexivity.
        assert (P := b2_pos (-25)). unfold ee in *. lra.
    - assert (X : (inject_Z mx * sfQ (ss x) <= 65535 * sfQ (ss x))%Q) by (apply Qmult_le_compat_r; lra). unfold ee in *. lra.
  Qed.
  Lemma uu_op x : unit_float x -> op32 (sfQ (tt x) / sfQ D) 17 (uu x).
  Proof. intros Hx. destruct (tt_ok x Hx) as (A & B & C & _). now apply div_op. Qed.
  Lemma uu_mono x y : unit_float x -> unit_float y -> fle x y -> fle (uu x) (uu y).
  Proof.
    intros Hx Hy L. destruct (ss_ok x Hx) as (O1 & _ & L1 & _). destruct (ss_ok y Hy) as (O2 & _ & L2 & _). destruct D_ok as (ND & D1 & D2). assert (P := b2_pos (-24)).
    destruct (yy_ok x Hx) as (A1 & B1 & _). destruct (yy_ok y Hy) as (A2 & B2 & _). destruct (pw_ok _ A1 B1) as [P1 Q1]. destruct (pw_ok _ A2 B2) as [P2 Q2].
    assert (S : fle (ss x) (ss y)).
    { apply sub_one_mono; [exact P1|exact P2|apply Qlt_le_trans with (b2 92); [exact Q2|vm_compute; discriminate]|]. apply HP; [exact A1|exact A2|now apply yy_mono]. }
    unfold fle in L2. assert (T : fle (tt x) (tt y)) by (apply tt_mono; [apply O1|apply O2|lra|exact S]).
    apply (mono_cases 24 128 (fun z => f32_div z D)); [apply tt_ok; exact Hx|apply tt_ok; exact Hy|exact T|]. intros ST.
    apply (op_mono 24 128 ltac:(lia) _ _ _ _ _ _ (uu_op x Hx) (uu_op y Hy)). unfold Qdiv. apply Qmult_lt_compat_r; [apply Qinv_lt_0_compat; lra|exact ST].
  Qed.
  (** the error of the whole computation *)
  Definition qq (x : f32) : Q := (inject_Z mx * ((sfQ (pw (yy x) g) - 1) / (sfQ (pw a1 g) - 1)))%Q.
  Lemma qq_bounds x : unit_float x -> (0 <= qq x <= inject_Z mx)%Q.
  Proof.
    intros Hx. destruct (ss_ok x Hx) as (_ & _ & _ & [PA PB] & _). pose proof M1 as MY. unfold qq.
    assert (X0 : (0 <= (sfQ (pw (yy x) g) - 1) / (sfQ (pw a1 g) - 1))%Q) by (apply Qdiv_ge_0; lra).
    assert (X1 : ((sfQ (pw (yy x) g) - 1) / (sfQ (pw a1 g) - 1) <= 1)%Q) by (apply Qdiv_le_1; lra).
    split; [apply Qmult_le_0_compat; lra|]. rewrite Qmult_comm. eapply Qle_trans; [apply Qmult_le_compat_r; [exact X1|lra]|]. lra.
  Qed.
  Lemma uu_rel x : unit_float x -> rel (sfQ (uu x)) (qq x) (8 * ee).
  Proof.
    intros Hx. destruct (ss_ok x Hx) as (O & R & _ & [PA PB] & _). destruct (tt_ok x Hx) as (NT & TC & TU & TR). destruct D_ok as (ND & D1 & D2). assert (P := b2_pos (-24)). pose proof M1 as MY.
    assert (D0 : (0 < sfQ D)%Q) by lra. assert (I := Qinv_lt_0_compat _ D0). pose proof (nn_ge0 24 128 _ NT) as T0. pose proof (nn_ge0 24 128 _ (proj1 O)) as S0.
    assert (PE : (0 < sfQ (pw a1 g) - 1)%Q) by lra. assert (IE := Qinv_lt_0_compat _ PE).
    assert (R1 : rel (sfQ (uu x)) (sfQ (tt x) / sfQ D) ee).
    { apply (op_rel _ 17); [apply Qdiv_ge_0; assumption|now apply uu_op|]. destruct TC as [Z|G]; [left; unfold Qdiv; rewrite Z; apply Qmult_0_l|right].
      apply Qle_shift_div_l; [exact D0|]. eapply Qle_trans; [|exact G].
      assert (X : (b2 (-120) * sfQ D <= b2 (-120) * b2 93)%Q) by (rewrite !(Qmult_comm (b2 (-120))); apply Qmult_le_compat_r; [lra|apply Qlt_le_weak, b2_pos]).
      eapply Qle_trans; [exact X|]. vm_compute. discriminate. }
    assert (R2 : rel (sfQ (tt x) * / sfQ D) (inject_Z mx * (sfQ (pw (yy x) g) - 1) * / (sfQ (pw a1 g) - 1)) (6 * ee)).
    { apply (rel_mult _ _ (3 * ee) _ _ (2 * ee)); [|apply rel_inv; [apply D_rel|lra|unfold ee; split; discriminate]|exact T0|lra|apply Qmult_le_0_compat; lra|unfold ee; split; discriminate|unfold ee; split; discriminate|unfold ee; vm_compute; discriminate].
      apply (rel_trans _ (inject_Z mx * sfQ (ss x)) _ ee ee); [exact TR|apply rel_scale; [exact R|lra]|apply Qmult_le_0_compat; lra|unfold ee; split; discriminate|unfold ee; split; discriminate|unfold ee; vm_compute; discriminate]. }
    apply (rel_trans _ (sfQ (tt x) / sfQ D) _ ee (6 * ee)); [exact R1| |apply qq_bounds; exact Hx|unfold ee; split; discriminate|unfold ee; split; discriminate|unfold ee; vm_compute; discriminate].
    eapply rel_eq; [| |exact R2]; [reflexivity|]. unfold qq, Qdiv. ring.
  Qed.
  Lemma yy_rel k n : 0 <= k <= n -> 1 <= n < 65536 -> rel (sfQ (yy (frac32 k n))) (sfQ a * (inject_Z k / inject_Z n) + 1) (b2 (-20)).
  Proof.
    intros Hk Hn. destruct (frac_ok k n Hk Hn) as (Hx & _ & RX & _). set (x := frac32 k n) in *. set (X := (inject_Z k / inject_Z n)%Q) in *.
    assert (N1 := Z_ge1 n ltac:(lia)). assert (X0 : (0 <= X)%Q) by (apply Qdiv_ge_0; [lra|apply Z_ge0; lia]). pose proof (nn_ge0 24 128 a Na) as A0.
    assert (x0 := nn_ge0 24 128 x (proj1 Hx)). destruct (step_mul x Hx) as [O L].
    assert (C : (sfQ a * sfQ x == 0)%Q \/ (b2 (-120) <= sfQ a * sfQ x)%Q).
    { destruct (Z.eq_dec k 0) as [->|NZ]; [left; unfold x; rewrite frac_zero by lia; cbn [sfQ]; apply Qmult_0_r|right].
      assert (K1 := Z_ge1 k ltac:(lia)). assert (N2 : (inject_Z n <= 65536)%Q) by (change 65536%Q with (inject_Z 65536); apply injZ_le; lia).
      assert (XL : ((1 # 65536) <= X)%Q) by (apply Qle_shift_div_l; lra). destruct RX as [RA _]. change (b2 (-23)) with ee in RA. unfold ee in RA.
      assert (xl : ((1 # 131072) <= sfQ x)%Q) by lra. pose proof a_ge as AG.
      assert (Y1 : (b2 (-26) * (1 # 131072) <= sfQ a * (1 # 131072))%Q) by (apply Qmult_le_compat_r; [exact AG|discriminate]).
      assert (Y2 : (sfQ a * (1 # 131072) <= sfQ a * sfQ x)%Q) by (rewrite !(Qmult_comm (sfQ a)); apply Qmult_le_compat_r; assumption).
      assert (Y3 : (b2 (-120) <= b2 (-26) * (1 # 131072))%Q) by (vm_compute; discriminate). lra. }
    pose proof (op_rel (sfQ a * sfQ x) 90 _ ltac:(apply Qmult_le_0_compat; assumption) O C) as R1.
    assert (R2 : rel (sfQ (f32_mul a x)) (sfQ a * X) (3 * ee)).
    { apply (rel_trans _ (sfQ a * sfQ x) _ ee ee); [exact R1|apply rel_scale; [exact RX|exact A0]|apply Qmult_le_0_compat; assumption|unfold ee; split; discriminate|unfold ee; split; discriminate|unfold ee; vm_compute; discriminate]. }
    assert (AX : (0 <= sfQ a * X)%Q) by (apply Qmult_le_0_compat; assumption). pose proof (nn_ge0 24 128 _ (proj1 O)) as M0.
    pose proof (add_one_op (f32_mul a x) (proj1 O) ltac:(lra)) as O2.
    assert (R3 : rel (sfQ (yy x)) (sfQ (f32_mul a x) + 1) ee) by (apply (op_rel _ 91); [lra|exact O2|right; apply Qle_trans with 1%Q; [vm_compute; discriminate|lra]]).
    apply (rel_trans _ (sfQ (f32_mul a x) + 1) _ ee (3 * ee)); [exact R3| |lra|unfold ee; split; discriminate|unfold ee; split; discriminate|unfold ee; vm_compute; discriminate].
    destruct R2 as [RA RB]. unfold rel, ee in *. split; lra.
  Qed.

  Lemma down_sample k n : 0 <= k <= n -> 1 <= n < 65536 -> exists v, out_of mx (uu (frac32 k n)) v /\ toe_sample pw g a a1 mx k n v.
  Proof.
    intros Hk Hn. destruct (frac_ok k n Hk Hn) as (Hx & _ & _ & E1). pose proof (uu_op _ Hx) as O. pose proof (yy_rel k n Hk Hn) as YR. set (x := frac32 k n) in *.
    destruct (to_out_ok mx (uu x) ltac:(lia) (proj1 O)) as [v Ov]. exists v. split; [exact Ov|]. pose proof (qq_bounds x Hx) as QB. pose proof (uu_rel x Hx) as UR. pose proof mx_le as MX.
    assert (W : within (sfQ (uu x)) (qq x) (1 # 8)).
    { destruct UR as [UA UB]. unfold within, ee in *. assert ((qq x) * (8 * (1 # 8388608)) <= 65535 * (8 * (1 # 8388608)))%Q by (apply Qmult_le_compat_r; [lra|discriminate]). split; lra. }
    assert (PV : part v (qq x) (1 # 8)) by (apply (out_part mx (uu x)); [exact Ov|reflexivity|exact W|apply QB]).
    split; [|split].
    - exists (yy x). split; [apply yy_ok; exact Hx|]. split; [exact YR|]. exact PV.
    - intros ->. assert (Y1 : yy x = f_one).
      { unfold yy, x. rewrite frac_zero by lia. pose proof a_ge as AG. assert (P := b2_pos (-26)). rewrite mul_zero; [reflexivity|exact Na|lra]. }
      assert (Z : (qq x == 0)%Q).
      { unfold qq. rewrite Y1. destruct HP as [P _]. destruct (P f_one) as [[_ B] C]; [split; [split; reflexivity|vm_compute; discriminate]|]. unfold fle in C. rewrite (proj2 f_one_ok) in C.
        assert (EQ : (sfQ (pw f_one g) - 1 == 0)%Q) by lra. rewrite EQ. unfold Qdiv. rewrite Qmult_0_l. apply Qmult_0_r. }
      destruct UR as [UA UB]. rewrite Z in UB. destruct Ov as (_ & R & [[V1 B]|[B _]]); pose proof M1 as MY; [lra|].
      assert (v <= 0); [|lia]. apply injZ_le. change (inject_Z 0) with 0%Q. lra.
    - intros ->. assert (X1 : x = f_one) by (apply (nn_inj 24 128); [apply Hx|split; reflexivity|rewrite (E1 eq_refl); reflexivity]).
      assert (Y1 : yy x = a1).
      { unfold yy, a1. f_equal. rewrite X1. destruct (step_mul f_one) as [O1 _]; [split; [split; reflexivity|discriminate]|].
        apply (nn_inj 24 128); [apply O1|exact Na|]. apply (op_exact _ _ _ a O1 Na). rewrite (proj2 f_one_ok). ring. }
      assert (Q : (qq x == inject_Z mx)%Q). { unfold qq. rewrite Y1. field. lra. }
      destruct PV as [_ PB]. rewrite Q in PB. assert (mx < v + 2); [|lia]. apply injZ_lt. rewrite inject_Z_plus. change (inject_Z 2) with 2%Q. lra.
  Qed.
End GammaDown.

Theorem gamma_down pw mx cnt b w g : 1 <= mx <= 65535 -> 0 <= cnt <= 65536 -> unit_float b -> unit_float w -> fle b w ->
  SFltb g f_one = true -> pow_above pw g ->
  let a := toe_slope pw g in fnn a -> (sfQ a < b2 90)%Q -> (1 < sfQ (pw (f32_add a f_one) g))%Q ->
  exists low high, cuts cnt b w low high /\
    (high - low <> 1 -> exists t, lut_from_gamma pw mx cnt b w g = Ok t /\ table mx cnt low high (toe_sample pw g a (f32_add a f_one) mx) t /\ nondecreasing t).
Proof.
  intros Hmx Hcnt Hb Hw HL Hg HP a Na Ha HA.
  destruct (cuts_ok cnt b w Hcnt Hb Hw HL) as (low & high & E1 & E2 & C). exists low, high. split; [exact C|]. intros NE.
  assert (C1 := proj1 C). assert (C2 := proj1 (proj2 C)). unfold lut_from_gamma. rewrite Hg. fold a. cbv zeta.
  set (f := fun low0 high0 i : Z => _). assert (F : forall i, low <= i < high -> f low high i = to_out mx (uu pw mx g a (frac32 (i - low) (high - low - 1)))).
  { intros i Hi. unfold f. rewrite lut_x_ok by lia. reflexivity. }
  destruct (make_lut_ok mx cnt b w low high ltac:(lia) ltac:(lia) E1 E2 ltac:(lia) f (toe_sample pw g a (f32_add a f_one) mx)) as (t & Et & T & M).
  - intros i Hi. rewrite F by lia. destruct (down_sample pw mx g Hmx HP a Na Ha HA (i - low) (high - low - 1) ltac:(lia) ltac:(lia)) as (v & (A & R & _) & Sv). exists v. auto.
  - exists t. split; [exact Et|]. split; [exact T|]. apply M. intros i j v u Hij Hj Fi Fj. rewrite F in Fi, Fj by lia.
    destruct (down_sample pw mx g Hmx HP a Na Ha HA (i - low) (high - low - 1) ltac:(lia) ltac:(lia)) as (v' & O1 & _).
    destruct (down_sample pw mx g Hmx HP a Na Ha HA (j - low) (high - low - 1) ltac:(lia) ltac:(lia)) as (u' & O2 & _).
    assert (v' = v) by (destruct O1 as [O1 _]; congruence). assert (u' = u) by (destruct O2 as [O2 _]; congruence). subst. apply (out_mono mx _ _ v u O1 O2).
    apply uu_mono; try assumption; [apply frac_ok; lia|apply frac_ok; lia|apply frac_mono; lia].
Qed.
