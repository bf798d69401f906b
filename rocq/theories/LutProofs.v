(** Look-up tables: proofs. *)
From Coq Require Import QArith Qabs Lqa Floats.SpecFloat.
From Verif Require Import Base RectModel CopyModel CoordModel StatModel ScaleModel PixelModel CompositorModel
  FloatProofs SFloatProofs FloatMono ScaleNum PixelProofs FillProofs LutModel LutSpec.
Open Scope Z_scope.

(** ** the structure *)
Lemma map_range_ok n : forall a f, (forall i, a <= i < a + Z.of_nat n -> exists v, f i = Ok v) ->
  exists l, map_range n a f = Ok l /\ length l = n /\ (forall i, (i < n)%nat -> exists v, nth_error l i = Some v /\ f (a + Z.of_nat i) = Ok v).
Proof.
  induction n as [|n IH]; intros a f H.
  - exists []. split; [reflexivity|]. split; [reflexivity|]. intros i Hi. lia.
  - destruct (H a ltac:(lia)) as [v E]. destruct (IH (a + 1) f) as (l & El & L & N); [intros i Hi; apply H; lia|].
    exists (v :: l). cbn [map_range]. rewrite E. cbn [bind]. rewrite El. cbn [bind length]. split; [reflexivity|]. split; [now rewrite L|].
    intros [|i] Hi; cbn [nth_error].
    + exists v. split; [reflexivity|]. replace (a + Z.of_nat 0) with a by lia. exact E.
    + destruct (N i ltac:(lia)) as (u & A & B). exists u. split; [exact A|]. rewrite <- B. f_equal. lia.
Qed.

Lemma f32_mul_op x y N : fnn x -> fnn y -> (sfQ x * sfQ y < b2 N)%Q -> N <= 127 -> op_ok 24 128 (sfQ x * sfQ y) N (f32_mul x y).
Proof. intros. apply SFmul_op; try assumption; lia. Qed.

Lemma cut_ok b cnt : 0 <= cnt <= 65536 -> unit_float b ->
  exists k, f32_cast INT_MIN INT_MAX (f32_mul b (f32_of_Z cnt)) = Ok k /\ 0 <= k <= cnt /\ part k (inject_Z cnt * sfQ b) (1 # 256) /\
    fnn (f32_mul b (f32_of_Z cnt)) /\ (inject_Z k <= sfQ (f32_mul b (f32_of_Z cnt)) < inject_Z (k + 1))%Q.
Proof.
  intros Hc [Nb Ub]. destruct (f32_of_Z_ok cnt ltac:(lia)) as [Nc Qc]. pose proof (nn_ge0 24 128 b Nb) as B0.
  assert (C0 : (0 <= inject_Z cnt)%Q) by (change 0%Q with (inject_Z 0); apply injZ_le; lia).
  assert (C1 : (inject_Z cnt <= 65536)%Q) by (change 65536%Q with (inject_Z 65536); apply injZ_le; lia).
  assert (M : (sfQ b * inject_Z cnt <= inject_Z cnt)%Q). { rewrite <- (Qmult_1_l (inject_Z cnt)) at 2. apply Qmult_le_compat_r; assumption. }
  assert (LT : (sfQ b * sfQ (f32_of_Z cnt) < b2 17)%Q). { rewrite Qc. change (b2 17) with 131072%Q. lra. }
  pose proof (f32_mul_op b (f32_of_Z cnt) 17 Nb Nc LT ltac:(lia)) as O.
  assert (Nr := proj1 O). set (r := f32_mul b (f32_of_Z cnt)) in *. assert (S : sop 24 128 (sfQ b * sfQ (f32_of_Z cnt)) 17 r).
  { apply sop_of_op; [|exact O]. rewrite Qc. apply Qmult_le_0_compat; assumption. }
  apply (sop_eq _ _ _ (inject_Z cnt * sfQ b)) in S; [|rewrite Qc; ring].
  assert (U : (sfQ r <= inject_Z cnt)%Q).
  { rewrite <- (Qmult_1_r (inject_Z cnt)). rewrite <- b2_0. apply (sop_le 24 128 _ 17 r cnt 0 S); [vm_compute; discriminate|]. rewrite b2_0. lra. }
  pose proof (sop_abs 24 128 _ 17 r S ltac:(vm_compute; discriminate)) as A. apply Qabs_Qle_condition in A. change (b2 (17 - 24 - 1)) with (1 # 256)%Q in A.
  destruct (f32_cast_nn INT_MIN INT_MAX r Nr ltac:(unfold INT_MIN; lia)) as (k & E & K & T1 & T2).
  { eapply Qle_lt_trans; [exact U|]. apply injZ_lt. unfold INT_MAX. lia. }
  exists k. split; [exact E|]. split; [split; [lia|]|].
  { apply injZ_le. lra. }
  split; [|split; [exact Nr|split; assumption]].
  rewrite inject_Z_plus in T2. change (inject_Z 1) with 1%Q in T2. unfold part. split; lra.
Qed.
Lemma cuts_ok cnt b w : 0 <= cnt <= 65536 -> unit_float b -> unit_float w -> fle b w ->
  exists low high, f32_cast INT_MIN INT_MAX (f32_mul b (f32_of_Z cnt)) = Ok low /\ f32_cast INT_MIN INT_MAX (f32_mul w (f32_of_Z cnt)) = Ok high /\
    cuts cnt b w low high.
Proof.
  intros Hc Hb Hw L. destruct (cut_ok b cnt Hc Hb) as (low & E1 & R1 & P1 & N1 & T1). destruct (cut_ok w cnt Hc Hw) as (high & E2 & R2 & P2 & N2 & T2).
  exists low, high. split; [exact E1|]. split; [exact E2|]. split; [split; [lia|]|split; [lia|split; assumption]].
  destruct (Z.eq_dec cnt 0) as [->|NZ]; [lia|].
  assert (C0 : (0 < inject_Z cnt)%Q) by (change 0%Q with (inject_Z 0); apply injZ_lt; lia).
  assert (LE : (sfQ (f32_mul b (f32_of_Z cnt)) <= sfQ (f32_mul w (f32_of_Z cnt)))%Q).
  { destruct Hb as [Nb Ub], Hw as [Nw Uw]. apply (mono_cases 24 128 (fun x => f32_mul x (f32_of_Z cnt)) b w Nb Nw L). intros ST.
    destruct (f32_of_Z_ok cnt ltac:(lia)) as [Nc Qc].
    assert (C1 : (inject_Z cnt <= 65536)%Q) by (change 65536%Q with (inject_Z 65536); apply injZ_le; lia).
    assert (B : forall x, unit_float x -> (sfQ x * sfQ (f32_of_Z cnt) < b2 17)%Q).
    { intros x [_ Ux]. rewrite Qc. change (b2 17) with 131072%Q.
      assert (M : (sfQ x * inject_Z cnt <= 1 * inject_Z cnt)%Q) by (apply Qmult_le_compat_r; [assumption|lra]). lra. }
    apply (op_mono 24 128 ltac:(lia) _ 17 _ _ 17 _ (f32_mul_op b _ 17 Nb Nc (B b (conj Nb Ub)) ltac:(lia)) (f32_mul_op w _ 17 Nw Nc (B w (conj Nw Uw)) ltac:(lia))).
    rewrite Qc. apply Qmult_lt_r; assumption. }
  assert (low < high + 1); [|lia]. apply injZ_lt. lra.
Qed.

Section Make.
  Variables (mx cnt : Z) (b w : f32) (low high : Z).
  Hypothesis (Hmx : 0 <= mx) (Hcnt : 0 <= cnt).
  Hypothesis (E1 : f32_cast INT_MIN INT_MAX (f32_mul b (f32_of_Z cnt)) = Ok low) (E2 : f32_cast INT_MIN INT_MAX (f32_mul w (f32_of_Z cnt)) = Ok high).
  Hypothesis (HC : 0 <= low <= high /\ high <= cnt).
  Variables (f : Z -> Z -> Z -> res Z) (P : Z -> Z -> Z -> Prop).
  Hypothesis (Hf : forall i, low <= i < high -> exists v, f low high i = Ok v /\ 0 <= v <= mx /\ P (i - low) (high - low - 1) v).

  Lemma make_lut_ok : exists t, make_lut cnt b w mx f = Ok t /\ table mx cnt low high P t /\
    ((forall i j v u, low <= i <= j -> j < high -> f low high i = Ok v -> f low high j = Ok u -> v <= u) -> nondecreasing t).
  Proof.
    destruct (map_range_ok (Z.to_nat (high - low)) low (f low high)) as (mid & Em & L & N).
    { intros i Hi. destruct (Hf i ltac:(lia)) as (v & A & _). eauto. }
    unfold make_lut. replace (cnt <? 0) with false by lia. rewrite E1. cbn [bind]. rewrite E2. cbn [bind]. rewrite Em. cbn [bind].
    eexists. split; [reflexivity|].
    assert (LL : length (repeat 0 (Z.to_nat low) ++ mid ++ repeat mx (Z.to_nat (cnt - high))) = Z.to_nat cnt) by (rewrite !app_length, !repeat_length, L; lia).
    set (t := repeat 0 (Z.to_nat low) ++ mid ++ repeat mx (Z.to_nat (cnt - high))) in *.
    assert (A1 : forall i, (i < Z.to_nat low)%nat -> nth_error t i = Some 0).
    { intros i Hi. unfold t. rewrite nth_error_app1 by (rewrite repeat_length; lia). now apply nth_error_repeat. }
    assert (A2 : forall i, (Z.to_nat low <= i < Z.to_nat high)%nat -> exists v, nth_error t i = Some v /\ f low high (Z.of_nat i) = Ok v).
    { intros i Hi. unfold t. rewrite nth_error_app2 by (rewrite repeat_length; lia). rewrite repeat_length, nth_error_app1 by lia.
      destruct (N (i - Z.to_nat low)%nat ltac:(lia)) as (v & B & C). exists v. split; [exact B|]. rewrite <- C. f_equal. lia. }
    assert (A3 : forall i, (Z.to_nat high <= i < Z.to_nat cnt)%nat -> nth_error t i = Some mx).
    { intros i Hi. unfold t. rewrite nth_error_app2 by (rewrite repeat_length; lia). rewrite repeat_length, nth_error_app2 by lia. apply nth_error_repeat. lia. }
    clearbody t. split.
    - split; [lia|]. intros i Hi. destruct (Z_lt_le_dec i low) as [C|C]; [|destruct (Z_lt_le_dec i high) as [D|D]].
      + exists 0. rewrite A1 by lia. split; [reflexivity|]. split; [lia|]. split; [reflexivity|]. split; intros; lia.
      + destruct (A2 (Z.to_nat i) ltac:(lia)) as (v & V & F). rewrite Z2Nat.id in F by lia. destruct (Hf i ltac:(lia)) as (u & F2 & R & Q).
        assert (u = v) by congruence. subst u. exists v. split; [exact V|]. split; [exact R|]. split; [intros; lia|]. split; [intros; lia|]. intros _. exact Q.
      + exists mx. rewrite A3 by lia. split; [reflexivity|]. split; [lia|]. split; [intros; lia|]. split; [reflexivity|intros; lia].
    - intros HM i j v u Hij Hi Hj.
      assert (RJ : (j < Z.to_nat cnt)%nat) by (rewrite <- LL; apply nth_error_Some; congruence).
      assert (R : forall k x, (k < Z.to_nat cnt)%nat -> nth_error t k = Some x -> 0 <= x <= mx).
      { intros k x Hk K. destruct (le_lt_dec (Z.to_nat high) k) as [C|C]; [rewrite A3 in K by lia; assert (x = mx) by congruence; lia|].
        destruct (le_lt_dec (Z.to_nat low) k) as [D|D]; [|rewrite A1 in K by lia; assert (x = 0) by congruence; lia].
        destruct (A2 k ltac:(lia)) as (y & Y & F). destruct (Hf (Z.of_nat k) ltac:(lia)) as (z & F2 & R & _). assert (x = z) by congruence. now subst. }
      destruct (le_lt_dec (Z.to_nat high) j) as [C|C].
      { rewrite (A3 j) in Hj by lia. assert (u = mx) by congruence. subst u. apply (R i v); [lia|exact Hi]. }
      destruct (le_lt_dec (Z.to_nat low) i) as [D|D].
      2:{ rewrite (A1 i) in Hi by lia. assert (v = 0) by congruence. subst v. apply (R j u); [lia|exact Hj]. }
      destruct (A2 i ltac:(lia)) as (v' & V & F). destruct (A2 j ltac:(lia)) as (u' & U & G).
      assert (v = v') by congruence. assert (u = u') by congruence. subst. apply (HM (Z.of_nat i) (Z.of_nat j)); try assumption; lia.
  Qed.
End Make.

(** ** positions *)
Lemma of_Z_pos n : 1 <= n < 2 ^ 24 -> exists m e, f32_of_Z n = S754_finite false m e.
Proof.
  intros H. destruct (f32_of_Z_ok n ltac:(lia)) as [[_ N] Q]. destruct (f32_of_Z n) as [s|s| |s m e]; try contradiction.
  - exfalso. cbn [sfQ] in Q. assert ((0 < inject_Z n)%Q) by (change 0%Q with (inject_Z 0); apply injZ_lt; lia). lra.
  - subst s. eauto.
Qed.
Lemma Z_ge0 k : 0 <= k -> (0 <= inject_Z k)%Q.
Proof. intros. change 0%Q with (inject_Z 0). now apply injZ_le. Qed.
Lemma Z_ge1 k : 1 <= k -> (1 <= inject_Z k)%Q.
Proof. intros. change 1%Q with (inject_Z 1). now apply injZ_le. Qed.
Lemma Qdiv_le_1 a b : (0 < b)%Q -> (a <= b)%Q -> (a / b <= 1)%Q.
Proof. intros B L. apply Qle_shift_div_r; [exact B|]. lra. Qed.
Lemma Qdiv_ge_0 a b : (0 < b)%Q -> (0 <= a)%Q -> (0 <= a / b)%Q.
Proof. intros B L. apply Qle_shift_div_l; [exact B|]. lra. Qed.

Definition frac32 (k n : Z) : f32 := f32_div (f32_of_Z k) (f32_of_Z n).
Lemma frac_op k n : 1 <= k <= n -> n < 65536 -> op_ok 24 128 (inject_Z k / inject_Z n) 1 (frac32 k n).
Proof.
  intros Hk Hn. destruct (f32_of_Z_ok k ltac:(lia)) as [Nk Qk]. destruct (f32_of_Z_ok n ltac:(lia)) as [Nn Qn].
  assert (K1 := Z_ge1 k ltac:(lia)). assert (N1 := Z_ge1 n ltac:(lia)). assert (N2 : (inject_Z n <= 65536)%Q) by (change 65536%Q with (inject_Z 65536); apply injZ_le; lia).
  assert (KN : (inject_Z k <= inject_Z n)%Q) by (apply injZ_le; lia).
  assert (E : (sfQ (f32_of_Z k) / sfQ (f32_of_Z n) == inject_Z k / inject_Z n)%Q) by (rewrite Qk, Qn; reflexivity).
  eapply op_ok_eq; [exact E|]. apply SFdiv_op; try assumption; try lia.
  - rewrite Qn. lra.
  - rewrite E. apply Qle_shift_div_l; [lra|]. eapply Qle_trans; [|exact K1].
    assert (b2 (emin 24 128) * inject_Z n <= b2 (emin 24 128) * 65536)%Q.
    { rewrite !(Qmult_comm (b2 (emin 24 128))). apply Qmult_le_compat_r; [exact N2|apply Qlt_le_weak, b2_pos]. }
    eapply Qle_trans; [eassumption|]. vm_compute. discriminate.
  - rewrite E. eapply Qle_lt_trans; [apply Qdiv_le_1; [lra|exact KN]|]. reflexivity.
Qed.
Lemma frac_zero n : 1 <= n < 65536 -> frac32 0 n = S754_zero false.
Proof. intros H. unfold frac32. destruct (of_Z_pos n ltac:(lia)) as (m & e & E). rewrite E. reflexivity. Qed.
Lemma frac_ok k n : 0 <= k <= n -> 1 <= n < 65536 ->
  unit_float (frac32 k n) /\ within (sfQ (frac32 k n)) (inject_Z k / inject_Z n) (b2 (-24)) /\
  rel (sfQ (frac32 k n)) (inject_Z k / inject_Z n) (b2 (-23)) /\ (k = n -> (sfQ (frac32 k n) == 1)%Q).
Proof.
  intros Hk Hn. assert (N1 := Z_ge1 n ltac:(lia)). destruct (Z.eq_dec k 0) as [->|NZ].
  { rewrite frac_zero by lia. cbn [sfQ]. assert (E : (inject_Z 0 / inject_Z n == 0)%Q) by (unfold Qdiv; apply Qmult_0_l).
    split; [split; [split; reflexivity|discriminate]|]. split; [|split; [|intros; lia]]; unfold within, rel; rewrite E; split; vm_compute; discriminate. }
  pose proof (frac_op k n ltac:(lia) ltac:(lia)) as O. assert (K1 := Z_ge1 k ltac:(lia)). assert (KN : (inject_Z k <= inject_Z n)%Q) by (apply injZ_le; lia).
  assert (X0 : (0 <= inject_Z k / inject_Z n)%Q) by (apply Qdiv_ge_0; lra). assert (X1 : (inject_Z k / inject_Z n <= 1)%Q) by (apply Qdiv_le_1; lra).
  assert (N2 : (inject_Z n <= 65536)%Q) by (change 65536%Q with (inject_Z 65536); apply injZ_le; lia).
  assert (X2 : ((1 # 65536) <= inject_Z k / inject_Z n)%Q) by (apply Qle_shift_div_l; lra).
  pose proof (sop_of_op 24 128 _ _ _ X0 O) as S. set (x := frac32 k n) in *. set (X := (inject_Z k / inject_Z n)%Q) in *.
  split; [split; [apply O|]|split; [|split]].
  - change 1%Q with (inject_Z 1 * b2 0)%Q. apply (sop_le 24 128 X 1 x 1 0 S); [vm_compute; discriminate|]. rewrite b2_0. change (inject_Z 1) with 1%Q. lra.
  - pose proof (sop_abs 24 128 X 1 x S ltac:(vm_compute; discriminate)) as A. apply Qabs_Qle_condition in A. change (1 - 24 - 1) with (-24) in A. unfold within. split; lra.
  - pose proof (sop_rel 24 128 X 1 x S) as A. apply Qabs_Qle_condition in A. rewrite (Qabs_pos X X0) in A. change (b2 (-(24))) with (1 # 16777216)%Q in A. change (b2 (-23)) with (1 # 8388608)%Q.
    assert (T : (b2 (emin 24 128 - 1) <= (1 # 65536) * (1 # 16777216))%Q) by (vm_compute; discriminate). unfold rel. split; lra.
  - intros ->. assert (XE : (X == 1)%Q). { unfold X. field. lra. } rewrite (sop_exact 24 128 X 1 x 1 0 S); [exact XE| |vm_compute; discriminate]. rewrite XE, b2_0. reflexivity.
Qed.
Lemma frac_mono k l n : 0 <= k <= l -> l <= n -> 1 <= n < 65536 -> fle (frac32 k n) (frac32 l n).
Proof.
  intros Hkl Hl Hn. destruct (Z.eq_dec k 0) as [->|NZ]; [rewrite frac_zero by lia; unfold fle; cbn [sfQ]; apply (nn_ge0 24 128); apply (frac_ok l n); lia|].
  destruct (Z.eq_dec k l) as [->|NE]; [apply Qle_refl|]. assert (N1 := Z_ge1 n ltac:(lia)).
  apply (op_mono 24 128 ltac:(lia) _ 1 _ _ 1 _ (frac_op k n ltac:(lia) ltac:(lia)) (frac_op l n ltac:(lia) ltac:(lia))).
  unfold Qdiv. apply Qmult_lt_compat_r; [apply Qinv_lt_0_compat; lra|]. apply injZ_lt. lia.
Qed.
Lemma lut_x_ok low high i : 0 <= low <= i -> i < high <= 65536 -> lut_x low high i = Ok (frac32 (i - low) (high - low - 1)).
Proof. intros A B. unfold lut_x. rewrite chk_ok by lia. cbn [bind]. rewrite chk_ok by lia. cbn [bind]. rewrite chk_ok by lia. reflexivity. Qed.

(** ** output *)
Definition out_of (mx : Z) (val : f32) (v : Z) : Prop := to_out mx val = Ok v /\ 0 <= v <= mx /\ ((v = mx /\ (inject_Z mx <= sfQ val)%Q) \/ (inject_Z v <= sfQ val < inject_Z v + 1)%Q).
Lemma to_out_ok mx val : 0 <= mx <= 65535 -> fnn val -> exists v, out_of mx val v.
Proof.
  intros Hm Hv. destruct (f32_of_Z_ok mx ltac:(lia)) as [Nm Qm]. destruct (f32_of_Z_ok 0 ltac:(lia)) as [N0 Q0].
  unfold out_of, to_out. destruct (SFltb (f32_of_Z mx) val) eqn:C.
  - apply (nn_ltb 24 128) in C; [|assumption..]. rewrite Qm in C.
    destruct (f32_cast_nn 0 mx (f32_of_Z mx) Nm ltac:(lia)) as (t & E & T & T1 & T2); [rewrite Qm; apply injZ_lt; lia|].
    exists t. split; [exact E|]. split; [exact T|]. left. rewrite Qm in T1, T2. rewrite <- injZ_le in *. split; [|lra].
    apply Z.le_antisymm; [lia|]. assert (mx < t + 1) by (now apply injZ_lt). lia.
  - assert (C' : (sfQ val <= inject_Z mx)%Q).
    { destruct (Qlt_le_dec (inject_Z mx) (sfQ val)) as [D|D]; [|exact D]. rewrite <- Qm in D. apply (nn_ltb 24 128) in D; [congruence|assumption..]. }
    assert (V0 := nn_ge0 24 128 val Hv). destruct (SFltb val (f32_of_Z 0)) eqn:D.
    { apply (nn_ltb 24 128) in D; [|assumption..]. rewrite Q0 in D. change (inject_Z 0) with 0%Q in D. lra. }
    destruct (f32_cast_nn 0 mx val Hv ltac:(lia)) as (t & E & T & T1 & T2); [eapply Qle_lt_trans; [exact C'|]; apply injZ_lt; lia|].
    exists t. split; [exact E|]. split; [exact T|]. right. rewrite inject_Z_plus in T2. change (inject_Z 1) with 1%Q in T2. split; assumption.
Qed.
Lemma out_mono mx x y v u : out_of mx x v -> out_of mx y u -> fle x y -> v <= u.
Proof.
  intros (_ & A & B) (_ & C & D) L. unfold fle in L.
  destruct B as [[-> B]|[B B']]; destruct D as [[-> D]|[D D']]; try lia; assert (H : forall z, (inject_Z z < inject_Z u + 1)%Q -> z <= u) by
    (intros z Hz; assert (z < u + 1); [apply injZ_lt; rewrite inject_Z_plus; exact Hz|lia]); apply H; lra.
Qed.
Lemma out_part mx val X v e : out_of mx val v -> (0 < e)%Q -> within (sfQ val) X e -> (X <= inject_Z mx)%Q -> part v X e.
Proof. intros (_ & _ & [[-> B]|[B C]]) He [L U] XM; unfold part; split; lra. Qed.

(** ** gamma of at least one *)
Section GammaUp.
  Variables (pw : f32 -> f32 -> f32) (mx cnt : Z) (b w g : f32).
  Hypothesis (Hmx : 1 <= mx <= 65535) (Hcnt : 0 <= cnt <= 65536) (Hb : unit_float b) (Hw : unit_float w) (HL : fle b w).
  Hypothesis (Hg : SFltb g f_one = false) (HP : pow_unit pw g).

  Lemma up_val x : unit_float x -> op_ok 24 128 (inject_Z mx * sfQ (pw x g)) 16 (f32_mul (f32_of_Z mx) (pw x g)).
  Proof.
    intros Hx. destruct HP as (P1 & _). destruct (P1 x Hx) as [Np Up]. destruct (f32_of_Z_ok mx ltac:(lia)) as [Nm Qm].
    assert (P0 := nn_ge0 24 128 _ Np). assert (M1 := Z_ge1 mx ltac:(lia)). assert (M2 : (inject_Z mx <= 65535)%Q) by (change 65535%Q with (inject_Z 65535); apply injZ_le; lia).
    eapply op_ok_eq; [rewrite <- Qm; reflexivity|]. apply f32_mul_op; [assumption|assumption| |lia]. rewrite Qm. change (b2 16) with 65536%Q.
    assert (sfQ (pw x g) * inject_Z mx <= 1 * inject_Z mx)%Q by (apply Qmult_le_compat_r; lra). lra.
  Qed.
  Lemma up_mono x y : unit_float x -> unit_float y -> fle x y -> fle (f32_mul (f32_of_Z mx) (pw x g)) (f32_mul (f32_of_Z mx) (pw y g)).
  Proof.
    intros Hx Hy L. destruct HP as (P1 & P2 & _). apply (mono_cases 24 128 (fun p => f32_mul (f32_of_Z mx) p)); [apply (P1 x Hx)|apply (P1 y Hy)|now apply P2|].
    intros ST. apply (op_mono 24 128 ltac:(lia) _ _ _ _ _ _ (up_val x Hx) (up_val y Hy)). assert (M1 := Z_ge1 mx ltac:(lia)).
    rewrite !(Qmult_comm (inject_Z mx)). apply Qmult_lt_compat_r; [lra|exact ST].
  Qed.
  Lemma up_sample k n : 0 <= k <= n -> 1 <= n < 65536 -> exists v, out_of mx (f32_mul (f32_of_Z mx) (pw (frac32 k n) g)) v /\ gamma_sample pw g mx k n v.
  Proof.
    intros Hk Hn. destruct (frac_ok k n Hk Hn) as (U & W & _ & E1). pose proof (up_val _ U) as O. set (x := frac32 k n) in *.
    destruct (to_out_ok mx _ ltac:(lia) (proj1 O)) as [v Ov]. exists v. split; [exact Ov|].
    assert (M1 := Z_ge1 mx ltac:(lia)). destruct HP as (P1 & P2 & Z0 & Z1). destruct (P1 x U) as [Np Up]. assert (P0 := nn_ge0 24 128 _ Np).
    assert (XM : (inject_Z mx * sfQ (pw x g) <= inject_Z mx)%Q).
    { assert (sfQ (pw x g) * inject_Z mx <= 1 * inject_Z mx)%Q by (apply Qmult_le_compat_r; lra). lra. }
    assert (S : sop 24 128 (inject_Z mx * sfQ (pw x g)) 16 (f32_mul (f32_of_Z mx) (pw x g))) by (apply sop_of_op; [apply Qmult_le_0_compat; lra|exact O]).
    split; [|split].
    - exists x. split; [exact U|]. split; [exact W|]. apply (out_part mx (f32_mul (f32_of_Z mx) (pw x g))); [exact Ov|reflexivity| |exact XM].
      pose proof (sop_abs 24 128 _ 16 _ S ltac:(vm_compute; discriminate)) as A. apply Qabs_Qle_condition in A. change (b2 (16 - 24 - 1)) with (1 # 512)%Q in A. unfold within. split; lra.
    - intros ->. destruct Ov as (Ev & _). unfold x in Ev. rewrite frac_zero, Z0 in Ev by lia. destruct (of_Z_pos mx ltac:(lia)) as (m & e & Em). rewrite Em in Ev. cbn in Ev. unfold to_out in Ev. rewrite Em in Ev. cbn in Ev. congruence.
    - intros ->. assert (X1 : x = S754_finite false 8388608 (-23)).
      { apply (nn_inj 24 128); [apply U|split; reflexivity|]. rewrite (E1 eq_refl). reflexivity. }
      rewrite X1 in S. apply (sop_eq _ _ _ (inject_Z mx)) in S; [|rewrite Z1; ring].
      assert (Q : (sfQ (f32_mul (f32_of_Z mx) (pw x g)) == inject_Z mx)%Q).
      { rewrite X1. apply (sop_exact 24 128 _ 16 _ mx 0 S); [rewrite b2_0; ring|vm_compute; discriminate]. }
      destruct Ov as (_ & R & [[-> _]|[A B]]); [reflexivity|]. rewrite Q in B. assert (mx < v + 1); [apply injZ_lt; rewrite inject_Z_plus; exact B|lia].
  Qed.
  Theorem gamma_up : exists low high, cuts cnt b w low high /\
    (high - low <> 1 -> exists t, lut_from_gamma pw mx cnt b w g = Ok t /\ table mx cnt low high (gamma_sample pw g mx) t /\ nondecreasing t).
  Proof.
    destruct (cuts_ok cnt b w Hcnt Hb Hw HL) as (low & high & E1 & E2 & C). exists low, high. split; [exact C|]. intros NE.
    assert (C1 := proj1 C). assert (C2 := proj1 (proj2 C)). unfold lut_from_gamma. rewrite Hg.
    set (f := fun low0 high0 i : Z => _). assert (F : forall i, low <= i < high -> f low high i = to_out mx (f32_mul (f32_of_Z mx) (pw (frac32 (i - low) (high - low - 1)) g))).
    { intros i Hi. unfold f. rewrite lut_x_ok by lia. reflexivity. }
    destruct (make_lut_ok mx cnt b w low high ltac:(lia) ltac:(lia) E1 E2 ltac:(lia) f (gamma_sample pw g mx)) as (t & Et & T & M).
    - intros i Hi. rewrite F by lia. destruct (up_sample (i - low) (high - low - 1) ltac:(lia) ltac:(lia)) as (v & (A & R & _) & Sv). exists v. auto.
    - exists t. split; [exact Et|]. split; [exact T|]. apply M. intros i j v u Hij Hj Fi Fj. rewrite F in Fi, Fj by lia.
      destruct (up_sample (i - low) (high - low - 1) ltac:(lia) ltac:(lia)) as (v' & O1 & _). destruct (up_sample (j - low) (high - low - 1) ltac:(lia) ltac:(lia)) as (u' & O2 & _).
      assert (v' = v) by (destruct O1 as [O1 _]; congruence). assert (u' = u) by (destruct O2 as [O2 _]; congruence). subst. apply (out_mono mx _ _ v u O1 O2).
      apply up_mono; [apply frac_ok; lia|apply frac_ok; lia|apply frac_mono; lia].
  Qed.
End GammaUp.
