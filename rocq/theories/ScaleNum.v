(** Error bounds for the arithmetic of the scaling accessor. *)
From Coq Require Import QArith Qabs Lqa Floats.SpecFloat Morphisms.
From Verif Require Import Base FloatProofs SFloatProofs RectModel CopyModel CoordModel StatModel AccessModel ScaleModel.
Open Scope Z_scope.

Notation fin64 := (fin 53 1024).
Notation sop64 := (sop 53 1024).
(** [v] differs from [X] by at most [e] *)
Definition near (v X e : Q) : Prop := (X - e <= v /\ v <= X + e)%Q.

Lemma near_abs v X e : (Qabs (v - X) <= e)%Q <-> near v X e.
Proof. rewrite Qabs_Qle_condition. unfold near. split; intros [A B]; split; lra. Qed.
Lemma near_abs_lt X e : (- e < X)%Q -> (X < e)%Q -> (Qabs X < e)%Q.
Proof. intros A B. apply Qabs_case; intros _; lra. Qed.
Lemma near_weaken v X e f : near v X e -> (e <= f)%Q -> near v X f.
Proof. unfold near. intros [A B] H. split; lra. Qed.
Lemma near_eq v w X Y e : (v == w)%Q -> (X == Y)%Q -> near v X e -> near w Y e.
Proof. intros H1 H2. unfold near. rewrite H1, H2. trivial. Qed.

Lemma sop_near X N r : sop64 X N r -> -1000 <= N -> near (sfQ r) X (b2 (N - 54)).
Proof. intros H HN. apply near_abs. replace (N - 54) with (N - 53 - 1) by lia. apply (sop_abs 53 1024 X N r H). change (emin 53 1024) with (-1074). lia. Qed.
Lemma sop_near_rel X N r : sop64 X N r -> (b2 (-200) <= X)%Q -> near (sfQ r) X (X * b2 (-52)).
Proof.
  intros H HX. pose proof (sop_rel 53 1024 X N r H) as R.
  assert (P := b2_pos (-200)). assert (X0 : (0 <= X)%Q) by lra. rewrite (Qabs_pos X X0) in R. apply near_abs. eapply Qle_trans; [exact R|].
  change (emin 53 1024 - 1) with (-875 + -200). rewrite b2_plus. change (- (53)) with (-53). assert (E52 : (b2 (-52) == 2 * b2 (-53))%Q) by reflexivity. rewrite E52.
  assert (b2 (-875) <= b2 (-53))%Q by (apply b2_le; lia).
  assert (b2 (-875) * b2 (-200) <= b2 (-53) * b2 (-200))%Q by (apply Qmult_le_compat_r; [assumption|lra]).
  assert (b2 (-200) * b2 (-53) <= X * b2 (-53))%Q by (apply Qmult_le_compat_r; [assumption|apply Qlt_le_weak, b2_pos]). lra.
Qed.

Lemma of_Z_exact z : - 2 ^ 53 < z < 2 ^ 53 -> fin64 (f64_of_Z z) /\ (sfQ (f64_of_Z z) == inject_Z z)%Q.
Proof.
  intros Hz. unfold f64_of_Z. assert (HX : (inject_Z z == inject_Z z * b2 0)%Q) by (rewrite b2_0; ring).
  assert (HA : (Qabs (inject_Z z) < b2 53)%Q).
  { rewrite (b2_Z 53) by lia. apply near_abs_lt; [rewrite <- inject_Z_opp|]; apply injZ_lt; lia. }
  pose proof (normalize_sop 53 1024 ltac:(lia) ltac:(lia) z 0 false (inject_Z z) 53 HX HA ltac:(lia)) as S.
  split; [apply S|]. apply (sop_exact 53 1024 (inject_Z z) 53 _ z 0 S HX). vm_compute. congruence.
Qed.

Section Ops.
  Variables (x y : spec_float) (N : Z).
  Hypothesis (Fx : fin64 x) (Fy : fin64 y) (HN : -1000 <= N <= 1023).
  Lemma add_near : (- b2 N < sfQ x + sfQ y)%Q -> (sfQ x + sfQ y < b2 N)%Q -> fin64 (f64_add x y) /\ near (sfQ (f64_add x y)) (sfQ x + sfQ y) (b2 (N - 54)).
  Proof.
    intros A B. pose proof (SFadd_sop 53 1024 ltac:(lia) ltac:(lia) x y N Fx Fy (near_abs_lt _ _ A B) ltac:(lia)) as S.
    split; [apply S|]. now apply sop_near.
  Qed.
  Lemma sub_near : (- b2 N < sfQ x - sfQ y)%Q -> (sfQ x - sfQ y < b2 N)%Q -> fin64 (f64_sub x y) /\ near (sfQ (f64_sub x y)) (sfQ x - sfQ y) (b2 (N - 54)).
  Proof.
    intros A B. pose proof (SFsub_sop 53 1024 ltac:(lia) ltac:(lia) x y N Fx Fy (near_abs_lt _ _ A B) ltac:(lia)) as S.
    split; [apply S|]. now apply sop_near.
  Qed.
  Lemma mul_near : (- b2 N < sfQ x * sfQ y)%Q -> (sfQ x * sfQ y < b2 N)%Q -> fin64 (f64_mul x y) /\ near (sfQ (f64_mul x y)) (sfQ x * sfQ y) (b2 (N - 54)).
  Proof.
    intros A B. pose proof (SFmul_sop 53 1024 ltac:(lia) ltac:(lia) x y N Fx Fy (near_abs_lt _ _ A B) ltac:(lia)) as S.
    split; [apply S|]. now apply sop_near.
  Qed.
  Lemma mul_near_rel : (b2 (-200) <= sfQ x * sfQ y)%Q -> (sfQ x * sfQ y < b2 N)%Q -> fin64 (f64_mul x y) /\ near (sfQ (f64_mul x y)) (sfQ x * sfQ y) (sfQ x * sfQ y * b2 (-52)).
  Proof.
    intros A B. assert (P := b2_pos (-200)). assert (P2 := b2_pos N).
    pose proof (SFmul_sop 53 1024 ltac:(lia) ltac:(lia) x y N Fx Fy (near_abs_lt (sfQ x * sfQ y) (b2 N) ltac:(lra) B) ltac:(lia)) as S.
    split; [apply S|]. now apply (sop_near_rel _ N).
  Qed.
  Lemma div_near_rel : (0 < sfQ y)%Q -> (b2 (-200) <= sfQ x / sfQ y)%Q -> (sfQ x / sfQ y < b2 N)%Q -> fin64 (f64_div x y) /\ near (sfQ (f64_div x y)) (sfQ x / sfQ y) (sfQ x / sfQ y * b2 (-52)).
  Proof.
    intros Y A B. assert (P := b2_pos (-200)). assert (P2 := b2_pos N).
    assert (S : sop64 (sfQ x / sfQ y) N (f64_div x y)).
    { apply SFdiv_sop; try assumption; try lia; [lra| |apply near_abs_lt; [lra|exact B]]. right.
      rewrite Qabs_pos by lra. eapply Qle_trans; [|exact A]. apply b2_le. vm_compute. congruence. }
    split; [apply S|]. now apply (sop_near_rel _ N).
  Qed.
  (** a quotient which may be tiny or negative *)
  Lemma div_near : (0 < sfQ y)%Q -> (sfQ x == 0)%Q \/ (b2 (-200) <= Qabs (sfQ x / sfQ y))%Q -> (- b2 N < sfQ x / sfQ y)%Q -> (sfQ x / sfQ y < b2 N)%Q ->
    fin64 (f64_div x y) /\ near (sfQ (f64_div x y)) (sfQ x / sfQ y) (b2 (N - 54)).
  Proof.
    intros Y D A B.
    assert (S : sop64 (sfQ x / sfQ y) N (f64_div x y)).
    { apply SFdiv_sop; try assumption; try lia; [lra| |apply near_abs_lt; [exact A|exact B]]. destruct D as [D|D]; [now left|right].
      eapply Qle_trans; [|exact D]. apply b2_le. vm_compute. congruence. }
    split; [apply S|]. now apply sop_near.
  Qed.
End Ops.

(** ** Conversion to integers *)
Lemma frac_ok x : fin64 x -> exists n d, frac x = Some (n, d) /\ 0 < d /\ (sfQ x * inject_Z d == inject_Z n)%Q.
Proof.
  intros [V F]. destruct x as [s|s| |s m e]; try discriminate; cbn [frac].
  - exists 0, 1. repeat split; lia.
  - exists (cond_Zopp s (Zpos m * 2 ^ Z.max e 0)), (2 ^ Z.max (- e) 0). split; [reflexivity|]. split; [lia|].
    cbn [sfQ]. rewrite <- (b2_Z (Z.max (- e) 0)) by lia.
    replace (cond_Zopp s (Zpos m * 2 ^ Z.max e 0)) with (cond_Zopp s (Zpos m) * 2 ^ Z.max e 0) by (destruct s; cbn [cond_Zopp]; lia).
    rewrite inject_Z_mult, <- (b2_Z (Z.max e 0)) by lia. rewrite <- Qmult_assoc, <- b2_plus. replace (e + Z.max (- e) 0) with (Z.max e 0) by lia.
    destruct s; reflexivity.
Qed.
Lemma Q_num x n d k : 0 < d -> (x * inject_Z d == inject_Z n)%Q -> ((inject_Z k <= x)%Q <-> k * d <= n) /\ ((x <= inject_Z k)%Q <-> n <= k * d).
Proof.
  intros Hd H. assert (D : (0 < inject_Z d)%Q) by (apply injZ_lt; exact Hd).
  split; rewrite <- injZ_le, inject_Z_mult, <- H; split; intros A; solve [apply Qmult_le_compat_r; [exact A|lra] | apply (Qmult_le_r _ _ (inject_Z d)); [exact D|exact A]].
Qed.

Lemma Q_num_lt x n d k : 0 < d -> (x * inject_Z d == inject_Z n)%Q -> ((inject_Z k < x)%Q <-> k * d < n) /\ ((x < inject_Z k)%Q <-> n < k * d).
Proof.
  intros Hd H. destruct (Q_num x n d k Hd H) as [A B]. split; split; intros C.
  - destruct (Z_lt_le_dec (k * d) n) as [L|L]; [exact L|]. apply B in L. lra.
  - destruct (Qlt_le_dec (inject_Z k) x) as [L|L]; [exact L|]. apply B in L. lia.
  - destruct (Z_lt_le_dec n (k * d)) as [L|L]; [exact L|]. apply A in L. lra.
  - destruct (Qlt_le_dec x (inject_Z k)) as [L|L]; [exact L|]. apply A in L. lia.
Qed.
Lemma chk_ok z : - 2 ^ 31 <= z < 2 ^ 31 -> chk z = Ok z.
Proof. intros H. unfold chk, in_i32b, INT_MIN, INT_MAX. destruct (_ && _) eqn:E; [reflexivity|lia]. Qed.
Lemma injZ_1 k : (inject_Z (k + 1) == inject_Z k + 1)%Q.
Proof. rewrite inject_Z_plus. reflexivity. Qed.
(** static_cast<int> of a non-negative number *)
Lemma cast_int_ok x : fin64 x -> (0 <= sfQ x)%Q -> (sfQ x < b2 30)%Q -> exists k, cast_int x = Ok k /\ (inject_Z k <= sfQ x < inject_Z k + 1)%Q.
Proof.
  intros F P B. destruct (frac_ok x F) as (n & d & E & D & Q). unfold cast_int. rewrite E.
  assert (n0 : 0 * d <= n) by (apply (Q_num _ n d 0 D Q); exact P).
  assert (n1 : n < 2 ^ 30 * d) by (apply (Q_num_lt _ n d (2 ^ 30) D Q); rewrite <- b2_Z by lia; exact B).
  rewrite Z.quot_div_nonneg by lia. pose proof (Z.mul_div_le n d D). pose proof (Z.mul_succ_div_gt n d D).
  assert (0 <= n / d) by (apply Z.div_pos; lia). assert (n / d < 2 ^ 30) by (apply Z.div_lt_upper_bound; lia).
  exists (n / d). split; [apply chk_ok; lia|]. split.
  - apply (Q_num _ n d (n / d) D Q). nia.
  - rewrite <- injZ_1. apply (Q_num_lt _ n d (n / d + 1) D Q). nia.
Qed.
Lemma ceil_int_ok x : fin64 x -> (- b2 30 < sfQ x)%Q -> (sfQ x < b2 30)%Q -> exists k, ceil_int x = Ok k /\ (sfQ x <= inject_Z k < sfQ x + 1)%Q.
Proof.
  intros F P B. destruct (frac_ok x F) as (n & d & E & D & Q). unfold ceil_int. rewrite E.
  assert (n0 : - 2 ^ 30 * d < n) by (apply (Q_num_lt _ n d (- 2 ^ 30) D Q); rewrite inject_Z_opp, <- b2_Z by lia; exact P).
  assert (n1 : n < 2 ^ 30 * d) by (apply (Q_num_lt _ n d (2 ^ 30) D Q); rewrite <- b2_Z by lia; exact B).
  set (k := - (- n / d)). pose proof (Z.mul_div_le (- n) d D). pose proof (Z.mul_succ_div_gt (- n) d D).
  assert (- n / d < 2 ^ 30) by (apply Z.div_lt_upper_bound; lia). assert (- 2 ^ 30 - 1 < - n / d) by nia.
  exists k. split; [apply chk_ok; unfold k; lia|]. split.
  - apply (Q_num _ n d k D Q). unfold k. nia.
  - assert (G : (inject_Z (k - 1) < sfQ x)%Q) by (apply (Q_num_lt _ n d (k - 1) D Q); unfold k; nia).
    replace k with (k - 1 + 1) by lia. rewrite injZ_1. lra.
Qed.
Lemma lround_ok x : fin64 x -> (- b2 30 < sfQ x)%Q -> (sfQ x < b2 30)%Q -> exists k, lround x = Ok k /\ near (inject_Z k) (sfQ x) (1 # 2).
Proof.
  intros F P B. destruct (frac_ok x F) as (n & d & E & D & Q). unfold lround. rewrite E. cbv zeta.
  assert (n0 : - 2 ^ 30 * d < n) by (apply (Q_num_lt _ n d (- 2 ^ 30) D Q); rewrite inject_Z_opp, <- b2_Z by lia; exact P).
  assert (n1 : n < 2 ^ 30 * d) by (apply (Q_num_lt _ n d (2 ^ 30) D Q); rewrite <- b2_Z by lia; exact B).
  set (q := (2 * Z.abs n + d) / (2 * d)).
  pose proof (Z.mul_div_le (2 * Z.abs n + d) (2 * d) ltac:(lia)) as L. pose proof (Z.mul_succ_div_gt (2 * Z.abs n + d) (2 * d) ltac:(lia)) as U. fold q in L, U.
  set (k := Z.sgn n * q). assert (K : 2 * n - d <= 2 * (k * d) <= 2 * n + d) by (unfold k; destruct (Z.sgn_spec n) as [[S ->]|[[S ->]|[S ->]]]; nia).
  assert (KB : - 2 ^ 31 < k < 2 ^ 31) by nia.
  exists k. split; [destruct (_ && _) eqn:G; [reflexivity|lia]|].
  assert (Q2 : (2 * sfQ x * inject_Z d == inject_Z (2 * n))%Q) by (rewrite inject_Z_mult; change (inject_Z 2) with 2%Q; rewrite <- Q; ring).
  assert (K1 : (inject_Z (2 * k - 1) <= 2 * sfQ x)%Q) by (apply (Q_num _ (2 * n) d _ D Q2); nia).
  assert (K2 : (2 * sfQ x <= inject_Z (2 * k + 1))%Q) by (apply (Q_num _ (2 * n) d _ D Q2); nia).
  rewrite inject_Z_plus, inject_Z_mult in K2. replace (2 * k - 1) with (2 * k + - (1)) in K1 by lia. rewrite inject_Z_plus, inject_Z_mult in K1.
  change (inject_Z 2) with 2%Q in *. change (inject_Z 1) with 1%Q in *. change (inject_Z (- (1))) with (- (1))%Q in *. unfold near. split; lra.
Qed.

(** ** Propagation of errors *)
#[export] Instance near_proper : Morphisms.Proper (Qeq ==> Qeq ==> Qeq ==> iff) near.
Proof. intros v v' Hv X X' HX e e' He. unfold near. rewrite Hv, HX, He. reflexivity. Qed.
Lemma near_mul v X e w Y f A B : near v X e -> near w Y f -> (Qabs X <= A)%Q -> (Qabs w <= B)%Q -> near (v * w) (X * Y) (e * B + A * f).
Proof.
  intros H1 H2 HA HB. apply near_abs in H1. apply near_abs in H2. apply near_abs.
  setoid_replace (v * w - X * Y)%Q with ((v - X) * w + X * (w - Y))%Q by ring.
  eapply Qle_trans; [apply Qabs_triangle|]. rewrite !Qabs_Qmult.
  assert (P1 := Qabs_nonneg (v - X)). assert (P2 := Qabs_nonneg w). assert (P3 := Qabs_nonneg X). assert (P4 := Qabs_nonneg (w - Y)).
  assert (Qabs (v - X) * Qabs w <= e * B)%Q.
  { eapply Qle_trans; [apply Qmult_le_compat_r; [exact H1|exact P2]|]. rewrite (Qmult_comm e), (Qmult_comm e). apply Qmult_le_compat_r; [exact HB|lra]. }
  assert (Qabs X * Qabs (w - Y) <= A * f)%Q.
  { eapply Qle_trans; [apply Qmult_le_compat_r; [exact HA|exact P4]|]. rewrite (Qmult_comm A), (Qmult_comm A). apply Qmult_le_compat_r; [exact H2|lra]. }
  lra.
Qed.
Lemma near_trans v X e Y f : near v X e -> near X Y f -> near v Y (e + f).
Proof. unfold near. intros [A B] [C D]. split; lra. Qed.
Lemma abs_le X A : (- A <= X)%Q -> (X <= A)%Q -> (Qabs X <= A)%Q.
Proof. intros H1 H2. apply Qabs_Qle_condition. split; assumption. Qed.
Lemma Qdiv_le a b c : (0 < b)%Q -> (a <= c * b)%Q -> (a / b <= c)%Q.
Proof. intros H1 H2. apply Qle_shift_div_r; assumption. Qed.
Lemma Qle_div a b c : (0 < b)%Q -> (c * b <= a)%Q -> (c <= a / b)%Q.
Proof. intros H1 H2. apply Qle_shift_div_l; assumption. Qed.

Definition size_ok (n : Z) : Prop := 1 <= n <= 2 ^ 20.
Lemma size_Q n : size_ok n -> (1 <= inject_Z n)%Q /\ (inject_Z n <= 1048576)%Q.
Proof. intros [A B]. split; [change 1%Q with (inject_Z 1)|change 1048576%Q with (inject_Z 1048576)]; apply injZ_le; lia. Qed.

Section Quot.
  Variables (a b : Z).
  Hypothesis (Ha : 0 <= a <= b) (Hb : size_ok b).
  Let X := (inject_Z a / inject_Z b)%Q.
  Lemma X_range : (0 <= X <= 1)%Q.
  Proof.
    destruct (size_Q b Hb) as [B1 B2]. assert (A1 : (inject_Z 0 <= inject_Z a)%Q) by (apply injZ_le; lia). assert (A2 : (inject_Z a <= inject_Z b)%Q) by (apply injZ_le; lia).
    change (inject_Z 0) with 0%Q in A1. unfold X. split; [apply Qle_div; lra|apply Qdiv_le; lra].
  Qed.
  Lemma quot_near : let q := f64_div (f64_of_Z a) (f64_of_Z b) in fin64 q /\ near (sfQ q) X (1 # 9007199254740992) /\ (0 <= sfQ q <= 1)%Q.
  Proof.
    intros q. pose proof X_range as XR. destruct Hb as [B1 B2]. destruct (of_Z_exact a ltac:(lia)) as [Fa Ea]. destruct (of_Z_exact b ltac:(lia)) as [Fb Eb].
    destruct (size_Q b Hb) as [Q1 Q2].
    assert (E : (sfQ (f64_of_Z a) / sfQ (f64_of_Z b) == X)%Q) by (rewrite Ea, Eb; reflexivity).
    assert (S : sop64 X 1 q).
    { apply (sop_eq 53 1024 _ _ _ _ E). apply SFdiv_sop; try assumption; try lia; [rewrite Eb; lra| |rewrite E; apply near_abs_lt; [assert (- b2 1 < 0)%Q by reflexivity|assert (1 < b2 1)%Q by reflexivity]; lra].
      destruct (Z.eq_dec a 0) as [->|A0]; [left; rewrite Ea; reflexivity|right]. rewrite E. rewrite Qabs_pos by apply XR.
      apply Qle_trans with (1 # 1048576)%Q; [vm_compute; discriminate|]. unfold X. apply Qle_div; [lra|].
      assert (inject_Z 1 <= inject_Z a)%Q by (apply injZ_le; lia). change (inject_Z 1) with 1%Q in *. lra. }
    split; [apply S|]. split; [eapply near_weaken; [apply (sop_near _ 1 _ S); lia|vm_compute; discriminate]|].
    split.
    - apply Qle_trans with (inject_Z 0 * b2 0)%Q; [discriminate|]. apply (sop_ge 53 1024 X 1 q 0 0 S); [vm_compute; discriminate|].
      change (inject_Z 0 * b2 0)%Q with 0%Q. apply XR.
    - apply Qle_trans with (inject_Z 1 * b2 0)%Q; [|discriminate]. apply (sop_le 53 1024 X 1 q 1 0 S); [vm_compute; discriminate|].
      assert (inject_Z 1 * b2 0 == 1)%Q by reflexivity. lra.
  Qed.
End Quot.

(** the start of a region: [a] of [b] parts of [p] *)
Lemma start_near a b p : 0 <= a <= b -> size_ok b -> size_ok p ->
  let s := f64_mul (f64_div (f64_of_Z a) (f64_of_Z b)) (f64_of_Z p) in
  fin64 s /\ near (sfQ s) (inject_Z a / inject_Z b * inject_Z p) (1 # 4294967296) /\ (0 <= sfQ s)%Q.
Proof.
  intros Ha Hb Hp s. destruct (quot_near a b Ha Hb) as (F & N & R0 & R1). destruct (X_range a b Ha Hb) as [X0 X1].
  destruct (of_Z_exact p ltac:(unfold size_ok in Hp; lia)) as [Fp Ep]. destruct (size_Q p Hp) as [P1 P2].
  set (q := f64_div (f64_of_Z a) (f64_of_Z b)) in *.
  assert (B : (0 <= sfQ q * sfQ (f64_of_Z p) <= 1048576)%Q).
  { rewrite Ep. split; [apply Qmult_le_0_compat; lra|]. eapply Qle_trans; [apply Qmult_le_compat_r; [exact R1|lra]|lra]. }
  assert (M : near (sfQ q * sfQ (f64_of_Z p)) (inject_Z a / inject_Z b * inject_Z p) (1 # 8589934592)).
  { eapply near_weaken; [apply (near_mul _ _ _ _ _ 0 1 1048576 N)|]; [unfold near; rewrite Ep; split; lra|apply abs_le; lra|rewrite Ep; apply abs_le; lra|vm_compute; discriminate]. }
  assert (B21 : (b2 21 == 2097152)%Q) by reflexivity.
  destruct (mul_near q (f64_of_Z p) 21 F Fp ltac:(lia) ltac:(rewrite B21; lra) ltac:(rewrite B21; lra)) as [Fs Ns].
  split; [exact Fs|]. split; [eapply near_weaken; [apply (near_trans _ _ _ _ _ Ns M)|vm_compute; discriminate]|].
  assert (S : sop64 (sfQ q * sfQ (f64_of_Z p)) 21 s) by (apply SFmul_sop; try assumption; try lia; apply near_abs_lt; rewrite B21; lra).
  apply Qle_trans with (inject_Z 0 * b2 0)%Q; [discriminate|]. apply (sop_ge 53 1024 _ 21 s 0 0 S); [vm_compute; discriminate|].
  change (inject_Z 0 * b2 0)%Q with 0%Q. apply B.
Qed.

(** the extent of a region: [n] of [b] parts of [p], starting at [a] *)
Lemma extent_near a n b p : 0 <= a -> 1 <= n -> a + n <= b -> size_ok b -> size_ok p ->
  let q z := f64_div (f64_of_Z z) (f64_of_Z b) in
  let s := f64_mul (f64_sub (q (a + n)) (q a)) (f64_of_Z p) in
  let X := (inject_Z n / inject_Z b * inject_Z p)%Q in fin64 s /\ near (sfQ s) X (X * (1 # 1073741824)).
Proof.
  intros Ha Hn Hs Hb Hp q s X. destruct (quot_near a b ltac:(lia) Hb) as (F0 & N0 & R0 & R1). destruct (quot_near (a + n) b ltac:(lia) Hb) as (F1 & N1 & R2 & R3).
  fold (q a) in *. fold (q (a + n)) in *. destruct (of_Z_exact p ltac:(unfold size_ok in Hp; lia)) as [Fp Ep]. destruct (size_Q p Hp) as [P1 P2]. destruct (size_Q b Hb) as [B1 B2].
  set (Y := (inject_Z n / inject_Z b)%Q) in *.
  assert (E : (inject_Z (a + n) / inject_Z b == inject_Z a / inject_Z b + Y)%Q) by (unfold Y; rewrite inject_Z_plus; field; lra).
  assert (Y0 : ((1 # 1048576) <= Y <= 1)%Q).
  { assert (inject_Z 1 <= inject_Z n)%Q by (apply injZ_le; lia). assert (inject_Z n <= inject_Z b)%Q by (apply injZ_le; lia). change (inject_Z 1) with 1%Q in *.
    unfold Y. split; [apply Qle_div; lra|apply Qdiv_le; lra]. }
  assert (E21 : (b2 1 == 2)%Q) by reflexivity.
  destruct (sub_near (q (a + n)) (q a) 1 F1 F0 ltac:(lia) ltac:(rewrite E21; lra) ltac:(rewrite E21; lra)) as [Fd Nd].
  set (d := f64_sub (q (a + n)) (q a)) in *.
  assert (ND : near (sfQ d) Y (Y * (1 # 2147483648))).
  { rewrite E in N1. assert (E53 : (b2 (1 - 54) == (1 # 9007199254740992))%Q) by reflexivity. rewrite E53 in Nd. unfold near in *. split; lra. }
  assert (BD : (Y * (1 # 2) <= sfQ d <= 2)%Q) by (unfold near in ND; lra).
  assert (ED : (sfQ d * sfQ (f64_of_Z p) == sfQ d * inject_Z p)%Q) by (rewrite Ep; reflexivity).
  assert (LD : (sfQ d * 1 <= sfQ d * inject_Z p)%Q) by (rewrite (Qmult_comm (sfQ d)), (Qmult_comm (sfQ d)); apply Qmult_le_compat_r; lra).
  assert (UD : (sfQ d * inject_Z p <= 2 * inject_Z p)%Q) by (apply Qmult_le_compat_r; lra).
  assert (E22 : (b2 22 == 4194304)%Q) by reflexivity. assert (E200 : (b2 (-200) <= 1 # 2097152)%Q) by (vm_compute; discriminate).
  destruct (mul_near_rel d (f64_of_Z p) 22 Fd Fp ltac:(lia) ltac:(rewrite ED; lra) ltac:(rewrite ED, E22; lra)) as [Fs Ns].
  split; [exact Fs|]. rewrite ED in Ns.
  assert (M1 : (Y * (1 - (1 # 2147483648)) * inject_Z p <= sfQ d * inject_Z p)%Q) by (apply Qmult_le_compat_r; [unfold near in ND; lra|lra]).
  assert (M2 : (sfQ d * inject_Z p <= Y * (1 + (1 # 2147483648)) * inject_Z p)%Q) by (apply Qmult_le_compat_r; [unfold near in ND; lra|lra]).
  assert (X0 : (0 < X)%Q) by (unfold X; rewrite <- (Qmult_0_l (inject_Z p)); apply Qmult_lt_compat_r; lra).
  setoid_replace (Y * (1 - (1 # 2147483648)) * inject_Z p)%Q with (X * (1 - (1 # 2147483648)))%Q in M1 by (unfold X; ring).
  setoid_replace (Y * (1 + (1 # 2147483648)) * inject_Z p)%Q with (X * (1 + (1 # 2147483648)))%Q in M2 by (unfold X; ring).
  assert (E52 : (b2 (-52) == (1 # 4503599627370496))%Q) by reflexivity. rewrite E52 in Ns. fold s in Ns. unfold near in *. split; lra.
Qed.

Lemma Qmult_le_l' x y z : (0 <= z)%Q -> (x <= y)%Q -> (z * x <= z * y)%Q.
Proof. intros A B. rewrite (Qmult_comm z), (Qmult_comm z). now apply Qmult_le_compat_r. Qed.
Lemma sop_near_rel_abs X N r : sop64 X N r -> (X == 0)%Q \/ (b2 (-200) <= Qabs X)%Q -> near (sfQ r) X (Qabs X * b2 (-52)).
Proof.
  intros H [H0|H0].
  - assert (E : (X == inject_Z 0 * b2 (fexp 53 1024 N))%Q) by (rewrite H0; change (inject_Z 0) with 0%Q; ring).
    rewrite (sop_exact 53 1024 X N r 0 _ H E (Z.le_refl _)), H0. unfold near. change (Qabs 0) with 0%Q. split; lra.
  - destruct (Qlt_le_dec X 0) as [L|L].
    + assert (H' := sop_opp 53 1024 X N r H). assert (A : (Qabs X == - X)%Q) by (apply Qabs_neg; lra). rewrite A in *.
      assert (G := sop_near_rel _ _ _ H' H0). rewrite sfQ_opp in G. unfold near in *. lra.
    + assert (A : (Qabs X == X)%Q) by (now apply Qabs_pos). rewrite A in *. now apply (sop_near_rel X N).
Qed.

(** ** Positions *)
Lemma grid K x : fin64 x -> (b2 K <= sfQ x)%Q -> exists z, (sfQ x == inject_Z z * b2 (K - 53))%Q.
Proof.
  intros [V F] H. destruct x as [s|s| |s m e]; try discriminate; cbn [sfQ] in *.
  - exists 0. ring.
  - assert (P := b2_pos e). assert (M := b2_pos K). destruct s; cbn [cond_Zopp] in *.
    { exfalso. assert (0 <= inject_Z (Zpos m) * b2 e)%Q by (apply Qmult_le_0_compat; [discriminate|lra]). change (inject_Z (Z.neg m)) with (- inject_Z (Zpos m))%Q in H. lra. }
    assert (D : (inject_Z (Zpos m) < b2 53)%Q).
    { rewrite b2_Z by lia. apply injZ_lt. cbn [valid_binary] in V. unfold bounded in V. apply andb_prop in V as [V _]. unfold canonical_mantissa in V. apply Zeq_bool_eq in V. unfold fexp in V.
      assert (L : Zpos (digits2_pos m) <= 53) by lia. pose proof (digits2_pos_spec m) as B. pose proof (pow2_mono (Zpos (digits2_pos m)) 53). lia. }
    assert (E : K < 53 + e). { apply b2_lt_inv. eapply Qle_lt_trans; [exact H|]. rewrite b2_plus. apply Qmult_lt_compat_r; assumption. }
    exists (Zpos m * 2 ^ (e - (K - 53))). rewrite inject_Z_mult, <- b2_Z by lia. rewrite <- Qmult_assoc, <- b2_plus. replace (e - (K - 53) + (K - 53)) with e by lia. reflexivity.
Qed.

Section Axis.
  Variables (s0 sn d0 dn : spec_float) (S0 Sn D0 Dn : Q).
  Hypothesis (Fs0 : fin64 s0) (Fsn : fin64 sn) (Fd0 : fin64 d0) (Fdn : fin64 dn).
  Hypothesis (Ns0 : near (sfQ s0) S0 (1 # 4294967296)) (Nsn : near (sfQ sn) Sn (Sn * (1 # 1073741824))) (Nd0 : near (sfQ d0) D0 (1 # 4294967296)) (Ndn : near (sfQ dn) Dn (Dn * (1 # 1073741824))).
  Hypothesis (Ps0 : (0 <= sfQ s0)%Q) (Pd0 : (0 <= sfQ d0)%Q).
  Hypothesis (HS : (0 <= S0 /\ (1 # 1048576) <= Sn /\ S0 + Sn <= 1048576)%Q) (HD : (0 <= D0 /\ (1 # 1048576) <= Dn /\ D0 + Dn <= 1048576)%Q).
  Variable (rho : Q).
  Hypothesis (Hr : (rho * Dn == Sn)%Q) (Rr : ((1 # 2) <= rho <= 1048576)%Q).
  Local Ltac nn := unfold near in *.

  Lemma ratio_near : let r := f64_div sn dn in fin64 r /\ near (sfQ r) rho (rho * (1 # 268435456)).
  Proof.
    intros r. assert (D1 : (0 < sfQ dn)%Q) by (nn; lra). assert (S1 : (0 < sfQ sn)%Q) by (nn; lra).
    assert (A : (rho * (Dn * (1 - (1 # 1073741824))) <= rho * sfQ dn)%Q) by (apply Qmult_le_l'; nn; lra).
    assert (B : (rho * sfQ dn <= rho * (Dn * (1 + (1 # 1073741824))))%Q) by (apply Qmult_le_l'; nn; lra).
    setoid_replace (rho * (Dn * (1 - (1 # 1073741824))))%Q with (Sn * (1 - (1 # 1073741824)))%Q in A by (rewrite <- Hr; ring).
    setoid_replace (rho * (Dn * (1 + (1 # 1073741824))))%Q with (Sn * (1 + (1 # 1073741824)))%Q in B by (rewrite <- Hr; ring).
    assert (U : (sfQ sn / sfQ dn <= (1 + 3 * (1 # 1073741824)) * rho)%Q).
    { apply Qdiv_le; [exact D1|]. setoid_replace ((1 + 3 * (1 # 1073741824)) * rho * sfQ dn)%Q with ((1 + 3 * (1 # 1073741824)) * (rho * sfQ dn))%Q by ring. nn. lra. }
    assert (L : ((1 - 3 * (1 # 1073741824)) * rho <= sfQ sn / sfQ dn)%Q).
    { apply Qle_div; [exact D1|]. setoid_replace ((1 - 3 * (1 # 1073741824)) * rho * sfQ dn)%Q with ((1 - 3 * (1 # 1073741824)) * (rho * sfQ dn))%Q by ring. nn. lra. }
    assert (E21 : (b2 21 == 2097152)%Q) by reflexivity. assert (E200 : (b2 (-200) <= 1 # 4)%Q) by (vm_compute; discriminate).
    destruct (div_near_rel sn dn 21 Fsn Fdn ltac:(lia) D1 ltac:(lra) ltac:(rewrite E21; lra)) as [Fr Nr]. split; [exact Fr|].
    assert (E52 : (b2 (-52) == (1 # 4503599627370496))%Q) by reflexivity. rewrite E52 in Nr. fold r in Nr. nn. lra.
  Qed.

  (** the position in the source of line [x] of the destination *)
  Lemma position_near x : (D0 - 2 <= inject_Z x)%Q -> (inject_Z x <= D0 + Dn + 2)%Q ->
    let p := f64_add (f64_mul (f64_sub (f64_of_Z x) d0) (f64_div sn dn)) s0 in fin64 p /\ near (sfQ p) ((inject_Z x - D0) * rho + S0) (1 # 64).
  Proof.
    intros X1 X2 p. destruct ratio_near as [Fr Nr]. set (r := f64_div sn dn) in *.
    assert (XB : - 2 ^ 22 <= x <= 2 ^ 22).
    { split; apply injZ_le; [change (inject_Z (- 2 ^ 22)) with (- (4194304))%Q|change (inject_Z (2 ^ 22)) with 4194304%Q]; lra. }
    destruct (of_Z_exact x ltac:(lia)) as [Fx Ex].
    assert (E22 : (b2 22 == 4194304)%Q) by reflexivity.
    destruct (sub_near (f64_of_Z x) d0 22 Fx Fd0 ltac:(lia) ltac:(rewrite Ex, E22; nn; lra) ltac:(rewrite Ex, E22; nn; lra)) as [Fe Ne].
    set (e := f64_sub (f64_of_Z x) d0) in *. rewrite Ex in Ne. assert (E32 : (b2 (22 - 54) == (1 # 4294967296))%Q) by reflexivity. rewrite E32 in Ne.
    set (xi := (inject_Z x - D0)%Q). assert (Ne' : near (sfQ e) xi (1 # 2147483648)) by (unfold xi; nn; lra).
    (* |xi| <= Dn + 2 *)
    assert (XI : (Qabs xi <= Dn + 2)%Q) by (apply abs_le; unfold xi; lra).
    assert (RB : (Qabs (sfQ r) <= 2 * rho)%Q) by (apply abs_le; nn; lra).
    assert (M : near (sfQ e * sfQ r) (xi * rho) (1 # 70)).
    { eapply near_weaken; [apply (near_mul _ _ _ _ _ _ _ _ Ne' Nr XI RB)|].
      setoid_replace ((1 # 2147483648) * (2 * rho) + (Dn + 2) * (rho * (1 # 268435456)))%Q with (rho * (2 * (1 # 2147483648) + 2 * (1 # 268435456)) + rho * Dn * (1 # 268435456))%Q by ring. rewrite Hr.
      (* 2^20 (2^-30 + 2^-27) + 2^20 2^-28 *) lra. }
    assert (AB : (Qabs (xi * rho) <= 3145728)%Q).
    { rewrite Qabs_Qmult. rewrite (Qabs_pos rho) by lra. eapply Qle_trans; [apply Qmult_le_compat_r; [exact XI|lra]|].
      setoid_replace ((Dn + 2) * rho)%Q with (rho * Dn + 2 * rho)%Q by ring. rewrite Hr. lra. }
    apply Qabs_Qle_condition in AB.
    destruct (mul_near e r 22 Fe Fr ltac:(lia) ltac:(rewrite E22; nn; lra) ltac:(rewrite E22; nn; lra)) as [Fm Nm].
    set (m := f64_mul e r) in *. rewrite E32 in Nm. assert (E23 : (b2 23 == 8388608)%Q) by reflexivity.
    destruct (add_near m s0 23 Fm Fs0 ltac:(lia) ltac:(rewrite E23; nn; lra) ltac:(rewrite E23; nn; lra)) as [Fp Np].
    split; [exact Fp|]. fold p in Np. assert (E31 : (b2 (23 - 54) == (1 # 2147483648))%Q) by reflexivity. rewrite E31 in Np. nn. lra.
  Qed.


  (** the position in the destination of line [c] of the source *)
  Variable (kappa : Q).
  Hypothesis (Hk : (kappa * Sn == Dn)%Q) (Rk : (0 < kappa <= 2)%Q) (Gs0 : exists z, (sfQ s0 == inject_Z z * b2 (-74))%Q).
  Lemma inverse_near c : 0 <= c < 2 ^ 20 ->
    let v := f64_add (f64_div (f64_mul (f64_sub (f64_of_Z c) s0) dn) sn) d0 in fin64 v /\ near (sfQ v) ((inject_Z c - S0) * kappa + D0) (1 # 64).
  Proof.
    intros Hc v. assert (C1 : (0 <= inject_Z c <= 1048576)%Q) by (split; [change 0%Q with (inject_Z 0)|change 1048576%Q with (inject_Z 1048576)]; apply injZ_le; lia).
    destruct (of_Z_exact c ltac:(lia)) as [Fc Ec].
    assert (D1 : ((1 # 2097152) <= sfQ dn <= 2097152)%Q) by (nn; lra). assert (S1 : ((1 # 2097152) <= sfQ sn <= 2097152)%Q) by (nn; lra).
    (* the difference *)
    assert (E21 : (b2 21 == 2097152)%Q) by reflexivity.
    assert (Se : sop64 (inject_Z c - sfQ s0) 21 (f64_sub (f64_of_Z c) s0)).
    { assert (Q1 : (sfQ (f64_of_Z c) - sfQ s0 == inject_Z c - sfQ s0)%Q) by (rewrite Ec; reflexivity).
      apply (sop_eq 53 1024 _ _ _ _ Q1). apply SFsub_sop; try assumption; try lia. rewrite Q1. apply near_abs_lt; rewrite E21; nn; lra. }
    set (e := f64_sub (f64_of_Z c) s0) in *. assert (Fe : fin64 e) by apply Se.
    assert (Z0 : (inject_Z c - sfQ s0 == 0)%Q \/ (b2 (-74) <= Qabs (inject_Z c - sfQ s0))%Q).
    { destruct Gs0 as [z Gz]. assert (G : (inject_Z c - sfQ s0 == inject_Z (c * 2 ^ 74 - z) * b2 (-74))%Q).
      { rewrite Gz. replace (c * 2 ^ 74 - z) with (c * 2 ^ 74 + - z) by lia. rewrite inject_Z_plus, inject_Z_mult, inject_Z_opp, <- (b2_Z 74) by lia.
        setoid_replace ((inject_Z c * b2 74 + - inject_Z z) * b2 (-74))%Q with (inject_Z c * (b2 74 * b2 (-74)) - inject_Z z * b2 (-74))%Q by ring.
        rewrite <- b2_plus. change (74 + -74) with 0. rewrite b2_0. ring. }
      destruct (Z.eq_dec (c * 2 ^ 74 - z) 0) as [E0|E0]; [left; rewrite G, E0; change (inject_Z 0) with 0%Q; ring|right].
      rewrite G, Qabs_Qmult. assert (P := b2_pos (-74)). rewrite (Qabs_pos (b2 (-74))) by lra.
      assert (1 <= Qabs (inject_Z (c * 2 ^ 74 - z)))%Q by (change (Qabs (inject_Z (c * 2 ^ 74 - z))) with (inject_Z (Z.abs (c * 2 ^ 74 - z))); change 1%Q with (inject_Z 1); apply injZ_le; lia).
      setoid_replace (b2 (-74)) with (1 * b2 (-74))%Q at 1 by ring. apply Qmult_le_compat_r; [assumption|lra]. }
    assert (R : near (sfQ e) (inject_Z c - sfQ s0) (Qabs (inject_Z c - sfQ s0) * b2 (-52))).
    { apply (sop_near_rel_abs _ _ _ Se). destruct Z0 as [Z0|Z0]; [now left|right; eapply Qle_trans; [|exact Z0]; vm_compute; discriminate]. }
    assert (E52 : (b2 (-52) == (1 # 4503599627370496))%Q) by reflexivity. rewrite E52 in R.
    set (Xe := (inject_Z c - sfQ s0)%Q) in *. assert (AXe : (Qabs Xe <= 1048577)%Q) by (apply abs_le; unfold Xe; nn; lra).
    assert (Z1 : (sfQ e == 0)%Q \/ (b2 (-75) <= Qabs (sfQ e))%Q).
    { destruct Z0 as [Z0|Z0]; [left; rewrite Z0 in R; nn; change (Qabs 0) with 0%Q in R; lra|right].
      assert (T : (Qabs Xe <= Qabs (sfQ e) + Qabs (Xe - sfQ e))%Q) by (setoid_replace Xe with (sfQ e + (Xe - sfQ e))%Q at 1 by ring; apply Qabs_triangle).
      assert (U : (Qabs (Xe - sfQ e) <= Qabs Xe * (1 # 4503599627370496))%Q) by (apply abs_le; nn; lra). assert (E75 : (b2 (-74) == 2 * b2 (-75))%Q) by reflexivity. assert (P75 := b2_pos (-75)). lra. }
    assert (Ne : near (sfQ e) (inject_Z c - S0) (1 # 1073741824)) by (unfold Xe in *; nn; lra).
    assert (AeQ : (Qabs (sfQ e) <= 1048577)%Q) by (apply abs_le; nn; lra).
    (* times the extent in the destination *)
    assert (Ae : (Qabs (sfQ e * sfQ dn) == Qabs (sfQ e) * sfQ dn)%Q) by (rewrite Qabs_Qmult, (Qabs_pos (sfQ dn)) by lra; reflexivity).
    assert (B42 : (b2 42 == 4398046511104)%Q) by reflexivity.
    assert (Be : (Qabs (sfQ e) * sfQ dn <= 1048577 * 2097152)%Q).
    { eapply Qle_trans; [apply Qmult_le_compat_r; [exact AeQ|lra]|]. apply Qmult_le_l'; lra. }
    assert (Sm : sop64 (sfQ e * sfQ dn) 42 (f64_mul e dn)).
    { apply SFmul_sop; try assumption; try lia. rewrite Ae, B42. lra. }
    set (m := f64_mul e dn) in *. assert (Fm : fin64 m) by apply Sm.
    assert (Z2 : (sfQ e * sfQ dn == 0)%Q \/ (b2 (-96) <= Qabs (sfQ e * sfQ dn))%Q).
    { destruct Z1 as [Z1|Z1]; [left; rewrite Z1; ring|right]. rewrite Ae. change (-96) with (-75 + -21). rewrite b2_plus.
      assert (P := b2_pos (-75)). assert (E := Qabs_nonneg (sfQ e)). assert (Q21 : (b2 (-21) == (1 # 2097152))%Q) by reflexivity. rewrite Q21.
      eapply Qle_trans; [apply Qmult_le_compat_r; [exact Z1|lra]|]. apply Qmult_le_l'; lra. }
    assert (Rm : near (sfQ m) (sfQ e * sfQ dn) (Qabs (sfQ e * sfQ dn) * (1 # 4503599627370496))).
    { rewrite <- E52. apply (sop_near_rel_abs _ _ _ Sm). destruct Z2 as [Z2|Z2]; [now left|right; eapply Qle_trans; [|exact Z2]; vm_compute; discriminate]. }
    (* by the extent in the source *)
    set (i := (/ sfQ sn)%Q). assert (I1 : (sfQ sn * i == 1)%Q) by (unfold i; field; lra).
    assert (I0 : (0 <= i <= 2097152)%Q).
    { split; [apply Qlt_le_weak, Qinv_lt_0_compat; lra|]. setoid_replace i with (1 / sfQ sn)%Q by (unfold i; field; lra). apply Qdiv_le; lra. }
    set (t := (sfQ dn * i)%Q).
    assert (T : near t kappa (kappa * (3 * (1 # 1073741824)))).
    { assert (A : (kappa * (Sn * (1 - (1 # 1073741824))) <= kappa * sfQ sn)%Q) by (apply Qmult_le_l'; nn; lra).
      assert (B : (kappa * sfQ sn <= kappa * (Sn * (1 + (1 # 1073741824))))%Q) by (apply Qmult_le_l'; nn; lra).
      setoid_replace (kappa * (Sn * (1 - (1 # 1073741824))))%Q with (Dn * (1 - (1 # 1073741824)))%Q in A by (rewrite <- Hk; ring).
      setoid_replace (kappa * (Sn * (1 + (1 # 1073741824))))%Q with (Dn * (1 + (1 # 1073741824)))%Q in B by (rewrite <- Hk; ring).
      assert (Et : (t == sfQ dn / sfQ sn)%Q) by reflexivity. rewrite Et. split.
      - apply Qle_div; [lra|]. setoid_replace ((kappa - kappa * (3 * (1 # 1073741824))) * sfQ sn)%Q with ((1 - 3 * (1 # 1073741824)) * (kappa * sfQ sn))%Q by ring. nn. lra.
      - apply Qdiv_le; [lra|]. setoid_replace ((kappa + kappa * (3 * (1 # 1073741824))) * sfQ sn)%Q with ((1 + 3 * (1 # 1073741824)) * (kappa * sfQ sn))%Q by ring. nn. lra. }
    assert (T3 : (0 <= t <= 3)%Q) by (nn; lra).
    assert (Net : near (sfQ e * t) ((inject_Z c - S0) * kappa) (1 # 160)).
    { eapply near_weaken; [apply (near_mul _ _ _ _ _ _ 1048577 3 Ne T)|]; [apply abs_le; nn; lra|apply abs_le; lra|lra]. }
    assert (Aet : (Qabs (sfQ e * t) <= 3145731)%Q).
    { rewrite Qabs_Qmult, (Qabs_pos t) by lra. eapply Qle_trans; [apply Qmult_le_compat_r; [exact AeQ|lra]|lra]. }
    assert (Rm2 : near (sfQ m * i) (sfQ e * t) (1 # 1073741824)).
    { assert (Ex : near i i 0) by (nn; lra).
      assert (N := near_mul _ _ _ _ _ _ _ i Rm Ex (Qle_refl _) ltac:(apply abs_le; lra)).
      setoid_replace (sfQ e * t)%Q with (sfQ e * sfQ dn * i)%Q by (unfold t; ring). eapply near_weaken; [exact N|].
      rewrite Ae. setoid_replace (Qabs (sfQ e) * sfQ dn * (1 # 4503599627370496) * i + Qabs (sfQ e) * sfQ dn * 0)%Q with (Qabs (sfQ e) * t * (1 # 4503599627370496))%Q by (unfold t; ring).
      rewrite Qabs_Qmult, (Qabs_pos t) in Aet by lra. lra. }
    assert (Em : (sfQ m / sfQ sn == sfQ m * i)%Q) by reflexivity.
    apply Qabs_Qle_condition in Aet.
    assert (B22 : (b2 22 == 4194304)%Q) by reflexivity.
    assert (Z3 : (sfQ m == 0)%Q \/ (b2 (-97) <= Qabs (sfQ m))%Q).
    { destruct Z2 as [Z2|Z2]; [left; rewrite Z2 in Rm; nn; change (Qabs 0) with 0%Q in Rm; lra|right]. set (Y := (sfQ e * sfQ dn)%Q) in *.
      assert (T' : (Qabs Y <= Qabs (sfQ m) + Qabs (Y - sfQ m))%Q) by (setoid_replace Y with (sfQ m + (Y - sfQ m))%Q at 1 by ring; apply Qabs_triangle).
      assert (U : (Qabs (Y - sfQ m) <= Qabs Y * (1 # 4503599627370496))%Q) by (apply abs_le; nn; lra). assert (E97 : (b2 (-96) == 2 * b2 (-97))%Q) by reflexivity. assert (P97 := b2_pos (-97)). lra. }
    assert (Dq : (sfQ m == 0)%Q \/ (b2 (-200) <= Qabs (sfQ m / sfQ sn))%Q).
    { destruct Z3 as [Z3|Z3]; [now left|right]. unfold Qdiv. rewrite Qabs_Qmult. fold i. rewrite (Qabs_pos i) by lra.
      assert (I2 : ((1 # 4194304) <= i)%Q) by (setoid_replace i with (1 / sfQ sn)%Q by (unfold i; field; lra); apply Qle_div; lra).
      assert (P := b2_pos (-97)). apply Qle_trans with (b2 (-97) * (1 # 4194304))%Q; [vm_compute; discriminate|].
      eapply Qle_trans; [apply Qmult_le_compat_r; [exact Z3|lra]|]. apply Qmult_le_l'; [apply Qabs_nonneg|exact I2]. }
    destruct (div_near m sn 22 Fm Fsn ltac:(lia) ltac:(lra) Dq ltac:(rewrite Em, B22; nn; lra) ltac:(rewrite Em, B22; nn; lra)) as [Fd Nd].
    set (d := f64_div m sn) in *. rewrite Em in Nd. assert (E32 : (b2 (22 - 54) == (1 # 4294967296))%Q) by reflexivity. rewrite E32 in Nd.
    assert (B23 : (b2 23 == 8388608)%Q) by reflexivity.
    destruct (add_near d d0 23 Fd Fd0 ltac:(lia) ltac:(rewrite B23; nn; lra) ltac:(rewrite B23; nn; lra)) as [Fv Nv].
    split; [exact Fv|]. fold v in Nv. assert (E31 : (b2 (23 - 54) == (1 # 2147483648))%Q) by reflexivity. rewrite E31 in Nv. nn. lra.
  Qed.
End Axis.
