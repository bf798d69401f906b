(** Look-up tables from splines: proofs. *)
From Coq Require Import QArith Qabs Lqa Floats.SpecFloat.
From Verif Require Import Base RectModel CopyModel CoordModel StatModel ScaleModel PixelModel CompositorModel
  FloatProofs SFloatProofs FloatMono PixelProofs FillProofs LutModel LutSpec LutProofs ScaleNum.
Open Scope Z_scope.

Notation nn64 := (nn 53 1024).
(** ** comparison *)
Lemma ltb_fin p x : fin64 p -> (0 <= sfQ p)%Q -> nn64 x -> SFltb p x = true <-> (sfQ p < sfQ x)%Q.
Proof.
  intros F P Nx. destruct (Qlt_le_dec 0 (sfQ p)) as [L|L]; [apply (nn_ltb 53 1024); [now apply nn_of_pos|exact Nx]|].
  assert (Z : exists s, p = S754_zero s).
  { destruct F as [V F]. destruct p as [s|s| |s m e]; try discriminate; [eauto|]. exfalso. cbn [sfQ] in P, L. pose proof (b2_pos e) as B.
    assert (M : (0 < inject_Z (Zpos m))%Q) by reflexivity. pose proof (Qmult_lt_0_compat _ _ M B). destruct s; lra. }
  destruct Z as [s ->]. assert (E : SFltb (S754_zero s) x = SFltb (S754_zero false) x) by (destruct x as [?|?| |[] ? ?]; reflexivity).
  rewrite E. change (sfQ (S754_zero s)) with (sfQ (S754_zero false)). apply (nn_ltb 53 1024); [split; reflexivity|exact Nx].
Qed.

(** ** positions *)
Definition frac64 (k n : Z) : spec_float := f64_div (f64_of_Z k) (f64_of_Z n).
Lemma frac64_ok k n : 0 <= k <= n -> 1 <= n < 65536 -> nn64 (frac64 k n) /\ (0 <= sfQ (frac64 k n) <= 1)%Q /\ near (sfQ (frac64 k n)) (inject_Z k / inject_Z n) (b2 (-53)).
Proof.
  intros Hk Hn. destruct (of_Z_exact n ltac:(lia)) as [Fn Qn]. destruct (of_Z_exact k ltac:(lia)) as [Fk Qk]. assert (N1 := Z_ge1 n ltac:(lia)).
  assert (N2 : (inject_Z n <= 65536)%Q) by (change 65536%Q with (inject_Z 65536); apply injZ_le; lia).
  assert (KN : (inject_Z k <= inject_Z n)%Q) by (apply injZ_le; lia). assert (K0 := Z_ge0 k ltac:(lia)).
  destruct (Z.eq_dec k 0) as [->|NZ].
  { assert (E : frac64 0 n = S754_zero false).
    { unfold frac64. destruct (f64_of_Z n) as [s|s| |s m e] eqn:E; try (destruct Fn; discriminate); [cbn [sfQ] in Qn; lra|]. destruct s; [|reflexivity].
      exfalso. cbn [sfQ] in Qn. pose proof (b2_pos e) as B. assert (M : (0 < inject_Z (Zpos m))%Q) by reflexivity. pose proof (Qmult_lt_0_compat _ _ M B). lra. }
    rewrite E. cbn [sfQ]. split; [split; reflexivity|]. split; [split; discriminate|]. assert (Z : (inject_Z 0 / inject_Z n == 0)%Q) by (unfold Qdiv; apply Qmult_0_l).
    unfold near. rewrite Z. split; vm_compute; discriminate. }
  assert (K1 := Z_ge1 k ltac:(lia)). assert (E : (sfQ (f64_of_Z k) / sfQ (f64_of_Z n) == inject_Z k / inject_Z n)%Q) by (rewrite Qk, Qn; reflexivity).
  set (X := (inject_Z k / inject_Z n)%Q) in *.
  assert (X1 : (X <= 1)%Q) by (apply Qdiv_le_1; lra). assert (X2 : ((1 # 65536) <= X)%Q) by (apply Qle_shift_div_l; lra).
  assert (S : sop64 X 1 (frac64 k n)).
  { eapply sop_eq; [exact E|]. apply SFdiv_sop; try assumption; try lia; [rewrite Qn; lra| |rewrite E, Qabs_pos by lra; apply Qle_lt_trans with 1%Q; [exact X1|reflexivity]].
    right. rewrite E, Qabs_pos by lra. eapply Qle_trans; [|exact X2]. vm_compute. discriminate. }
  assert (A : near (sfQ (frac64 k n)) X (b2 (-53))) by (apply (sop_near X 1); [exact S|lia]).
  assert (P : (0 < sfQ (frac64 k n))%Q). { destruct A as [A _]. assert (b2 (-53) <= 1 # 131072)%Q by (vm_compute; discriminate). lra. }
  split; [apply nn_of_pos; [apply S|exact P]|]. split; [split; [lra|]|exact A].
  change 1%Q with (inject_Z 1 * b2 0)%Q. apply (sop_le 53 1024 X 1 _ 1 0 S); [vm_compute; discriminate|]. rewrite b2_0. change (inject_Z 1) with 1%Q. lra.
Qed.

(** ** the piece *)
Lemma index_ok x l : forall i idx,
  let j := spline_index x i idx l in
  (j = idx /\ forall m r, nth_error l m = Some r -> SFltb (s_pos r) x = false) \/
  (exists m s, j = (i + m)%nat /\ nth_error l m = Some s /\ SFltb (s_pos s) x = true /\ forall m' r, (m < m')%nat -> nth_error l m' = Some r -> SFltb (s_pos r) x = false).
Proof.
  induction l as [|s l IH]; intros i idx; cbv zeta; cbn [spline_index].
  - left. split; [reflexivity|]. intros [|m] r H; discriminate.
  - destruct (IH (S i) (if SFltb (s_pos s) x then i else idx)) as [[E H]|(m & r & E & N & T & H)]; cbv zeta in *.
    + destruct (SFltb (s_pos s) x) eqn:C.
      * right. exists 0%nat, s. split; [rewrite E; lia|]. split; [reflexivity|]. split; [exact C|]. intros [|m'] r Hm Hr; [lia|]. now apply (H m').
      * left. split; [exact E|]. intros [|m'] r Hr; [cbn [nth_error] in Hr; congruence|]. now apply (H m').
    + right. exists (S m), r. split; [rewrite E; lia|]. split; [exact N|]. split; [exact T|]. intros [|m'] q Hm Hq; [lia|]. apply (H m'); [lia|exact Hq].
Qed.
Lemma piece_found l x : nn64 x -> (forall s, In s l -> spline_ok s) -> l <> [] -> exists s, nth_error l (spline_index x 0 0 l) = Some s /\ piece_at l (sfQ x) s /\ In s l.
Proof.
  intros Nx HL NE. assert (LE : forall r, In r l -> SFltb (s_pos r) x = false -> (sfQ x <= sfQ (s_pos r))%Q).
  { intros r Hr C. destruct (Qlt_le_dec (sfQ (s_pos r)) (sfQ x)) as [D|D]; [|exact D]. destruct (HL r Hr) as ((F & P & _) & _). apply (ltb_fin _ x F P Nx) in D. congruence. }
  destruct (index_ok x l 0 0) as [[E H]|(m & s & E & N & T & H)]; cbv zeta in *; rewrite E.
  - destruct l as [|s l]; [congruence|]. exists s. split; [reflexivity|]. split; [|now left]. exists 0%nat. split; [reflexivity|]. split; [|now left].
    intros i r Hr _. apply LE; [now apply (nth_error_In _ i)|now apply (H i)].
  - exists s. assert (I := nth_error_In _ _ N). split; [exact N|]. split; [|exact I]. exists m. split; [exact N|]. split.
    + intros i r Hr Hi. apply LE; [now apply (nth_error_In _ i)|now apply (H i)].
    + right. destruct (HL s I) as ((F & P & _) & _). now apply (ltb_fin _ x F P Nx).
Qed.

(** ** the value *)
Definition bnd (v B : Q) : Prop := (- B <= v <= B)%Q.
Lemma bnd_abs v B : bnd v B -> (Qabs v <= B)%Q.
Proof. intros [A C]. apply Qabs_Qle_condition. split; assumption. Qed.
Lemma near_bnd v X e B C : near v X e -> bnd X B -> (B + e <= C)%Q -> bnd v C.
Proof. unfold near, bnd. intros [A1 A2] [B1 B2] H. split; lra. Qed.
Lemma bnd_mul v w A B C : bnd v A -> bnd w B -> (A * B <= C)%Q -> bnd (v * w) C.
Proof.
  intros HV HW H. apply bnd_abs in HV. apply bnd_abs in HW. unfold bnd. apply Qabs_Qle_condition. rewrite Qabs_Qmult.
  eapply Qle_trans; [|exact H]. pose proof (Qabs_nonneg v). pose proof (Qabs_nonneg w).
  apply Qle_trans with (A * Qabs w)%Q; [now apply Qmult_le_compat_r|]. rewrite !(Qmult_comm A). apply Qmult_le_compat_r; [assumption|lra].
Qed.
Lemma bnd_add v w A B C : bnd v A -> bnd w B -> (A + B <= C)%Q -> bnd (v + w) C.
Proof. unfold bnd. intros [A1 A2] [B1 B2] H. split; lra. Qed.
Lemma bnd_weak v A C : bnd v A -> (A <= C)%Q -> bnd v C.
Proof. unfold bnd. intros [A1 A2] H. split; lra. Qed.
(** an operation: the operands with their errors and bounds *)
Definition num (v : spec_float) (X e B : Q) : Prop := fin64 v /\ near (sfQ v) X e /\ bnd X B /\ (0 <= e)%Q.
Lemma num_bnd v X e B : num v X e B -> bnd (sfQ v) (B + e).
Proof. intros (_ & A & C & _). eapply near_bnd; [exact A|exact C|lra]. Qed.
Lemma num_mul v X e A w Y f B N g C : num v X e A -> num w Y f B -> -1000 <= N <= 1023 -> ((A + e) * (B + f) < b2 N)%Q -> (A * B <= C)%Q ->
  (b2 (N - 54) + (e * (B + f) + A * f) <= g)%Q -> num (f64_mul v w) (X * Y) g C.
Proof.
  intros HV HW HN L HC HG. pose proof (num_bnd _ _ _ _ HV) as BV. pose proof (num_bnd _ _ _ _ HW) as BW. destruct HV as (Fv & Nv & Bv & Ev). destruct HW as (Fw & Nw & Bw & Ew).
  assert (BP : bnd (sfQ v * sfQ w) ((A + e) * (B + f))) by (apply (bnd_mul _ _ (A + e) (B + f)); [assumption|assumption|apply Qle_refl]).
  destruct BP as [P1 P2]. destruct (mul_near v w N Fv Fw HN ltac:(lra) ltac:(lra)) as [F NR].
  pose proof (near_mul _ _ _ _ _ _ A (B + f) Nv Nw (bnd_abs _ _ Bv) (bnd_abs _ _ BW)) as NM.
  split; [exact F|]. split; [eapply near_weaken; [eapply near_trans; [exact NR|exact NM]|exact HG]|]. split; [eapply bnd_mul; eassumption|].
  assert (0 < b2 (N - 54))%Q by apply b2_pos. assert (0 <= e * (B + f))%Q. { apply Qmult_le_0_compat; [exact Ev|]. destruct BW. lra. }
  assert (0 <= A * f)%Q. { apply Qmult_le_0_compat; [destruct Bv; lra|exact Ew]. } lra.
Qed.
Lemma num_add v X e A w Y f B N g C : num v X e A -> num w Y f B -> -1000 <= N <= 1023 -> (A + e + (B + f) < b2 N)%Q -> (A + B <= C)%Q ->
  (b2 (N - 54) + (e + f) <= g)%Q -> num (f64_add v w) (X + Y) g C.
Proof.
  intros HV HW HN L HC HG. pose proof (num_bnd _ _ _ _ HV) as BV. pose proof (num_bnd _ _ _ _ HW) as BW. destruct HV as (Fv & Nv & Bv & Ev). destruct HW as (Fw & Nw & Bw & Ew).
  destruct BV as [V1 V2], BW as [W1 W2]. destruct (add_near v w N Fv Fw HN ltac:(lra) ltac:(lra)) as [F [N1 N2]].
  assert (0 < b2 (N - 54))%Q by apply b2_pos.
  split; [exact F|]. split; [destruct Nv, Nw; unfold near; split; lra|]. split; [eapply bnd_add; eassumption|lra].
Qed.
Lemma num_sub v X e A w Y f B N g C : num v X e A -> num w Y f B -> -1000 <= N <= 1023 -> (A + e + (B + f) < b2 N)%Q -> bnd (X - Y) C ->
  (b2 (N - 54) + (e + f) <= g)%Q -> num (f64_sub v w) (X - Y) g C.
Proof.
  intros HV HW HN L HC HG. pose proof (num_bnd _ _ _ _ HV) as BV. pose proof (num_bnd _ _ _ _ HW) as BW. destruct HV as (Fv & Nv & Bv & Ev). destruct HW as (Fw & Nw & Bw & Ew).
  destruct BV as [V1 V2], BW as [W1 W2]. destruct (sub_near v w N Fv Fw HN ltac:(lra) ltac:(lra)) as [F [N1 N2]].
  assert (0 < b2 (N - 54))%Q by apply b2_pos.
  split; [exact F|]. split; [destruct Nv, Nw; unfold near; split; lra|]. split; [exact HC|lra].
Qed.
Lemma num_exact v B : fin64 v -> bnd (sfQ v) B -> num v (sfQ v) 0 B.
Proof. intros F H. split; [exact F|]. split; [unfold near; split; lra|]. split; [exact H|lra]. Qed.
Lemma num_Z z : - 2 ^ 53 < z < 2 ^ 53 -> num (f64_of_Z z) (inject_Z z) 0 (inject_Z (Z.abs z)).
Proof.
  intros H. destruct (of_Z_exact z H) as [F Q]. split; [exact F|]. split; [unfold near; rewrite Q; split; lra|]. split; [|lra].
  unfold bnd. rewrite <- inject_Z_opp. split; apply injZ_le; lia.
Qed.
Lemma num_eq v X Y e B : (X == Y)%Q -> num v X e B -> num v Y e B.
Proof. intros E (A & C & D & F). split; [exact A|]. split; [unfold near in *; rewrite <- E; exact C|]. split; [unfold bnd in *; rewrite <- E; exact D|exact F]. Qed.

Ltac qc := vm_compute; first [reflexivity|discriminate].
Lemma value_ok s x : spline_ok s -> nn64 x -> (0 <= sfQ x <= 1)%Q ->
  num (f64_mul (spline_value (f64_sub x (s_pos s)) (s_co s)) (f64_of_Z 255)) (255 * piece s (sfQ x)) (b2 (-16)) (255 * 4194304).
Proof.
  intros ((Fp & P0 & P1) & Ha & Hb & Hc & Hd) Nx [X0 X1]. change (b2 20) with 1048576%Q in *.
  assert (M : forall c, moderate c -> num c (sfQ c) 0 1048576) by (intros c [Fc Bc]; apply num_exact; assumption).
  apply M in Ha. apply M in Hb. apply M in Hc. apply M in Hd. clear M.
  assert (HX : num x (sfQ x) 0 1) by (apply num_exact; [now apply nn_finite|unfold bnd; split; lra]).
  assert (HPs : num (s_pos s) (sfQ (s_pos s)) 0 1) by (apply num_exact; [exact Fp|unfold bnd; split; lra]).
  set (T := (sfQ x - sfQ (s_pos s))%Q).
  assert (HT : num (f64_sub x (s_pos s)) T (b2 (-52)) 1).
  { apply (num_sub x _ 0 1 _ _ 0 1 2); [exact HX|exact HPs|lia|qc|unfold bnd; split; lra|qc]. }
  set (t := f64_sub x (s_pos s)) in *. set (a := q_a (s_co s)) in *. set (b := q_b (s_co s)) in *. set (c := q_c (s_co s)) in *. set (d := q_d (s_co s)) in *.
  pose proof (num_Z 1 ltac:(lia)) as O. pose proof (num_Z 0 ltac:(lia)) as Z. pose proof (num_Z 255 ltac:(lia)) as K. change (inject_Z (Z.abs 1)) with 1%Q in O. change (inject_Z (Z.abs 0)) with 0%Q in Z. change (inject_Z (Z.abs 255)) with 255%Q in K.
  assert (V : spline_value t (s_co s) =
    f64_add (f64_add (f64_add (f64_add (f64_of_Z 0) (f64_mul (f64_of_Z 1) d)) (f64_mul (f64_mul (f64_of_Z 1) t) c))
      (f64_mul (f64_mul (f64_mul (f64_of_Z 1) t) t) b)) (f64_mul (f64_mul (f64_mul (f64_mul (f64_of_Z 1) t) t) t) a)) by reflexivity.
  rewrite V. clear V.
  assert (p1 := num_mul _ _ _ _ _ _ _ _ 1 (b2 (-51)) 1 O HT ltac:(lia) ltac:(qc) ltac:(qc) ltac:(qc)).
  assert (p2 := num_mul _ _ _ _ _ _ _ _ 1 (b2 (-50)) 1 p1 HT ltac:(lia) ltac:(qc) ltac:(qc) ltac:(qc)).
  assert (p3 := num_mul _ _ _ _ _ _ _ _ 1 (b2 (-49)) 1 p2 HT ltac:(lia) ltac:(qc) ltac:(qc) ltac:(qc)).
  assert (m0 := num_mul _ _ _ _ _ _ _ _ 21 (b2 (-32)) 1048576 O Hd ltac:(lia) ltac:(qc) ltac:(qc) ltac:(qc)).
  assert (m1 := num_mul _ _ _ _ _ _ _ _ 21 (b2 (-30)) 1048576 p1 Hc ltac:(lia) ltac:(qc) ltac:(qc) ltac:(qc)).
  assert (m2 := num_mul _ _ _ _ _ _ _ _ 21 (b2 (-29)) 1048576 p2 Hb ltac:(lia) ltac:(qc) ltac:(qc) ltac:(qc)).
  assert (m3 := num_mul _ _ _ _ _ _ _ _ 21 (b2 (-28)) 1048576 p3 Ha ltac:(lia) ltac:(qc) ltac:(qc) ltac:(qc)).
  assert (y0 := num_add _ _ _ _ _ _ _ _ 21 (b2 (-31)) 1048576 Z m0 ltac:(lia) ltac:(qc) ltac:(qc) ltac:(qc)).
  assert (y1 := num_add _ _ _ _ _ _ _ _ 22 (b2 (-29)) 2097152 y0 m1 ltac:(lia) ltac:(qc) ltac:(qc) ltac:(qc)).
  assert (y2 := num_add _ _ _ _ _ _ _ _ 23 (b2 (-27)) 3145728 y1 m2 ltac:(lia) ltac:(qc) ltac:(qc) ltac:(qc)).
  assert (y3 := num_add _ _ _ _ _ _ _ _ 23 (b2 (-26)) 4194304 y2 m3 ltac:(lia) ltac:(qc) ltac:(qc) ltac:(qc)).
  assert (z := num_mul _ _ _ _ _ _ _ _ 31 (b2 (-16)) (255 * 4194304) y3 K ltac:(lia) ltac:(qc) ltac:(qc) ltac:(qc)).
  eapply num_eq; [|exact z]. unfold piece. fold T a b c d. change (inject_Z 1) with 1%Q. change (inject_Z 0) with 0%Q. change (inject_Z 255) with 255%Q. ring.
Qed.

Lemma cast_neg x : fin64 x -> (- b2 30 < sfQ x)%Q -> (sfQ x < 0)%Q -> exists k, cast_int x = Ok k /\ k <= 0.
Proof.
  intros F P B. destruct (frac_ok x F) as (n & d & E & D & Q). unfold cast_int. rewrite E.
  assert (n0 : n < 0 * d) by (apply (Q_num_lt _ n d 0 D Q); exact B).
  assert (n1 : - 2 ^ 30 * d < n) by (apply (Q_num_lt _ n d (- 2 ^ 30) D Q); rewrite inject_Z_opp, <- b2_Z by lia; exact P).
  assert (Eq : Z.quot n d = - (- n / d)). { replace n with (- - n) at 1 by lia. rewrite Z.quot_opp_l by lia. rewrite Z.quot_div_nonneg by lia. reflexivity. }
  assert (0 <= - n / d) by (apply Z.div_pos; lia). assert (- n / d < 2 ^ 30) by (apply Z.div_lt_upper_bound; lia).
  exists (- (- n / d)). rewrite Eq. split; [apply chk_ok; lia|lia].
Qed.
Lemma limit_ok x : fin64 x -> (- b2 30 < sfQ x < b2 30)%Q -> exists k, cast_int x = Ok k /\
  let v := if k <? 0 then 0 else if 255 <? k then 255 else k in 0 <= v <= 255 /\ limited v (sfQ x).
Proof.
  intros F [L U]. destruct (Qlt_le_dec (sfQ x) 0) as [N|N].
  - destruct (cast_neg x F L N) as (k & E & K). exists k. split; [exact E|]. cbv zeta.
    assert (V : (if k <? 0 then 0 else if 255 <? k then 255 else k) = 0) by (destruct (k <? 0) eqn:?; [reflexivity|]; destruct (255 <? k) eqn:?; lia).
    rewrite V. split; [lia|]. left. split; [reflexivity|lra].
  - destruct (cast_int_ok x F N U) as (k & E & K1 & K2). exists k. split; [exact E|]. cbv zeta.
    assert (K0 : 0 <= k). { assert (- 1 < k); [|lia]. apply injZ_lt. change (inject_Z (-1)) with (-1)%Q. lra. }
    replace (k <? 0) with false by lia. destruct (255 <? k) eqn:C.
    + split; [lia|]. right. left. split; [reflexivity|]. eapply Qle_trans; [|exact K1]. change 255%Q with (inject_Z 255). apply injZ_le. lia.
    + split; [lia|]. right. right. split; assumption.
Qed.

Section Splines.
  Variables (cnt : Z) (b w : f32) (l : list spline).
  Hypothesis (Hcnt : 0 <= cnt <= 65536) (Hb : unit_float b) (Hw : unit_float w) (HL : fle b w).
  Hypothesis (Hl : forall s, In s l -> spline_ok s) (NE : l <> []).

  Lemma spline_ok_sample k n : 0 <= k <= n -> 1 <= n < 65536 -> exists v,
    (let* s := calc_spline (frac64 k n) l in let* v := cast_int (f64_mul s (f64_of_Z 255)) in Ok (if v <? 0 then 0 else if 255 <? v then 255 else v)) = Ok v /\
    0 <= v <= 255 /\ spline_sample l k n v.
  Proof.
    intros Hk Hn. destruct (frac64_ok k n Hk Hn) as (Nx & [X0 X1] & NX). set (x := frac64 k n) in *.
    destruct (piece_found l x Nx Hl NE) as (s & Es & PA & Is). pose proof (Hl s Is) as Os. destruct (value_ok s x Os Nx (conj X0 X1)) as (Fz & Nz & Bz & _).
    unfold calc_spline.
    assert (C0 : SFltb x (f64_of_Z 0) = false).
    { destruct (SFltb x (f64_of_Z 0)) eqn:C; [|reflexivity]. apply (nn_ltb 53 1024) in C; [|exact Nx|split; reflexivity]. change (sfQ (f64_of_Z 0)) with 0%Q in C. lra. }
    assert (C1 : SFltb (f64_of_Z 1) x = false).
    { destruct (SFltb (f64_of_Z 1) x) eqn:C; [|reflexivity]. apply (nn_ltb 53 1024) in C; [|split; reflexivity|exact Nx]. assert (E1 : (sfQ (f64_of_Z 1) == 1)%Q) by reflexivity. lra. }
    rewrite C0, C1. cbn [orb]. rewrite Es. cbn [bind].
    set (z := f64_mul (spline_value (f64_sub x (s_pos s)) (s_co s)) (f64_of_Z 255)) in *.
    destruct (limit_ok z Fz) as (k' & Ek & R & LM).
    { destruct Nz as [Z1 Z2], Bz as [B1 B2]. assert (T1 : (b2 (-16) <= 1)%Q) by (vm_compute; discriminate). assert (T2 : (255 * 4194304 + 1 < b2 30)%Q) by reflexivity. split; lra. }
    rewrite Ek. cbn [bind]. eexists. split; [reflexivity|]. split; [exact R|].
    exists (sfQ x), s, (sfQ z). split; [split; assumption|]. split; [exact NX|]. split; [exact PA|]. split; [exact Nz|exact LM].
  Qed.
  Theorem splines_ok : exists low high, cuts cnt b w low high /\
    (high - low <> 1 -> exists t, lut_from_splines cnt b w l = Ok t /\ table 255 cnt low high (spline_sample l) t).
  Proof.
    destruct (cuts_ok cnt b w Hcnt Hb Hw HL) as (low & high & E1 & E2 & C). exists low, high. split; [exact C|]. intros NE1.
    assert (C1 := proj1 C). assert (C2 := proj1 (proj2 C)). unfold lut_from_splines.
    set (f := fun low0 high0 i : Z => _).
    destruct (make_lut_ok 255 cnt b w low high ltac:(lia) ltac:(lia) E1 E2 ltac:(lia) f (spline_sample l)) as (t & Et & T & _).
    - intros i Hi. unfold f. rewrite chk_ok by lia. cbn [bind]. rewrite chk_ok by lia. cbn [bind]. rewrite chk_ok by lia. cbn [bind].
      apply spline_ok_sample; lia.
    - exists t. split; assumption.
  Qed.
End Splines.
