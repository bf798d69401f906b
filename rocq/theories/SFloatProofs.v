(** Rounding of signed IEEE numbers over Q, from the results for non-negative ones. *)
From Coq Require Import QArith Qabs Qround Lqa Floats.SpecFloat.
From Verif Require Import Base FloatProofs.
Open Scope Z_scope.

Section Signed.
  Variables (prec emax : Z).
  Hypothesis (Hprec : 1 < prec) (Hemax : prec < emax).
  Local Notation fexp := (fexp prec emax).
  Local Notation emin := (emin prec emax).

  Definition fin (x : spec_float) : Prop := valid_binary prec emax x = true /\ sf_fin x = true.

  (** the outcome of an operation whose exact result is [X], smaller than 2^N *)
  Definition sop (X : Q) (N : Z) (r : spec_float) : Prop :=
    fin r /\ exists E, E <= fexp N /\ (E = emin \/ (b2 (E + prec - 1) <= Qabs X)%Q) /\ rnd E X (sfQ r).

  Lemma sfQ_opp x : (sfQ (SFopp x) == - sfQ x)%Q.
  Proof. destruct x as [s|s| |s m e]; cbn [SFopp sfQ]; try reflexivity; try (destruct s; cbn [negb cond_Zopp]); ring. Qed.
  Lemma fin_opp x : fin x -> fin (SFopp x).
  Proof. intros [A B]. destruct x; split; assumption. Qed.
  Lemma rnd_opp E X v : rnd E X v -> rnd E (- X) (- v).
  Proof.
    intros (k & A & B). exists (- k). split; [rewrite inject_Z_opp, A; ring|].
    rewrite <- (Qabs_opp (- v - - X)). setoid_replace (- (- v - - X))%Q with (v - X)%Q by ring. exact B.
  Qed.
  Lemma rnd_eq E X Y v w : (X == Y)%Q -> (v == w)%Q -> rnd E X v -> rnd E Y w.
  Proof. intros H H2 (k & A & B). exists k. rewrite <- H, <- H2. split; assumption. Qed.
  Lemma sop_eq X Y N r : (X == Y)%Q -> sop X N r -> sop Y N r.
  Proof. intros H (A & E & B & C & D). split; [exact A|]. exists E. rewrite H in C. split; [exact B|]. split; [exact C|]. eapply rnd_eq; [exact H|reflexivity|exact D]. Qed.
  Lemma sop_opp X N r : sop X N r -> sop (- X) N (SFopp r).
  Proof.
    intros (A & E & B & C & D). split; [now apply fin_opp|]. exists E. rewrite <- (Qabs_opp X) in C. split; [exact B|]. split; [exact C|].
    eapply rnd_eq; [reflexivity|symmetry; apply sfQ_opp|]. now apply rnd_opp.
  Qed.
  Lemma nn_finite x : nn prec emax x -> fin x.
  Proof. intros H. split; [apply H|now apply (nn_fin prec emax)]. Qed.
  Lemma sop_of_op X N r : (0 <= X)%Q -> op_ok prec emax X N r -> sop X N r.
  Proof.
    intros HX (A & E & B & C & D). split; [now apply nn_finite|]. exists E. rewrite <- (Qabs_pos X HX) in C. split; [exact B|]. split; [exact C|exact D].
  Qed.
  Lemma sop_sign (s : bool) X N r : (0 <= X)%Q -> op_ok prec emax X N r -> sop (if s then - X else X) N (if s then SFopp r else r).
  Proof. intros HX H. apply sop_of_op in H; [|exact HX]. destruct s; [now apply sop_opp|exact H]. Qed.

  (** errors *)
  Lemma sop_abs X N r : sop X N r -> emin + prec <= N -> (Qabs (sfQ r - X) <= b2 (N - prec - 1))%Q.
  Proof.
    intros (A & E & B & C & k & D & F) HN. eapply Qle_trans; [exact F|].
    replace (N - prec - 1) with ((N - prec) + -1) by lia. rewrite b2_plus. change (b2 (-1)) with (1 # 2)%Q.
    apply Qmult_le_compat_r; [|discriminate]. apply b2_le. unfold SpecFloat.fexp in B. lia.
  Qed.
  Lemma sop_rel X N r : sop X N r -> (Qabs (sfQ r - X) <= Qabs X * b2 (- prec) + b2 (emin - 1))%Q.
  Proof.
    intros (A & E & B & C & k & D & F). eapply Qle_trans; [exact F|].
    assert (P := b2_pos (emin - 1)). assert (P2 := b2_pos (- prec)). destruct C as [C|C].
    - subst E. replace (emin - 1) with (emin + -1) by lia. rewrite b2_plus. change (b2 (-1)) with (1 # 2)%Q.
      assert (0 <= Qabs X * b2 (- prec))%Q by (apply Qmult_le_0_compat; [apply Qabs_nonneg|apply Qlt_le_weak, P2]). lra.
    - assert (M : (b2 (E + prec - 1) * b2 (- prec) <= Qabs X * b2 (- prec))%Q) by (apply Qmult_le_compat_r; [exact C|apply Qlt_le_weak, P2]).
      rewrite <- b2_plus in M. replace (E + prec - 1 + - prec) with (E + -1) in M by lia. rewrite b2_plus in M. change (b2 (-1)) with (1 # 2)%Q in M. lra.
  Qed.
  (** results which are representable are exact *)
  Lemma sop_exact X N r z F : sop X N r -> (X == inject_Z z * b2 F)%Q -> fexp N <= F -> (sfQ r == X)%Q.
  Proof. intros (A & E & B & C & D) H HF. apply (rnd_exact E F z X _ D); [lia|exact H]. Qed.
  Lemma sop_le X N r z F : sop X N r -> fexp N <= F -> (X <= inject_Z z * b2 F)%Q -> (sfQ r <= inject_Z z * b2 F)%Q.
  Proof. intros (A & E & B & C & D) HF H. apply (rnd_le E F z X _ D); [lia|exact H]. Qed.
  Lemma sop_ge X N r z F : sop X N r -> fexp N <= F -> (inject_Z z * b2 F <= X)%Q -> (inject_Z z * b2 F <= sfQ r)%Q.
  Proof. intros (A & E & B & C & D) HF H. apply (rnd_ge E F z X _ D); [lia|exact H]. Qed.

  Lemma round_aux_opp m e l : binary_round_aux prec emax true m e l = SFopp (binary_round_aux prec emax false m e l).
  Proof.
    unfold binary_round_aux. destruct (shr_fexp prec emax m e l) as [a b]. destruct (shr_fexp prec emax _ b loc_Exact) as [a2 b2'].
    destruct (shr_m a2); [reflexivity| |reflexivity]. destruct (Zle_bool b2' (emax - prec)); reflexivity.
  Qed.
  Lemma round_sop s m e X N : (X == inject_Z (cond_Zopp s (Zpos m)) * b2 e)%Q -> (Qabs X < b2 N)%Q -> N <= emax - 1 -> sop X N (binary_round prec emax s m e).
  Proof.
    intros HX HN HE. set (Y := (inject_Z (Zpos m) * b2 e)%Q).
    assert (Y0 : (0 <= Y)%Q) by (apply Qmult_le_0_compat; [discriminate|apply Qlt_le_weak, b2_pos]).
    assert (XY : (X == if s then - Y else Y)%Q) by (rewrite HX; unfold Y; destruct s; cbn [cond_Zopp]; [change (Z.neg m) with (- Zpos m); rewrite inject_Z_opp|]; ring).
    assert (AX : (Qabs X == Y)%Q) by (rewrite XY; destruct s; [rewrite Qabs_opp|]; now apply Qabs_pos).
    eapply sop_eq; [symmetry; exact XY|].
    replace (binary_round prec emax s m e) with (if s then SFopp (binary_round prec emax false m e) else binary_round prec emax false m e).
    - apply sop_sign; [exact Y0|]. apply round_op; [exact Hprec|exact Hemax|reflexivity|rewrite AX in HN; exact HN|exact HE].
    - destruct s; [|reflexivity]. unfold binary_round. destruct (shl_align m e _) as [mz ez]. symmetry. apply round_aux_opp.
  Qed.
  Lemma normalize_sop z e sz X N : (X == inject_Z z * b2 e)%Q -> (Qabs X < b2 N)%Q -> N <= emax - 1 -> sop X N (binary_normalize prec emax z e sz).
  Proof.
    intros HX HN HE. destruct z as [|p|p]; cbn [binary_normalize].
    - assert (X0 : (X == 0)%Q) by (rewrite HX; change (inject_Z 0) with 0%Q; ring). eapply sop_eq; [symmetry; exact X0|].
      destruct sz; (split; [split; reflexivity|]); (exists emin; split; [unfold SpecFloat.fexp; lia|]; split; [now left|apply rnd_0]).
    - apply round_sop; assumption.
    - apply round_sop; assumption.
  Qed.

  Lemma fin_sop x N : fin x -> (Qabs (sfQ x) < b2 N)%Q -> N <= emax - 1 -> sop (sfQ x) N x.
  Proof.
    intros [V F] HN HE. assert (HA : nn prec emax (SFabs x)) by (destruct x; try discriminate; split; solve [exact V|reflexivity]).
    assert (QA : (sfQ (SFabs x) == Qabs (sfQ x))%Q).
    { destruct x as [s|s| |s m e]; try discriminate; cbn [SFabs sfQ]; [reflexivity|]. cbn [cond_Zopp].
      assert (0 <= inject_Z (Zpos m) * b2 e)%Q by (apply Qmult_le_0_compat; [discriminate|apply Qlt_le_weak, b2_pos]).
      destruct s; cbn [cond_Zopp].
      - setoid_replace (inject_Z (- Z.pos m) * b2 e)%Q with (- (inject_Z (Z.pos m) * b2 e))%Q by (rewrite inject_Z_opp; ring). rewrite Qabs_opp. symmetry. now apply Qabs_pos.
      - symmetry. now apply Qabs_pos. }
    rewrite <- QA in HN. pose proof (nn_op prec emax _ _ HA HN) as O.
    assert (P := nn_ge0 prec emax _ HA). pose proof (sop_sign (match x with S754_finite true _ _ | S754_zero true => true | _ => false end) _ _ _ P O) as R.
    destruct x as [s|s| |s m e]; try discriminate; destruct s; cbn [SFabs SFopp negb] in R; (eapply sop_eq; [|exact R]); cbn [sfQ cond_Zopp]; try reflexivity.
    ring.
  Qed.

  Lemma SFadd_sop x y N : fin x -> fin y -> (Qabs (sfQ x + sfQ y) < b2 N)%Q -> N <= emax - 1 -> sop (sfQ x + sfQ y) N (SFadd prec emax x y).
  Proof.
    intros Fx Fy HN HE.
    destruct x as [sx|sx| |sx mx ex]; try (destruct Fx; discriminate); destruct y as [sy|sy| |sy my ey]; try (destruct Fy; discriminate).
    - cbn [SFadd]. assert (Z0 : (sfQ (S754_zero sx) + sfQ (S754_zero sy) == 0)%Q) by reflexivity. eapply sop_eq; [symmetry; exact Z0|].
      destruct (Bool.eqb sx sy); (split; [split; reflexivity|]); (exists emin; split; [unfold SpecFloat.fexp; lia|]; split; [now left|apply rnd_0]).
    - cbn [SFadd]. assert (E : (sfQ (S754_zero sx) + sfQ (S754_finite sy my ey) == sfQ (S754_finite sy my ey))%Q) by (cbn [sfQ]; ring).
      rewrite E in HN. eapply sop_eq; [symmetry; exact E|]. now apply fin_sop.
    - cbn [SFadd]. assert (E : (sfQ (S754_finite sx mx ex) + sfQ (S754_zero sy) == sfQ (S754_finite sx mx ex))%Q) by (cbn [sfQ]; ring).
      rewrite E in HN. eapply sop_eq; [symmetry; exact E|]. now apply fin_sop.
    - cbn [SFadd]. set (ez := Z.min ex ey).
      pose proof (shl_align_ok mx ex ez) as Hx. pose proof (shl_align_ok my ey ez) as Hy. cbv zeta in Hx, Hy.
      destruct Hx as (X1 & _ & X3 & _). destruct Hy as (Y1 & _ & Y3 & _). rewrite X3 in X1 by lia. rewrite Y3 in Y1 by lia.
      apply normalize_sop; [|exact HN|exact HE]. rewrite inject_Z_plus.
      assert (L : forall s p q e e', (inject_Z (Zpos p) * b2 e == inject_Z (Zpos q) * b2 e')%Q -> (inject_Z (cond_Zopp s (Zpos q)) * b2 e' == inject_Z (cond_Zopp s (Zpos p)) * b2 e)%Q).
      { intros s p q e e' H. destruct s; cbn [cond_Zopp]; rewrite ?inject_Z_opp; [|symmetry; exact H].
        setoid_replace (- inject_Z (Z.pos q) * b2 e')%Q with (- (inject_Z (Z.pos q) * b2 e'))%Q by ring. rewrite <- H. ring. }
      pose proof (L sx _ _ _ _ X1) as X2. pose proof (L sy _ _ _ _ Y1) as Y2.
      assert (SQ : forall s m e, (sfQ (S754_finite s m e) == inject_Z (cond_Zopp s (Zpos m)) * b2 e)%Q) by (intros; cbn [sfQ]; destruct s; reflexivity).
      rewrite !SQ, X2, Y2. ring.
  Qed.
  Lemma SFsub_add x y : fin x -> fin y -> SFsub prec emax x y = SFadd prec emax x (SFopp y).
  Proof.
    intros Fx Fy. destruct x as [sx|sx| |sx mx ex]; try (destruct Fx; discriminate); destruct y as [sy|sy| |sy my ey]; try (destruct Fy; discriminate); try reflexivity.
    cbn [SFsub SFadd SFopp]. f_equal. destruct sy; cbn [cond_Zopp negb]; lia.
  Qed.
  Lemma SFsub_sop x y N : fin x -> fin y -> (Qabs (sfQ x - sfQ y) < b2 N)%Q -> N <= emax - 1 -> sop (sfQ x - sfQ y) N (SFsub prec emax x y).
  Proof.
    intros Fx Fy HN HE. rewrite SFsub_add by assumption.
    assert (E : (sfQ x + sfQ (SFopp y) == sfQ x - sfQ y)%Q) by (rewrite sfQ_opp; ring).
    eapply sop_eq; [exact E|]. apply SFadd_sop; [exact Fx|now apply fin_opp|rewrite E; exact HN|exact HE].
  Qed.

  Definition sgnb (x : spec_float) : bool := match x with S754_finite s _ _ | S754_zero s => s | _ => false end.
  Lemma fin_abs x : fin x -> nn prec emax (SFabs x) /\ (sfQ x == if sgnb x then - sfQ (SFabs x) else sfQ (SFabs x))%Q /\ (sfQ (SFabs x) == Qabs (sfQ x))%Q.
  Proof.
    intros [V F]. destruct x as [s|s| |s m e]; try discriminate.
    - repeat split. cbn. destruct s; reflexivity.
    - split; [split; [exact V|reflexivity]|]. cbn [SFabs sgnb sfQ cond_Zopp].
      assert (0 <= inject_Z (Zpos m) * b2 e)%Q by (apply Qmult_le_0_compat; [discriminate|apply Qlt_le_weak, b2_pos]).
      destruct s; cbn [cond_Zopp].
      + assert (E : (inject_Z (- Z.pos m) * b2 e == - (inject_Z (Z.pos m) * b2 e))%Q) by (rewrite inject_Z_opp; ring). split; [exact E|]. rewrite E, Qabs_opp. symmetry. now apply Qabs_pos.
      + split; [reflexivity|]. symmetry. now apply Qabs_pos.
  Qed.
  Lemma SFmul_abs x y : fin x -> fin y -> SFmul prec emax x y = if xorb (sgnb x) (sgnb y) then SFopp (SFmul prec emax (SFabs x) (SFabs y)) else SFmul prec emax (SFabs x) (SFabs y).
  Proof.
    intros Fx Fy. destruct x as [sx|sx| |sx mx ex]; try (destruct Fx; discriminate); destruct y as [sy|sy| |sy my ey]; try (destruct Fy; discriminate);
      try (destruct sx, sy; reflexivity).
    cbn [SFmul SFabs sgnb xorb]. destruct sx, sy; cbn [xorb]; try reflexivity; apply round_aux_opp.
  Qed.
  Lemma SFdiv_abs x y : fin x -> fin y -> SFdiv prec emax x y = if xorb (sgnb x) (sgnb y) then SFopp (SFdiv prec emax (SFabs x) (SFabs y)) else SFdiv prec emax (SFabs x) (SFabs y).
  Proof.
    intros Fx Fy. destruct x as [sx|sx| |sx mx ex]; try (destruct Fx; discriminate); destruct y as [sy|sy| |sy my ey]; try (destruct Fy; discriminate);
      try (destruct sx, sy; reflexivity).
    cbn [SFdiv SFabs sgnb xorb]. destruct (SFdiv_core_binary prec emax (Z.pos mx) ex (Z.pos my) ey) as [[mz ez] lz].
    destruct sx, sy; cbn [xorb]; try reflexivity; apply round_aux_opp.
  Qed.

  Lemma SFmul_sop x y N : fin x -> fin y -> (Qabs (sfQ x * sfQ y) < b2 N)%Q -> N <= emax - 1 -> sop (sfQ x * sfQ y) N (SFmul prec emax x y).
  Proof.
    intros Fx Fy HN HE. destruct (fin_abs x Fx) as (Nx & Sx & Ax). destruct (fin_abs y Fy) as (Ny & Sy & Ay).
    assert (HA : (sfQ (SFabs x) * sfQ (SFabs y) < b2 N)%Q) by (rewrite Ax, Ay, <- Qabs_Qmult; exact HN).
    pose proof (SFmul_op prec emax Hprec Hemax _ _ N Nx Ny HA HE) as O.
    assert (P : (0 <= sfQ (SFabs x) * sfQ (SFabs y))%Q) by (apply Qmult_le_0_compat; now apply (nn_ge0 prec emax)).
    rewrite SFmul_abs by assumption. eapply sop_eq; [|apply (sop_sign (xorb (sgnb x) (sgnb y)) _ _ _ P O)].
    rewrite Sx, Sy. destruct (sgnb x), (sgnb y); cbn [xorb]; ring.
  Qed.
  Lemma SFdiv_sop x y N : fin x -> fin y -> ~ (sfQ y == 0)%Q -> (sfQ x == 0)%Q \/ (b2 emin <= Qabs (sfQ x / sfQ y))%Q -> (Qabs (sfQ x / sfQ y) < b2 N)%Q -> N <= emax - 1 -> sop (sfQ x / sfQ y) N (SFdiv prec emax x y).
  Proof.
    intros Fx Fy Hy Hm HN HE. destruct (fin_abs x Fx) as (Nx & Sx & Ax). destruct (fin_abs y Fy) as (Ny & Sy & Ay).
    assert (Y0 : (0 < sfQ (SFabs y))%Q).
    { rewrite Ay. destruct (Qlt_le_dec 0 (Qabs (sfQ y))) as [L|L]; [exact L|]. exfalso. apply Hy.
      assert (A0 := Qabs_nonneg (sfQ y)). assert (E0 : (Qabs (sfQ y) == 0)%Q) by (apply Qle_antisym; assumption).
      revert E0. apply Qabs_case; intros _ E0; [exact E0|]. setoid_replace (sfQ y) with (- - sfQ y)%Q by ring. rewrite E0. reflexivity. }
    assert (QA : (Qabs (sfQ x / sfQ y) == sfQ (SFabs x) / sfQ (SFabs y))%Q) by (unfold Qdiv; rewrite Qabs_Qmult, Qabs_Qinv, Ax, Ay; reflexivity).
    assert (P : (0 <= sfQ (SFabs x) / sfQ (SFabs y))%Q) by (rewrite <- QA; apply Qabs_nonneg).
    assert (O : op_ok prec emax (sfQ (SFabs x) / sfQ (SFabs y)) N (SFdiv prec emax (SFabs x) (SFabs y))).
    { destruct Hm as [Hm|Hm].
      - destruct x as [sx|sx| |sx mx ex]; try (destruct Fx; discriminate).
        + apply (op_ok_eq prec emax 0); [cbn [SFabs sfQ]; unfold Qdiv; ring|].
          destruct y as [sy|sy| |sy my ey]; try (destruct Fy; discriminate). cbn [SFabs SFdiv xorb]. apply op_ok_0.
        + exfalso. rewrite Sx in Hm. cbn [SFabs sfQ sgnb cond_Zopp] in Hm.
          assert (0 < inject_Z (Zpos mx) * b2 ex)%Q by (rewrite <- (Qmult_0_l (b2 ex)); apply Qmult_lt_compat_r; [apply b2_pos|reflexivity]). destruct sx; lra.
      - rewrite QA in HN, Hm. apply SFdiv_op; assumption. }
    rewrite SFdiv_abs by assumption. eapply sop_eq; [|apply (sop_sign (xorb (sgnb x) (sgnb y)) _ _ _ P O)].
    assert (Y1 : ~ (sfQ (SFabs y) == 0)%Q) by (intros E0; rewrite E0 in Y0; apply (Qlt_irrefl 0 Y0)).
    rewrite Sx, Sy. destruct (sgnb x), (sgnb y); cbn [xorb]; field; exact Y1.
  Qed.
End Signed.
