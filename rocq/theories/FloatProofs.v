(** Rounding of the IEEE operations of the standard library (Coq.Floats.SpecFloat), over the
    rationals: a rounded result is the nearest multiple of the unit in the last place. *)
From Verif Require Import Base.
From Coq Require Import QArith Qpower Qabs Lqa Floats.SpecFloat.
Open Scope Z_scope.

Definition b2 (e : Z) : Q := Qpower 2 e.

Lemma b2_pos e : (0 < b2 e)%Q.
Proof. apply Qpower_0_lt. reflexivity. Qed.
Lemma b2_plus a b : (b2 (a + b) == b2 a * b2 b)%Q.
Proof. apply Qpower_plus. discriminate. Qed.
Lemma b2_0 : (b2 0 == 1)%Q.
Proof. reflexivity. Qed.
Lemma b2_1 : (b2 1 == 2)%Q.
Proof. reflexivity. Qed.
Lemma b2_Z n : 0 <= n -> (b2 n == inject_Z (2 ^ n))%Q.
Proof.
  intros H. unfold b2. rewrite Zpower_Qpower by exact H. reflexivity.
Qed.

(** value of a float; infinities and NaN have none *)
Definition sfQ (x : spec_float) : Q :=
  match x with
  | S754_finite s m e => (if s then - (inject_Z (Zpos m)) else inject_Z (Zpos m)) * b2 e
  | _ => 0
  end.
Definition sf_fin (x : spec_float) : bool := match x with S754_finite _ _ _ | S754_zero _ => true | _ => false end.

(** position of [x] relative to the integer part kept in a shift record *)
Definition inb (r : shr_record) (x : Q) : Prop :=
  let m := inject_Z (shr_m r) in
  match shr_r r, shr_s r with
  | false, false => (x == m)%Q
  | false, true => (m < x < m + (1 # 2))%Q
  | true, false => (x == m + (1 # 2))%Q
  | true, true => (m + (1 # 2) < x < m + 1)%Q
  end.

Lemma inb_eq r x y : (x == y)%Q -> inb r x -> inb r y.
Proof. unfold inb. intros E. destruct (shr_r r), (shr_s r); rewrite E; auto. Qed.

Lemma injZ_xO p : (inject_Z (Zpos (xO p)) == 2 * inject_Z (Zpos p))%Q.
Proof. change (Zpos (xO p)) with (2 * Zpos p). rewrite inject_Z_mult. reflexivity. Qed.
Lemma injZ_xI p : (inject_Z (Zpos (xI p)) == 2 * inject_Z (Zpos p) + 1)%Q.
Proof. change (Zpos (xI p)) with (2 * Zpos p + 1). rewrite inject_Z_plus, inject_Z_mult. reflexivity. Qed.

Lemma shr_1_inb r x : 0 <= shr_m r -> inb r x -> inb (shr_1 r) (x * (1 # 2)) /\ 0 <= shr_m (shr_1 r).
Proof.
  destruct r as [m r s]. unfold inb; cbn [shr_m shr_r shr_s]. intros Hm H.
  destruct m as [|[p|p|]|p]; [| | | |lia]; destruct r, s; cbn [shr_1 shr_m shr_r shr_s orb]; (split; [|lia]).
  all: match type of H with
       | context [Zpos (xI ?p)] => pose proof (injZ_xI p) as X; set (a := inject_Z (Zpos p~1)) in *; set (b := inject_Z (Zpos p)) in *; clearbody a b
       | context [Zpos (xO ?p)] => pose proof (injZ_xO p) as X; set (a := inject_Z (Zpos p~0)) in *; set (b := inject_Z (Zpos p)) in *; clearbody a b
       | _ => change (inject_Z 0) with (0%Q) in *; change (inject_Z 1) with (1%Q) in *
       end.
  all: clear Hm; lra.
Qed.

Lemma iter_shr_inb p : forall r x, 0 <= shr_m r -> inb r x ->
  inb (iter_pos shr_1 p r) (x * b2 (Zneg p)) /\ 0 <= shr_m (iter_pos shr_1 p r).
Proof.
  induction p as [p IH|p IH|]; intros r x Hm H; cbn [iter_pos].
  - destruct (shr_1_inb r x Hm H) as [H1 M1]. destruct (IH _ _ M1 H1) as [H2 M2]. destruct (IH _ _ M2 H2) as [H3 M3].
    split; [|exact M3]. eapply inb_eq; [|exact H3].
    replace (Zneg p~1) with (-1 + (Zneg p + Zneg p)) by lia. rewrite !b2_plus. change (b2 (-1)) with (1 # 2)%Q. ring.
  - destruct (IH _ _ Hm H) as [H2 M2]. destruct (IH _ _ M2 H2) as [H3 M3].
    split; [|exact M3]. eapply inb_eq; [|exact H3].
    replace (Zneg p~0) with (Zneg p + Zneg p) by lia. rewrite !b2_plus. ring.
  - destruct (shr_1_inb r x Hm H) as [H1 M1]. split; [|exact M1]. exact H1.
Qed.

Lemma inb_loc r : inb (shr_record_of_loc (shr_m r) (loc_of_shr_record r)) = inb r.
Proof. destruct r as [m [] []]; reflexivity. Qed.

(** rounding to nearest even *)
Lemma rne_ok r x : inb r x ->
  let k := round_nearest_even (shr_m r) (loc_of_shr_record r) in
  (Qabs (inject_Z k - x) <= 1 # 2)%Q /\ shr_m r <= k <= shr_m r + 1 /\ (loc_of_shr_record r = loc_Exact -> (x == inject_Z k)%Q).
Proof.
  destruct r as [m r s]. unfold inb; cbn [shr_m shr_r shr_s]. intros H. cbv zeta.
  assert (P : forall k d, (inject_Z (k + d) == inject_Z k + inject_Z d)%Q) by (intros; rewrite inject_Z_plus; reflexivity).
  destruct r, s; cbn [loc_of_shr_record round_nearest_even]; try (destruct (Z.even m)).
  all: split; [|split; [lia|try discriminate; auto]]; pose proof (P m 1) as X; change (inject_Z 1) with 1%Q in X;
    set (a := inject_Z (m + 1)) in *; set (b := inject_Z m) in *; clearbody a b; apply Qabs_case; intros; lra.
Qed.

Lemma digits2_pos_spec p : 2 ^ (Zpos (digits2_pos p) - 1) <= Zpos p < 2 ^ Zpos (digits2_pos p).
Proof.
  induction p as [p IH|p IH|]; cbn [digits2_pos]; [| |cbn; lia].
  all: rewrite Pos2Z.inj_succ; replace (Z.succ (Zpos (digits2_pos p)) - 1) with (Z.succ (Zpos (digits2_pos p) - 1)) by lia;
    rewrite !Z.pow_succ_r by lia; lia.
Qed.

Lemma pow2_mono a b : 0 <= a <= b -> 2 ^ a <= 2 ^ b.
Proof. intros H. apply Z.pow_le_mono_r; lia. Qed.
Lemma pow2_smono a b : 0 <= b -> a < b -> 2 ^ a < 2 ^ b.
Proof. intros H H'. apply Z.pow_lt_mono_r; lia. Qed.

Lemma digits2_unique p d : 0 < d -> 2 ^ (d - 1) <= Zpos p < 2 ^ d -> Zpos (digits2_pos p) = d.
Proof.
  intros Hd H. pose proof (digits2_pos_spec p) as S.
  destruct (Z.lt_trichotomy (Zpos (digits2_pos p)) d) as [L|[L|L]]; [|exact L|].
  - pose proof (pow2_mono (Zpos (digits2_pos p)) (d - 1)). lia.
  - pose proof (pow2_mono d (Zpos (digits2_pos p) - 1)). lia.
Qed.
Lemma digits2_le p d : 0 <= d -> Zpos p < 2 ^ d -> Zpos (digits2_pos p) <= d.
Proof.
  intros Hd H. pose proof (digits2_pos_spec p) as S.
  destruct (Z_le_dec (Zpos (digits2_pos p)) d) as [L|L]; [exact L|].
  pose proof (pow2_mono d (Zpos (digits2_pos p) - 1)). lia.
Qed.
Lemma digits2_ge p d : 0 < d -> 2 ^ (d - 1) <= Zpos p -> d <= Zpos (digits2_pos p).
Proof.
  intros Hd H. pose proof (digits2_pos_spec p) as S.
  destruct (Z_le_dec d (Zpos (digits2_pos p))) as [L|L]; [exact L|].
  pose proof (pow2_mono (Zpos (digits2_pos p)) (d - 1)). lia.
Qed.

(** integer part after a shift *)
Lemma inb_floor r x : inb r x -> (inject_Z (shr_m r) <= x < inject_Z (shr_m r) + 1)%Q.
Proof. unfold inb. destruct (shr_r r), (shr_s r); lra. Qed.

Lemma injZ_le a b : (inject_Z a <= inject_Z b)%Q <-> a <= b.
Proof. rewrite <- Zle_Qle. reflexivity. Qed.
Lemma injZ_lt a b : (inject_Z a < inject_Z b)%Q <-> a < b.
Proof. rewrite <- Zlt_Qlt. reflexivity. Qed.

Section Round.
  Variables (prec emax : Z).
  Hypothesis (Hprec : 1 < prec) (Hemax : prec < emax).
  Local Notation fexp := (fexp prec emax).

  (** [v] is [x] rounded to a multiple of 2^E *)
  Definition rnd (E : Z) (x v : Q) : Prop :=
    exists k, (v == inject_Z k * b2 E)%Q /\ (Qabs (v - x) <= b2 E * (1 # 2))%Q.

  Lemma shr_fexp_exact_small m e : fexp (Zdigits2 m + e) <= e -> shr_fexp prec emax m e loc_Exact = (Build_shr_record m false false, e).
  Proof.
    intros H. unfold shr_fexp, shr. cbn [shr_record_of_loc]. destruct (fexp (Zdigits2 m + e) - e) eqn:Ed; [reflexivity| |reflexivity]. lia.
  Qed.

  Lemma round_aux_ok sx (m : positive) e l x :
    inb (shr_record_of_loc (Zpos m) l) (x * b2 (- e)) ->
    e <= fexp (Zpos (digits2_pos m) + e) ->
    Zpos (digits2_pos m) + e <= emax - 1 ->
    let E := fexp (Zpos (digits2_pos m) + e) in
    let r := binary_round_aux prec emax sx (Zpos m) e l in
    sf_fin r = true /\ valid_binary prec emax r = true /\
    exists v, (sfQ r == if sx then - v else v)%Q /\ rnd E x v.
  Proof.
    intros Hin He Hn. cbv zeta. set (n := Zpos (digits2_pos m) + e) in *. set (E := fexp n) in *.
    set (P := fun r => sf_fin r = true /\ valid_binary prec emax r = true /\
                       exists v, (sfQ r == if sx then - v else v)%Q /\ rnd E x v).
    change (P (binary_round_aux prec emax sx (Zpos m) e l)).
    unfold binary_round_aux, shr_fexp at 1. cbn [Zdigits2]. fold n. fold E.
    assert (H1 : inb (fst (shr (shr_record_of_loc (Zpos m) l) e (E - e))) (x * b2 (- E)) /\
                 0 <= shr_m (fst (shr (shr_record_of_loc (Zpos m) l) e (E - e))) /\
                 snd (shr (shr_record_of_loc (Zpos m) l) e (E - e)) = E).
    { assert (M0 : 0 <= shr_m (shr_record_of_loc (Zpos m) l)) by (destruct l as [|[]]; cbn; lia).
      unfold shr. destruct (E - e) as [|p|p] eqn:Ed.
      - cbn [fst snd]. replace E with e by lia. auto.
      - cbn [fst snd]. destruct (iter_shr_inb p _ _ M0 Hin) as [A B]. split; [|split; [exact B|lia]].
        eapply inb_eq; [|exact A]. replace (- E) with (- e + Zneg p) by lia. rewrite b2_plus. ring.
      - lia. }
    destruct (shr (shr_record_of_loc (Zpos m) l) e (E - e)) as [mrs e'] eqn:Es. cbn [fst snd] in H1. destruct H1 as (Hi & Hm & ->).
    pose proof (rne_ok mrs _ Hi) as Hk. cbv zeta in Hk.
    set (k := round_nearest_even (shr_m mrs) (loc_of_shr_record mrs)) in *. destruct Hk as (Hka & Hkr & _).
    pose proof (inb_floor _ _ Hi) as Hfl.
    (* bounds of the integer part *)
    assert (Hx : (inject_Z (Zpos m) <= x * b2 (- e) < inject_Z (Zpos m) + 1)%Q).
    { pose proof (inb_floor _ _ Hin) as F. destruct l as [|[]]; exact F. }
    pose proof (digits2_pos_spec m) as Dm.
    assert (Hnb : 0 <= n - e) by (unfold n; lia).
    assert (Up : (x * b2 (- E) <= b2 (n - E))%Q).
    { replace (- E) with (- e + (e - E)) by lia. replace (n - E) with ((n - e) + (e - E)) by lia. rewrite !b2_plus.
      rewrite Qmult_assoc. apply Qmult_le_compat_r; [|apply Qlt_le_weak, b2_pos].
      rewrite (b2_Z (n - e)) by lia. destruct Hx as [_ Hx]. apply Qlt_le_weak. eapply Qlt_le_trans; [exact Hx|].
      change 1%Q with (inject_Z 1). rewrite <- inject_Z_plus. apply injZ_le. replace (n - e) with (Zpos (digits2_pos m)) by (unfold n; lia). lia. }
    assert (UpS : (x * b2 (- E) < b2 (n - E))%Q).
    { replace (- E) with (- e + (e - E)) by lia. replace (n - E) with ((n - e) + (e - E)) by lia. rewrite !b2_plus.
      rewrite Qmult_assoc. apply Qmult_lt_compat_r; [apply b2_pos|].
      rewrite (b2_Z (n - e)) by lia. destruct Hx as [_ Hx]. eapply Qlt_le_trans; [exact Hx|].
      change 1%Q with (inject_Z 1). rewrite <- inject_Z_plus. apply injZ_le. replace (n - e) with (Zpos (digits2_pos m)) by (unfold n; lia). lia. }
    assert (Lo : (b2 (n - 1 - E) <= x * b2 (- E))%Q).
    { replace (- E) with (- e + (e - E)) by lia. replace (n - 1 - E) with ((n - 1 - e) + (e - E)) by lia. rewrite !b2_plus.
      rewrite Qmult_assoc. apply Qmult_le_compat_r; [|apply Qlt_le_weak, b2_pos].
      rewrite (b2_Z (n - 1 - e)) by (unfold n; lia). destruct Hx as [Hx _]. eapply Qle_trans; [|exact Hx].
      apply injZ_le. replace (n - 1 - e) with (Zpos (digits2_pos m) - 1) by (unfold n; lia). lia. }
    assert (HEn : n - prec <= E) by (unfold E, SpecFloat.fexp; lia).
    assert (HEm : emin prec emax <= E) by (unfold E, SpecFloat.fexp; lia).
    assert (HEc : E = n - prec \/ E = emin prec emax /\ n - prec < E) by (unfold E, SpecFloat.fexp; lia).
    assert (Kup : 0 <= n - E -> k <= 2 ^ (n - E)).
    { intros Hp. assert (shr_m mrs < 2 ^ (n - E)); [|lia]. apply injZ_lt. rewrite <- b2_Z by exact Hp.
      eapply Qle_lt_trans; [apply Hfl|exact UpS]. }
    assert (Kup2 : k <= 2 ^ prec).
    { destruct (Z_le_dec 0 (n - E)) as [Hp|Hp].
      - specialize (Kup Hp). pose proof (pow2_mono (n - E) prec). lia.
      - (* x * b2 (-E) < 1 *)
        assert (shr_m mrs < 1). { apply injZ_lt. eapply Qle_lt_trans; [apply Hfl|]. eapply Qlt_le_trans; [exact UpS|].
          change (inject_Z 1) with (b2 0). unfold b2. apply Qpower_le_compat_l; [lia|discriminate]. }
        pose proof (pow2_mono 1 prec). change (2 ^ 1) with 2 in *. lia. }
    assert (V : (Qabs (inject_Z k * b2 E - x) <= b2 E * (1 # 2))%Q).
    { assert (EQ : (inject_Z k * b2 E - x == (inject_Z k - x * b2 (- E)) * b2 E)%Q).
      { assert (Hb : (b2 (- E) * b2 E == 1)%Q) by (rewrite <- b2_plus; replace (- E + E) with 0 by lia; reflexivity).
        setoid_replace ((inject_Z k - x * b2 (- E)) * b2 E)%Q with (inject_Z k * b2 E - x * (b2 (- E) * b2 E))%Q by ring. rewrite Hb. ring. }
      rewrite EQ, Qabs_Qmult, (Qabs_pos (b2 E)) by (apply Qlt_le_weak, b2_pos).
      rewrite (Qmult_comm (b2 E)). apply Qmult_le_compat_r; [exact Hka|apply Qlt_le_weak, b2_pos]. }
    destruct k as [|kp|kp] eqn:Ek; [| |lia].
    - (* zero *)
      assert (Ez : shr_fexp prec emax 0 E loc_Exact = (Build_shr_record 0 false false, E) \/ exists p, shr_fexp prec emax 0 E loc_Exact = (iter_pos shr_1 p (Build_shr_record 0 false false), E + Zpos p)).
      { unfold shr_fexp, shr. cbn [shr_record_of_loc]. destruct (fexp (Zdigits2 0 + E) - E); eauto. }
      assert (Em : shr_m (fst (shr_fexp prec emax 0 E loc_Exact)) = 0).
      { destruct Ez as [->|[p ->]]; [reflexivity|]. cbn [fst]. assert (forall b, b = Build_shr_record 0 false false -> iter_pos shr_1 p b = b) as F.
        { induction p as [p IH|p IH|]; intros b ->; cbn [iter_pos]; [change (shr_1 (Build_shr_record 0 false false)) with (Build_shr_record 0 false false)| |reflexivity]; now rewrite !IH by (try reflexivity; now rewrite IH). }
        now rewrite F. }
      destruct (shr_fexp prec emax 0 E loc_Exact) as [mr2 e2]. cbn [fst] in Em. rewrite Em.
      split; [reflexivity|]. split; [reflexivity|]. exists 0%Q. split; [destruct sx; reflexivity|]. exists 0. split; [reflexivity|].
      eapply Qle_trans; [|exact V]. assert (EQ : (0 - x == 0 * b2 E - x)%Q) by ring. rewrite EQ. apply Qle_refl.
    - destruct (Z.eq_dec (Zpos kp) (2 ^ prec)) as [Ekp|Nkp].
      + (* rounded up to the next power of two *)
        assert (Dk : Zpos (digits2_pos kp) = prec + 1).
        { apply digits2_unique; [lia|]. rewrite Ekp. replace (prec + 1 - 1) with prec by lia. split; [lia|]. apply pow2_smono; lia. }
        assert (Ed : fexp (Zdigits2 (Zpos kp) + E) - E = 1) by (unfold SpecFloat.fexp; cbn [Zdigits2]; rewrite Dk; lia).
        unfold shr_fexp. rewrite Ed. cbn [shr shr_record_of_loc iter_pos].
        assert (exists q, kp = xO q) as [q ->].
        { destruct kp as [q|q|]; [|eauto|]; exfalso; replace (2 ^ prec) with (2 * 2 ^ (prec - 1)) in Ekp by (rewrite <- Z.pow_succ_r by lia; f_equal; lia); lia. }
        cbn [shr_1 shr_m orb]. assert (Eq : Zpos q = 2 ^ (prec - 1)).
        { replace (2 ^ prec) with (2 * 2 ^ (prec - 1)) in Ekp by (rewrite <- Z.pow_succ_r by lia; f_equal; lia). lia. }
        assert (HnE : n - prec = E). { destruct HEc as [->|[A B]]; [reflexivity|]. exfalso.
          destruct (Z_le_dec 0 (n - E)) as [Hp|Hp].
          - specialize (Kup Hp). pose proof (pow2_smono (n - E) prec). lia.
          - assert (shr_m mrs < 1). { apply injZ_lt. eapply Qle_lt_trans; [apply Hfl|]. eapply Qlt_le_trans; [exact UpS|].
            change (inject_Z 1) with (b2 0). unfold b2. apply Qpower_le_compat_l; [lia|discriminate]. }
            pose proof (pow2_mono 2 prec). change (2 ^ 2) with 4 in *. lia. }
        destruct (Zle_bool (E + 1) (emax - prec)) eqn:Eo; [|apply Z.leb_gt in Eo; lia].
        split; [reflexivity|]. split.
        * cbn [valid_binary]. unfold bounded. rewrite Eo, andb_true_r. unfold canonical_mantissa. apply Zeq_is_eq_bool.
          assert (Dq : Zpos (digits2_pos q) = prec).
          { apply digits2_unique; [lia|]. rewrite Eq. split; [lia|]. apply pow2_smono; lia. }
          rewrite Dq. unfold SpecFloat.fexp. lia.
        * exists (inject_Z (Zpos q~0) * b2 E)%Q. split.
          { pose proof (injZ_xO q) as X. pose proof (b2_plus E 1) as Y. rewrite b2_1 in Y.
            destruct sx; cbn [sfQ]; rewrite Y, X; ring. }
          exists (Zpos q~0). split; [reflexivity|exact V].
      + assert (Dk : Zpos (digits2_pos kp) <= prec) by (apply digits2_le; lia).
        rewrite shr_fexp_exact_small by (unfold SpecFloat.fexp; cbn [Zdigits2]; lia).
        cbn [shr_m]. destruct (Zle_bool E (emax - prec)) eqn:Eo; [|apply Z.leb_gt in Eo; unfold emin in *; lia].
        split; [reflexivity|]. split.
        * cbn [valid_binary]. unfold bounded. rewrite Eo, andb_true_r. unfold canonical_mantissa. apply Zeq_is_eq_bool.
          destruct HEc as [HE|[HE _]].
          -- assert (prec <= Zpos (digits2_pos kp)).
             { apply digits2_ge; [lia|]. assert (2 ^ (prec - 1) <= shr_m mrs); [|lia].
               assert (2 ^ (prec - 1) < shr_m mrs + 1); [|lia].
               apply injZ_lt. rewrite inject_Z_plus. eapply Qle_lt_trans; [|apply Hfl].
               rewrite <- b2_Z by lia. replace (prec - 1) with (n - 1 - E) by lia. exact Lo. }
             unfold SpecFloat.fexp. lia.
          -- unfold SpecFloat.fexp. lia.
        * exists (inject_Z (Zpos kp) * b2 E)%Q. split; [cbn [sfQ]; destruct sx; ring|]. exists (Zpos kp). split; [reflexivity|exact V].
  Qed.

  Lemma b2_mult_inv E : (b2 (- E) * b2 E == 1)%Q.
  Proof. rewrite <- b2_plus. replace (- E + E) with 0 by lia. reflexivity. Qed.

  Lemma rnd_le E F z x v : rnd E x v -> E <= F -> (x <= inject_Z z * b2 F)%Q -> (v <= inject_Z z * b2 F)%Q.
  Proof.
    intros (k & Hv & Ha) HE Hx.
    assert (EF : (inject_Z z * b2 F == inject_Z (z * 2 ^ (F - E)) * b2 E)%Q).
    { replace F with ((F - E) + E) at 1 by lia. rewrite b2_plus, inject_Z_mult, <- b2_Z by lia. ring. }
    rewrite EF in *. set (w := z * 2 ^ (F - E)) in *. clearbody w. rewrite Hv in *.
    destruct (Z_le_dec k w) as [L|L].
    - apply Qmult_le_compat_r; [now apply injZ_le|apply Qlt_le_weak, b2_pos].
    - exfalso. assert (L' : (inject_Z (w + 1) <= inject_Z k)%Q) by (apply injZ_le; lia). rewrite inject_Z_plus in L'. change (inject_Z 1) with 1%Q in L'.
      assert (M : ((inject_Z w + 1) * b2 E <= inject_Z k * b2 E)%Q) by (apply Qmult_le_compat_r; [exact L'|apply Qlt_le_weak, b2_pos]).
      pose proof (b2_pos E). pose proof (Qle_Qabs (inject_Z k * b2 E - x)). lra.
  Qed.
  Lemma rnd_ge E F z x v : rnd E x v -> E <= F -> (inject_Z z * b2 F <= x)%Q -> (inject_Z z * b2 F <= v)%Q.
  Proof.
    intros (k & Hv & Ha) HE Hx.
    assert (EF : (inject_Z z * b2 F == inject_Z (z * 2 ^ (F - E)) * b2 E)%Q).
    { replace F with ((F - E) + E) at 1 by lia. rewrite b2_plus, inject_Z_mult, <- b2_Z by lia. ring. }
    rewrite EF in *. set (w := z * 2 ^ (F - E)) in *. clearbody w. rewrite Hv in *.
    destruct (Z_le_dec w k) as [L|L].
    - apply Qmult_le_compat_r; [now apply injZ_le|apply Qlt_le_weak, b2_pos].
    - exfalso. assert (L' : (inject_Z (k + 1) <= inject_Z w)%Q) by (apply injZ_le; lia). rewrite inject_Z_plus in L'. change (inject_Z 1) with 1%Q in L'.
      assert (M : ((inject_Z k + 1) * b2 E <= inject_Z w * b2 E)%Q) by (apply Qmult_le_compat_r; [exact L'|apply Qlt_le_weak, b2_pos]).
      pose proof (b2_pos E). rewrite Qabs_Qminus in Ha. pose proof (Qle_Qabs (x - inject_Z k * b2 E)). lra.
  Qed.
  Lemma rnd_exact E F z x v : rnd E x v -> E <= F -> (x == inject_Z z * b2 F)%Q -> (v == x)%Q.
  Proof.
    intros H HE Hx. apply Qle_antisym; rewrite Hx.
    - apply (rnd_le E F z x v H HE). rewrite Hx. apply Qle_refl.
    - apply (rnd_ge E F z x v H HE). rewrite Hx. apply Qle_refl.
  Qed.
  Lemma rnd_0 E : rnd E 0 0.
  Proof. exists 0. split; [reflexivity|]. cbn [Qminus]. pose proof (b2_pos E). change (Qabs (0 - 0)) with 0%Q. lra. Qed.

  (** a non-negative float *)
  Definition nn (x : spec_float) : Prop :=
    valid_binary prec emax x = true /\ match x with S754_finite s _ _ => s = false | S754_zero s => s = false | _ => False end.

  Lemma nn_fin x : nn x -> sf_fin x = true.
  Proof. intros [_ H]. destruct x; try contradiction; reflexivity. Qed.
  Lemma nn_ge0 x : nn x -> (0 <= sfQ x)%Q.
  Proof.
    intros [_ H]. destruct x; try contradiction; cbn [sfQ]; try discriminate. subst s.
    pose proof (b2_pos e). assert (0 < inject_Z (Zpos m))%Q by reflexivity. apply Qmult_le_0_compat; apply Qlt_le_weak; assumption.
  Qed.

  Lemma digits_bounds m e : (b2 (Zpos (digits2_pos m) + e - 1) <= inject_Z (Zpos m) * b2 e < b2 (Zpos (digits2_pos m) + e))%Q.
  Proof.
    pose proof (digits2_pos_spec m) as D. replace (Zpos (digits2_pos m) + e - 1) with (Zpos (digits2_pos m) - 1 + e) by lia. rewrite !b2_plus, (b2_Z (Zpos (digits2_pos m))), (b2_Z (Zpos (digits2_pos m) - 1)) by lia.
    split.
    - apply Qmult_le_compat_r; [apply injZ_le; lia|apply Qlt_le_weak, b2_pos].
    - apply Qmult_lt_compat_r; [apply b2_pos|apply injZ_lt; lia].
  Qed.
  Lemma b2_lt_inv a b : (b2 a < b2 b)%Q -> a < b.
  Proof. intros H. destruct (Z_lt_dec a b) as [L|L]; [exact L|exfalso]. apply (Qlt_not_le _ _ H). unfold b2. apply Qpower_le_compat_l; [lia|discriminate]. Qed.
  Lemma b2_le a b : a <= b -> (b2 a <= b2 b)%Q.
  Proof. intros H. unfold b2. apply Qpower_le_compat_l; [exact H|discriminate]. Qed.

  (** the outcome of an operation whose exact result is [X]: rounded to a unit in the last place 2^E *)
  Definition op_ok (X : Q) (N : Z) (r : spec_float) : Prop :=
    nn r /\ exists E, E <= fexp N /\ (E = emin prec emax \/ (b2 (E + prec - 1) <= X)%Q) /\ rnd E X (sfQ r).

  Lemma op_ok_eq X Y N r : (X == Y)%Q -> op_ok X N r -> op_ok Y N r.
  Proof.
    intros H (A & E & B & C & k & D & F). split; [exact A|]. exists E. rewrite H in C, F. split; [exact B|]. split; [exact C|]. exists k. split; assumption.
  Qed.

  Lemma round_aux_op (m : positive) e l X N :
    inb (shr_record_of_loc (Zpos m) l) (X * b2 (- e)) -> e <= fexp (Zpos (digits2_pos m) + e) ->
    (X < b2 N)%Q -> N <= emax - 1 -> op_ok X N (binary_round_aux prec emax false (Zpos m) e l).
  Proof.
    intros Hi He HX HN.
    assert (Hx : (inject_Z (Zpos m) <= X * b2 (- e))%Q).
    { pose proof (inb_floor _ _ Hi) as F. destruct l as [|[]]; exact (proj1 F). }
    assert (Hx2 : (inject_Z (Zpos m) * b2 e <= X)%Q).
    { setoid_replace X with (X * b2 (- e) * b2 e)%Q by (rewrite <- Qmult_assoc, b2_mult_inv; ring).
      apply Qmult_le_compat_r; [exact Hx|apply Qlt_le_weak, b2_pos]. }
    pose proof (digits_bounds m e) as [D1 D2].
    assert (Hn : Zpos (digits2_pos m) + e <= N).
    { assert (Zpos (digits2_pos m) + e - 1 < N); [|lia]. apply b2_lt_inv. eapply Qle_lt_trans; [exact D1|]. eapply Qle_lt_trans; [exact Hx2|exact HX]. }
    destruct (round_aux_ok false m e l X Hi He ltac:(lia)) as (F & V & v & Hv & Hr).
    set (r := binary_round_aux prec emax false (Zpos m) e l) in *.
    assert (S : match r with S754_finite s _ _ => s = false | S754_zero s => s = false | _ => False end).
    { unfold r in *. unfold binary_round_aux in *. destruct (shr_fexp prec emax (Zpos m) e l) as [a b]. destruct (shr_fexp prec emax _ b loc_Exact) as [a2 b2'].
      destruct (shr_m a2); [reflexivity| |discriminate F]. destruct (Zle_bool b2' (emax - prec)); [reflexivity|discriminate F]. }
    split; [split; assumption|]. exists (fexp (Zpos (digits2_pos m) + e)). split; [|split].
    - unfold SpecFloat.fexp. lia.
    - destruct (Z_le_dec (emin prec emax) (Zpos (digits2_pos m) + e - prec)) as [L|L]; [right|left; unfold SpecFloat.fexp; lia].
      eapply Qle_trans; [|exact Hx2]. eapply Qle_trans; [|exact D1]. apply b2_le. unfold SpecFloat.fexp. lia.
    - destruct Hr as (k & A & B). exists k. rewrite Hv. split; assumption.
  Qed.

  Lemma shift_pos_Z d m : Zpos (shift_pos d m) = Zpos m * 2 ^ Zpos d.
  Proof. rewrite shift_pos_correct. change (Z.pow_pos 2 d) with (2 ^ Zpos d). lia. Qed.
  Lemma shift_digits d m : Zpos (digits2_pos (shift_pos d m)) = Zpos (digits2_pos m) + Zpos d.
  Proof.
    apply digits2_unique; [lia|]. rewrite shift_pos_Z. pose proof (digits2_pos_spec m) as D.
    replace (Zpos (digits2_pos m) + Zpos d - 1) with (Zpos (digits2_pos m) - 1 + Zpos d) by lia. rewrite !Z.pow_add_r by lia.
    assert (0 < 2 ^ Zpos d) by (apply Z.pow_pos_nonneg; lia). nia.
  Qed.
  Lemma shl_align_ok m e e' : let r := shl_align m e e' in
    (inject_Z (Zpos (fst r)) * b2 (snd r) == inject_Z (Zpos m) * b2 e)%Q /\ Zpos (digits2_pos (fst r)) + snd r = Zpos (digits2_pos m) + e /\
    (e' <= e -> snd r = e') /\ snd r <= e /\ (e <= e' -> snd r = e).
  Proof.
    cbv zeta. unfold shl_align. destruct (e' - e) as [|d|d] eqn:Ed; cbn [fst snd].
    - split; [reflexivity|]. lia.
    - split; [reflexivity|]. lia.
    - rewrite shift_digits. split; [|lia]. rewrite shift_pos_Z, inject_Z_mult. replace e with (Zpos d + e') by lia. rewrite b2_plus, (b2_Z (Zpos d)) by lia. ring.
  Qed.

  Lemma round_op m e X N : (X == inject_Z (Zpos m) * b2 e)%Q -> (X < b2 N)%Q -> N <= emax - 1 ->
    op_ok X N (binary_round prec emax false m e).
  Proof.
    intros HX HN HN2. unfold binary_round. pose proof (shl_align_ok m e (fexp (Zpos (digits2_pos m) + e))) as H. cbv zeta in H.
    destruct (shl_align m e (fexp (Zpos (digits2_pos m) + e))) as [mz ez]. cbn [fst snd] in H. destruct H as (H1 & H2 & H3 & H4 & H5).
    apply round_aux_op; [|rewrite H2; lia|exact HN|exact HN2].
    unfold inb; cbn [shr_record_of_loc shr_m shr_r shr_s]. rewrite HX, <- H1, <- Qmult_assoc, (Qmult_comm (b2 ez)), b2_mult_inv. ring.
  Qed.

  Lemma op_ok_0 N : op_ok 0 N (S754_zero false).
  Proof.
    split; [split; reflexivity|]. exists (emin prec emax). split; [unfold SpecFloat.fexp; lia|]. split; [now left|apply rnd_0].
  Qed.

  Lemma nn_bounds m e : nn (S754_finite false m e) -> fexp (Zpos (digits2_pos m) + e) = e /\ e <= emax - prec.
  Proof.
    intros [V _]. cbn [valid_binary] in V. unfold bounded, canonical_mantissa in V. apply andb_prop in V. destruct V as [V1 V2].
    apply Zeq_is_eq_bool in V1. apply Z.leb_le in V2. split; assumption.
  Qed.

  Lemma nn_op x N : nn x -> (sfQ x < b2 N)%Q -> op_ok (sfQ x) N x.
  Proof.
    intros Hx HN. split; [exact Hx|]. destruct x as [sx|sx| |sx m e]; try (destruct Hx as [_ []]; fail).
    - exists (emin prec emax). split; [unfold SpecFloat.fexp; lia|]. split; [now left|apply rnd_0].
    - assert (sx = false) by apply Hx. subst sx. destruct (nn_bounds _ _ Hx) as [C _]. pose proof (digits_bounds m e) as [D1 D2]. cbn [sfQ] in *.
      assert (Zpos (digits2_pos m) + e - 1 < N) by (apply b2_lt_inv; eapply Qle_lt_trans; eassumption).
      exists e. split; [rewrite <- C at 1; unfold SpecFloat.fexp; lia|]. split.
      + destruct (Z_le_dec (emin prec emax) (Zpos (digits2_pos m) + e - prec)) as [L|L]; [right|left; unfold SpecFloat.fexp in *; lia].
        eapply Qle_trans; [|exact D1]. apply b2_le. unfold SpecFloat.fexp in *. lia.
      + exists (Zpos m). split; [reflexivity|]. assert (Z0 : (inject_Z (Zpos m) * b2 e - inject_Z (Zpos m) * b2 e == 0)%Q) by ring.
        rewrite Z0. change (Qabs 0) with 0%Q. pose proof (b2_pos e). lra.
  Qed.

  Lemma SFadd_op x y N : nn x -> nn y -> (sfQ x + sfQ y < b2 N)%Q -> N <= emax - 1 ->
    op_ok (sfQ x + sfQ y) N (SFadd prec emax x y).
  Proof.
    intros Hx Hy HX HN. pose proof Hx as Hx'. pose proof Hy as Hy'.
    destruct x as [sx|sx| |sx mx ex], Hx as [Vx Sx]; try contradiction; destruct y as [sy|sy| |sy my ey], Hy as [Vy Sy]; try contradiction; subst.
    - cbn [SFadd Bool.eqb]. eapply op_ok_eq; [|apply op_ok_0]. cbn [sfQ]. ring.
    - cbn [SFadd]. eapply op_ok_eq; [|apply (nn_op _ N Hy')]; cbn [sfQ] in *; [ring|]. rewrite Qplus_0_l in HX. exact HX.
    - cbn [SFadd]. eapply op_ok_eq; [|apply (nn_op _ N Hx')]; cbn [sfQ] in *; [ring|]. rewrite Qplus_0_r in HX. exact HX.
    - cbn [SFadd cond_Zopp]. set (ez := Z.min ex ey).
      pose proof (shl_align_ok mx ex ez) as Hx. pose proof (shl_align_ok my ey ez) as Hy. cbv zeta in Hx, Hy.
      destruct Hx as (X1 & _ & X3 & _). destruct Hy as (Y1 & _ & Y3 & _). rewrite X3 in X1 by lia. rewrite Y3 in Y1 by lia.
      change (Zpos (fst (shl_align mx ex ez)) + Zpos (fst (shl_align my ey ez))) with (Zpos (fst (shl_align mx ex ez) + fst (shl_align my ey ez))).
      cbn [binary_normalize]. apply round_op; [|exact HX|exact HN]. cbn [sfQ]. rewrite <- X1, <- Y1, Pos2Z.inj_add, inject_Z_plus. ring.
  Qed.

  (** conversion of a non-negative integer *)
  Definition sf_of_Z (n : Z) : spec_float := binary_normalize prec emax n 0 false.
  Lemma sf_of_Z_op n N : 0 <= n -> (inject_Z n < b2 N)%Q -> N <= emax - 1 -> op_ok (inject_Z n) N (sf_of_Z n).
  Proof.
    intros H HN HE. unfold sf_of_Z. destruct n as [|p|p]; [|cbn [binary_normalize]|lia].
    - eapply op_ok_eq; [|apply op_ok_0]. reflexivity.
    - apply round_op; [|exact HN|exact HE]. rewrite b2_0. ring.
  Qed.
  Lemma sf_of_Z_exact n : 0 <= n < 2 ^ prec -> nn (sf_of_Z n) /\ (sfQ (sf_of_Z n) == inject_Z n)%Q.
  Proof.
    intros H. destruct (sf_of_Z_op n prec) as (A & E & HE & _ & R); [lia|rewrite b2_Z by lia; apply injZ_lt; lia|lia|].
    split; [exact A|]. apply (rnd_exact E 0 n _ _ R); [unfold SpecFloat.fexp, emin in *; lia|]. rewrite b2_0. ring.
  Qed.

  (** truncation of a float to an integer (static_cast to an integral type) *)
  Definition sf_trunc (x : spec_float) : option Z :=
    match x with
    | S754_zero _ => Some 0
    | S754_finite s m e =>
        let a := if 0 <=? e then Zpos m * 2 ^ e else Zpos m / 2 ^ (- e) in Some (if s then - a else a)
    | _ => None
    end.
  Lemma sf_trunc_nn x : nn x -> exists t, sf_trunc x = Some t /\ 0 <= t /\ (inject_Z t <= sfQ x < inject_Z (t + 1))%Q.
  Proof.
    intros Hx. destruct x as [sx|sx| |sx m e]; try (destruct Hx as [_ []]; fail).
    - exists 0. repeat split; try reflexivity; discriminate.
    - assert (sx = false) by apply Hx. subst sx. cbn [sf_trunc sfQ]. eexists; split; [reflexivity|]. destruct (0 <=? e) eqn:Ee.
      + split; [apply Z.mul_nonneg_nonneg; [lia|apply Z.pow_nonneg; lia]|]. rewrite b2_Z by lia. rewrite <- inject_Z_mult.
        split; [apply Qle_refl|apply injZ_lt; lia].
      + assert (P : 0 < 2 ^ (- e)) by (apply Z.pow_pos_nonneg; lia). split; [apply Z.div_pos; lia|].
        assert (B : (b2 e == 1 / inject_Z (2 ^ (- e)))%Q). { rewrite <- b2_Z by lia. unfold b2. replace e with (- - e) at 1 by lia. rewrite Qpower_opp. unfold Qdiv. rewrite Qmult_1_l. reflexivity. }
        assert (P' : (0 < inject_Z (2 ^ (- e)))%Q) by (change 0%Q with (inject_Z 0); apply injZ_lt; exact P).
        assert (B' : (inject_Z (Zpos m) * b2 e == inject_Z (Zpos m) / inject_Z (2 ^ (- e)))%Q) by (rewrite B; unfold Qdiv; ring).
        rewrite B'. pose proof (Z.div_mod (Zpos m) (2 ^ (- e)) ltac:(lia)) as DM. pose proof (Z.mod_pos_bound (Zpos m) (2 ^ (- e)) P).
        split.
        * apply Qle_shift_div_l; [exact P'|]. rewrite <- inject_Z_mult. apply injZ_le. lia.
        * apply Qlt_shift_div_r; [exact P'|]. rewrite <- inject_Z_mult. apply injZ_lt. lia.
  Qed.

  Lemma SFmul_op x y N : nn x -> nn y -> (sfQ x * sfQ y < b2 N)%Q -> N <= emax - 1 ->
    op_ok (sfQ x * sfQ y) N (SFmul prec emax x y).
  Proof.
    intros Hx Hy HX HN. pose proof Hx as Hx'. pose proof Hy as Hy'.
    destruct x as [sx|sx| |sx mx ex], Hx as [Vx Sx]; try contradiction; destruct y as [sy|sy| |sy my ey], Hy as [Vy Sy]; try contradiction; subst.
    - cbn [SFmul xorb]. eapply op_ok_eq; [|apply op_ok_0]. cbn [sfQ]. ring.
    - cbn [SFmul xorb]. eapply op_ok_eq; [|apply op_ok_0]. cbn [sfQ]. ring.
    - cbn [SFmul xorb]. eapply op_ok_eq; [|apply op_ok_0]. cbn [sfQ]. ring.
    - cbn [SFmul xorb]. apply round_aux_op; [| |exact HX|exact HN].
      + unfold inb; cbn [shr_record_of_loc shr_m shr_r shr_s sfQ]. rewrite Pos2Z.inj_mul, inject_Z_mult.
        setoid_replace (inject_Z (Zpos mx) * b2 ex * (inject_Z (Zpos my) * b2 ey) * b2 (- (ex + ey)))%Q
          with (inject_Z (Zpos mx) * inject_Z (Zpos my) * (b2 (- (ex + ey)) * (b2 ex * b2 ey)))%Q by ring.
        rewrite <- b2_plus, b2_mult_inv. ring.
      + destruct (nn_bounds _ _ Hx') as [Cx _]. destruct (nn_bounds _ _ Hy') as [Cy _].
        assert (D : Zpos (digits2_pos mx) + Zpos (digits2_pos my) - 1 <= Zpos (digits2_pos (mx * my))).
        { apply digits2_ge; [lia|]. pose proof (digits2_pos_spec mx). pose proof (digits2_pos_spec my).
          replace (Zpos (digits2_pos mx) + Zpos (digits2_pos my) - 1 - 1) with ((Zpos (digits2_pos mx) - 1) + (Zpos (digits2_pos my) - 1)) by lia.
          rewrite Z.pow_add_r, Pos2Z.inj_mul by lia. apply Z.mul_le_mono_nonneg; try lia; apply Z.pow_nonneg; lia. }
        unfold SpecFloat.fexp, emin in *. lia.
  Qed.

  Lemma new_location_ok d r m : 0 < d -> 0 <= r < d -> 0 <= m ->
    inb (shr_record_of_loc m (new_location d r)) (inject_Z m + inject_Z r / inject_Z d).
  Proof.
    intros Hd Hr Hm. assert (Hd' : (0 < inject_Z d)%Q) by (change 0%Q with (inject_Z 0); apply injZ_lt; exact Hd).
    assert (M : forall a, (a * inject_Z d < inject_Z r -> a < inject_Z r / inject_Z d)%Q) by (intros; apply Qlt_shift_div_l; assumption).
    assert (M2 : forall a, (inject_Z r < a * inject_Z d -> inject_Z r / inject_Z d < a)%Q) by (intros; apply Qlt_shift_div_r; assumption).
    assert (HE : forall c, (c = Lt -> 2 * r < d) -> (c = Eq -> 2 * r = d) -> (c = Gt -> d < 2 * r) -> r <> 0 ->
             inb (shr_record_of_loc m (loc_Inexact c)) (inject_Z m + inject_Z r / inject_Z d)).
    { intros c C1 C2 C3 C0. assert (P0 : (0 < inject_Z r / inject_Z d)%Q).
      { apply M. rewrite Qmult_0_l. change 0%Q with (inject_Z 0). apply injZ_lt. lia. }
      assert (P1 : (inject_Z r / inject_Z d < 1)%Q) by (apply M2; rewrite Qmult_1_l; apply injZ_lt; lia).
      destruct c; cbn [shr_record_of_loc]; unfold inb; cbn [shr_m shr_r shr_s].
      - specialize (C2 eq_refl). assert (Eh : (inject_Z r / inject_Z d == 1 # 2)%Q).
        { rewrite <- C2, inject_Z_mult. change (inject_Z 2) with 2%Q. field. intros Hz. rewrite <- C2, inject_Z_mult, Hz in Hd'. discriminate Hd'. }
        rewrite Eh. reflexivity.
      - specialize (C1 eq_refl). assert (Eh : (inject_Z r / inject_Z d < 1 # 2)%Q).
        { apply M2. assert (H : (inject_Z (2 * r) < inject_Z d)%Q) by (apply injZ_lt; exact C1). rewrite inject_Z_mult in H. change (inject_Z 2) with 2%Q in H. lra. }
        lra.
      - specialize (C3 eq_refl). assert (Eh : (1 # 2 < inject_Z r / inject_Z d)%Q).
        { apply M. assert (H : (inject_Z d < inject_Z (2 * r))%Q) by (apply injZ_lt; exact C3). rewrite inject_Z_mult in H. change (inject_Z 2) with 2%Q in H. lra. }
        lra. }
    assert (H0 : r = 0 -> inb (shr_record_of_loc m loc_Exact) (inject_Z m + inject_Z r / inject_Z d)).
    { intros ->. unfold inb; cbn [shr_record_of_loc shr_m shr_r shr_s]. change (inject_Z 0) with 0%Q. unfold Qdiv. ring. }
    unfold new_location, new_location_even, new_location_odd. destruct (Z.even d) eqn:Ev.
    - destruct (Zeq_bool r 0) eqn:E0; [apply Zeq_bool_eq in E0; auto|apply Zeq_bool_neq in E0].
      apply HE; [intros C; apply Z.compare_lt_iff in C; exact C|intros C; apply Z.compare_eq_iff in C; exact C|intros C; apply Z.compare_gt_iff in C; exact C|exact E0].
    - destruct (Zeq_bool r 0) eqn:E0; [apply Zeq_bool_eq in E0; auto|apply Zeq_bool_neq in E0].
      assert (Od : d mod 2 = 1) by (rewrite Zmod_even, Ev; reflexivity).
      destruct (Z.compare (2 * r + 1) d) eqn:C; [apply Z.compare_eq_iff in C|change (2 * r + 1 < d) in C|apply Z.compare_gt_iff in C]; apply HE; try discriminate; intros; lia.
  Qed.

  Lemma SFdiv_op x y N : nn x -> nn y -> (0 < sfQ y)%Q -> (b2 (emin prec emax) <= sfQ x / sfQ y)%Q -> (sfQ x / sfQ y < b2 N)%Q -> N <= emax - 1 ->
    op_ok (sfQ x / sfQ y) N (SFdiv prec emax x y).
  Proof.
    intros Hx Hy Py Hlow HX HN. pose proof Hx as Hx'. pose proof Hy as Hy'.
    destruct y as [sy|sy| |sy my ey], Hy as [Vy Sy]; try contradiction; [cbn [sfQ] in Py; now apply Qlt_irrefl in Py|]. subst sy.
    destruct x as [sx|sx| |sx mx ex], Hx as [Vx Sx]; try contradiction; subst sx.
    { cbn [sfQ] in Hlow. unfold Qdiv in Hlow. rewrite Qmult_0_l in Hlow. pose proof (b2_pos (emin prec emax)). lra. }
    cbn [SFdiv xorb]. unfold SFdiv_core_binary. cbn [Zdigits2].
    set (n0 := Zpos (digits2_pos mx) + ex - (Zpos (digits2_pos my) + ey)). set (e' := Z.min (fexp n0) (ex - ey)).
    set (X := (sfQ (S754_finite false mx ex) / sfQ (S754_finite false my ey))%Q) in *.
    assert (Hm' : match ex - ey - e' with Zpos _ => Z.shiftl (Zpos mx) (ex - ey - e') | Z0 => Zpos mx | Zneg _ => 0 end = Zpos mx * 2 ^ (ex - ey - e')).
    { destruct (ex - ey - e') eqn:Es; [cbn; lia|rewrite Z.shiftl_mul_pow2 by lia; reflexivity|lia]. }
    rewrite Hm'. set (s := ex - ey - e') in *. set (m' := Zpos mx * 2 ^ s).
    assert (Hs : 0 <= s) by lia.
    pose proof (Z_div_mod m' (Zpos my) ltac:(lia)) as DM. destruct (Z.div_eucl m' (Zpos my)) as [q r]. destruct DM as [DM1 DM2].
    assert (Pmy : (0 < inject_Z (Zpos my))%Q) by reflexivity.
    assert (XE : (X * b2 (- e') == inject_Z q + inject_Z r / inject_Z (Zpos my))%Q).
    { assert (Q1 : (inject_Z (Zpos mx) * b2 s == inject_Z (Zpos my) * inject_Z q + inject_Z r)%Q).
      { rewrite b2_Z by exact Hs. rewrite <- !inject_Z_mult, <- inject_Z_plus. fold m'. rewrite DM1. reflexivity. }
      setoid_replace (X * b2 (- e'))%Q with ((inject_Z (Zpos mx) * b2 s) / inject_Z (Zpos my))%Q.
      - rewrite Q1. field. intros Hz. rewrite Hz in Pmy. discriminate Pmy.
      - unfold X, s. cbn [sfQ]. replace (ex - ey - e') with (ex + (- ey) + (- e')) by lia. rewrite !b2_plus.
        assert (Hi : (b2 (- ey) == / b2 ey)%Q) by (apply Qpower_opp). rewrite Hi. field. split; intros Hz.
        + pose proof (b2_pos ey) as Hp. rewrite Hz in Hp. discriminate Hp.
        + rewrite Hz in Pmy; discriminate Pmy. }
    pose proof (digits_bounds mx ex) as [X1 X2]. pose proof (digits_bounds my ey) as [Y1 Y2].
    set (dx := Zpos (digits2_pos mx) + ex) in *. set (dy := Zpos (digits2_pos my) + ey) in *.
    assert (XL : (b2 (n0 - 1) <= X)%Q).
    { unfold X. cbn [sfQ]. apply Qle_shift_div_l; [exact Py|]. cbn [sfQ] in Py.
      apply Qle_trans with (b2 (n0 - 1) * b2 dy)%Q; [apply Qmult_le_l; [apply b2_pos|apply Qlt_le_weak, Y2]|].
      rewrite <- b2_plus. replace (n0 - 1 + dy) with (dx - 1) by (unfold n0, dx, dy; lia). exact X1. }
    assert (XU : (X < b2 (n0 + 1))%Q).
    { unfold X. cbn [sfQ]. apply Qlt_shift_div_r; [exact Py|]. cbn [sfQ] in Py.
      apply Qlt_le_trans with (b2 dx); [exact X2|]. apply Qle_trans with (b2 (n0 + 1) * b2 (dy - 1))%Q.
      - rewrite <- b2_plus. apply b2_le. unfold n0, dx, dy. lia.
      - apply Qmult_le_l; [apply b2_pos|exact Y1]. }
    assert (Hqr : (0 <= inject_Z r / inject_Z (Zpos my) < 1)%Q).
    { split; [apply Qle_shift_div_l; [exact Pmy|]; rewrite Qmult_0_l; change 0%Q with (inject_Z 0); apply injZ_le; lia|].
      apply Qlt_shift_div_r; [exact Pmy|]. rewrite Qmult_1_l. apply injZ_lt; lia. }
    assert (Hq : forall k, 0 <= k -> (b2 k <= X * b2 (- e'))%Q -> 2 ^ k <= q).
    { intros k Hk HkX. assert (2 ^ k < q + 1); [|lia]. apply injZ_lt. rewrite <- b2_Z by lia. rewrite inject_Z_plus. change (inject_Z 1) with 1%Q.
      apply Qle_lt_trans with (X * b2 (- e'))%Q; [exact HkX|lra]. }
    assert (Hq1 : 1 <= q).
    { change 1 with (2 ^ 0). destruct (Z_le_dec (emin prec emax + prec) n0) as [L|L].
      - apply Hq; [lia|]. apply Qle_trans with (b2 (n0 - 1) * b2 (- e'))%Q; [|apply Qmult_le_compat_r; [exact XL|apply Qlt_le_weak, b2_pos]].
        rewrite <- b2_plus. apply b2_le. unfold SpecFloat.fexp in e'. lia.
      - apply Hq; [lia|]. apply Qle_trans with (b2 (emin prec emax) * b2 (- e'))%Q; [|apply Qmult_le_compat_r; [exact Hlow|apply Qlt_le_weak, b2_pos]].
        rewrite <- b2_plus. apply b2_le. unfold SpecFloat.fexp in e'. lia. }
    destruct q as [|qp|qp]; [lia| |lia].
    apply round_aux_op; [| |exact HX|exact HN].
    - eapply inb_eq; [symmetry; exact XE|]. apply new_location_ok; lia.
    - destruct (Z_le_dec (emin prec emax + prec) n0) as [L|L]; [|unfold SpecFloat.fexp in *; lia].
      assert (n0 - e' <= Zpos (digits2_pos qp)).
      { apply digits2_ge; [unfold SpecFloat.fexp in *; lia|]. apply Hq; [unfold SpecFloat.fexp in *; lia|].
        replace (n0 - e' - 1) with (n0 - 1 + - e') by lia. rewrite b2_plus. apply Qmult_le_compat_r; [exact XL|apply Qlt_le_weak, b2_pos]. }
      unfold SpecFloat.fexp in *. lia.
  Qed.

  (** comparison of non-negative floats is comparison of their values *)
  Lemma nn_compare x y : nn x -> nn y -> SFcompare x y = Some (Qcompare (sfQ x) (sfQ y)).
  Proof.
    intros Hx Hy. pose proof Hx as Hx'. pose proof Hy as Hy'.
    assert (Pf : forall m e, (0 < inject_Z (Zpos m) * b2 e)%Q).
    { intros m e. rewrite <- (Qmult_0_r (inject_Z (Zpos m))). apply Qmult_lt_l; [reflexivity|apply b2_pos]. }
    destruct x as [sx|sx| |sx mx ex], Hx as [Vx Sx]; try contradiction; destruct y as [sy|sy| |sy my ey], Hy as [Vy Sy]; try contradiction; subst.
    - reflexivity.
    - cbn [SFcompare]. f_equal. symmetry. apply Qlt_alt. cbn [sfQ]. apply Pf.
    - cbn [SFcompare]. f_equal. symmetry. apply Qgt_alt. cbn [sfQ]. apply Pf.
    - cbn [SFcompare sfQ]. destruct (nn_bounds _ _ Hx') as [Cx _]. destruct (nn_bounds _ _ Hy') as [Cy _].
      pose proof (digits_bounds mx ex) as [X1 X2]. pose proof (digits_bounds my ey) as [Y1 Y2].
      f_equal. destruct (Z.compare ex ey) eqn:E.
      + apply Z.compare_eq_iff in E. subst ey. change (Pos.compare_cont Eq mx my) with (Pos.compare mx my).
        symmetry. destruct (Pos.compare mx my) eqn:Em.
        * apply Pos.compare_eq_iff in Em. subst. apply Qeq_alt. reflexivity.
        * change (mx < my)%positive in Em. apply Qlt_alt. apply Qmult_lt_r; [apply b2_pos|]. apply injZ_lt. lia.
        * apply Pos.compare_gt_iff in Em. apply Qgt_alt. apply Qmult_lt_r; [apply b2_pos|]. apply injZ_lt. lia.
      + change (ex < ey) in E. symmetry. apply Qlt_alt. eapply Qlt_le_trans; [exact X2|]. eapply Qle_trans; [|exact Y1]. apply b2_le.
        unfold SpecFloat.fexp in *. lia.
      + apply Z.compare_gt_iff in E. symmetry. apply Qgt_alt. eapply Qlt_le_trans; [exact Y2|]. eapply Qle_trans; [|exact X1]. apply b2_le.
        unfold SpecFloat.fexp in *. lia.
  Qed.
  Lemma nn_leb x y : nn x -> nn y -> SFleb x y = Qle_bool (sfQ x) (sfQ y).
  Proof.
    intros Hx Hy. unfold SFleb. rewrite nn_compare by assumption. destruct (Qcompare (sfQ x) (sfQ y)) eqn:E; symmetry.
    - apply Qeq_alt in E. apply Qle_bool_iff. rewrite E. apply Qle_refl.
    - apply Qlt_alt in E. apply Qle_bool_iff. now apply Qlt_le_weak.
    - apply Qgt_alt in E. destruct (Qle_bool (sfQ x) (sfQ y)) eqn:F; [|reflexivity]. apply Qle_bool_iff in F. exfalso. eapply Qlt_not_le; eassumption.
  Qed.
  Lemma nn_ltb x y : nn x -> nn y -> SFltb x y = true <-> (sfQ x < sfQ y)%Q.
  Proof.
    intros Hx Hy. unfold SFltb. rewrite nn_compare by assumption. split.
    - intros H. apply Qlt_alt. destruct (Qcompare (sfQ x) (sfQ y)); [discriminate|reflexivity|discriminate].
    - intros H. rewrite (proj1 (Qlt_alt (sfQ x) (sfQ y)) H). reflexivity.
  Qed.
End Round.
