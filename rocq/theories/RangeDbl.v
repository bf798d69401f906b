(** Lemmas: ranges and lists of floating point numbers as text. *)
From Coq Require Import String QArith Qabs Lqa Floats.SpecFloat.
From Verif Require Import Base TextModel TextProofs XmlModel XmlSpec XmlNumbers FloatProofs SFloatProofs ScaleModel ScaleNum NumModel NumSpec NumProofs NumText NumRound NumNode DocModel DocSpec DocDims DispPoints RangeModel RangeSpec RangeProofs.
Open Scope Z_scope.

(** ** what is read as a number is the text of one *)
Lemma take_sign_spec s neg r : take_sign s = (neg, r) -> exists sg, s = sg ++ r /\ ((sg = [] /\ neg = false) \/ (sg = [43] /\ neg = false) \/ (sg = [45] /\ neg = true)).
Proof.
  destruct s as [|c s]; cbn [take_sign]; [intros [= <- <-]; exists []; auto|]. destruct (Z.eqb_spec c 45) as [->|]; [intros [= <- <-]; exists [45]; auto|].
  destruct (Z.eqb_spec c 43) as [->|]; [intros [= <- <-]; exists [43]; auto|]. intros [= <- <-]. exists []. auto.
Qed.
Lemma all_digits ds : all is_digit ds -> digits ds.
Proof. intros H. apply Forall_forall. intros c I. rewrite Forall_forall in H. specialize (H c I). cbv beta in H. unfold is_digit in H. lia. Qed.
Lemma take_exponent_spec s e r : take_exponent s = (e, r) -> exists ex, s = ex ++ r /\ exponent ex e.
Proof.
  destruct s as [|c s]; cbn [take_exponent]; [intros [= <- <-]; exists []; split; [reflexivity|constructor]|].
  destruct ((c =? 101) || (c =? 69)) eqn:C; [|intros [= <- <-]; exists []; split; [reflexivity|constructor]].
  destruct (take_sign s) as [neg r1] eqn:S1. apply take_sign_spec in S1. destruct S1 as (sg & -> & Hs). destruct (span is_digit r1) as [ds r2] eqn:S2. apply span_spec in S2. destruct S2 as (-> & D & _). apply all_digits in D.
  destruct ds as [|d ds]; [intros [= <- <-]; exists []; split; [reflexivity|constructor]|]. set (l := d :: ds) in *. assert (Nl : l <> []) by discriminate. clearbody l.
  intros H. assert (R : r = r2 /\ e = if neg then - dval l else dval l) by (split; congruence). destruct R as (-> & ->). exists (c :: sg ++ l). split; [cbn [app]; now rewrite app_assoc|].
  destruct Hs as [(-> & ->)|[(-> & ->)|(-> & ->)]].
  - apply some_exponent; auto; lia.
  - apply some_exponent; auto; lia.
  - apply neg_exponent; auto; lia.
Qed.
Definition sign_ok (sg : str) (neg : bool) : Prop := (sg = [] /\ neg = false) \/ (sg = [43] /\ neg = false) \/ (sg = [45] /\ neg = true).
Lemma strtod_shape s x k : no_space s -> strtod s = (x, S k) -> exists sg neg t M K r,
  sign_ok sg neg /\ s = (sg ++ t) ++ r /\ decimal t M K /\ x = of_decimal neg M K /\ S k = length (sg ++ t).
Proof.
  intros O H. unfold strtod in H. rewrite (span_no_space s O) in H. cbn [snd] in H. destruct (take_sign s) as [neg s2] eqn:S1. apply take_sign_spec in S1. destruct S1 as (sg & -> & Hs).
  destruct (span is_digit s2) as [ip s3] eqn:S2. apply span_spec in S2. destruct S2 as (-> & Di & _). apply all_digits in Di.
  assert (F : exists pt fp s4, take_fraction s3 = (fp, s4) /\ s3 = pt ++ fp ++ s4 /\ digits fp /\ (pt = [46] \/ pt = [] /\ fp = [])).
  { destruct s3 as [|c s3]; cbn [take_fraction]; [exists [], [], []; split; [reflexivity|]; split; [reflexivity|]; split; [constructor|now right]|]. destruct (Z.eqb_spec c 46) as [->|].
    - destruct (span is_digit s3) as [fp s4] eqn:S3. exists [46], fp, s4. apply span_spec in S3. destruct S3 as (-> & Df & _). split; [reflexivity|]. split; [reflexivity|]. split; [now apply all_digits|now left].
    - exists [], [], (c :: s3). split; [reflexivity|]. split; [reflexivity|]. split; [constructor|now right]. }
  destruct F as (pt & fp & s4 & F & -> & Df & Hp). rewrite F in H. destruct (ip ++ fp) as [|d ds] eqn:E; [discriminate|]. rewrite <- E in H.
  destruct (take_exponent s4) as [ex s5] eqn:T. apply take_exponent_spec in T. destruct T as (et & -> & Ex). injection H as H1 H2.
  exists sg, neg, (ip ++ pt ++ fp ++ et), (dval (ip ++ fp)), (ex - Z.of_nat (length fp)), s5.
  split; [exact Hs|]. split; [now rewrite <- !app_assoc|]. split; [|split; [now symmetry|]].
  - destruct Hp as [->|(-> & ->)].
    + apply fraction with (e := ex); auto. rewrite E. discriminate.
    + cbn [app length]. rewrite app_nil_r in *. rewrite Z.sub_0_r. apply NumSpec.whole with (e := ex); auto. rewrite E. discriminate.
  - rewrite !app_length in *. lia.
Qed.
Lemma decimal_head t M K : decimal t M K -> exists c r, t = c :: r /\ (is_digit c = true \/ c = 46).
Proof.
  intros [ip ex e M0 K0 Di Ni _ _ _|ip fp ex e M0 K0 Di Df Ni _ _ _].
  - destruct ip as [|c ip]; [easy|]. apply Forall_cons_iff in Di. exists c, (ip ++ ex). split; [reflexivity|]. left. unfold is_digit. lia.
  - destruct ip as [|c ip]; [exists 46, (fp ++ ex); auto|]. apply Forall_cons_iff in Di. exists c, (ip ++ [46] ++ fp ++ ex). split; [reflexivity|]. left. unfold is_digit. lia.
Qed.
Lemma read_signed sg neg t M K : sign_ok sg neg -> decimal t M K -> strtod (sg ++ t) = (of_decimal neg M K, length (sg ++ t)).
Proof.
  intros Hs D. destruct Hs as [(-> & ->)|[(-> & ->)|(-> & ->)]].
  - apply (read_decimal false t M K D).
  - pose proof (read_decimal false t M K D) as R. cbv zeta in R. cbn [app] in *. unfold strtod in *. destruct (decimal_head t M K D) as (c & r & E & Hc).
    assert (S1 : span is_space t = ([], t)) by (apply span_stop; rewrite E; cbn; unfold is_digit in Hc; unfold is_space; lia).
    assert (S2 : take_sign t = (false, t)) by (rewrite E; cbn [take_sign]; unfold is_digit in Hc; destruct (Z.eqb_spec c 45); [lia|]; destruct (Z.eqb_spec c 43); [lia|]; reflexivity).
    rewrite S1 in R. cbn [snd] in R. rewrite S2 in R. change (span is_space (43 :: t)) with (@nil Z, 43 :: t). cbn [snd]. change (take_sign (43 :: t)) with (false, t). cbv iota beta in *.
    destruct (span is_digit t) as [ip s3]. destruct (take_fraction s3) as [fp s4]. destruct (ip ++ fp) as [|d ds]; [injection R as _ R; rewrite E in R; discriminate|].
    destruct (take_exponent s4) as [ex s5]. injection R as R1 R2. rewrite R1. f_equal. cbn [length] in *.
    assert (s5 = []) by (destruct s5; [reflexivity|rewrite E in R2; cbn [length] in *; lia]). subst s5. cbn [length]. lia.
  - apply (read_decimal true t M K D).
Qed.
(** a number in range *)
Definition infinite (x : spec_float) : bool := match x with S754_infinity _ => true | _ => false end.
Definition dnum (a : str) (x : spec_float) : Prop :=
  exists sg neg t M K, sign_ok sg neg /\ a = sg ++ t /\ decimal t M K /\ x = of_decimal neg M K /\ tiny a x || infinite x = false.
Lemma stod_sound s x r : no_space s -> stod_caught s = Some (x, r) -> exists a, s = a ++ r /\ dnum a x.
Proof.
  intros O H. unfold stod_caught, stod in H. destruct (strtod s) as [y k] eqn:E. destruct k as [|k]; [discriminate|].
  destruct (strtod_shape s y k O E) as (sg & neg & t & M & K & r0 & Hs & -> & D & -> & L). rewrite L in H.
  rewrite firstn_app, firstn_all, Nat.sub_diag, skipn_app, skipn_all, Nat.sub_diag in H. cbn [firstn skipn app] in H. rewrite app_nil_r in H.
  fold (infinite (of_decimal neg M K)) in H. destruct (tiny (sg ++ t) (of_decimal neg M K) || infinite (of_decimal neg M K)) eqn:T; [discriminate|].
  assert (R : x = of_decimal neg M K /\ r = r0) by (split; congruence). destruct R as (-> & ->). exists (sg ++ t). split; [reflexivity|]. exists sg, neg, t, M, K. auto.
Qed.
Lemma dnum_some x : ~ dnum [] x.
Proof. intros (sg & neg & t & M & K & _ & E & D & _). symmetry in E. apply app_eq_nil in E. destruct E as (_ & ->). destruct (decimal_head _ _ _ D) as (c & r & E & _). discriminate. Qed.
Lemma stod_follow a x r : dnum a x -> ends r -> stod_caught (a ++ r) = Some (x, r).
Proof.
  intros (sg & neg & t & M & K & Hs & -> & D & -> & T) Er. pose proof (read_signed sg neg t M K Hs D) as R.
  assert (Na : sg ++ t <> []) by (destruct (decimal_head _ _ _ D) as (c & q & -> & _); destruct sg; discriminate).
  pose proof (strtod_more _ r _ Na R Er) as R2. unfold stod_caught, stod. rewrite R2. destruct (length (sg ++ t)) as [|k] eqn:L; [destruct (sg ++ t); [easy|discriminate]|]. rewrite <- L.
  rewrite firstn_app, firstn_all, Nat.sub_diag, skipn_app, skipn_all, Nat.sub_diag. cbn [firstn skipn app]. rewrite app_nil_r. fold (infinite (of_decimal neg M K)). now rewrite T.
Qed.
Lemma stod_complete a x r : no_space a -> dnum a x -> (r = [] \/ exists t, r = 45 :: t) -> stod_caught (a ++ r) = Some (x, r).
Proof. intros _ D H. apply stod_follow; [exact D|]. destruct H as [->|(t & ->)]; cbn; repeat split; lia. Qed.
Lemma dbl_range_iff s r : no_space s -> (range_dbl s = Some r <-> exists h, range_text (plain dnum) dnum s h /\ r = value_of DBL_MIN DBL_MAX S754_nan h).
Proof.
  apply (parse_range_iff stod_caught DBL_MIN DBL_MAX S754_nan dnum no_space).
  - intros a b H. now apply no_space_app in H.
  - intros a b H. now apply no_space_app in H.
  - exact dnum_some.
  - exact stod_sound.
  - exact stod_complete.
Qed.

(** ** the numbers *)
Lemma nearest_decimal (neg : bool) t M K v : decimal t M K -> (v == if neg then - (inject_Z M * ten K) else inject_Z M * ten K)%Q -> nearest (of_decimal neg M K) v.
Proof.
  intros D V. assert (M0 : 0 <= M). { destruct D as [ip ex e M K Di _ _ -> _|ip fp ex e M K Di Df _ _ -> _]; apply dval_pos; [exact Di|]. apply Forall_app. now split. }
  assert (A : (Qabs v == inject_Z M * ten K)%Q).
  { assert (P : (0 <= inject_Z M * ten K)%Q). { apply Qmult_le_0_compat; [unfold Qle; cbn; lia|]. rewrite ten_t10. apply Qlt_le_weak, t10_pos. }
    rewrite V. destruct neg; [rewrite Qabs_opp|]; now apply Qabs_pos. }
  assert (T0 : (0 < ten K)%Q) by (rewrite ten_t10; apply t10_pos).
  split.
  - intros Z0. assert (E : (inject_Z M * ten K == 0)%Q) by (rewrite <- A, Z0; reflexivity). apply Qmult_integral in E. destruct E as [E|E]; [|rewrite E in T0; discriminate].
    assert (M = 0) by (unfold Qeq in E; cbn in E; lia). subst M. exists neg. reflexivity.
  - intros (L & U). rewrite A in L, U.
    assert (HM : 0 < M). { destruct (Z.eq_dec M 0) as [->|]; [|lia]. exfalso. apply Qle_not_lt in L. apply L. setoid_replace (inject_Z 0 * ten K)%Q with 0%Q by (unfold Qeq; cbn; lia). vm_compute. reflexivity. }
    assert (V1 : try_get_value (Elem [] [] [Text ((if neg then [45] else []) ++ t)]) = Some ((if neg then [45] else []) ++ t)).
    { destruct (decimal_head _ _ _ D) as (c & q & -> & _). destruct neg; reflexivity. }
    destruct (node_decimal 0 neg t M K _ D V1) as (x & R & G).
    pose proof (read_decimal neg t M K D) as R2. cbv zeta in R2. rewrite (read_all 0 _ _ _ V1 R2) in R. injection R as <-.
    destruct (G HM (conj L U)) as (F & B & _). split; [exact F|]. rewrite V at 1. rewrite A.
    assert (P : (Qabs (inject_Z M * ten K) == inject_Z M * ten K)%Q) by (apply Qabs_pos; eapply Qle_trans; [|exact L]; vm_compute; discriminate).
    destruct neg; [rewrite Qabs_opp in B|]; rewrite P in B; exact B.
Qed.
Lemma dnum_real a x : dnum a x -> exists v, real a v /\ nearest x v.
Proof.
  intros (sg & neg & t & M & K & Hs & -> & D & -> & _). exists (if neg then - (inject_Z M * ten K) else inject_Z M * ten K)%Q. split; [|eapply nearest_decimal; [exact D|reflexivity]].
  destruct Hs as [(-> & ->)|[(-> & ->)|(-> & ->)]].
  - left. exists [], t, M, K. repeat split; auto; reflexivity.
  - left. exists [43], t, M, K. repeat split; auto; reflexivity.
  - right. exists t, M, K. repeat split; auto; reflexivity.
Qed.
Lemma plain_positive a x : plain dnum a x -> exists v, positive a v /\ nearest x v.
Proof.
  intros (H & P). destruct (dnum_real a x H) as (v & [R|(t & M & K & -> & _)] & Nr); [now exists v|]. now destruct P.
Qed.
(** the digits of zero *)
Lemma dval_zero ds : digits ds -> dval ds = 0 -> forall c, In c ds -> c = 48.
Proof.
  induction ds as [|d ds IH]; intros D H c; [intros []|]. pose proof D as D2. apply Forall_cons_iff in D2. destruct D2 as (Dd & Dr). rewrite dval_cons in H. pose proof (dval_pos ds Dr). assert (0 < 10 ^ Z.of_nat (length ds)) by (apply Z.pow_pos_nonneg; lia).
  intros [->|I]; [nia|]. apply IH; [exact Dr|nia|exact I].
Qed.
Lemma exponent_head ex e : exponent ex e -> match ex with [] => True | c :: _ => c = 101 \/ c = 69 end.
Proof. intros H. destruct H; auto. Qed.
Lemma zero_not_tiny sg neg t K s : sign_ok sg neg -> decimal t 0 K -> tiny (sg ++ t) (S754_zero s) = false.
Proof.
  intros Hs D. cbn [tiny]. set (q := fun c => negb ((c =? 69) || (c =? 101))).
  assert (G : forall a ex e, (forall c, In c a -> c = 48 \/ c = 46) -> exponent ex e -> existsb (fun c => (49 <=? c) && (c <=? 57)) (fst (span q (sg ++ a ++ ex))) = false).
  { intros a ex e Ha Ex. rewrite app_assoc. rewrite (span_app q (sg ++ a) ex).
    - cbn [fst]. apply not_true_iff_false. intros X. apply existsb_exists in X. destruct X as (c & I & B). apply in_app_iff in I. destruct I as [I|I].
      + destruct Hs as [(-> & _)|[(-> & _)|(-> & _)]]; [destruct I|destruct I as [<-|[]]; lia|destruct I as [<-|[]]; lia].
      + destruct (Ha c I) as [->| ->]; lia.
    - apply Forall_forall. intros c I. apply in_app_iff in I. unfold q. destruct I as [I|I].
      + destruct Hs as [(-> & _)|[(-> & _)|(-> & _)]]; [destruct I|destruct I as [<-|[]]; reflexivity|destruct I as [<-|[]]; reflexivity].
      + destruct (Ha c I) as [->| ->]; reflexivity.
    - apply exponent_head in Ex. destruct ex as [|c ex]; [exact I|]. cbn [stops]. unfold q. destruct Ex as [->| ->]; reflexivity. }
  remember 0 as M eqn:EM. destruct D as [ip ex e M K Di _ Ex HM _|ip fp ex e M K Di Df _ Ex HM _].
  - apply (G ip ex e); [|exact Ex]. intros c I. left. apply (dval_zero ip Di); [lia|exact I].
  - change (ip ++ [46] ++ fp ++ ex) with (ip ++ (46 :: fp) ++ ex). rewrite (app_assoc ip). apply (G (ip ++ 46 :: fp) ex e); [|exact Ex]. assert (Dd : digits (ip ++ fp)) by (apply Forall_app; now split).
    pose proof (dval_zero (ip ++ fp) Dd ltac:(lia)) as Z0. intros c I. apply in_app_iff in I. cbn [In] in I. destruct I as [I|[<-|I]]; [left; apply Z0, in_app_iff; now left|now right|left; apply Z0, in_app_iff; now right].
Qed.
Lemma real_dnum a v : real a v -> usual v -> exists x, dnum a x /\ nearest x v.
Proof.
  intros R U. assert (E : exists sg neg t M K, sign_ok sg neg /\ a = sg ++ t /\ decimal t M K /\ (v == if neg then - (inject_Z M * ten K) else inject_Z M * ten K)%Q).
  { destruct R as [(p & t & M & K & Hp & -> & D & V)|(t & M & K & -> & D & V)].
    - exists p, false, t, M, K. split; [unfold sign_ok; destruct Hp; auto|]. auto.
    - exists [45], true, t, M, K. split; [unfold sign_ok; auto|]. auto. }
  destruct E as (sg & neg & t & M & K & Hs & -> & D & V). pose proof (nearest_decimal neg t M K v D V) as Nr. exists (of_decimal neg M K). split; [|exact Nr].
  exists sg, neg, t, M, K. split; [exact Hs|]. split; [reflexivity|]. split; [exact D|]. split; [reflexivity|]. destruct Nr as (N0 & N1). destruct U as [Z0|Md].
  - destruct (N0 Z0) as (s & E). rewrite E. cbn [infinite]. rewrite orb_false_r.
    assert (HM : M = 0).
    { assert (T0 : (0 < ten K)%Q) by (rewrite ten_t10; apply t10_pos). assert (E0 : (inject_Z M * ten K == 0)%Q). { rewrite V in Z0. destruct neg; [|exact Z0]. rewrite <- (Qopp_opp (inject_Z M * ten K)), Z0. reflexivity. }
      apply Qmult_integral in E0. destruct E0 as [E0|E0]; [|rewrite E0 in T0; discriminate]. unfold Qeq in E0. cbn in E0. lia. }
    subst M. now apply zero_not_tiny with (neg := neg) (K := K).
  - destruct (N1 Md) as (F & B).
    assert (Lo : (b2 (-1022) < Qabs (sfQ (of_decimal neg M K)))%Q).
    { destruct Md as (L & _). set (x := sfQ (of_decimal neg M K)) in *. clearbody x. assert (T : (Qabs v - Qabs x <= Qabs v * b2 (-52))%Q). { eapply Qle_trans; [apply Qabs_triangle_reverse|]. rewrite Qabs_Qminus. exact B. }
      assert (H1 : (Qabs v * b2 (-52) <= Qabs v * (1#2))%Q). { apply Qmult_le_compat_nonneg; split; try apply Qle_refl; try apply Qabs_nonneg; vm_compute; discriminate. }
      assert (H2 : (b2 (-1022) < ten (-307) * (1#2))%Q) by (vm_compute; reflexivity). lra. }
    pose proof (normal_mantissa _ F Lo) as C. destruct (of_decimal neg M K) as [s|s| |s m e] eqn:E; [destruct C|destruct F; discriminate|destruct F; discriminate|]. cbn [tiny infinite]. rewrite orb_false_r. lia.
Qed.
