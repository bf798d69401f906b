(** The text of a number, read again. *)
From Coq Require Import String QArith Qabs Qpower Lqa Floats.SpecFloat.
From Verif Require Import Base TextModel TextProofs FloatProofs SFloatProofs ScaleModel ScaleNum NumModel NumProofs.
Open Scope Z_scope.

(** * The number a decimal text stands for *)
Lemma of_decimal_eq s m e m' e' : 0 < m -> 0 < m' -> (inject_Z m * t10 e == inject_Z m' * t10 e')%Q -> of_decimal s m e = of_decimal s m' e'.
Proof.
  intros H H' E. unfold of_decimal. destruct (Z.eqb_spec m 0); [lia|]. destruct (Z.eqb_spec m' 0); [lia|].
  change (Qpower 10 e) with (t10 e). change (Qpower 10 e') with (t10 e'). rewrite (Qred_complete _ _ E). reflexivity.
Qed.
Lemma of_decimal_op m e N : 0 < m -> (inject_Z m * t10 e < b2 N)%Q -> N <= 1023 -> op_ok 53 1024 (inject_Z m * t10 e) N (of_decimal false m e).
Proof.
  intros H HX HN. unfold of_decimal. destruct (Z.eqb_spec m 0); [lia|]. cbv zeta. change (Qpower 10 e) with (t10 e).
  pose proof (Qred_correct (inject_Z m * t10 e)) as C. set (q := Qred (inject_Z m * t10 e)) in *.
  assert (R : (rat (Qnum q) (Zpos (Qden q)) == inject_Z m * t10 e)%Q).
  { rewrite <- C. destruct q as [a b]. cbn [Qnum Qden]. unfold rat. rewrite <- Qmake_Qdiv. reflexivity. }
  assert (P : (0 < q)%Q) by (rewrite C; apply Qmult_lt_0_compat; [now apply injZ_pos|apply t10_pos]).
  eapply op_ok_eq; [exact R|]. apply round_ratio_op; [|reflexivity|rewrite R; exact HX|exact HN].
  destruct q as [a b]. unfold Qlt in P. cbn in P. cbn [Qnum]. lia.
Qed.
Lemma of_decimal_neg m e : of_decimal true m e = SFopp (of_decimal false m e).
Proof. unfold of_decimal. destruct (m =? 0); reflexivity. Qed.
Lemma of_decimal_abs s m e : 0 < m -> (inject_Z m * t10 e < b2 1023)%Q -> SFabs (of_decimal s m e) = of_decimal false m e.
Proof.
  intros H HX. destruct (of_decimal_op m e 1023 H HX ltac:(lia)) as (A & _).
  assert (E : SFabs (of_decimal false m e) = of_decimal false m e).
  { destruct (of_decimal false m e) as [x|x| |x y z]; destruct A as [_ A]; try contradiction; subst; reflexivity. }
  destruct s; [|exact E]. rewrite of_decimal_neg. destruct (of_decimal false m e); exact E.
Qed.

(** relative error of reading *)
Lemma of_decimal_near m e : 0 < m -> (b2 (-1022) <= inject_Z m * t10 e)%Q -> (inject_Z m * t10 e < b2 1023)%Q ->
  (Qabs (sfQ (of_decimal false m e) - inject_Z m * t10 e) <= inject_Z m * t10 e * b2 (-52))%Q.
Proof.
  intros H L U. pose proof (of_decimal_op m e 1023 H U ltac:(lia)) as O. set (v := (inject_Z m * t10 e)%Q) in *.
  assert (V : (0 <= v)%Q) by (eapply Qle_trans; [|exact L]; apply Qlt_le_weak, b2_pos).
  apply sop_of_op in O; [|exact V]. pose proof (sop_rel 53 1024 v 1023 _ O) as R. rewrite (Qabs_pos v V) in R. eapply Qle_trans; [exact R|].
  change (emin 53 1024 - 1) with (-53 + -1022). rewrite b2_plus. assert (E : (b2 (-52) == 2 * b2 (-53))%Q) by reflexivity. rewrite E. change (- (53)) with (-53).
  pose proof (b2_pos (-53)) as P. assert (b2 (-53) * b2 (-1022) <= b2 (-53) * v)%Q by (apply Qmult_le_l; assumption). lra.
Qed.

(** * Reading the parts of a text *)
Definition tail_ok (tail : str) (ex : Z) : Prop :=
  take_exponent tail = (ex, []) /\ stops is_digit tail /\ stops (Z.eqb 46) tail.
Lemma read_parts (neg : bool) (ip fp tail : str) (ex : Z) : all is_digit ip -> ip <> [] -> all is_digit fp -> tail_ok tail ex ->
  let s := (if neg then [45] else []) ++ with_point ip fp ++ tail in
  strtod s = (of_decimal neg (dval (ip ++ fp)) (ex - Z.of_nat (length fp)), length s).
Proof.
  intros Di Ni Df (T1 & T2 & T3). cbv zeta. unfold strtod.
  assert (HD : exists c r, with_point ip fp ++ tail = c :: r /\ is_digit c = true).
  { destruct ip as [|c r]; [congruence|]. apply Forall_cons_iff in Di. destruct Di as [Dc _]. unfold with_point. destruct fp; cbn [app]; eexists c, _; split; try reflexivity; exact Dc. }
  assert (SP : span is_space ((if neg then [45] else []) ++ with_point ip fp ++ tail) = ([], (if neg then [45] else []) ++ with_point ip fp ++ tail)).
  { apply span_stop. destruct neg; [reflexivity|]. cbn [app]. destruct HD as (c & r & -> & Dc). cbn [stops]. unfold is_digit in Dc. unfold is_space. lia. }
  rewrite SP. cbn [snd].
  assert (TS : take_sign ((if neg then [45] else []) ++ with_point ip fp ++ tail) = (neg, with_point ip fp ++ tail)).
  { destruct neg; [reflexivity|]. cbn [app]. destruct HD as (c & r & -> & Dc). cbn [take_sign]. unfold is_digit in Dc.
    destruct (Z.eqb_spec c 45); [lia|]. destruct (Z.eqb_spec c 43); [lia|]. reflexivity. }
  rewrite TS. clear HD SP TS.
  assert (IF : exists s3, span is_digit (with_point ip fp ++ tail) = (ip, s3) /\ take_fraction s3 = (fp, tail)).
  { unfold with_point. destruct fp as [|f fr].
    - exists tail. split; [now apply span_app|]. destruct tail as [|c r]; [reflexivity|]. cbn [take_fraction stops] in *. rewrite (Z.eqb_sym c 46), T3. reflexivity.
    - exists (46 :: (f :: fr) ++ tail). rewrite <- !app_assoc. split; [apply span_app; [exact Di|reflexivity]|].
      cbn [take_fraction]. change (46 =? 46) with true. cbv iota. now apply span_app. }
  destruct IF as (s3 & -> & ->).
  destruct (ip ++ fp) as [|d ds] eqn:E; [destruct ip; [congruence|discriminate]|]. rewrite T1. cbn [length]. rewrite Nat.sub_0_r. reflexivity.
Qed.

Lemma tail_nil : tail_ok [] 0.
Proof. repeat split. Qed.
Lemma dec_pos n : 0 <= n < 10 ^ 20 -> all is_digit (dec n) /\ dec n <> [] /\ dval (dec n) = n.
Proof.
  intros H. unfold dec. destruct (Z.ltb_spec n 0); [lia|]. destruct (dec_digits_spec 19 n ltac:(change (Z.of_nat 20) with 20; lia)) as (A & B & C & _). tauto.
Qed.
Lemma tail_exp X : Z.abs X < 10 ^ 20 -> tail_ok (exp_text X) X.
Proof.
  intros H. destruct (dec_pos (Z.abs X) ltac:(lia)) as (A & B & C).
  assert (DS : exists ds, (if Z.abs X <? 10 then [48] else []) ++ dec (Z.abs X) = ds /\ all is_digit ds /\ ds <> [] /\ dval ds = Z.abs X).
  { eexists. split; [reflexivity|]. destruct (Z.abs X <? 10); cbn [app].
    - split; [constructor; [reflexivity|exact A]|]. split; [discriminate|]. rewrite dval_cons, C. lia.
    - tauto. }
  unfold exp_text. destruct DS as (ds & -> & A2 & B2 & C2). unfold tail_ok. split; [|split; reflexivity].
  cbn [app take_exponent]. change ((101 =? 101) || (101 =? 69)) with true. cbv iota.
  assert (SS : span is_digit ds = (ds, [])) by (rewrite <- (app_nil_r ds) at 1; apply span_app; [exact A2|exact I]).
  destruct (Z.ltb_spec X 0) as [L|L]; cbn [take_sign].
  - change (45 =? 45) with true. cbv iota. rewrite SS. destruct ds; [congruence|]. rewrite C2. f_equal. lia.
  - change (43 =? 45) with false. change (43 =? 43) with true. cbv iota. rewrite SS. destruct ds; [congruence|]. rewrite C2. f_equal. lia.
Qed.

(** zeros at the end *)
Lemma strip0_ok s : exists k, s = strip0 s ++ repeat 48 k.
Proof.
  induction s as [|c r (k & E)]; [exists O; reflexivity|]. cbn [strip0]. destruct (strip0 r) as [|x y].
  - destruct (Z.eqb_spec c 48) as [->|N].
    + exists (S k). cbn [app repeat] in *. now rewrite <- E.
    + exists k. cbn [app] in *. now rewrite <- E.
  - exists k. cbn [app] in *. now rewrite E at 1.
Qed.

Lemma dec_P P D : 1 <= P <= 20 -> 10 ^ (P - 1) <= D < 10 ^ P -> all is_digit (dec D) /\ Z.of_nat (length (dec D)) = P /\ dval (dec D) = D.
Proof.
  intros HP HD. assert (0 < 10 ^ (P - 1)) by (apply Z.pow_pos_nonneg; lia). assert (10 ^ P <= 10 ^ 20) by (apply Z.pow_le_mono_r; lia).
  destruct (dec_pos D ltac:(lia)) as (A & _ & C). split; [exact A|]. split; [|exact C].
  unfold dec. destruct (Z.ltb_spec D 0); [lia|]. apply dec_digits_len; [exact HD|lia|change (Z.of_nat 20) with 20; lia].
Qed.

(** the value of the digits without the zeros at the end *)
Lemma digits_value a k D P X ex : dval (a ++ repeat 48 k) = D -> Z.of_nat (length a) + Z.of_nat k = P ->
  ex = X - P + 1 + Z.of_nat k -> (inject_Z (dval a) * t10 ex == inject_Z D * t10 (X - P + 1))%Q.
Proof.
  intros <- HL ->. rewrite dval_cat, dval_zeros, repeat_length, Z.add_0_r, inject_Z_mult, <- t10_Z, t10_plus by lia. ring.
Qed.

Lemma all_app {A} (p : A -> bool) a b : Forall (fun x => p x = true) (a ++ b) <-> Forall (fun x => p x = true) a /\ Forall (fun x => p x = true) b.
Proof. apply Forall_app. Qed.

Lemma split_value (neg : bool) P D X n tail ex (strip : bool) : 1 <= P <= 20 -> 10 ^ (P - 1) <= D < 10 ^ P -> (0 < n <= Z.to_nat P)%nat -> tail_ok tail ex -> ex = X - Z.of_nat n + 1 ->
  let b := skipn n (dec D) in
  let s := (if neg then [45] else []) ++ with_point (firstn n (dec D)) (if strip then strip0 b else b) ++ tail in
  strtod s = (of_decimal neg D (X - P + 1), length s).
Proof.
  intros HP HD Hn T Hex. cbv zeta. destruct (dec_P P D HP HD) as (A & L & V). set (ds := dec D) in *. assert (0 < 10 ^ (P - 1)) by (apply Z.pow_pos_nonneg; lia).
  assert (Lf : length (firstn n ds) = n) by (rewrite firstn_length; lia).
  assert (SB : exists k, skipn n ds = (if strip then strip0 (skipn n ds) else skipn n ds) ++ repeat 48 k).
  { destruct strip; [apply strip0_ok|]. exists O. cbn [repeat]. now rewrite app_nil_r. }
  destruct SB as (k & SB). set (fp := if strip then strip0 (skipn n ds) else skipn n ds).
  assert (SP : ds = (firstn n ds ++ fp) ++ repeat 48 k) by (transitivity (firstn n ds ++ skipn n ds); [symmetry; apply firstn_skipn|rewrite <- app_assoc; f_equal; exact SB]).
  pose proof A as A'. rewrite SP in A'. apply Forall_app in A'. destruct A' as [A1 _]. apply Forall_app in A1. destruct A1 as [Ai Af].
  rewrite (read_parts neg (firstn n ds) fp tail ex Ai); [|intros E; rewrite E in Lf; cbn [length] in Lf; lia|exact Af|exact T].
  f_equal. assert (LL : Z.of_nat n + Z.of_nat (length fp) + Z.of_nat k = P).
  { rewrite <- L, SP, !app_length, repeat_length, Lf. lia. }
  assert (VV : dval ((firstn n ds ++ fp) ++ repeat 48 k) = D) by (rewrite <- SP; exact V).
  assert (DV : (inject_Z (dval (firstn n ds ++ fp)) * t10 (ex - Z.of_nat (length fp)) == inject_Z D * t10 (X - P + 1))%Q).
  { apply (digits_value _ k); [exact VV|rewrite app_length, Lf; lia|lia]. }
  apply of_decimal_eq; [|lia|exact DV].
  rewrite dval_cat, dval_zeros, Z.add_0_r in VV. pose proof (dval_bound (firstn n ds ++ fp) ltac:(apply Forall_app; split; assumption)). nia.
Qed.

Theorem read_g_text (neg : bool) P D X : 1 <= P <= 20 -> 10 ^ (P - 1) <= D < 10 ^ P -> Z.abs X < 10 ^ 20 ->
  let s := (if neg then [45] else []) ++ g_text P (D, X) in strtod s = (of_decimal neg D (X - P + 1), length s).
Proof.
  intros HP HD HX. cbv zeta. unfold g_text. cbv zeta. destruct ((X <? -4) || (P <=? X)) eqn:Sc.
  - apply (split_value neg P D X 1 (exp_text X) X true); [exact HP|exact HD|lia|now apply tail_exp|lia].
  - destruct (Z.ltb_spec X 0) as [L|L].
    + destruct (dec_P P D HP HD) as (A & Ln & V). set (ds := dec D) in *. assert (0 < 10 ^ (P - 1)) by (apply Z.pow_pos_nonneg; lia).
      destruct (strip0_ok ds) as (k & SB). set (z := repeat 48 (Z.to_nat (- X - 1))).
      assert (Vs : dval (strip0 ds) * 10 ^ Z.of_nat k = D).
      { rewrite SB, dval_cat, dval_zeros, repeat_length in V. lia. }
      assert (NE : strip0 ds <> []) by (intros E; rewrite E in Vs; cbn in Vs; lia).
      pose proof A as A'. rewrite SB in A'. apply Forall_app in A'. destruct A' as [As _].
      assert (Az : all is_digit z) by (unfold z; clear; induction (Z.to_nat (- X - 1)); constructor; auto).
      assert (E : [48; 46] ++ z ++ strip0 ds = with_point [48] (z ++ strip0 ds) ++ []).
      { rewrite app_nil_r. unfold with_point. destruct (z ++ strip0 ds) eqn:Ez; [destruct z; [cbn in Ez; congruence|discriminate]|reflexivity]. }
      rewrite E. rewrite (read_parts neg [48] (z ++ strip0 ds) [] 0); [|repeat constructor|discriminate|apply Forall_app; split; assumption|apply tail_nil].
      f_equal. assert (LL : Z.of_nat (length (strip0 ds)) + Z.of_nat k = P) by (rewrite <- Ln; rewrite SB at 2; rewrite app_length, repeat_length; lia).
      assert (DZ : dval ([48] ++ z ++ strip0 ds) = dval (strip0 ds)) by (cbn [app]; rewrite dval_cons, dval_cat; unfold z; rewrite dval_zeros; lia).
      rewrite DZ. apply of_decimal_eq; [|lia|].
      * pose proof (dval_bound _ As). nia.
      * apply (digits_value _ k); [rewrite <- SB; exact V|exact LL|]. rewrite app_length. unfold z. rewrite repeat_length. lia.
    + pose proof (split_value neg P D X (Z.to_nat (X + 1)) [] 0 true HP HD ltac:(lia) tail_nil ltac:(lia)) as S.
      cbv zeta in S. rewrite app_nil_r in S. exact S.
Qed.
Theorem read_e_text (neg : bool) P D X : 1 <= P <= 20 -> 10 ^ (P - 1) <= D < 10 ^ P -> Z.abs X < 10 ^ 20 ->
  let s := (if neg then [45] else []) ++ with_point (firstn 1 (dec D)) (skipn 1 (dec D)) ++ exp_text X in
  strtod s = (of_decimal neg D (X - P + 1), length s).
Proof. intros HP HD HX. apply (split_value neg P D X 1 (exp_text X) X false); [exact HP|exact HD|lia|now apply tail_exp|lia]. Qed.
