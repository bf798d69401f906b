(** Background colour and zoom: proofs. *)
From Coq Require Import String QArith Floats.SpecFloat.
From Verif Require Import Base TextModel TextProofs XmlModel NumModel NumSpec NumProofs NumText NumRound DispPoints RangeDbl ArgsModel BgModel BgSpec.
Open Scope Z_scope.

Lemma white_all w : white w -> all is_space w.
Proof. intros H. eapply Forall_impl; [|exact H]. intros c. cbv beta. unfold is_space. lia. Qed.
Lemma all_white w : all is_space w -> white w.
Proof. intros H. eapply Forall_impl; [|exact H]. intros c. cbv beta. unfold is_space. lia. Qed.
(** ** decimal numbers are read *)
Lemma scan t M K r : decimal t M K -> ends r -> exists ip s3 fp s4 ex,
  span is_digit (t ++ r) = (ip, s3) /\ take_fraction s3 = (fp, s4) /\ take_exponent s4 = (ex, r) /\ ip ++ fp <> [] /\ M = dval (ip ++ fp) /\ K = ex - Z.of_nat (length fp).
Proof.
  intros D E. destruct D as [ip ex e M K Di Ni Ex -> ->|ip fp ex e M K Di Df Ni Ex -> ->]; apply exponent_tail in Ex as (T1 & T2 & T3); apply digits_all in Di.
  - assert (T : take_exponent (ex ++ r) = (e, r)) by (rewrite exponent_more; [now rewrite T1|exact E|now rewrite T1]).
    exists ip, (ex ++ r), [], (ex ++ r), e. rewrite <- app_assoc. split; [apply span_app; [exact Di|]; destruct ex as [|c ex]; [|exact T2]; destruct r; [exact I|now destruct E]|].
    split; [|split; [exact T|rewrite app_nil_r; cbn [length]; repeat split; [exact Ni|lia]]]. destruct ex as [|c ex]; cbn [app].
    + destruct r as [|c r]; [reflexivity|]. destruct E as (_ & E & _). cbn [take_fraction]. now destruct (Z.eqb_spec c 46).
    + cbn [take_fraction]. cbn [stops] in T3. destruct (Z.eqb_spec c 46); [lia|reflexivity].
  - apply digits_all in Df. assert (T : take_exponent (ex ++ r) = (e, r)) by (rewrite exponent_more; [now rewrite T1|exact E|now rewrite T1]).
    exists ip, ([46] ++ fp ++ ex ++ r), fp, (ex ++ r), e. rewrite <- !app_assoc. split; [apply span_app; [exact Di|reflexivity]|].
    split; [|split; [exact T|repeat split; exact Ni]]. cbn [app take_fraction]. change (46 =? 46) with true. cbv iota. apply span_app; [exact Df|]. destruct ex as [|c ex]; [|exact T2]. destruct r; [exact I|now destruct E].
Qed.
Lemma no_word_digit t w c r : t = c :: r -> (is_digit c = true \/ c = 46) -> match w with a :: _ => 97 <= a | [] => False end -> prefix_i w t = false.
Proof.
  intros -> H W. destruct w as [|a w]; [contradiction|]. cbn [prefix_i]. unfold lower, is_digit in *. destruct (Z.eqb_spec a (if (65 <=? c) && (c <=? 90) then c + 32 else c)) as [E|]; [|reflexivity].
  exfalso. destruct ((65 <=? c) && (c <=? 90)) eqn:X; lia.
Qed.
Theorem read_decimal32 w sg neg t M K r : white w -> sign sg neg -> decimal t M K -> ends r ->
  strtof (w ++ sg ++ t ++ r) = (fst (of_decimal32 neg M K), length (w ++ sg ++ t), snd (of_decimal32 neg M K)).
Proof.
  intros W S D E. unfold strtof. destruct (decimal_head t M K D) as (c & u & Ht & Hc).
  assert (Sp : span is_space (w ++ sg ++ t ++ r) = (w, sg ++ t ++ r)).
  { apply span_app; [now apply white_all|]. destruct S as [(-> & _)|[(-> & _)|(-> & _)]]; [|reflexivity|reflexivity]. rewrite Ht. cbn [app stops]. unfold is_digit in Hc. unfold is_space. lia. }
  rewrite Sp. cbn [snd].
  assert (Sg : take_sign (sg ++ t ++ r) = (neg, t ++ r)).
  { destruct S as [(-> & ->)|[(-> & ->)|(-> & ->)]]; [|reflexivity|reflexivity]. rewrite Ht. cbn [app take_sign]. unfold is_digit in Hc. destruct (Z.eqb_spec c 45); [lia|]. destruct (Z.eqb_spec c 43); [lia|]. reflexivity. }
  rewrite Sg. assert (Hw : forall a l, 97 <= a -> prefix_i (a :: l) (t ++ r) = false) by (intros a l A; apply (no_word_digit _ _ c (u ++ r)); [now rewrite Ht|exact Hc|exact A]).
  change (txt "infinity") with (105 :: txt "nfinity"). change (txt "inf") with (105 :: txt "nf"). change (txt "nan") with (110 :: txt "an"). rewrite !Hw by lia.
  destruct (scan t M K r D E) as (ip & s3 & fp & s4 & ex & -> & F & X & N & -> & ->). rewrite F. destruct (ip ++ fp) as [|d ds] eqn:Q; [congruence|]. rewrite X.
  destruct (of_decimal32 neg (dval (d :: ds)) (ex - Z.of_nat (length fp))) as [x er]. cbn [fst snd]. f_equal. f_equal. rewrite !app_length. lia.
Qed.
(** ** the separators *)
Lemma skip_white b w s : white w -> skip_one b (w ++ s) = skip_one b s.
Proof. intros W. apply white_all in W. induction W as [|c w C W IH]; [reflexivity|]. cbn [app skip_one]. now rewrite C. Qed.
Definition begins_number (s : str) : Prop := match s with [] => True | c :: _ => is_space c = false /\ is_delim c = false end.
Lemma skip_stop b s : begins_number s -> skip_one b s = s.
Proof. destruct s as [|c s]; [reflexivity|]. intros (A & B). cbn [skip_one]. now rewrite A, B, andb_false_r. Qed.
Lemma skip_gap g s : gap g -> begins_number s -> skip_one false (g ++ s) = s.
Proof.
  intros (a & d & b & A & B & D & ->) N. rewrite <- !app_assoc, skip_white by exact A. destruct D as [->|D]; [cbn [app]; rewrite skip_white by exact B; now apply skip_stop|].
  assert (X : exists c, d = [c] /\ is_space c = false /\ is_delim c = true) by (destruct D as [->|[->| ->]]; eexists; split; try reflexivity; split; reflexivity).
  destruct X as (c & -> & C1 & C2). cbn [app skip_one]. rewrite C1, C2. cbn [negb andb]. rewrite skip_white by exact B. now apply skip_stop.
Qed.
Lemma gap_ends g s : gap g -> g <> [] -> ends (g ++ s).
Proof.
  intros (a & d & b & A & B & D & ->) N. destruct a as [|c a]; cbn [app]; [|apply Forall_inv in A; unfold ends, is_digit; lia].
  destruct D as [->|[->|[->| ->]]]; cbn [app] in *; try (unfold ends, is_digit; lia). destruct b as [|c b]; [easy|]. apply Forall_inv in B. cbn [app]. unfold ends, is_digit. lia.
Qed.
Lemma gap_ends0 g : gap g -> ends g.
Proof. intros G. destruct g as [|c g]; [exact I|]. rewrite <- (app_nil_r (c :: g)). apply gap_ends; [exact G|discriminate]. Qed.
Lemma plain_begins s x r : plain s x -> begins_number (s ++ r).
Proof.
  intros (sg & neg & t & M & K & S & D & -> & _). destruct (decimal_head t M K D) as (c & u & -> & H).
  destruct S as [(-> & _)|[(-> & _)|(-> & _)]]; cbn [app begins_number]; [|split; reflexivity|split; reflexivity]. unfold is_digit in H. unfold is_space, is_delim. lia.
Qed.
Lemma plain_nonempty s x : plain s x -> s <> [].
Proof. intros (sg & neg & t & M & K & S & D & -> & _). destruct (decimal_head t M K D) as (c & u & -> & H). now destruct sg. Qed.
Lemma read_at w s x g r : white w -> plain s x -> gap g -> (r = [] \/ g <> []) -> begins_number r -> value (w ++ s ++ g ++ r) = x /\ after (w ++ s ++ g ++ r) = r.
Proof.
  intros W (sg & neg & t & M & K & S & D & -> & ->) G Hr B.
  assert (E : ends (g ++ r)) by (destruct Hr as [->|Hg]; [rewrite app_nil_r; now apply gap_ends0|now apply gap_ends]).
  pose proof (read_decimal32 w sg neg t M K (g ++ r) W S D E) as R. unfold value, after. rewrite <- (app_assoc sg t), R. cbn [fst snd]. split; [reflexivity|].
  replace (w ++ sg ++ t ++ g ++ r) with ((w ++ sg ++ t) ++ g ++ r) by now rewrite <- !app_assoc. rewrite skipn_app, skipn_all, Nat.sub_diag. cbn [app skipn]. now apply skip_gap.
Qed.
(** ** a decimal number is never NaN *)
Lemma shr_1_nonneg m : 0 <= shr_m m -> 0 <= shr_m (shr_1 m).
Proof. destruct m as [m r s]. cbn [shr_m]. intros H. destruct m as [|p|p]; [cbn; lia| |lia]. destruct p; cbn; lia. Qed.
Lemma iter_shr n : forall m, 0 <= shr_m m -> 0 <= shr_m (SpecFloat.iter_pos shr_1 n m).
Proof. induction n as [n IH|n IH|]; intros m H; cbn [SpecFloat.iter_pos]; [apply IH, IH; now apply shr_1_nonneg|now apply IH, IH|now apply shr_1_nonneg]. Qed.
Lemma shr_fexp_nonneg p em m e l : 0 <= m -> 0 <= shr_m (fst (shr_fexp p em m e l)).
Proof.
  intros H. unfold shr_fexp, shr. assert (X : 0 <= shr_m (shr_record_of_loc m l)) by (destruct l as [|[]]; exact H).
  destruct (fexp p em (Zdigits2 m + e) - e) as [|n|n]; cbn [fst]; [exact X|now apply iter_shr|exact X].
Qed.
Lemma round_not_nan p em m e l : 0 <= m -> is_nan (binary_round_aux p em false m e l) = false.
Proof.
  intros H. unfold binary_round_aux. pose proof (shr_fexp_nonneg p em m e l H) as H1. destruct (shr_fexp p em m e l) as [m1 e1]. cbn [fst] in H1.
  assert (H2 : 0 <= round_nearest_even (shr_m m1) (loc_of_shr_record m1)) by (unfold round_nearest_even; destruct (loc_of_shr_record m1) as [|[]]; [|destruct (Z.even (shr_m m1))| |]; lia).
  pose proof (shr_fexp_nonneg p em _ e1 loc_Exact H2) as H3. destruct (shr_fexp p em (round_nearest_even (shr_m m1) (loc_of_shr_record m1)) e1 loc_Exact) as [m2 e2]. cbn [fst] in H3.
  destruct (shr_m m2); [reflexivity| |lia]. destruct (e2 <=? em - p); reflexivity.
Qed.
Lemma decimal_not_nan neg M K : is_nan (fst (of_decimal32 neg M K)) = false \/ M < 0.
Proof.
  destruct (Z.ltb_spec M 0) as [L|L]; [now right|left]. unfold of_decimal32. destruct (Z.eqb_spec M 0); [reflexivity|]. set (q := Qred (inject_Z M * Qpower 10 K)).
  assert (Hq : 0 <= Qnum q).
  { assert (Hp : (0 <= q)%Q) by (unfold q; rewrite Qred_correct; apply Qmult_le_0_compat; [change 0%Q with (inject_Z 0); now rewrite <- Zle_Qle|exact (Qlt_le_weak _ _ (t10_pos K))]).
    unfold Qle in Hp. cbn [Qnum Qden] in Hp. lia. }
  unfold round32. set (k := Z.log2 (Qnum q) - Z.log2 (Z.pos (Qden q))). set (e := Z.min (fexp 24 128 k) (k - 2)).
  assert (Hab : forall a b, (if 0 <=? e then (Qnum q, Z.pos (Qden q) * 2 ^ e) else (Qnum q * 2 ^ (- e), Z.pos (Qden q))) = (a, b) -> 0 <= a / b).
  { clearbody e. intros a b. destruct (Z.leb_spec 0 e) as [H|H]; intros X.
    - assert (P : 0 < 2 ^ e) by (apply Z.pow_pos_nonneg; lia). assert (A : a = Qnum q) by congruence. assert (B : b = Z.pos (Qden q) * 2 ^ e) by congruence. rewrite A, B. apply Z.div_pos; [exact Hq|]. apply Z.mul_pos_pos; [lia|exact P].
    - assert (P : 0 < 2 ^ (- e)) by (apply Z.pow_pos_nonneg; lia). assert (A : a = Qnum q * 2 ^ (- e)) by congruence. assert (B : b = Z.pos (Qden q)) by congruence. rewrite A, B. apply Z.div_pos; [|lia]. apply Z.mul_nonneg_nonneg; [exact Hq|lia]. }
  destruct (if 0 <=? e then (Qnum q, Z.pos (Qden q) * 2 ^ e) else (Qnum q * 2 ^ (- e), Z.pos (Qden q))) as [a b]. specialize (Hab a b eq_refl).
  pose proof (round_not_nan 24 128 (a / b) e (new_location b (a mod b)) Hab) as R. cbn [fst]. destruct neg; cbn [fst]; [|exact R]. destruct (binary_round_aux 24 128 false (a / b) e (new_location b (a mod b))); auto.
Qed.
Lemma plain_not_nan s x : plain s x -> is_nan x = false.
Proof.
  intros (sg & neg & t & M & K & S & D & _ & ->). destruct (decimal_not_nan neg M K) as [H|H]; [exact H|]. exfalso.
  assert (Dv : forall l, digits l -> 0 <= dval l) by (intros l Hl; apply dval_bound; now apply digits_all).
  destruct D as [ip ex e M K Di Ni _ -> _|ip fp ex e M K Di Df Ni _ -> _]; [specialize (Dv ip Di)|specialize (Dv (ip ++ fp) (proj2 (Forall_app _ _ _) (conj Di Df)))]; lia.
Qed.
(** ** the colours *)
Theorem one_number w a x g : white w -> plain a x -> gap g -> background (w ++ a ++ g) = Some (mkC x x x).
Proof.
  intros W A G. destruct (read_at w a x g [] W A G (or_introl eq_refl) I) as (V & R). rewrite app_nil_r in *. unfold background. now rewrite R, V.
Qed.
Lemma plain_app_ne a x r : plain a x -> exists c u, a ++ r = c :: u.
Proof. intros A. apply plain_nonempty in A. destruct a as [|c a]; [easy|]. exists c, (a ++ r). reflexivity. Qed.
Theorem two_numbers w a x g b y g' : white w -> plain a x -> separator g -> plain b y -> gap g' -> background (w ++ a ++ g ++ b ++ g') = None.
Proof.
  intros W A (G & Gn) B G'. destruct (read_at w a x g (b ++ g') W A G (or_intror Gn) (plain_begins _ _ _ B)) as (_ & R).
  destruct (read_at [] b y g' [] (Forall_nil _) B G' (or_introl eq_refl) I) as (_ & R'). rewrite app_nil_r in *. cbn [app] in R'. unfold background. rewrite R.
  destruct (plain_app_ne b y g' B) as (c & u & E). rewrite E in *. now rewrite R'.
Qed.
Theorem three_numbers w a x g b y h c z g' : white w -> plain a x -> separator g -> plain b y -> separator h -> plain c z -> gap g' ->
  background (w ++ a ++ g ++ b ++ h ++ c ++ g') = Some (mkC x y z).
Proof.
  intros W A (G & Gn) B (H & Hn) C G'. destruct (read_at w a x g (b ++ h ++ c ++ g') W A G (or_intror Gn) (plain_begins _ _ _ B)) as (V & R).
  destruct (read_at [] b y h (c ++ g') (Forall_nil _) B H (or_intror Hn) (plain_begins _ _ _ C)) as (V1 & R1).
  destruct (read_at [] c z g' [] (Forall_nil _) C G' (or_introl eq_refl) I) as (V2 & R2). rewrite app_nil_r in *. cbn [app] in V1, R1, V2, R2. unfold background. rewrite R, V.
  destruct (plain_app_ne b y (h ++ c ++ g') B) as (k & u & E). rewrite E in *. rewrite R1, V1. destruct (plain_app_ne c z g' C) as (k2 & u2 & E2). rewrite E2 in *. rewrite R2, V2.
  now rewrite (plain_not_nan _ _ B).
Qed.

(** ** what is accepted *)
Lemma prefix_word w : Forall (fun a => 97 <= a <= 122) w -> forall s, prefix_i w s = true -> exists t r, s = t ++ r /\ word w t /\ length t = length w.
Proof.
  intros F. induction F as [|a w A F IH]; intros s H.
  - exists [], s. split; [reflexivity|]. split; [constructor|reflexivity].
  - destruct s as [|b s]; [discriminate H|]. cbn [prefix_i] in H. apply andb_prop in H as (H1 & H2). destruct (IH s H2) as (t & r & -> & W & L). exists (b :: t), r. split; [reflexivity|]. split; [|cbn [length]; lia].
    constructor; [|exact W]. unfold lower in H1. destruct ((65 <=? b) && (b <=? 90)) eqn:X; lia.
Qed.
Lemma strtof_shape s x n er : strtof s = (x, n, er) -> (n = O /\ x = S754_zero false) \/ (exists p r, s = p ++ r /\ length p = n /\ p <> [] /\ (decimal_number p x er \/ special_number p x /\ er = false)).
Proof.
  intros H. unfold strtof in H. destruct (span is_space s) as [w s1] eqn:Sw. apply span_spec in Sw as (-> & W & _). apply all_white in W. cbn [snd] in H.
  destruct (take_sign s1) as [neg s2] eqn:St. apply take_sign_spec in St as (sg & -> & Sg).
  assert (Len : forall k, (length (w ++ sg ++ s2) - length s2 + k)%nat = (length w + length sg + k)%nat) by (intros k; rewrite !app_length; lia).
  assert (Spec : forall (wd t r : str) y k, s2 = t ++ r -> length t = length wd -> length wd = k -> k <> O ->
    ((word (txt "inf") t \/ word (txt "infinity") t) /\ y = S754_infinity neg \/ word (txt "nan") t /\ y = S754_nan) ->
    (y, (length (w ++ sg ++ s2) - length s2 + k)%nat, false) = (x, n, er) ->
    exists p r, w ++ sg ++ s2 = p ++ r /\ length p = n /\ p <> [] /\ (decimal_number p x er \/ special_number p x /\ er = false)).
  { intros wd t r y k E L K N Q X. rewrite Len in X. injection X as <- <- <-. exists (w ++ sg ++ t), r. subst s2. split; [now rewrite <- !app_assoc|]. split; [rewrite !app_length; lia|].
    split; [intros Y; apply (f_equal (@List.length Z)) in Y; rewrite !app_length in Y; cbn in Y; lia|]. right. split; [|reflexivity]. exists w, sg, neg, t. auto. }
  assert (F8 : Forall (fun a => 97 <= a <= 122) (txt "infinity")) by (unfold txt; cbn; repeat constructor; lia).
  assert (F3 : Forall (fun a => 97 <= a <= 122) (txt "inf")) by (unfold txt; cbn; repeat constructor; lia).
  assert (Fn : Forall (fun a => 97 <= a <= 122) (txt "nan")) by (unfold txt; cbn; repeat constructor; lia).
  destruct (prefix_i (txt "infinity") s2) eqn:P8; [right; destruct (prefix_word _ F8 _ P8) as (t & r & E & Wd & L); exact (Spec _ t r _ _ E L eq_refl ltac:(discriminate) ltac:(auto) H)|].
  destruct (prefix_i (txt "inf") s2) eqn:P3; [right; destruct (prefix_word _ F3 _ P3) as (t & r & E & Wd & L); exact (Spec _ t r _ _ E L eq_refl ltac:(discriminate) ltac:(auto) H)|].
  destruct (prefix_i (txt "nan") s2) eqn:Pn; [right; destruct (prefix_word _ Fn _ Pn) as (t & r & E & Wd & L); exact (Spec _ t r _ _ E L eq_refl ltac:(discriminate) ltac:(auto) H)|].
  clear Spec F8 F3 Fn. destruct (span is_digit s2) as [ip s3] eqn:S2. apply span_spec in S2 as (-> & Di & _). apply all_digits in Di.
  assert (F : exists pt fp s4, take_fraction s3 = (fp, s4) /\ s3 = pt ++ fp ++ s4 /\ digits fp /\ (pt = [46] \/ pt = [] /\ fp = [])).
  { destruct s3 as [|c s3]; cbn [take_fraction]; [exists [], [], []; split; [reflexivity|]; split; [reflexivity|]; split; [constructor|now right]|]. destruct (Z.eqb_spec c 46) as [->|].
    - destruct (span is_digit s3) as [fp s4] eqn:S3. exists [46], fp, s4. apply span_spec in S3. destruct S3 as (-> & Df & _). split; [reflexivity|]. split; [reflexivity|]. split; [now apply all_digits|now left].
    - exists [], [], (c :: s3). split; [reflexivity|]. split; [reflexivity|]. split; [constructor|now right]. }
  destruct F as (pt & fp & s4 & F & -> & Df & Hp). rewrite F in H. destruct (ip ++ fp) as [|d ds] eqn:E; [left; injection H as <- <- _; auto|]. rewrite <- E in H.
  destruct (take_exponent s4) as [ex s5] eqn:T. apply take_exponent_spec in T. destruct T as (et & -> & Ex). right.
  destruct (of_decimal32 neg (dval (ip ++ fp)) (ex - Z.of_nat (length fp))) as [y er'] eqn:O. injection H as <- <- <-.
  exists (w ++ sg ++ ip ++ pt ++ fp ++ et), s5. split; [now rewrite <- !app_assoc|]. split; [rewrite !app_length; lia|].
  assert (N : (0 < length ip + length fp)%nat) by (rewrite <- app_length, E; cbn [length]; lia).
  split; [intros Y; apply (f_equal (@List.length Z)) in Y; rewrite !app_length in Y; cbn in Y; lia|]. left.
  exists w, sg, neg, (ip ++ pt ++ fp ++ et), (dval (ip ++ fp)), (ex - Z.of_nat (length fp)). split; [exact W|]. split; [exact Sg|]. split; [|split; [reflexivity|exact O]].
  destruct Hp as [->|(-> & ->)].
  - apply fraction with (e := ex); auto. rewrite E. discriminate.
  - cbn [app length]. rewrite app_nil_r in *. rewrite Z.sub_0_r. apply NumSpec.whole with (e := ex); auto. rewrite E. discriminate.
Qed.
Lemma skip_shape s : exists g, s = g ++ skip_one false s /\ gap g.
Proof.
  assert (T : forall u, exists b, u = b ++ skip_one true u /\ white b).
  { induction u as [|c u (b & E & B)]; [exists []; split; [reflexivity|constructor]|]. cbn [skip_one]. destruct (is_space c) eqn:C.
    - exists (c :: b). split; [cbn [app]; now rewrite <- E|]. constructor; [unfold is_space in C; lia|exact B].
    - exists []. split; [reflexivity|constructor]. }
  induction s as [|c s (g & E & a & d & b & A & B & D & ->)]; [exists []; split; [reflexivity|]; exists [], [], []; repeat split; try constructor; reflexivity|].
  cbn [skip_one]. destruct (is_space c) eqn:C.
  - exists (c :: a ++ d ++ b). split; [cbn [app]; now rewrite <- E|]. exists (c :: a), d, b. split; [constructor; [unfold is_space in C; lia|exact A]|]. auto.
  - destruct (is_delim c) eqn:Dc; cbn [negb andb].
    + destruct (T s) as (b' & E' & B'). exists (c :: b'). split; [cbn [app]; now rewrite <- E'|]. exists [], [c], b'. split; [constructor|]. split; [exact B'|]. split; [|reflexivity].
      unfold is_delim in Dc. assert (X : c = 44 \/ c = 59 \/ c = 124) by lia. destruct X as [->|[->| ->]]; auto.
    + exists []. split; [reflexivity|]. exists [], [], []. repeat split; try constructor; reflexivity.
Qed.
Lemma item s : exists p g, s = p ++ g ++ after s /\ number_or_none p (value s) /\ gap g.
Proof.
  unfold after, value. destruct (strtof s) as [[x n] er] eqn:S. cbn [fst snd]. apply strtof_shape in S as [(-> & ->)|(p & r & -> & <- & N & H)].
  - cbn [skipn]. destruct (skip_shape s) as (g & E & G). exists [], g. split; [exact E|]. split; [right; auto|exact G].
  - rewrite skipn_app, skipn_all, Nat.sub_diag. cbn [app skipn]. destruct (skip_shape r) as (g & E & G). exists p, g. split; [now rewrite <- E|]. split; [|exact G].
    left. destruct H as [H|(H & _)]; [left; eauto|now right].
Qed.
Theorem background_sound s c : background s = Some c ->
  (exists p g x, s = p ++ g /\ number_or_none p x /\ gap g /\ c = mkC x x x) \/
  (exists p g q h r i x y z, s = p ++ g ++ q ++ h ++ r ++ i /\ number_or_none p x /\ number_or_none q y /\ number_or_none r z /\ gap g /\ gap h /\ gap i /\
     q ++ h ++ r ++ i <> [] /\ r ++ i <> [] /\ (c = mkC x y z \/ y = S754_nan /\ z = S754_nan /\ c = mkC x x x)).
Proof.
  intros H. unfold background in H. destruct (item s) as (p & g & E & P & G). destruct (after s) as [|c1 u1]; [left; exists p, g, (value s); rewrite app_nil_r in E; injection H as <-; auto|].
  set (s1 := c1 :: u1) in *. assert (N1 : s1 <> []) by discriminate. clearbody s1. destruct (item s1) as (q & h & E1 & Q & Hh). destruct (after s1) as [|c2 u2]; [discriminate H|].
  set (s2 := c2 :: u2) in *. assert (N2 : s2 <> []) by discriminate. clearbody s2. destruct (item s2) as (r & i & E2 & R & I2). destruct (after s2) as [|c3 u3]; [|discriminate H].
  rewrite app_nil_r in E2. right. exists p, g, q, h, r, i, (value s), (value s1), (value s2). rewrite <- E2, <- E1, <- E. split; [reflexivity|]. split; [exact P|]. split; [exact Q|]. split; [exact R|].
  split; [exact G|]. split; [exact Hh|]. split; [exact I2|]. split; [exact N1|]. split; [exact N2|]. injection H as <-.
  destruct (value s1); cbn [is_nan andb]; auto. destruct (value s2); cbn [is_nan]; auto.
Qed.
(** ** the zoom *)
Theorem zoom_sound s x : zoom_used s = Some x -> SFleb x (S754_zero false) = false /\
  (s = [] /\ x = one32 \/ exists p r, s = p ++ r /\ (decimal_number p x false \/ special_number p x)).
Proof.
  unfold zoom_used. destruct s as [|c s]; [intros H; vm_compute in H; injection H as <-; split; [reflexivity|left; auto]|]. unfold zoom_of. set (t := c :: s). clearbody t.
  destruct (strtof t) as [[y n] er] eqn:S. apply strtof_shape in S as [(-> & ->)|(p & r & -> & <- & N & H)]; [discriminate|].
  destruct (length p); [discriminate|]. destruct er; [discriminate|]. destruct (SFleb y (S754_zero false)) eqn:L; [discriminate|]. intros E. injection E as <-. split; [exact L|]. right. exists p, r. split; [reflexivity|].
  destruct H as [H|(H & _)]; auto.
Qed.
Theorem zoom_read s x r : decimal_number s x false -> stop r -> zoom_of (s ++ r) = Some x.
Proof.
  intros (w & sg & neg & t & M & K & W & S & D & -> & O) E0. assert (E : ends r) by (destruct r; [exact I|]; unfold ends, is_digit, stop in *; lia). unfold zoom_of. rewrite <- !app_assoc, (read_decimal32 w sg neg t M K r W S D E), O. cbn [fst snd].
  destruct (decimal_head t M K D) as (c & u & -> & _). destruct (length (w ++ sg ++ c :: u)) eqn:L; [|reflexivity]. rewrite !app_length in L. cbn [length] in L. lia.
Qed.
Theorem zoom_taken s x : decimal_number s x false -> SFltb (S754_zero false) x = true -> s <> [] /\ zoom_used s = Some x.
Proof.
  intros H P. pose proof (zoom_read s x [] H I) as Z. rewrite app_nil_r in Z. assert (N : s <> []) by (intros ->; discriminate Z). split; [exact N|]. unfold zoom_used. destruct s as [|c s]; [easy|]. rewrite Z.
  destruct x as [b|b| |b m e]; try discriminate P; destruct b; try discriminate P; reflexivity.
Qed.
Theorem zoom_refused s x : decimal_number s x true -> zoom_used s = None.
Proof.
  intros (w & sg & neg & t & M & K & W & S & D & -> & O). pose proof (read_decimal32 w sg neg t M K [] W S D I) as R. rewrite app_nil_r, O in R. cbn [fst snd] in R.
  destruct (decimal_head t M K D) as (c & u & -> & _). unfold zoom_used. destruct (w ++ sg ++ c :: u) as [|k v] eqn:E; [apply (f_equal (@length Z)) in E; rewrite !app_length in E; cbn in E; lia|].
  unfold zoom_of. rewrite R. reflexivity.
Qed.
