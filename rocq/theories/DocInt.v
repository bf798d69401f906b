(** Lemmas: the integer a text is read as. *)
From Coq Require Import String.
From Verif Require Import Base TextModel TextSpec TextProofs XmlModel XmlSpec PugiModel PugiSpec PugiProofs PugiTree DocModel DocSpec.
Open Scope Z_scope.

Lemma ct_ws c : ct_space c = ws c.
Proof. unfold ct_space, ws. cbn [existsb]. rewrite orb_false_r. destruct (Z.eqb_spec c 9), (Z.eqb_spec c 10), (Z.eqb_spec c 13), (Z.eqb_spec c 32); reflexivity || lia. Qed.
Lemma figure_digit c v : figure_of 10 c v -> is_digit c = true /\ v = c - 48 /\ 0 <= v < 10.
Proof.
  unfold figure_of, figure, is_digit. intros (H & L).
  destruct ((48 <=? c) && (c <=? 57)) eqn:E1; [injection H as <-; lia|]. destruct ((97 <=? c) && (c <=? 102)) eqn:E2; [injection H as <-; lia|].
  destruct ((65 <=? c) && (c <=? 70)) eqn:E3; [injection H as <-; lia|discriminate].
Qed.
Lemma figure_hex c v : figure_of 16 c v -> is_hex c = true /\ v = hex_digit c /\ 0 <= v < 16.
Proof.
  unfold figure_of, figure, is_hex, hex_digit, is_digit. intros (H & L).
  destruct ((48 <=? c) && (c <=? 57)) eqn:E1; [injection H as <-|]; [|destruct ((97 <=? c) && (c <=? 102)) eqn:E2; [injection H as <-|destruct ((65 <=? c) && (c <=? 70)) eqn:E3; [injection H as <-|discriminate]]].
  all: repeat match goal with |- context [if ?b then _ else _] => destruct b eqn:? end; lia.
Qed.
Lemma positional_bounds base vs : 1 < base -> Forall (fun v => 0 <= v < base) vs -> 0 <= positional base vs < base ^ Z.of_nat (length vs).
Proof.
  intros B. induction 1 as [|v vs H _ IH]; [cbn; lia|]. cbn [positional length]. rewrite Nat2Z.inj_succ, Z.pow_succ_r by lia.
  assert (0 < base ^ Z.of_nat (length vs)) by (apply Z.pow_pos_nonneg; lia). nia.
Qed.
Lemma positional_fold base (f : Z -> Z) s vs : Forall2 (fun c v => v = f c) s vs -> forall a,
  fold_left (fun a c => base * a + f c) s a = a * base ^ Z.of_nat (length s) + positional base vs.
Proof.
  induction 1 as [|c v s vs -> H IH]; intros a; cbn [fold_left positional length]; [rewrite Z.pow_0_r; lia|].
  rewrite IH. rewrite Nat2Z.inj_succ, Z.pow_succ_r by lia. assert (E : length vs = length s) by (clear -H; induction H; cbn; congruence). rewrite E. ring.
Qed.
Lemma dval_positional s vs : Forall2 (figure_of 10) s vs -> dval s = positional 10 vs.
Proof.
  intros H. unfold dval. rewrite (positional_fold 10 (fun c => c - 48) s vs); [lia|]. induction H as [|c v s vs F H IH]; constructor; auto. now apply figure_digit in F.
Qed.
Lemma hex_positional s vs : Forall2 (figure_of 16) s vs -> hex_val s = positional 16 vs.
Proof.
  intros H. unfold hex_val. rewrite (positional_fold 16 hex_digit s vs); [lia|]. induction H as [|c v s vs F H IH]; constructor; auto. now apply figure_hex in F.
Qed.
(** leading zeros *)
Lemma skip_zeros base p s vs r : 1 < base -> Forall2 (figure_of base) s vs -> (forall c v, figure_of base c v -> p c = true /\ 0 <= v < base) ->
  p 48 = true -> match r with c :: _ => p c = false | [] => True end ->
  exists s' vs', skip0 (s ++ r) = s' ++ r /\ Forall2 (figure_of base) s' vs' /\ positional base vs' = positional base vs /\
    match vs' with [] => True | v :: _ => 1 <= v end.
Proof.
  intros B H P P0 R. unfold skip0. induction H as [|c v s vs F H IH].
  - exists [], []. cbn [app]. destruct r as [|c r]; [repeat split; constructor|]. cbn [span]. destruct (Z.eqb_spec c 48); [subst; congruence|]. repeat split; constructor.
  - destruct (Z.eqb_spec c 48) as [->|N].
    + assert (v = 0) by (destruct F as (F & _); injection F as <-; reflexivity). subst v. destruct IH as (s' & vs' & I1 & I2 & I3 & I4).
      exists s', vs'. cbn [app span]. rewrite Z.eqb_refl. destruct (span _ (s ++ r)) as [a b]. cbn [snd] in *. rewrite I1. cbn [positional]. repeat split; auto.
    + exists (c :: s), (v :: vs). cbn [app span]. rewrite (proj2 (Z.eqb_neq c 48) N). repeat split; [now constructor|].
      destruct F as (F & _). unfold figure in F. destruct ((48 <=? c) && (c <=? 57)) eqn:E1; [injection F as <-; lia|]. destruct ((97 <=? c) && (c <=? 102)) eqn:E2; [injection F as <-; lia|].
      destruct ((65 <=? c) && (c <=? 70)) eqn:E3; [injection F as <-; lia|discriminate].
Qed.
Lemma span_figures base p s vs r : Forall2 (figure_of base) s vs -> (forall c v, figure_of base c v -> p c = true /\ 0 <= v < base) ->
  match r with c :: _ => p c = false | [] => True end -> span p (s ++ r) = (s, r).
Proof.
  intros H P R. induction H as [|c v s vs F H IH]; cbn [app].
  - destruct r as [|c r]; [reflexivity|]. cbn [span]. now rewrite R.
  - cbn [span]. destruct (P c v F) as (-> & _). now rewrite IH.
Qed.
Lemma figures_range base p s vs : (forall c v, figure_of base c v -> p c = true /\ 0 <= v < base) -> Forall2 (figure_of base) s vs ->
  Forall (fun v => 0 <= v < base) vs /\ length s = length vs.
Proof. intros P. induction 1 as [|c v s vs F H [IH1 IH2]]; [repeat constructor|]. split; [constructor; [now apply (P c)|exact IH1]|cbn; congruence]. Qed.
Lemma skip_lead w sg neg r : (forall c, In c w -> ws c = true) -> signed sg neg -> match r with c :: _ => ws c = false /\ c <> 43 /\ c <> 45 | [] => True end ->
  (r <> [] \/ sg <> []) ->
  let s1 := snd (span ct_space (w ++ sg ++ r)) in
  next_is 45 s1 = neg /\ (if next_is 43 s1 || next_is 45 s1 then skipn 1 s1 else s1) = r.
Proof.
  intros W S R N. cbv zeta. assert (E : span ct_space (w ++ sg ++ r) = (w, sg ++ r)).
  { apply span_app; [apply Forall_forall; intros c I; rewrite ct_ws; auto|]. destruct S as [(-> & _)|[(-> & _)|(-> & _)]]; cbn [app stops]; try reflexivity.
    destruct r; [exact I|]. unfold stops. rewrite ct_ws. apply R. }
  rewrite E. cbn [snd]. destruct S as [(-> & ->)|[(-> & ->)|(-> & ->)]]; cbn [app]; try (split; reflexivity).
  destruct r as [|c r]; [now destruct N|]. cbn [next_is]. destruct R as (_ & R1 & R2). rewrite (proj2 (Z.eqb_neq c 43) R1), (proj2 (Z.eqb_neq c 45) R2). split; reflexivity.
Qed.
Lemma clamp_pos (overflow : bool) result x : 0 <= x -> (if overflow then INT_MAX < x else result = x) ->
  (if overflow || (INT_MAX <? result) then INT_MAX else result) = clamp x.
Proof. unfold clamp, INT_MAX, INT_MIN. destruct overflow; cbn [orb]; intros; [lia|]. subst. destruct (2147483647 <? x) eqn:E; lia. Qed.
Lemma clamp_neg (overflow : bool) result x : 0 <= x -> (if overflow then 2 ^ 31 < x else result = x) ->
  (if overflow || (2 ^ 31 <? result) then INT_MIN else s32 (u32 (- result))) = clamp (- x).
Proof.
  unfold clamp, INT_MAX, INT_MIN. destruct overflow; cbn [orb]; intros; [lia|]. subst. destruct (2 ^ 31 <? x) eqn:E; [lia|].
  unfold s32, u32. cbv zeta. rewrite Z.mod_mod by lia. destruct (Z.eq_dec x 0) as [->|X]; [reflexivity|].
  rewrite (Z.mod_opp_l_nz x) by (rewrite ?Z.mod_small by lia; lia). rewrite Z.mod_small by lia. destruct (2 ^ 32 - x <? 2 ^ 31) eqn:F; lia.
Qed.
Lemma sign_value (neg : bool) (overflow : bool) result x : 0 <= x -> (if overflow then 2 ^ 31 < x else result = x) ->
  (if neg then (if overflow || (2 ^ 31 <? result) then INT_MIN else s32 (u32 (- result)))
   else if overflow || (INT_MAX <? result) then INT_MAX else result) = clamp (if neg then - x else x).
Proof. intros X H. destruct neg; [now apply clamp_neg|]. apply clamp_pos; [exact X|]. destruct overflow; [unfold INT_MAX; lia|exact H]. Qed.

Theorem read_decimal_int w sg neg ds vs r : (forall c, In c w -> ws c = true) -> signed sg neg -> Forall2 (figure_of 10) ds vs -> ds <> [] ->
  ~ begins (fun c => exists v, figure_of 10 c v) r -> ~ (ds = [48] /\ begins (fun c => c = 120 \/ c = 88) r) ->
  to_int (w ++ sg ++ ds ++ r) = clamp (if neg then - positional 10 vs else positional 10 vs).
Proof.
  intros W Sg D N R X. assert (P : forall c v, figure_of 10 c v -> is_digit c = true /\ 0 <= v < 10) by (intros c v H; apply figure_digit in H; tauto).
  assert (R' : match r with c :: _ => is_digit c = false | [] => True end).
  { destruct r as [|c r]; [exact I|]. destruct (is_digit c) eqn:E; [|reflexivity]. exfalso. apply R. exists (c - 48). unfold figure_of, figure, is_digit in *. rewrite E. split; [reflexivity|lia]. }
  unfold to_int. destruct (skip_lead w sg neg (ds ++ r) W Sg) as (E1 & E2).
  { destruct D as [|c v ds vs F _]; [easy|]. cbn [app]. apply figure_digit in F. unfold is_digit in F. unfold ws. cbn [existsb]. lia. }
  { left. destruct ds; [easy|discriminate]. }
  rewrite E2, E1. clear E1 E2.
  assert (HL : hex_lead (ds ++ r) = None).
  { destruct D as [|c v ds vs F D]; [easy|]. cbn [app hex_lead]. destruct D as [|c2 v2 ds vs F2 D]; cbn [app].
    - destruct r as [|b r]; [reflexivity|]. destruct (Z.eqb_spec c 48) as [->|]; [|reflexivity]. cbn [begins] in X.
      destruct (Z.eqb_spec b 88); [exfalso; apply X; auto|]. destruct (Z.eqb_spec b 120); [exfalso; apply X; auto|]. reflexivity.
    - apply figure_digit in F2. unfold is_digit in F2. replace ((c2 =? 88) || (c2 =? 120)) with false by lia. now rewrite andb_false_r. }
  rewrite HL. destruct (skip_zeros 10 is_digit ds vs r ltac:(lia) D P eq_refl R') as (s' & vs' & K1 & K2 & K3 & K4).
  rewrite K1, (span_figures 10 is_digit s' vs' r K2 P R'). cbn [fst]. rewrite (dval_positional s' vs' K2), <- K3.
  destruct (figures_range 10 is_digit s' vs' P K2) as (G & L). rewrite L. pose proof (positional_bounds 10 vs' ltac:(lia) G) as B.
  apply sign_value; [lia|].
  destruct (Nat.leb_spec 10 (length vs')) as [H|H]; cbn [andb].
  - destruct K2 as [|c v s' vs' F K2]; [cbn in H; lia|]. cbn [hd]. apply figure_digit in F. destruct F as (_ & F & F').
    assert (c = v + 48) by lia. subst c. clear F. cbn [positional] in *. cbn [length] in *. inversion G as [|? ? G1 G2]; subst.
    pose proof (positional_bounds 10 vs' ltac:(lia) G2) as B2.
    destruct (Nat.eqb_spec (S (length vs')) 10) as [T|T]; cbn [andb].
    + injection T as T. rewrite T in *. change (Z.of_nat 9) with 9 in *. change (10 ^ 9) with 1000000000 in *. set (p := positional 10 vs') in *. clearbody p.
      unfold u32. destruct (v + 48 <? 52) eqn:E1; cbn [orb negb]; [apply Z.mod_small; lia|]. destruct (v + 48 =? 52) eqn:E2; cbn [andb negb].
      * assert (v = 4) by lia. subst v. destruct (Z.leb_spec (2 ^ 31) ((4 * 1000000000 + p) mod 2 ^ 32)) as [Q|Q]; cbn [negb].
        -- destruct (Z_lt_dec (4 * 1000000000 + p) (2 ^ 32)); [apply Z.mod_small; lia|]. exfalso.
           rewrite <- (Z_mod_plus_full _ (-1)) in Q. rewrite Z.mod_small in Q by lia. lia.
        -- lia.
      * lia.
    + assert (10 ^ 10 <= 10 ^ Z.of_nat (length vs')) by (apply Z.pow_le_mono_r; lia). cbn [negb]. nia.
  - unfold u32. apply Z.mod_small. assert (10 ^ Z.of_nat (length vs') <= 10 ^ 9) by (apply Z.pow_le_mono_r; lia). lia.
Qed.
Theorem read_hex_int w sg neg x hs vs r : (forall c, In c w -> ws c = true) -> signed sg neg -> x = 120 \/ x = 88 -> Forall2 (figure_of 16) hs vs ->
  ~ begins (fun c => exists v, figure_of 16 c v) r -> to_int (w ++ sg ++ [48; x] ++ hs ++ r) = clamp (if neg then - positional 16 vs else positional 16 vs).
Proof.
  intros W S X D R. assert (P : forall c v, figure_of 16 c v -> is_hex c = true /\ 0 <= v < 16) by (intros c v H; apply figure_hex in H; tauto).
  assert (R' : match r with c :: _ => is_hex c = false | [] => True end).
  { destruct r as [|c r]; [exact I|]. destruct (is_hex c) eqn:E; [|reflexivity]. exfalso. apply R. unfold begins, figure_of, figure. unfold is_hex, is_digit in E.
    destruct ((48 <=? c) && (c <=? 57)) eqn:E1; [exists (c - 48); split; [reflexivity|lia]|]. destruct ((97 <=? c) && (c <=? 102)) eqn:E2; [exists (c - 87); split; [reflexivity|lia]|].
    cbn [orb] in E. rewrite E. exists (c - 55). split; [reflexivity|lia]. }
  unfold to_int. destruct (skip_lead w sg neg ([48; x] ++ hs ++ r) W S) as (E1 & E2).
  { cbn [app]. unfold ws. cbn [existsb]. lia. } { left. discriminate. }
  rewrite E2, E1. clear E1 E2. cbn [app hex_lead]. replace ((x =? 88) || (x =? 120)) with true by lia. change (48 =? 48) with true. cbn [andb].
  destruct (skip_zeros 16 is_hex hs vs r ltac:(lia) D P eq_refl R') as (s' & vs' & K1 & K2 & K3 & K4).
  rewrite K1, (span_figures 16 is_hex s' vs' r K2 P R'). cbn [fst]. rewrite (hex_positional s' vs' K2), <- K3.
  destruct (figures_range 16 is_hex s' vs' P K2) as (G & L). rewrite L. pose proof (positional_bounds 16 vs' ltac:(lia) G) as B.
  apply sign_value; [lia|].
  destruct (Nat.ltb_spec 8 (length vs')) as [H|H].
  - destruct vs' as [|v vs']; [cbn in H; lia|]. inversion G as [|? ? G1 G2]; subst. cbn [positional length] in *. pose proof (positional_bounds 16 vs' ltac:(lia) G2).
    assert (16 ^ 8 <= 16 ^ Z.of_nat (length vs')) by (apply Z.pow_le_mono_r; lia). nia.
  - unfold u32. apply Z.mod_small. assert (16 ^ Z.of_nat (length vs') <= 16 ^ 8) by (apply Z.pow_le_mono_r; lia). lia.
Qed.
Theorem read_no_int s : ~ has_number s -> to_int s = 0.
Proof.
  intros H. unfold to_int. destruct (span ct_space s) as [w s1] eqn:E. cbn [snd]. destruct (span_spec _ _ _ _ E) as (-> & A & _).
  set (s2 := if next_is 43 s1 || next_is 45 s1 then skipn 1 s1 else s1).
  assert (Y : exists sg neg, s1 = sg ++ s2 /\ signed sg neg).
  { subst s2. unfold signed. destruct s1 as [|c s1]; [exists [], false; auto|]. cbn [next_is]. destruct (Z.eqb_spec c 43) as [->|]; [exists [43], false; auto|].
    destruct (Z.eqb_spec c 45) as [->|]; [exists [45], true; auto|]. exists [], false. auto. }
  destruct Y as (sg & neg & Y & S). clearbody s2.
  assert (N : match s2 with c :: _ => is_digit c = false | [] => True end).
  { destruct s2 as [|c s2]; [exact I|]. destruct (is_digit c) eqn:D; [|reflexivity]. exfalso. apply H. exists w, sg, neg, (c :: s2).
    split; [now rewrite Y|]. split; [intros d I; rewrite <- ct_ws; rewrite Forall_forall in A; auto|]. split; [exact S|]. exists (c - 48).
    unfold figure_of, figure, is_digit in *. rewrite D. split; [reflexivity|lia]. }
  assert (HL : hex_lead s2 = None).
  { destruct s2 as [|c [|b s2]]; [reflexivity..|]. cbn [hex_lead]. unfold is_digit in N. now replace (c =? 48) with false by lia. }
  rewrite HL. assert (Z0 : skip0 s2 = s2). { unfold skip0. destruct s2 as [|c s2]; [reflexivity|]. cbn [span]. unfold is_digit in N. now replace (c =? 48) with false by lia. }
  rewrite Z0. assert (F : fst (span is_digit s2) = []) by (destruct s2 as [|c s2]; [reflexivity|]; cbn [span]; now rewrite N).
  rewrite F. cbn. now destruct (next_is 45 s1).
Qed.
(** what is written *)
Lemma dec_figures n : 0 <= n < 10 ^ 19 -> exists vs, Forall2 (figure_of 10) (dec n) vs /\ positional 10 vs = n /\ dec n <> [] /\ (dec n = [48] -> n = 0).
Proof.
  intros H. unfold dec. replace (n <? 0) with false by lia. destruct (dec_digits_spec 19 n) as (A & B & C & D); [lia|].
  assert (X : exists vs, Forall2 (figure_of 10) (dec_digits 20 n) vs).
  { clear -B. induction (dec_digits 20 n) as [|c s IH]; [exists []; constructor|]. destruct IH as (vs & IH); [now inversion B|].
    exists (c - 48 :: vs). constructor; [|exact IH]. inversion B; subst. unfold figure_of, figure, is_digit in *. replace ((48 <=? c) && (c <=? 57)) with true by lia. split; [reflexivity|lia]. }
  destruct X as (vs & X). exists vs. split; [exact X|]. rewrite <- (dval_positional _ _ X). split; [exact C|]. split; [exact A|]. intros E. rewrite E in C. now rewrite <- C.
Qed.
Theorem read_dec n : in_i32 n -> to_int (dec n) = n.
Proof.
  unfold in_i32, INT_MIN, INT_MAX. intros H. assert (K : clamp n = n) by (unfold clamp, INT_MIN, INT_MAX; lia). destruct (Z_lt_dec n 0) as [N|N].
  - destruct (dec_figures (- n)) as (vs & V1 & V2 & V3 & V4); [lia|].
    assert (E : dec n = [] ++ [45] ++ dec (- n) ++ []).
    { rewrite app_nil_r. unfold dec. replace (n <? 0) with true by lia. replace (- n <? 0) with false by lia. reflexivity. }
    rewrite E, (read_decimal_int [] [45] true (dec (- n)) vs []); [rewrite V2; rewrite Z.opp_involutive; exact K|intros c []|unfold signed; auto|exact V1|exact V3|auto|intros (_ & [])].
  - destruct (dec_figures n) as (vs & V1 & V2 & V3 & V4); [lia|].
    rewrite <- (app_nil_r (dec n)). change (dec n ++ []) with ([] ++ [] ++ dec n ++ []).
    rewrite (read_decimal_int [] [] false (dec n) vs []); [rewrite V2; exact K|intros c []|unfold signed; auto|exact V1|exact V3|auto|intros (_ & [])].
Qed.
