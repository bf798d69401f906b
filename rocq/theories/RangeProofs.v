(** Lemmas: ranges of numbers as text. *)
From Coq Require Import String QArith Qabs Lqa Floats.SpecFloat.
From Verif Require Import Base TextModel TextProofs XmlModel XmlSpec XmlNumbers FloatProofs SFloatProofs ScaleModel ScaleNum NumModel NumSpec NumProofs NumText NumRound NumNode DocModel DocSpec DocDims DispPoints RangeModel RangeSpec.
Open Scope Z_scope.

(** ** any kind of number *)
Definition plain {A} (N : str -> A -> Prop) (a : str) (x : A) : Prop := N a x /\ match a with c :: _ => c <> 45 | [] => True end.
Definition value_of {A} (lo hi none : A) (h : shape A) : range A :=
  match h with Only v => mkR true v none | From v => mkR false v hi | Upto w => mkR false lo w | Between v w => mkR false v w end.
Section Any.
  Context {A : Type} (num : str -> option (A * str)) (lo hi none : A) (N : str -> A -> Prop) (ok : str -> Prop).
  Context (ok_tail : forall a b, ok (a ++ b) -> ok b) (ok_head : forall a b, ok (a ++ b) -> ok a) (some : forall x, ~ N [] x).
  Context (sound : forall s x r, ok s -> num s = Some (x, r) -> exists a, s = a ++ r /\ N a x).
  Context (complete : forall a x r, ok a -> N a x -> (r = [] \/ exists t, r = 45 :: t) -> num (a ++ r) = Some (x, r)).
  Lemma complete0 a x : ok a -> N a x -> num a = Some (x, []).
  Proof. intros O H. rewrite <- (app_nil_r a) at 1. apply complete; auto. Qed.
  Theorem parse_range_iff s r : ok s -> (parse_range num lo hi none s = Some r <-> exists h, range_text (plain N) N s h /\ r = value_of lo hi none h).
  Proof.
    intros O. split.
    - unfold parse_range. destruct s as [|c t].
      + destruct (num []) as [[x [|]]|] eqn:E; try discriminate. apply sound in E; [|exact O]. destruct E as (a & E & H). symmetry in E. apply app_eq_nil in E. destruct E as (-> & _). destruct (some x H).
      + destruct (Z.eqb_spec c 45) as [->|Nc].
        * destruct (num t) as [[x [|]]|] eqn:E; try discriminate. intros [= <-]. apply sound in E; [|exact (ok_tail [45] t O)]. destruct E as (a & -> & H). rewrite app_nil_r. exists (Upto x). split; [now constructor|reflexivity].
        * destruct (num (c :: t)) as [[x [|d t2]]|] eqn:E; try discriminate.
          -- intros [= <-]. apply sound in E; [|exact O]. destruct E as (a & E & H). rewrite app_nil_r in E. subst a. exists (Only x). split; [constructor; now split|reflexivity].
          -- apply sound in E; [|exact O]. destruct E as (a & E & H). destruct (Z.eqb_spec d 45) as [->|]; [|discriminate].
             assert (P : plain N a x) by (split; [exact H|]; destruct a as [|e a]; [exact I|]; cbn [app] in E; congruence).
             rewrite E in *. destruct t2 as [|e t2].
             ++ intros [= <-]. exists (From x). split; [now constructor|reflexivity].
             ++ destruct (num (e :: t2)) as [[y [|]]|] eqn:E2; try discriminate. intros [= <-]. apply sound in E2; [|apply (ok_tail (a ++ [45])); now rewrite <- app_assoc].
                destruct E2 as (b & E2 & H2). rewrite app_nil_r in E2. rewrite E2. exists (Between x y). split; [now constructor|reflexivity].
    - intros (h & H & ->). unfold parse_range. destruct H as [a v (H & P)|a v (H & P)|b w H|a b v w (H & P) H2].
      + destruct a as [|c a]; [destruct (some v H)|]. destruct (Z.eqb_spec c 45); [congruence|]. now rewrite (complete0 _ v O H).
      + destruct a as [|c a]; [destruct (some v H)|]. cbn [app]. destruct (Z.eqb_spec c 45); [congruence|]. change (c :: a ++ [45]) with ((c :: a) ++ [45]). rewrite (complete _ v [45]); [reflexivity|now apply (ok_head _ [45])|exact H|right; now exists []].
      + change (45 =? 45) with true. cbn iota. rewrite (complete0 b w); [reflexivity|exact (ok_tail [45] b O)|exact H].
      + destruct a as [|c a]; [destruct (some v H)|]. cbn [app]. destruct (Z.eqb_spec c 45); [congruence|]. change (c :: a ++ 45 :: b) with ((c :: a) ++ 45 :: b). rewrite (complete _ v (45 :: b)); [|now apply (ok_head _ (45 :: b))|exact H|right; now exists b].
        change (45 =? 45) with true. cbn iota. destruct b as [|e b]; [destruct (some w H2)|]. rewrite (complete0 _ w); [reflexivity| |exact H2]. apply (ok_tail ((c :: a) ++ [45])). now rewrite <- app_assoc.
  Qed.
End Any.
Lemma range_text_impl {V W} (f1 n1 : str -> V -> Prop) (f2 n2 : str -> W -> Prop) (R : V -> W -> Prop) s h :
  (forall a v, f1 a v -> exists w, f2 a w /\ R v w) -> (forall a v, n1 a v -> exists w, n2 a w /\ R v w) -> range_text f1 n1 s h ->
  exists k, range_text f2 n2 s k /\ match h, k with Only v, Only w | From v, From w | Upto v, Upto w => R v w | Between v v2, Between w w2 => R v w /\ R v2 w2 | _, _ => False end.
Proof.
  intros Hf Hn H. destruct H as [a v H|a v H|b w H|a b v w H H2].
  - destruct (Hf a v H) as (x & X & Y). exists (Only x). split; [now constructor|exact Y].
  - destruct (Hf a v H) as (x & X & Y). exists (From x). split; [now constructor|exact Y].
  - destruct (Hn b w H) as (x & X & Y). exists (Upto x). split; [now constructor|exact Y].
  - destruct (Hf a v H) as (x & X & Y). destruct (Hn b w H2) as (x2 & X2 & Y2). exists (Between x x2). split; [now constructor|now split].
Qed.

(** ** white space *)
Lemma no_space_app a b : no_space (a ++ b) <-> no_space a /\ no_space b.
Proof. apply Forall_app. Qed.
Lemma no_space_in s c : no_space s -> In c s -> is_space c = false.
Proof. intros H I. unfold no_space in H. rewrite Forall_forall in H. specialize (H c I). cbv beta in H. unfold is_space. lia. Qed.
Lemma remove_no_space s : no_space (remove_spaces s).
Proof.
  apply Forall_forall. intros c I. unfold remove_spaces in I. apply filter_In in I. destruct I as (_ & H). unfold is_space in H. lia.
Qed.
Lemma remove_same s : no_space s -> remove_spaces s = s.
Proof.
  induction 1 as [|c s H _ IH]; [reflexivity|]. unfold remove_spaces in *. cbn [filter]. replace (negb (is_space c)) with true by (unfold is_space; lia). now rewrite IH.
Qed.
Lemma span_no_space s : no_space s -> span is_space s = ([], s).
Proof. intros H. apply span_stop. destruct s as [|c s]; [exact I|]. cbn. apply (no_space_in _ c H). now left. Qed.

(** ** natural numbers *)
Lemma digits_iff ds : digits ds <-> forall c, In c ds -> is_digit c = true.
Proof.
  unfold digits. rewrite Forall_forall. split; intros H c I; specialize (H c I); unfold is_digit in *; lia.
Qed.
Lemma dval_pos ds : digits ds -> 0 <= dval ds.
Proof. intros H. apply (dval_bound ds). apply Forall_forall. now apply digits_iff. Qed.
Lemma u64_range_iff s r : no_space s -> (range_u64 s = Some r <-> exists h, range_text natural wrapped s h /\ r = value_of 0 (2 ^ 64 - 1) 0 h).
Proof.
  intros O. unfold range_u64. rewrite (parse_range_iff stoull 0 (2 ^ 64 - 1) 0 wrapped no_space); [| | | | | |exact O].
  - split; intros (h & H & E).
    + assert (G : forall a v, plain wrapped a v -> natural a v).
      { intros a v ([H1|(ds & -> & _)] & P); [exact H1|]. now destruct P. }
      exists h. split; [|exact E]. destruct H; constructor; auto.
    + assert (G : forall a v, natural a v -> plain wrapped a v).
      { intros a v H1. split; [now left|]. destruct H1 as (p & ds & [->| ->] & -> & D & Nd & _); cbn [app]; [|discriminate]. destruct ds as [|d ds]; [easy|]. apply Forall_cons_iff in D. destruct D as (D & _). lia. }
      exists h. split; [|exact E]. destruct H; constructor; auto.
  - intros a b H. now apply no_space_app in H.
  - intros a b H. now apply no_space_app in H.
  - intros x [(p & ds & _ & E & _ & Nd & _)|(ds & E & _)]; [|discriminate]. symmetry in E. apply app_eq_nil in E. destruct E. congruence.
  - intros t x r0 Ot H. unfold stoull, conv_unsigned in H. destruct (number t) as [[[neg m] r1]|] eqn:E; [|discriminate].
    apply number_iff in E. destruct E as (a & -> & (w & sg & ds & -> & Hw & Hs & Nd & Hd & ->) & _).
    assert (w = []). { destruct w as [|c w]; [reflexivity|]. specialize (Hw c (or_introl eq_refl)). rewrite (no_space_in _ c Ot) in Hw by now left. discriminate. } subst w. cbn [app] in *.
    pose proof (dval_pos ds (proj2 (digits_iff ds) Hd)) as D0.
    destruct (2 ^ 64 - 1 <? dval ds) eqn:B; [discriminate|]. cbv zeta in H. destruct (_ <=? 2 ^ 64 - 1); [|discriminate]. injection H as <- <-. exists (sg ++ ds). split; [reflexivity|].
    destruct Hs as [(-> & ->)|[(-> & ->)|(-> & ->)]].
    + left. exists [], ds. split; [now left|]. split; [reflexivity|]. split; [now apply digits_iff|]. split; [exact Nd|]. split; [reflexivity|lia].
    + left. exists [43], ds. split; [now right|]. split; [reflexivity|]. split; [now apply digits_iff|]. split; [exact Nd|]. split; [reflexivity|lia].
    + right. exists ds. split; [reflexivity|]. split; [now apply digits_iff|]. split; [exact Nd|]. split; [lia|reflexivity].
  - intros a x r0 _ H Hr. assert (St : stops is_digit r0) by (destruct Hr as [->|(t & ->)]; [exact I|reflexivity]). unfold stoull, conv_unsigned.
    destruct H as [(p & ds & Hp & -> & D & Nd & -> & L)|(ds & -> & D & Nd & L & ->)].
    + assert (E : number ((p ++ ds) ++ r0) = Some (false, dval ds, r0)).
      { apply number_iff. exists (p ++ ds). split; [reflexivity|]. split; [|exact St]. exists [], p, ds. split; [reflexivity|]. split; [intros c []|]. split; [destruct Hp; auto|]. split; [exact Nd|]. split; [now apply digits_iff|reflexivity]. }
      rewrite E. destruct (2 ^ 64 - 1 <? dval ds) eqn:B; [lia|]. cbv zeta. destruct (dval ds <=? 2 ^ 64 - 1) eqn:C; [reflexivity|lia].
    + assert (E : number ((45 :: ds) ++ r0) = Some (true, dval ds, r0)).
      { apply number_iff. exists (45 :: ds). split; [reflexivity|]. split; [|exact St]. exists [], [45], ds. split; [reflexivity|]. split; [intros c []|]. split; [auto|]. split; [exact Nd|]. split; [now apply digits_iff|reflexivity]. }
      rewrite E. destruct (2 ^ 64 - 1 <? dval ds) eqn:B; [lia|]. cbv zeta. unfold u64. destruct (_ <=? 2 ^ 64 - 1) eqn:C; [reflexivity|]. pose proof (Z.mod_pos_bound (- dval ds) (2 ^ 64) eq_refl). lia.
Qed.
