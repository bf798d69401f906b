(** The two orderings of sub-blocks: where they are strict weak orders. *)
From Coq Require Import Floats.SpecFloat.
From Verif Require Import Base RectModel TextModel TextProofs CoordModel CoordSpec CoordProofs.

(** ** Floating point comparison through an order-preserving key *)
Definition key (x : spec_float) : option (Z * Z * Z) :=
  match x with
  | S754_nan => None
  | S754_infinity true => Some (-2, 0, 0)
  | S754_finite true m e => Some (-1, - e, - Zpos m)
  | S754_zero _ => Some (0, 0, 0)
  | S754_finite false m e => Some (1, e, Zpos m)
  | S754_infinity false => Some (2, 0, 0)
  end.

Definition klt (a b : Z * Z * Z) : bool :=
  let '(a1, a2, a3) := a in
  let '(b1, b2, b3) := b in
  (a1 <? b1) || ((a1 =? b1) && ((a2 <? b2) || ((a2 =? b2) && (a3 <? b3)))).

Lemma SFltb_key x y : SFltb x y = match key x, key y with
                                  | Some a, Some b => klt a b
                                  | _, _ => false
                                  end.
Proof.
  unfold SFltb, SFcompare, key, klt.
  destruct x as [s|s| |s m e], y as [s'|s'| |s' m' e']; try destruct s; try destruct s'; try reflexivity.
  all: change (Pos.compare_cont Eq m m') with (Pos.compare m m').
  all: destruct (Z.compare_spec e e') as [->|H|H]; [destruct (Pos.compare_spec m m') as [->|H|H]| |]; cbn [CompOpp]; symmetry; lia.
Qed.

Lemma klt_swo : strict_weak_order (fun _ => True) klt.
Proof.
  unfold klt. split; [|split].
  - intros [[a1 a2] a3] _. lia.
  - intros [[a1 a2] a3] [[b1 b2] b3] [[c1 c2] c3] _ _ _. lia.
  - intros [[a1 a2] a3] [[b1 b2] b3] [[c1 c2] c3] _ _ _. lia.
Qed.

Definition is_num (x : spec_float) : Prop := x <> S754_nan.

Lemma SFltb_swo : strict_weak_order is_num SFltb.
Proof.
  destruct klt_swo as (K1 & K2 & K3).
  assert (N : forall x, is_num x -> exists k, key x = Some k).
  { intros [s|s| |s m e] H; try destruct s; cbn [key]; eauto. now elim H. }
  split; [|split].
  - intros a Ha. destruct (N a Ha) as (k & E). rewrite SFltb_key, E. now apply K1.
  - intros a b c Ha Hb Hc. destruct (N a Ha) as (ka & Ea). destruct (N b Hb) as (kb & Eb). destruct (N c Hc) as (kc & Ec).
    rewrite !SFltb_key, Ea, Eb, Ec. now apply K2.
  - intros a b c Ha Hb Hc. destruct (N a Ha) as (ka & Ea). destruct (N b Hb) as (kb & Eb). destruct (N c Hc) as (kc & Ec).
    rewrite !SFltb_key, Ea, Eb, Ec. now apply K3.
Qed.

(** ** Lexicographic composition *)
Definition lex {A} (lt1 lt2 : A -> A -> bool) (a b : A) : bool := lt1 a b || (negb (lt1 b a) && lt2 a b).
Definition by_key {A} (k : A -> Z) (a b : A) : bool := k a <? k b.

Lemma by_key_swo {A} (P : A -> Prop) k : strict_weak_order P (by_key k).
Proof. unfold by_key. split; [|split]; intros; lia. Qed.

Lemma lex_swo {A} (P : A -> Prop) lt1 lt2 :
  strict_weak_order P lt1 -> strict_weak_order P lt2 -> strict_weak_order P (lex lt1 lt2).
Proof.
  intros (I1 & T1 & E1) (I2 & T2 & E2). unfold lex. split; [|split].
  - intros a Pa. rewrite I1, I2 by assumption. reflexivity.
  - intros a b c Pa Pb Pc Hab Hbc.
    apply orb_true_iff in Hab. apply orb_true_iff in Hbc. apply orb_true_iff.
    rewrite andb_true_iff, negb_true_iff in Hab. rewrite andb_true_iff, negb_true_iff in Hbc.
    rewrite andb_true_iff, negb_true_iff.
    destruct (lt1 a c) eqn:Eac; [now left|]. right.
    destruct Hab as [Hab|[Nba Hab]]; destruct Hbc as [Hbc|[Ncb Hbc]].
    + rewrite (T1 a b c) in Eac by assumption. discriminate.
    + destruct (lt1 c a) eqn:Eca.
      * rewrite (T1 c a b) in Ncb by assumption. discriminate.
      * destruct (lt1 b c) eqn:Ebc; [rewrite (T1 a b c) in Eac by assumption; discriminate|].
        destruct (E1 a c b) as [X _]; auto. congruence.
    + destruct (lt1 c a) eqn:Eca.
      * rewrite (T1 b c a) in Nba by assumption. discriminate.
      * destruct (lt1 a b) eqn:Eab; [rewrite (T1 a b c) in Eac by assumption; discriminate|].
        destruct (E1 b a c) as [X _]; auto. congruence.
    + destruct (lt1 a b) eqn:Eab.
      * destruct (lt1 b c) eqn:Ebc; [rewrite (T1 a b c) in Eac by assumption; discriminate|].
        destruct (lt1 c a) eqn:Eca; [rewrite (T1 c a b) in Ncb by assumption; discriminate|].
        destruct (E1 a c b) as [X _]; auto. congruence.
      * destruct (lt1 b c) eqn:Ebc.
        -- destruct (lt1 c a) eqn:Eca; [rewrite (T1 b c a) in Nba by assumption; discriminate|].
           destruct (E1 b a c) as [X _]; auto. congruence.
        -- destruct (E1 a b c) as [_ X]; auto. split; [exact X|]. now apply (T2 a b c).
  - intros a b c Pa Pb Pc H1 H2 H3 H4.
    pose proof (E1 a b c Pa Pb Pc) as Y1. pose proof (E2 a b c Pa Pb Pc) as Y2.
    destruct (lt1 a b), (lt1 b a), (lt1 b c), (lt1 c b); cbn in *; try discriminate.
    destruct Y1 as [-> ->]; try reflexivity. cbn. now apply Y2.
Qed.

Lemma swo_ext {A} (P : A -> Prop) lt lt' : (forall a b, P a -> P b -> lt a b = lt' a b) ->
  strict_weak_order P lt' -> strict_weak_order P lt.
Proof.
  intros E (I & T & N). split; [|split].
  - intros a Pa. rewrite E by assumption. now apply I.
  - intros a b c Pa Pb Pc. rewrite !E by assumption. now apply T.
  - intros a b c Pa Pb Pc. rewrite !E by assumption. now apply N.
Qed.

Lemma swo_map {A B} (P : A -> Prop) (Q : B -> Prop) (g : A -> B) lt : (forall a, P a -> Q (g a)) ->
  strict_weak_order Q lt -> strict_weak_order P (fun a b => lt (g a) (g b)).
Proof.
  intros E (I & T & N). split; [|split].
  - intros a Pa. apply I. auto.
  - intros a b c Pa Pb Pc. apply T; auto.
  - intros a b c Pa Pb Pc. apply N; auto.
Qed.

Lemma swo_flip {A} (P : A -> Prop) lt : strict_weak_order P lt -> strict_weak_order P (fun a b => lt b a).
Proof.
  intros (I & T & N). split; [|split].
  - assumption.
  - intros a b c Pa Pb Pc H1 H2. apply (T c b a); auto.
  - intros a b c Pa Pb Pc H1 H2 H3 H4. destruct (N a b c); auto.
Qed.

Lemma compare_swo {A} (P : A -> Prop) (g : A -> coord) :
  strict_weak_order P (fun a b => compare (g a) (g b) <? 0).
Proof.
  unfold compare. split; [|split].
  - intros a _. pose proof (compare_from_antisym dims (g a) (g a)). lia.
  - intros a b c _ _ _ H1 H2.
    pose proof (compare_from_trans dims (g a) (g b) (g c)). 
    pose proof (compare_from_antisym dims (g a) (g c)). pose proof (compare_from_antisym dims (g a) (g b)).
    pose proof (compare_from_trans dims (g b) (g c) (g a)). lia.
  - intros a b c _ _ _ H1 H2 H3 H4.
    pose proof (compare_from_antisym dims (g a) (g c)). pose proof (compare_from_antisym dims (g a) (g b)).
    pose proof (compare_from_antisym dims (g b) (g c)).
    pose proof (compare_from_trans dims (g a) (g b) (g c)). pose proof (compare_from_trans dims (g c) (g b) (g a)). lia.
Qed.

(** ** Facts on zoom differences *)
Lemma SFsub_self x : SFabs (f32_sub x x) = S754_nan \/ SFabs (f32_sub x x) = S754_zero false.
Proof.
  unfold f32_sub. destruct x as [s|s| |s m e]; cbn [SFsub].
  - destruct s; now right.
  - destruct s; now left.
  - now left.
  - rewrite Z.sub_diag. right.
    assert (E : binary_normalize 24 128 0 (Z.min e e) false = S754_zero false) by reflexivity.
    rewrite E. reflexivity.
Qed.

Lemma zoom_differs_self x : zoom_differs x x = false.
Proof. unfold zoom_differs. destruct (SFsub_self x) as [-> | ->]; reflexivity. Qed.

Lemma zoom_differs_key x y : zoom_differs x y = true -> SFltb x y = true \/ SFltb y x = true.
Proof.
  intros H. rewrite !SFltb_key.
  destruct (key x) as [[[a1 a2] a3]|] eqn:Ex.
  2: { destruct x as [[|]|[|]| |[|] m e]; try discriminate Ex. unfold zoom_differs, f32_sub in H. destruct y; discriminate H. }
  destruct (key y) as [[[b1 b2] b3]|] eqn:Ey.
  2: { destruct y as [[|]|[|]| |[|] m e]; try discriminate Ey. unfold zoom_differs, f32_sub in H. destruct x; discriminate H. }
  destruct (klt (a1, a2, a3) (b1, b2, b3)) eqn:K1; [now left|].
  destruct (klt (b1, b2, b3) (a1, a2, a3)) eqn:K2; [now right|]. exfalso.
  assert (a1 = b1 /\ a2 = b2 /\ a3 = b3) as (-> & -> & ->) by (unfold klt in *; lia).
  assert (D : x = y \/ (exists s s', x = S754_zero s /\ y = S754_zero s')).
  { destruct x as [[|]|[|]| |[|] m e], y as [[|]|[|]| |[|] m' e']; cbn [key] in Ex, Ey; try congruence;
      try (right; now eauto); try (left; reflexivity); left;
      injection Ex as X1 X2 X3; injection Ey as Y1 Y2 Y3; f_equal; lia. }
  destruct D as [->|(s & s' & -> & ->)].
  - rewrite zoom_differs_self in H. discriminate.
  - destruct s, s'; discriminate H.
Qed.

Lemma SFltb_asym x y : SFltb x y = true -> SFltb y x = false.
Proof.
  rewrite !SFltb_key. destruct (key x) as [[[a1 a2] a3]|], (key y) as [[[b1 b2] b3]|]; auto. unfold klt. lia.
Qed.

Lemma SFltb_num x y : SFltb x y = true -> is_num x /\ is_num y.
Proof.
  rewrite SFltb_key. intros H. split; intros ->; [discriminate H|]. destruct (key x); discriminate H.
Qed.

(** ** The directory order *)
Definition m_valid (a : sbentry) : bool := negb (en_m a =? INT_MIN).
Definition k_valid (a : sbentry) : Z := if m_valid a then 0 else 1.
Definition k_1 (a : sbentry) : Z := if m_valid a then en_m a else en_x a.
Definition k_2 (a : sbentry) : Z := if m_valid a then 0 else en_y a.
Definition k_3 (pos : bool) (a : sbentry) : Z := if pos then en_pos a else 0.

(** sets of entries whose zooms are pairwise identical or clearly different, at
    ordinary positions *)
Definition separated (P : sbentry -> Prop) : Prop :=
  (forall a b, P a -> P b -> en_zoom a = en_zoom b \/ zoom_differs (en_zoom a) (en_zoom b) = true) /\
  (forall a, P a -> - 2 ^ 30 <= en_x a < 2 ^ 30 /\ - 2 ^ 30 <= en_y a < 2 ^ 30).

Definition sb_lt (pos : bool) (a b : sbentry) : bool :=
  match sb_less pos a b with Ok r => r | _ => false end.

Definition zoom_gt (a b : sbentry) : bool := SFltb (en_zoom b) (en_zoom a).
Definition sb_lex (pos : bool) : sbentry -> sbentry -> bool :=
  lex zoom_gt (lex (fun a b => compare (en_coord a) (en_coord b) <? 0)
    (lex (by_key k_valid) (lex (by_key k_1) (lex (by_key k_2) (by_key (k_3 pos)))))).

Lemma sb_less_lex pos P a b : separated P -> P a -> P b -> sb_less pos a b = Ok (sb_lex pos a b).
Proof.
  intros [S1 S2] Pa Pb. unfold sb_less, sb_lex. unfold lex at 1. unfold zoom_gt.
  destruct (zoom_differs (en_zoom a) (en_zoom b)) eqn:D.
  - destruct (zoom_differs_key _ _ D) as [L|L].
    + rewrite L, (SFltb_asym _ _ L). reflexivity.
    + rewrite L. reflexivity.
  - destruct (S1 a b Pa Pb) as [E|E]; [|congruence]. rewrite E.
    assert (I : SFltb (en_zoom b) (en_zoom b) = false).
    { destruct (SFltb (en_zoom b) (en_zoom b)) eqn:X; [|reflexivity]. rewrite (SFltb_asym _ _ X) in X. congruence. }
    rewrite I. cbn [orb andb negb]. unfold lex at 1.
    rewrite (compare_from_antisym dims (en_coord a) (en_coord b) : compare (en_coord b) (en_coord a) = - compare (en_coord a) (en_coord b)).
    set (r := compare (en_coord a) (en_coord b)). clearbody r.
    destruct (Z.ltb_spec r 0) as [L|L]; [reflexivity|].
    destruct (Z.ltb_spec 0 r) as [L'|L'].
    { destruct (Z.ltb_spec (- r) 0); [reflexivity|lia]. }
    destruct (Z.ltb_spec (- r) 0); [lia|]. cbn [orb andb negb].
    unfold lex, by_key, k_valid, k_1, k_2, k_3. fold (m_valid a) (m_valid b).
    destruct (S2 a Pa) as [Ax Ay]. destruct (S2 b Pb) as [Bx By].
    destruct (m_valid a) eqn:Va, (m_valid b) eqn:Vb; cbn [negb andb orb]; try reflexivity.
    + destruct (Z.ltb_spec (en_m a) (en_m b)), (Z.ltb_spec (en_m b) (en_m a)); try lia; cbn; try reflexivity.
      destruct pos; reflexivity.
    + rewrite !chk_ok by (unfold in_i32, INT_MIN, INT_MAX in *; lia). cbn [bind].
      destruct (Z.ltb_spec (en_x a - en_x b) 0), (Z.ltb_spec 0 (en_x a - en_x b)),
               (Z.ltb_spec (en_x a) (en_x b)), (Z.ltb_spec (en_x b) (en_x a)); try lia; cbn [orb andb negb]; try reflexivity.
      destruct (Z.ltb_spec (en_y a - en_y b) 0), (Z.ltb_spec 0 (en_y a - en_y b)),
               (Z.ltb_spec (en_y a) (en_y b)), (Z.ltb_spec (en_y b) (en_y a)); try lia; cbn [orb andb negb]; try reflexivity.
      destruct pos; reflexivity.
Qed.

Lemma zoom_gt_swo P : separated P -> strict_weak_order P zoom_gt.
Proof.
  intros [S1 _]. unfold zoom_gt. split; [|split].
  - intros a _. destruct (SFltb (en_zoom a) (en_zoom a)) eqn:X; [|reflexivity]. rewrite (SFltb_asym _ _ X) in X. congruence.
  - intros a b c _ _ _ H1 H2. destruct SFltb_swo as (_ & T & _). destruct (SFltb_num _ _ H1), (SFltb_num _ _ H2).
    apply (T (en_zoom c) (en_zoom b) (en_zoom a)); auto.
  - intros a b c Pa Pb Pc H1 H2 H3 H4.
    assert (Eab : en_zoom a = en_zoom b).
    { destruct (S1 a b Pa Pb) as [E|E]; [assumption|]. apply zoom_differs_key in E. destruct E; congruence. }
    assert (Ebc : en_zoom b = en_zoom c).
    { destruct (S1 b c Pb Pc) as [E|E]; [assumption|]. apply zoom_differs_key in E. destruct E; congruence. }
    rewrite Eab, <- Ebc. split.
    + destruct (SFltb (en_zoom b) (en_zoom b)) eqn:X; [|reflexivity]. rewrite (SFltb_asym _ _ X) in X. congruence.
    + destruct (SFltb (en_zoom b) (en_zoom b)) eqn:X; [|reflexivity]. rewrite (SFltb_asym _ _ X) in X. congruence.
Qed.

Theorem directory_order_swo pos P : separated P ->
  (forall a b, P a -> P b -> exists r, sb_less pos a b = Ok r) /\
  strict_weak_order P (fun a b => match sb_less pos a b with Ok r => r | _ => false end).
Proof.
  intros S. split.
  - intros a b Pa Pb. exists (sb_lex pos a b). now apply (sb_less_lex pos P).
  - apply (swo_ext P _ (sb_lex pos)).
    + intros a b Pa Pb. now rewrite (sb_less_lex pos P).
    + unfold sb_lex. apply lex_swo; [now apply zoom_gt_swo|]. apply lex_swo; [apply compare_swo|].
      repeat (apply lex_swo; [apply by_key_swo|]). apply by_key_swo.
Qed.

(** with file positions included, two entries are unordered only if they are
    indistinguishable for the order: same coordinate, same position in the file *)
Theorem directory_order_ties P a b : separated P -> P a -> P b -> table9 (en_coord a) -> table9 (en_coord b) ->
  sb_less true a b = Ok false -> sb_less true b a = Ok false ->
  en_zoom a = en_zoom b /\ en_coord a = en_coord b /\ (en_m a = en_m b) /\ en_pos a = en_pos b.
Proof.
  intros S Pa Pb La Lb. rewrite !(sb_less_lex true P) by assumption. intros [= H1] [= H2].
  unfold sb_lex, zoom_gt in H1, H2. unfold lex at 1 in H1. unfold lex at 1 in H2.
  apply orb_false_iff in H1. destruct H1 as [A1 H1]. apply orb_false_iff in H2. destruct H2 as [A2 H2].
  rewrite A1 in H2. rewrite A2 in H1. cbn [negb andb] in H1, H2.
  assert (Ez : en_zoom a = en_zoom b).
  { destruct S as [S1 _]. destruct (S1 a b Pa Pb) as [E|E]; [assumption|]. apply zoom_differs_key in E. destruct E; congruence. }
  split; [assumption|].
  unfold lex at 1 in H1. unfold lex at 1 in H2.
  apply orb_false_iff in H1. destruct H1 as [B1 H1]. apply orb_false_iff in H2. destruct H2 as [B2 H2].
  rewrite B1 in H2. rewrite B2 in H1. cbn [negb andb] in H1, H2.
  split.
  { apply compare_zero; auto. unfold compare in *. pose proof (compare_from_antisym dims (en_coord a) (en_coord b)). lia. }
  unfold lex, by_key, k_valid, k_1, k_2, k_3, m_valid in *.
  destruct (Z.eqb_spec (en_m a) INT_MIN), (Z.eqb_spec (en_m b) INT_MIN); cbn [negb] in *; lia.
Qed.

(** ** The drawing order *)
Definition l0 (i : sbinfo) : Z := if valid_m (sb_m i) then sb_m i else INT_MIN.

(** sets in which a sub-block of layer 0 and one of another layer never have the
    same zoom, and no zoom is NaN *)
Definition layered (P : sbinfo -> Prop) : Prop :=
  (forall a, P a -> is_num (sb_zoom a)) /\
  (forall a b, P a -> P b -> on_layer0 a = true -> on_layer0 b = false ->
     SFltb (sb_zoom a) (sb_zoom b) = true \/ SFltb (sb_zoom b) (sb_zoom a) = true).

Theorem drawing_order_swo P : layered P -> strict_weak_order P zoom_less.
Proof.
  intros [N L]. 
  set (kl := fun i => if on_layer0 i then l0 i else 0).
  apply (swo_ext P _ (lex (fun a b => SFltb (sb_zoom a) (sb_zoom b)) (by_key kl))).
  - intros a b Pa Pb. unfold zoom_less, lex, by_key, kl, l0.
    destruct (SFltb (sb_zoom a) (sb_zoom b)) eqn:E1; [reflexivity|].
    destruct (SFltb (sb_zoom b) (sb_zoom a)) eqn:E2; [reflexivity|]. cbn [orb negb andb].
    destruct (on_layer0 a) eqn:La, (on_layer0 b) eqn:Lb; cbn [orb negb andb]; try reflexivity.
    + destruct (L a b Pa Pb La Lb); congruence.
    + destruct (L b a Pb Pa Lb La); congruence.
  - apply lex_swo; [|apply by_key_swo].
    apply (swo_map P is_num sb_zoom SFltb); [assumption|apply SFltb_swo].
Qed.
