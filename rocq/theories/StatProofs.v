(** The statistics updater computes tight bounds and exact counts. *)
From Verif Require Import Base RectModel CodecModel CoordModel StatModel StatSpec.
From Coq Require Import Sorted Permutation.
Open Scope Z_scope.

(** ** maps *)
Section Maps.
  Context {A : Type}.
  Implicit Types m : list (Z * A).
  Definition asorted m : Prop := StronglySorted Z.lt (map fst m).
  Lemma afind_In k a m : asorted m -> (afind k m = Some a <-> In (k, a) m).
  Proof.
    unfold asorted. induction m as [|[j b] m IH]; cbn [map fst]; intros S; [split; [discriminate|contradiction]|].
    apply StronglySorted_inv in S. destruct S as [S F]. cbn [afind In]. destruct (j =? k) eqn:E.
    - assert (j = k) by lia. subst. split; [intros [= ->]; now left|]. intros [H|H]; [congruence|].
      rewrite Forall_forall in F. specialize (F k (in_map fst _ _ H)). lia.
    - rewrite (IH S). split; [auto|]. intros [H|H]; [injection H; lia|exact H].
  Qed.
  Lemma afind_None k m : afind k m = None <-> ~ In k (map fst m).
  Proof.
    induction m as [|[j b] m IH]; cbn [afind map fst In]; [tauto|]. destruct (j =? k) eqn:E.
    - split; [discriminate|]. intros H. exfalso. apply H. left. lia.
    - rewrite IH. split; [intros H [X|X]; [lia|auto]|tauto].
  Qed.
  Lemma ainsert_In k a m x : afind k m = None -> (In x (ainsert k a m) <-> x = (k, a) \/ In x m).
  Proof.
    induction m as [|[j b] m IH]; cbn [afind ainsert].
    - intros _. cbn [In]. intuition.
    - destruct (j =? k) eqn:E; [discriminate|]. intros H. destruct (k <? j); cbn [In]; [intuition|]. rewrite (IH H). tauto.
  Qed.
  Lemma map_fst_In k m : In k (map fst m) <-> exists a, In (k, a) m.
  Proof. rewrite in_map_iff. split; [intros ([j a] & <- & H); eauto|intros (a & H); exists (k, a); auto]. Qed.
  Lemma ainsert_sorted k a m : asorted m -> asorted (ainsert k a m).
  Proof.
    unfold asorted. induction m as [|[j b] m IH]; cbn [ainsert map fst]; intros S; [repeat constructor|].
    pose proof S as S0. apply StronglySorted_inv in S. destruct S as [S F]. destruct (k <? j) eqn:E1; [|destruct (j =? k) eqn:E2; [exact S0|]].
    - cbn [map fst]. constructor; [exact S0|]. constructor; [lia|]. eapply Forall_impl; [|exact F]. cbv beta. lia.
    - cbn [map fst]. constructor; [auto|]. rewrite Forall_forall in *. intros x Hx.
      destruct (afind k m) eqn:Ef.
      + assert (ainsert k a m = m); [|rewrite H in Hx; auto]. clear - Ef S. induction m as [|[i c] m IH]; [discriminate|]. cbn [afind ainsert map fst] in *.
        apply StronglySorted_inv in S. destruct S as [S F]. destruct (i =? k) eqn:Ei; [destruct (k <? i) eqn:Ek; [lia|reflexivity]|].
        destruct (k <? i) eqn:Ek.
        * exfalso. assert (In k (map fst m)). { destruct (in_dec Z.eq_dec k (map fst m)) as [H|H]; [exact H|]. apply afind_None in H. congruence. }
          rewrite Forall_forall in F. specialize (F _ H). lia.
        * f_equal. auto.
      + apply map_fst_In in Hx. destruct Hx as (c & Hx). apply (ainsert_In k a m (x, c) Ef) in Hx. destruct Hx as [Hx|Hx]; [injection Hx; lia|]. apply F, map_fst_In. eauto.
  Qed.
  Lemma aset_fst k a m : map fst (aset k a m) = map fst m.
  Proof. induction m as [|[j b] m IH]; cbn [aset map fst]; [reflexivity|]. destruct (j =? k); cbn [map fst]; congruence. Qed.
  Lemma aset_In k a m x : asorted m -> In k (map fst m) -> (In x (aset k a m) <-> x = (k, a) \/ (In x m /\ fst x <> k)).
  Proof.
    unfold asorted. induction m as [|[j b] m IH]; cbn [aset map fst In]; intros S H; [contradiction|].
    apply StronglySorted_inv in S. destruct S as [S F]. rewrite Forall_forall in F. destruct (j =? k) eqn:E.
    - assert (j = k) by lia. subst. cbn [In]. split; [|intros [->|[[<-|X] Y]]; cbn [fst] in *; auto; lia].
      intros [<-|X]; [auto|]. right. split; [auto|]. destruct x as [i c]. cbn [fst]. specialize (F i (in_map fst _ _ X)). lia.
    - destruct H as [H|H]; [lia|]. cbn [In]. rewrite (IH S H). split; [intros [<-|[X|[X Y]]]; auto; right; cbn [fst]; split; [auto|lia]|]. intuition.
  Qed.
  Lemma aset_sorted k a m : asorted m -> asorted (aset k a m).
  Proof. unfold asorted. now rewrite aset_fst. Qed.
  Lemma aerase_In k m x : asorted m -> (In x (aerase k m) <-> In x m /\ fst x <> k).
  Proof.
    unfold asorted. induction m as [|[j b] m IH]; cbn [aerase map fst In]; intros S; [tauto|].
    apply StronglySorted_inv in S. destruct S as [S F]. rewrite Forall_forall in F. destruct (j =? k) eqn:E.
    - assert (j = k) by lia. subst. split; [intros X; split; [auto|]|intros [[<-|X] Y]; cbn [fst] in *; [lia|auto]].
      destruct x as [i c]. cbn [fst]. specialize (F i (in_map fst _ _ X)). lia.
    - cbn [In]. rewrite (IH S). split; [intros [<-|[X Y]]; auto; cbn [fst]; split; [auto|lia]|tauto].
  Qed.
  Lemma aerase_sorted k m : asorted m -> asorted (aerase k m).
  Proof.
    unfold asorted. induction m as [|[j b] m IH]; cbn [aerase map fst]; intros S; [constructor|].
    pose proof S as S0. apply StronglySorted_inv in S. destruct S as [S F]. destruct (j =? k); [exact S|]. cbn [map fst]. constructor; [auto|].
    rewrite Forall_forall in *. intros x Hx. apply map_fst_In in Hx. destruct Hx as (c & Hx). apply aerase_In in Hx; [|exact S]. apply F, map_fst_In. exists c. tauto.
  Qed.
End Maps.

(** ** bounding boxes *)
Lemma chk_in z : in_i32 z -> chk z = Ok z.
Proof. intros H. unfold chk. apply in_i32b_spec in H. now rewrite H. Qed.

Definition box_ok (e : sbe) : Prop := 0 <= e_w e <= INT_MAX /\ 0 <= e_h e <= INT_MAX /\ in_i32 (e_x e) /\ in_i32 (e_y e).
Definition box_fit (es : list sbe) : Prop :=
  forall a b, In a es -> In b es ->
    e_x a + e_w a <= INT_MAX /\ e_y a + e_h a <= INT_MAX /\ e_x a + e_w a - e_x b <= INT_MAX /\ e_y a + e_h a - e_y b <= INT_MAX.

Lemma bounding_valid es r : Forall box_ok es -> bounding es r -> es <> [] -> rvalid r = true.
Proof.
  intros Hok [[E _]|(_ & H & _)] N; [contradiction|]. destruct es as [|e es]; [contradiction|]. specialize (H e (or_introl eq_refl)).
  apply Forall_cons_iff in Hok. destruct Hok as [(W & Hh & _) _]. unfold rvalid. lia.
Qed.

Lemma update_box_ok es r e : bounding es r -> Forall box_ok (es ++ [e]) -> box_fit (es ++ [e]) ->
  exists r', update_box r e = Ok r' /\ bounding (es ++ [e]) r'.
Proof.
  intros B Hok Fit. apply Forall_app in Hok. destruct Hok as [Hok Hoke]. pose proof Hoke as Hoke0. apply Forall_cons_iff in Hoke. destruct Hoke as [(W & Hh & Hx & Hy) _].
  assert (Ie : In e (es ++ [e])) by (apply in_or_app; right; now left).
  assert (Fe := Fit e e Ie Ie).
  unfold update_box. destruct es as [|e0 es0] eqn:Ees.
  - destruct B as [[_ V]|[N _]]; [|contradiction]. rewrite V. eexists. split; [reflexivity|]. right. cbn [app]. split; [discriminate|]. cbn [rx ry rw rh].
    split; [intros x [<-|[]]; lia|]. repeat split; exists e; (split; [now left|reflexivity]).
  - rewrite <- Ees in *. assert (N : es <> []) by (rewrite Ees; discriminate). clear Ees e0 es0.
    rewrite (bounding_valid es r Hok B N). destruct B as [[E _]|(_ & H & (a & Ha & Xa) & (b & Hb & Xb) & (c & Hc & Yc) & (d & Hd & Yd))]; [contradiction|].
    assert (Ia : In a (es ++ [e])) by (apply in_or_app; now left). assert (Ib : In b (es ++ [e])) by (apply in_or_app; now left).
    assert (Ic : In c (es ++ [e])) by (apply in_or_app; now left). assert (Id : In d (es ++ [e])) by (apply in_or_app; now left).
    assert (Fba := Fit b a Ib Ia). assert (Fbe := Fit b e Ib Ie). assert (Fea := Fit e a Ie Ia). assert (Fdc := Fit d c Id Ic). assert (Fde := Fit d e Id Ie). assert (Fec := Fit e c Ie Ic).
    rewrite Forall_forall in Hok. assert (Oa := Hok a Ha). assert (Ob := Hok b Hb). assert (Oc := Hok c Hc). assert (Od := Hok d Hd).
    assert (Hb' := H b Hb). assert (Hd' := H d Hd). assert (Ha' := H a Ha). assert (Hc' := H c Hc).
    destruct Oa as (Oa1 & _ & Oa2 & _), Ob as (Ob1 & _ & Ob2 & _), Oc as (_ & Oc1 & _ & Oc2), Od as (_ & Od1 & _ & Od2).
    unfold in_i32, INT_MIN, INT_MAX in *.
    destruct r as [X Y Wr Hr]. cbn [rx ry rw rh] in *.
    assert (C1 : forall z, -2147483648 <= z <= 2147483647 -> chk z = Ok z) by (intros; now apply chk_in).
    set (X' := Z.min X (e_x e)). set (Y' := Z.min Y (e_y e)). set (R' := Z.max (X + Wr) (e_x e + e_w e)). set (B' := Z.max (Y + Hr) (e_y e + e_h e)).
    assert (G : (let* r := (if e_x e <? X then let* diff := chk (X - e_x e) in let* w := chk (Wr + diff) in Ok (mkRect (e_x e) Y w Hr) else Ok (mkRect X Y Wr Hr)) in
      let* r := (if e_y e <? ry r then let* diff := chk (ry r - e_y e) in let* h := chk (rh r + diff) in Ok (mkRect (rx r) (e_y e) (rw r) h) else Ok r) in
      let* a := chk (rx r + rw r) in let* b := chk (e_x e + e_w e) in
      let* r := (if a <? b then let* w := chk (b - rx r) in Ok (mkRect (rx r) (ry r) w (rh r)) else Ok r) in
      let* a := chk (ry r + rh r) in let* b := chk (e_y e + e_h e) in
      if a <? b then let* h := chk (b - ry r) in Ok (mkRect (rx r) (ry r) (rw r) h) else Ok r) = Ok (mkRect X' Y' (R' - X') (B' - Y'))).
    { subst X' Y' R' B'. destruct (e_x e <? X) eqn:E1; destruct (e_y e <? Y) eqn:E2; cbn [bind rx ry rw rh]; rewrite ?C1 by lia; cbn [bind rx ry rw rh]; rewrite ?E2; cbn [bind rx ry rw rh];
      
      repeat first [rewrite C1 by lia; cbn [bind rx ry rw rh] | match goal with |- context [if ?t <? ?u then _ else _] => destruct (t <? u) eqn:?; cbn [bind rx ry rw rh] end];
      f_equal; f_equal; lia. }
    rewrite G. clear G. eexists. split; [reflexivity|]. right. split; [now destruct es|]. cbn [rx ry rw rh].
    split; [|split; [|split; [|split]]].
    + intros x Hx'. apply in_app_or in Hx'. destruct Hx' as [Hx'|[<-|[]]]; [specialize (H x Hx')|]; lia.
    + destruct (e_x e <? X) eqn:E; [exists e|exists a]; (split; [assumption|lia]).
    + destruct (X + Wr <? e_x e + e_w e) eqn:E; [exists e|exists b]; (split; [assumption|lia]).
    + destruct (e_y e <? Y) eqn:E; [exists e|exists c]; (split; [assumption|lia]).
    + destruct (Y + Hr <? e_y e + e_h e) eqn:E; [exists e|exists d]; (split; [assumption|lia]).
Qed.

(** ** dimension bounds *)
Lemma update_dim_ok vs b v : interval vs b -> in_i32 v -> v + 1 <= INT_MAX ->
  (forall x, In x vs -> in_i32 x /\ x + 1 <= INT_MAX /\ x + 1 - v <= INT_MAX /\ v + 1 - x <= INT_MAX) ->
  (forall x y, In x vs -> In y vs -> x + 1 - y <= INT_MAX) ->
  exists b', update_dim b v = Ok b' /\ interval (vs ++ [v]) b'.
Proof.
  intros I Hv Hv1 Hx Hxy. destruct b as [[a n]|]; cbn [interval update_dim] in *.
  - destruct I as (I1 & I2 & I3). pose proof (Hx _ I1) as A. pose proof (Hx _ I2) as B. pose proof (Hxy _ _ I2 I1) as AB. pose proof (I3 _ I1). unfold in_i32, INT_MIN, INT_MAX in *.
    assert (C1 : forall z, -2147483648 <= z <= 2147483647 -> chk z = Ok z) by (intros; now apply chk_in).
    assert (Iv : In v (vs ++ [v])) by (apply in_or_app; right; now left).
    destruct (v <? a) eqn:E1; [|destruct (a + n <=? v) eqn:E2].
    + rewrite C1 by lia. cbn [bind]. rewrite C1 by lia. cbn [bind]. eexists. split; [reflexivity|]. cbn [interval].
      split; [exact Iv|]. split; [apply in_or_app; left; replace (v + (n + (a - v)) - 1) with (a + n - 1) by lia; exact I2|].
      intros x X. apply in_app_or in X. destruct X as [X|[<-|[]]]; [specialize (I3 _ X)|]; lia.
    + rewrite C1 by lia. cbn [bind]. rewrite E2, C1 by lia. cbn [bind]. rewrite C1 by lia. cbn [bind]. eexists. split; [reflexivity|]. cbn [interval].
      split; [apply in_or_app; now left|]. split; [replace (a + (1 + v - a) - 1) with v by lia; exact Iv|].
      intros x X. apply in_app_or in X. destruct X as [X|[<-|[]]]; [specialize (I3 _ X)|]; lia.
    + rewrite C1 by lia. cbn [bind]. rewrite E2. eexists. split; [reflexivity|]. cbn [interval].
      split; [apply in_or_app; now left|]. split; [apply in_or_app; now left|]. intros x X. apply in_app_or in X. destruct X as [X|[<-|[]]]; [specialize (I3 _ X)|]; lia.
  - subst vs. eexists. split; [reflexivity|]. cbn [interval app]. split; [now left|]. split; [left; lia|]. intros x [<-|[]]. lia.
Qed.

Lemma update_dims_ok : forall bs c, length bs = length c ->
  (forall i v, nth i c None = Some v -> exists b', update_dim (nth i bs None) v = Ok b') ->
  exists bs', update_dims bs c = Ok bs' /\ length bs' = length bs /\
    forall i, (i < length bs)%nat -> match nth i c None with Some v => update_dim (nth i bs None) v = Ok (nth i bs' None) | None => nth i bs' None = nth i bs None end.
Proof.
  induction bs as [|b bs IH]; intros [|o c] L H; try discriminate L.
  - exists []. split; [reflexivity|]. split; [reflexivity|]. cbn. lia.
  - cbn [length] in L. destruct (IH c ltac:(lia)) as (bs' & E & L' & N).
    { intros i v Hi. exact (H (S i) v Hi). }
    cbn [update_dims]. destruct o as [v|].
    + destruct (H O v eq_refl) as (b' & Hb). cbn [nth] in Hb. rewrite Hb. cbn [bind]. rewrite E. cbn [bind]. exists (b' :: bs'). split; [reflexivity|]. cbn [length]. split; [lia|].
      intros [|i] Hi; cbn [nth]; [exact Hb|]. apply N. lia.
    + rewrite E. cbn [bind]. exists (b :: bs'). split; [reflexivity|]. cbn [length]. split; [lia|]. intros [|i] Hi; cbn [nth]; [reflexivity|]. apply N. lia.
Qed.

Lemma dim_values_app i es e : dim_values i (es ++ [e]) = dim_values i es ++ match nth i (e_coord e) None with Some v => [v] | None => [] end.
Proof. unfold dim_values. rewrite flat_map_app. cbn [flat_map]. now rewrite app_nil_r. Qed.
Lemma dim_values_In i es v : In v (dim_values i es) -> exists e, In e es /\ nth i (e_coord e) None = Some v.
Proof.
  unfold dim_values. rewrite in_flat_map. intros (e & He & H). exists e. split; [exact He|]. destruct (nth i (e_coord e) None) as [x|]; [|contradiction]. destruct H as [->|[]]. reflexivity.
Qed.

Lemma coord_i32 e i v : entry_ok e -> nth i (e_coord e) None = Some v -> in_i32 v.
Proof.
  intros (L & _ & _ & _ & _ & _ & _ & _ & F) H. rewrite Forall_forall in F. destruct (Nat.ltb i 9) eqn:E.
  - specialize (F (nth i (e_coord e) None) ltac:(apply nth_In; lia)). now rewrite H in F.
  - rewrite nth_overflow in H by lia. discriminate.
Qed.

Lemma dims_ok es bs e : length bs = 9%nat -> (forall i, (i < 9)%nat -> interval (dim_values i es) (nth i bs None)) ->
  Forall entry_ok (es ++ [e]) -> bounds_fit (es ++ [e]) ->
  exists bs', update_dims bs (e_coord e) = Ok bs' /\ length bs' = 9%nat /\ forall i, (i < 9)%nat -> interval (dim_values i (es ++ [e])) (nth i bs' None).
Proof.
  intros L I Hok Fit. rewrite Forall_forall in Hok. assert (Ie : In e (es ++ [e])) by (apply in_or_app; right; now left).
  assert (Le : length (e_coord e) = 9%nat) by apply (Hok e Ie).
  assert (U : forall i v, nth i (e_coord e) None = Some v -> exists b', update_dim (nth i bs None) v = Ok b' /\ interval (dim_values i es ++ [v]) b').
  { intros i v Hv. assert (Hi : (i < 9)%nat). { destruct (Nat.ltb i 9) eqn:E; [lia|]. rewrite nth_overflow in Hv by lia. discriminate. }
    apply update_dim_ok; [apply I; exact Hi|apply (coord_i32 e i v); [apply Hok; exact Ie|exact Hv]| | |].
    - destruct (Fit e e Ie Ie) as (_ & _ & _ & _ & F). apply (F i v v Hv Hv).
    - intros x X. apply dim_values_In in X. destruct X as (a & Ha & Xa). assert (Ia : In a (es ++ [e])) by (apply in_or_app; now left).
      split; [apply (coord_i32 a i x); [apply Hok; exact Ia|exact Xa]|].
      destruct (Fit a e Ia Ie) as (_ & _ & _ & _ & F1). destruct (Fit e a Ie Ia) as (_ & _ & _ & _ & F2). specialize (F1 i x v Xa Hv). specialize (F2 i v x Hv Xa). lia.
    - intros x y X Y. apply dim_values_In in X, Y. destruct X as (a & Ha & Xa), Y as (b & Hb & Xb).
      destruct (Fit a b ltac:(apply in_or_app; now left) ltac:(apply in_or_app; now left)) as (_ & _ & _ & _ & F1). specialize (F1 i x y Xa Xb). lia. }
  destruct (update_dims_ok bs (e_coord e) ltac:(lia)) as (bs' & E & L' & N).
  { intros i v Hv. destruct (U i v Hv) as (b' & Hb & _). eauto. }
  exists bs'. split; [exact E|]. split; [lia|]. intros i Hi. rewrite dim_values_app. specialize (N i ltac:(lia)). destruct (nth i (e_coord e) None) as [v|] eqn:Ev.
  - destruct (U i v Ev) as (b' & Hb & Ib). rewrite N in Hb. injection Hb as ->. exact Ib.
  - rewrite app_nil_r, N. apply I. exact Hi.
Qed.

(** ** M indices *)
Lemma has_dim_eq e : length (e_coord e) = 9%nat -> has_dim (e_coord e) = has_dimension e.
Proof.
  unfold has_dim, has_dimension. intros L. destruct (e_coord e) as [|o1 [|o2 [|o3 [|o4 [|o5 [|o6 [|o7 [|o8 [|o9 [|]]]]]]]]]]; try discriminate L. reflexivity.
Qed.
Lemma m_indices_app es e : m_indices (es ++ [e]) = m_indices es ++ (if negb (e_m e =? INT_MIN) then [e_m e] else []).
Proof. unfold m_indices. rewrite filter_app, map_app. cbn [filter]. destruct (negb (e_m e =? INT_MIN)); reflexivity. Qed.
Lemma update_m_ok es lo hi e : length (e_coord e) = 9%nat -> in_i32 (e_m e) -> min_max (m_indices (filter has_dimension es)) lo hi ->
  let mm := update_m e (lo, hi) in min_max (m_indices (filter has_dimension (es ++ [e]))) (fst mm) (snd mm).
Proof.
  intros L Hm H. cbv zeta. rewrite filter_app. cbn [filter]. unfold update_m. rewrite has_dim_eq by exact L. destruct (has_dimension e); cbn [andb]; [|rewrite app_nil_r; exact H].
  rewrite m_indices_app. unfold m_valid. destruct (negb (e_m e =? INT_MIN)) eqn:V; [|rewrite app_nil_r; exact H]. cbn [fst snd]. right.
  assert (Iv : forall l, In (e_m e) (l ++ [e_m e])) by (intros; apply in_or_app; right; now left).
  unfold in_i32 in *. destruct H as [(-> & -> & ->)|(I1 & I2 & I3)].
  - assert (A : (if e_m e <? INT_MAX then e_m e else INT_MAX) = e_m e) by (destruct (e_m e <? INT_MAX) eqn:E; lia). assert (B : (if INT_MIN <? e_m e then e_m e else INT_MIN) = e_m e) by (destruct (INT_MIN <? e_m e) eqn:E; lia).
    rewrite A, B. split; [apply Iv|]. split; [apply Iv|]. cbn [app]. intros v [<-|[]]. lia.
  - split; [|split].
    + destruct (e_m e <? lo); [apply Iv|apply in_or_app; now left].
    + destruct (hi <? e_m e); [apply Iv|apply in_or_app; now left].
    + intros v X. apply in_app_or in X. destruct X as [X|[<-|[]]]; [specialize (I3 _ X)|specialize (I3 _ I1)]; destruct (e_m e <? lo) eqn:E1, (hi <? e_m e) eqn:E2; lia.
Qed.

(** ** scenes *)
Lemma entry_box e : entry_ok e -> box_ok e.
Proof. unfold entry_ok, box_ok. intros (_ & A & B & _ & _ & C & D & _). split; [lia|]. split; [lia|]. split; assumption. Qed.
Lemma bounds_box es : bounds_fit es -> box_fit es.
Proof. intros H a b Ha Hb. destruct (H a b Ha Hb) as (A & B & C & D & _). auto. Qed.
Lemma box_fit_sub es es' : (forall e, In e es' -> In e es) -> box_fit es -> box_fit es'.
Proof. intros S H a b Ha Hb. apply H; auto. Qed.
Lemma box_ok_sub es es' : (forall e, In e es' -> In e es) -> Forall box_ok es -> Forall box_ok es'.
Proof. intros S H. rewrite Forall_forall in *. auto. Qed.

Lemma update_box_sub all es r e : (forall x, In x (es ++ [e]) -> In x all) -> Forall box_ok all -> box_fit all -> bounding es r ->
  exists r', update_box r e = Ok r' /\ bounding (es ++ [e]) r'.
Proof. intros S O F B. apply update_box_ok; [exact B|eapply box_ok_sub; eassumption|eapply box_fit_sub; eassumption]. Qed.

Lemma update_box0 all es r e : (forall x, In x (es ++ [e]) -> In x all) -> Forall box_ok all -> box_fit all -> bounding (filter layer0 es) r ->
  exists r', (if same_size e then update_box r e else Ok r) = Ok r' /\ bounding (filter layer0 (es ++ [e])) r'.
Proof.
  intros S O F B. rewrite filter_app. cbn [filter]. change (layer0 e) with (same_size e). destruct (same_size e) eqn:E.
  - apply (update_box_sub all); try assumption. intros x X. apply S. apply in_app_or in X. apply in_or_app. destruct X as [X|X]; [left; apply filter_In in X; tauto|right; exact X].
  - rewrite app_nil_r. eauto.
Qed.

Lemma first_box e : bounding [e] (mkRect (e_x e) (e_y e) (e_w e) (e_h e)).
Proof. right. split; [discriminate|]. cbn [rx ry rw rh]. split; [intros x [<-|[]]; lia|]. repeat split; exists e; (split; [now left|reflexivity]). Qed.

Lemma in_scene_app s es e : in_scene s (es ++ [e]) = in_scene s es ++ (if match nth 4 (e_coord e) None with Some v => v =? s | None => false end then [e] else []).
Proof. unfold in_scene. rewrite filter_app. reflexivity. Qed.
Lemma in_scene_In s es x : In x (in_scene s es) -> In x es.
Proof. unfold in_scene. rewrite filter_In. tauto. Qed.

Lemma scenes_ok es m e : scene_boxes es m -> Forall box_ok (es ++ [e]) -> box_fit (es ++ [e]) ->
  exists m', update_scenes m e = Ok m' /\ scene_boxes (es ++ [e]) m'.
Proof.
  intros (S1 & S2 & S3) O F. unfold update_scenes, scene_of. destruct (nth 4 (e_coord e) None) as [s|] eqn:Es.
  2:{ exists m. split; [reflexivity|]. assert (X : forall s, in_scene s (es ++ [e]) = in_scene s es) by (intros; rewrite in_scene_app, Es, app_nil_r; reflexivity).
      split; [exact S1|]. split; [intros s; rewrite X; apply S2|]. intros s b b0 H. rewrite X. apply S3. exact H. }
  assert (X1 : in_scene s (es ++ [e]) = in_scene s es ++ [e]) by (rewrite in_scene_app, Es, Z.eqb_refl; reflexivity).
  assert (X2 : forall t, t <> s -> in_scene t (es ++ [e]) = in_scene t es) by (intros t Ht; rewrite in_scene_app, Es; replace (s =? t) with false by lia; apply app_nil_r).
  assert (NE : in_scene s (es ++ [e]) <> []) by (rewrite X1; now destruct (in_scene s es)).
  destruct (afind s m) as [[b b0]|] eqn:Ef.
  - apply afind_In in Ef; [|exact S1]. destruct (S3 s b b0 Ef) as [B B0].
    assert (Sub : forall x, In x (in_scene s es ++ [e]) -> In x (es ++ [e])).
    { intros x Hx. apply in_app_or in Hx. apply in_or_app. destruct Hx as [Hx|Hx]; [left; eapply in_scene_In; eassumption|right; exact Hx]. }
    destruct (update_box_sub (es ++ [e]) _ b e Sub O F B) as (b' & Eb & Bb). destruct (update_box0 (es ++ [e]) _ b0 e Sub O F B0) as (b0' & Eb0 & Bb0).
    rewrite Eb. cbn [bind]. rewrite Eb0. cbn [bind]. eexists. split; [reflexivity|].
    assert (Is : In s (map fst m)) by (apply map_fst_In; eauto).
    split; [apply aset_sorted; exact S1|]. split.
    + intros t. rewrite aset_fst. destruct (Z.eq_dec t s) as [->|Ht]; [split; auto|]. rewrite X2 by exact Ht. apply S2.
    + intros t c c0 H. apply aset_In in H; [|exact S1|exact Is]. destruct H as [H|[H Ht]].
      * injection H as -> -> ->. rewrite X1. auto.
      * cbn [fst] in Ht. rewrite X2 by exact Ht. apply S3. exact H.
  - eexists. split; [reflexivity|]. assert (Ns : in_scene s es = []).
    { apply afind_None in Ef. rewrite S2 in Ef. destruct (in_scene s es); [reflexivity|]. exfalso. apply Ef. discriminate. }
    split; [apply ainsert_sorted; exact S1|]. split.
    + intros t. rewrite map_fst_In. split.
      * intros (c & H). apply ainsert_In in H; [|exact Ef]. destruct H as [H|H]; [injection H as -> ->; exact NE|].
        destruct (Z.eq_dec t s) as [->|Ht]; [exact NE|]. rewrite X2 by exact Ht. apply S2. apply map_fst_In. eauto.
      * intros H. destruct (Z.eq_dec t s) as [->|Ht]; [eexists; apply ainsert_In; [exact Ef|left; reflexivity]|].
        rewrite X2 in H by exact Ht. apply S2, map_fst_In in H. destruct H as (c & H). exists c. apply ainsert_In; [exact Ef|right; exact H].
    + intros t c c0 H. apply ainsert_In in H; [|exact Ef]. destruct H as [H|H].
      * injection H as -> -> ->. rewrite X1, Ns. cbn [app filter]. split; [apply first_box|]. change (layer0 e) with (same_size e). destruct (same_size e); [apply first_box|]. left. split; reflexivity.
      * assert (Ht : t <> s) by (intros ->; apply afind_None in Ef; apply Ef, map_fst_In; eauto). rewrite X2 by exact Ht. apply S3. exact H.
Qed.
