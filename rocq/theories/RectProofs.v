From Verif Require Import Base RectModel.

Lemma count_nil {A} (f : A -> bool) : count f [] = 0.
Proof. reflexivity. Qed.

Lemma count_cons {A} (f : A -> bool) x l : count f (x :: l) = (if f x then 1 else 0) + count f l.
Proof. unfold count; cbn [filter]; destruct (f x); cbn [length]; lia. Qed.

Lemma count_app {A} (f : A -> bool) l1 l2 : count f (l1 ++ l2) = count f l1 + count f l2.
Proof. induction l1 as [|x l IH]; cbn [app]; rewrite ?count_cons; [rewrite count_nil|]; lia. Qed.

Lemma count_ext {A} (f g : A -> bool) l : (forall x, In x l -> f x = g x) -> count f l = count g l.
Proof.
  induction l as [|x l IH]; intros H; [reflexivity|].
  rewrite !count_cons, IH, (H x); [reflexivity|now left|]. intros; apply H; now right.
Qed.

Lemma count_map {A B} (g : A -> B) (f : B -> bool) l : count f (map g l) = count (fun x => f (g x)) l.
Proof. induction l as [|x l IH]; [reflexivity|]. cbn [map]. now rewrite !count_cons, IH. Qed.

Lemma count_nonneg {A} (f : A -> bool) l : 0 <= count f l.
Proof. unfold count; lia. Qed.

Lemma count_le_length {A} (f : A -> bool) l : count f l <= Z.of_nat (length l).
Proof. induction l as [|x l IH]; [unfold count; cbn; lia|]. rewrite count_cons. cbn [length]. destruct (f x); lia. Qed.

Lemma count_full {A} (f : A -> bool) l : count f l = Z.of_nat (length l) -> forall x, In x l -> f x = true.
Proof.
  induction l as [|y l IH]; intros H x []; subst.
  - rewrite count_cons in H. pose proof (count_le_length f l). cbn [length] in H. destruct (f x); [reflexivity|lia].
  - rewrite count_cons in H. pose proof (count_le_length f l). cbn [length] in H.
    apply IH; [destruct (f y); lia|assumption].
Qed.

Lemma count_mono {A} (f g : A -> bool) l :
  (forall x, In x l -> f x = true -> g x = true) -> count f l <= count g l.
Proof.
  induction l as [|y l IH]; intros H; [unfold count; cbn; lia|].
  rewrite !count_cons. assert (count f l <= count g l) by (apply IH; intros; apply H; [now right|assumption]).
  destruct (f y) eqn:E; [rewrite (H y) by (auto; now left)|destruct (g y)]; lia.
Qed.

Lemma count_mono_eq {A} (f g : A -> bool) l :
  (forall x, In x l -> f x = true -> g x = true) -> count g l <= count f l ->
  forall x, In x l -> g x = true -> f x = true.
Proof.
  induction l as [|y l IH]; intros H Hc x Hx Hg; [destruct Hx|].
  rewrite !count_cons in Hc.
  assert (Hm : count f l <= count g l) by (apply count_mono; intros; apply H; [now right|assumption]).
  destruct Hx as [->|Hx].
  - destruct (f x) eqn:E; [reflexivity|]. rewrite Hg in Hc. lia.
  - apply IH; auto. intros; apply H; [now right|assumption].
    destruct (f y) eqn:E; [rewrite (H y) in Hc by (auto; now left)|destruct (g y)]; lia.
Qed.

Lemma zrange_length s n : length (zrange s n) = n.
Proof. revert s; induction n; intros; cbn; auto. Qed.

Lemma in_zrange s n x : In x (zrange s n) <-> s <= x < s + Z.of_nat n.
Proof.
  revert s; induction n as [|n IH]; intros s; cbn [zrange In].
  - lia.
  - rewrite IH. lia.
Qed.

Lemma count_zrange a b s n :
  count (fun x => (a <=? x) && (x <? b)) (zrange s n)
  = Z.max 0 (Z.min b (s + Z.of_nat n) - Z.max a s).
Proof.
  revert s; induction n as [|n IH]; intros s; cbn [zrange].
  - rewrite count_nil. lia.
  - rewrite count_cons, IH. destruct ((a <=? s) && (s <? b)) eqn:E; lia.
Qed.

Lemma in_lattice q x y :
  rvalid q = true -> In (x, y) (lattice q) <-> pt_in q (x, y) = true.
Proof.
  intros Hv. unfold rvalid in Hv. unfold lattice, pt_in; cbn [fst snd]. rewrite in_flat_map. split.
  - intros (y' & Hy & Hx). rewrite in_map_iff in Hx. destruct Hx as (x' & He & Hx). injection He as <- <-.
    rewrite in_zrange in *. lia.
  - intros H. exists y. rewrite in_zrange. split; [lia|]. rewrite in_map_iff. exists x.
    rewrite in_zrange. split; [reflexivity|lia].
Qed.

Lemma lattice_length q : rvalid q = true -> Z.of_nat (length (lattice q)) = rw q * rh q.
Proof.
  intros Hv. unfold rvalid in Hv. unfold lattice.
  assert (H : forall l : list Z, length (flat_map (fun y => map (fun x => (x, y)) (zrange (rx q) (Z.to_nat (rw q)))) l)
                        = (length l * Z.to_nat (rw q))%nat).
  { induction l as [|y l IH]; [reflexivity|]. cbn [flat_map length]. rewrite app_length, map_length, zrange_length, IH. lia. }
  rewrite H, zrange_length. nia.
Qed.

(** number of lattice points of q inside r = area of the intersection *)
Lemma count_lattice r q :
  rvalid r = true -> rvalid q = true ->
  count (pt_in r) (lattice q) = rw (intersect r q) * rh (intersect r q).
Proof.
  intros Hr Hq. unfold rvalid in *. unfold lattice.
  set (xo := Z.max 0 (Z.min (rx r + rw r) (rx q + rw q) - Z.max (rx r) (rx q))).
  assert (Hrow : forall y, count (pt_in r) (map (fun x => (x, y)) (zrange (rx q) (Z.to_nat (rw q))))
                 = if (ry r <=? y) && (y <? ry r + rh r) then xo else 0).
  { intros y. rewrite count_map. unfold pt_in; cbn [fst snd].
    destruct ((ry r <=? y) && (y <? ry r + rh r)) eqn:E.
    - rewrite (count_ext _ (fun x => (rx r <=? x) && (x <? rx r + rw r))) by (intros; lia).
      rewrite count_zrange. unfold xo. lia.
    - rewrite (count_ext _ (fun x => (0 <=? x) && (x <? 0))) by (intros; lia).
      rewrite count_zrange. lia. }
  assert (H : forall l : list Z, count (pt_in r) (flat_map (fun y => map (fun x => (x, y)) (zrange (rx q) (Z.to_nat (rw q)))) l)
              = xo * count (fun y => (ry r <=? y) && (y <? ry r + rh r)) l).
  { induction l as [|y l IH]; [cbn [flat_map]; rewrite !count_nil; lia|].
    cbn [flat_map]. rewrite count_app, Hrow, IH, count_cons.
    destruct ((ry r <=? y) && (y <? ry r + rh r)); lia. }
  rewrite H, count_zrange. unfold intersect. unfold xo.
  match goal with |- context [if ?c then _ else _] => destruct c eqn:E end; cbn [rw rh].
  - rewrite !Z2Nat.id by lia. f_equal; lia.
  - rewrite Z2Nat.id by lia.
    assert (Hz : Z.max 0 (Z.min (rx r + rw r) (rx q + rw q) - Z.max (rx r) (rx q)) = 0
               \/ Z.max 0 (Z.min (ry r + rh r) (ry q + rh q) - Z.max (ry r) (ry q)) = 0) by lia.
    destruct Hz as [-> | ->]; lia.
Qed.

Lemma intersect_valid r q : rvalid (intersect r q) = true.
Proof. unfold intersect, rvalid. match goal with |- context [if ?c then _ else _] => destruct c eqn:E end; cbn; lia. Qed.

(** Disjointness and union of splitter lists. *)
Definition disj (a b : rect) : Prop := forall p, pt_in a p = true -> pt_in b p = true -> False.
Definition pdisj (sp : list rect) : Prop := ForallOrdPairs disj sp.
Definition in_union (sp : list rect) (p : Z * Z) : bool := existsb (fun r => pt_in r p) sp.
Definition all_valid (sp : list rect) : Prop := Forall (fun r => rvalid r = true) sp.

Lemma in_union_app s1 s2 p : in_union (s1 ++ s2) p = in_union s1 p || in_union s2 p.
Proof. apply existsb_app. Qed.

Lemma in_union_cons r s p : in_union (r :: s) p = pt_in r p || in_union s p.
Proof. reflexivity. Qed.

Lemma calc_area_sum sp q acc :
  rvalid q = true -> all_valid sp ->
  fold_left (fun area r => let i := intersect r q in if rvalid i then area + rw i * rh i else area) sp acc
  = acc + fold_right (fun r s => count (pt_in r) (lattice q) + s) 0 sp.
Proof.
  intros Hq. revert acc; induction sp as [|r sp IH]; intros acc Hv; cbn [fold_left fold_right]; [lia|].
  inversion Hv as [|? ? Hr Hv']; subst. rewrite IH by assumption. cbn zeta.
  rewrite intersect_valid, count_lattice by assumption. lia.
Qed.

Lemma count_disj {A} (f g : A -> bool) l :
  (forall x, f x = true -> g x = true -> False) -> count (fun x => f x || g x) l = count f l + count g l.
Proof.
  intros H; induction l as [|x l IH]; [reflexivity|]. rewrite !count_cons, IH.
  destruct (f x) eqn:E1, (g x) eqn:E2; cbn [orb]; solve [lia | exfalso; eauto].
Qed.

Lemma sum_count_union sp l :
  pdisj sp -> fold_right (fun r s => count (pt_in r) l + s) 0 sp = count (in_union sp) l.
Proof.
  induction 1 as [|r sp Hr H IH]; cbn [fold_right].
  - unfold in_union; cbn. symmetry. unfold count. induction l; cbn; auto.
  - rewrite IH. unfold in_union at 2; cbn [existsb].
    rewrite (count_disj (pt_in r) (fun p => existsb (fun r0 => pt_in r0 p) sp)); [reflexivity|].
    intros p H1 H2. apply existsb_exists in H2. destruct H2 as (r' & Hin & H2).
    rewrite Forall_forall in Hr. exact (Hr r' Hin p H1 H2).
Qed.

Lemma calc_area_spec sp q :
  all_valid sp -> pdisj sp -> rvalid q = true ->
  calc_area sp q = count (in_union sp) (lattice q).
Proof.
  intros Hv Hd Hq. unfold calc_area. rewrite Hq. cbn [negb].
  rewrite calc_area_sum, sum_count_union by assumption. lia.
Qed.

(** find_hit *)
Lemma find_hit_some sp r pre s post :
  find_hit sp r = Some (pre, s, post) -> sp = pre ++ s :: post /\ intersects_with s r = true.
Proof.
  revert pre; induction sp as [|a sp IH]; intros pre; cbn [find_hit]; [discriminate|].
  destruct (intersects_with a r) eqn:E.
  - intros [= <- <- <-]; auto.
  - destruct (find_hit sp r) as [[[pre' s'] post']|]; [|discriminate].
    intros [= <- <- <-]. destruct (IH pre' eq_refl) as [-> H]. auto.
Qed.

Lemma find_hit_none sp r :
  find_hit sp r = None -> Forall (fun s => intersects_with s r = false) sp.
Proof.
  induction sp as [|a sp IH]; cbn [find_hit]; intros H; constructor.
  - destruct (intersects_with a r); [discriminate|reflexivity].
  - apply IH. destruct (intersects_with a r); [discriminate|].
    destruct (find_hit sp r) as [[[? ?] ?]|]; [discriminate|reflexivity].
Qed.

Lemma not_intersect_disj a b :
  rvalid a = true -> rvalid b = true -> intersects_with a b = false -> disj a b.
Proof.
  intros Ha Hb H [x y] H1 H2. unfold intersects_with in H. rewrite Ha, Hb in H. cbn [negb orb] in H.
  unfold pt_in in *; cbn [fst snd] in *. lia.
Qed.

Lemma contained_pts o i p : completely_contained o i = true -> pt_in i p = true -> pt_in o p = true.
Proof. unfold completely_contained, pt_in; destruct p as [x y]; cbn [fst snd]. lia. Qed.

Definition partial (a b : rect) : Prop :=
  rvalid a = true /\ rvalid b = true /\ intersects_with a b = true /\
  completely_contained a b = false /\ completely_contained b a = false.

Ltac rect_cases :=
  unfold split_up;
  repeat (match goal with |- context [if ?c then _ else _] => destruct c eqn:? end; cbn [app]).

Lemma split_up_pts a b p :
  partial a b -> in_union (split_up a b) p = pt_in b p && negb (pt_in a p).
Proof.
  intros (Ha & Hb & Hi & Hc1 & Hc2).
  unfold intersects_with in Hi. rewrite Ha, Hb in Hi. cbn [negb orb] in Hi.
  unfold rvalid, completely_contained in *. destruct p as [x y].
  rect_cases; unfold in_union, pt_in; cbn [existsb rx ry rw rh fst snd]; lia.
Qed.

Lemma split_up_small a b :
  partial a b ->
  Forall (fun p => rvalid p = true /\ rw p + rh p < rw b + rh b) (split_up a b).
Proof.
  intros (Ha & Hb & Hi & Hc1 & Hc2).
  unfold intersects_with in Hi. rewrite Ha, Hb in Hi. cbn [negb orb] in Hi.
  unfold rvalid, completely_contained in *.
  rect_cases; repeat constructor; unfold rvalid; cbn [rx ry rw rh]; lia.
Qed.

(** add_rect: functional correctness for terminating runs *)
Definition sp_ok (sp : list rect) : Prop := all_valid sp /\ pdisj sp.

Lemma pdisj_app_inv s1 s2 :
  pdisj (s1 ++ s2) -> pdisj s1 /\ pdisj s2 /\ (forall a b, In a s1 -> In b s2 -> disj a b).
Proof.
  induction s1 as [|a s1 IH]; cbn [app]; intros H.
  - split; [constructor|]. split; [assumption|]. intros ? ? [].
  - inversion H as [|? ? Ha Hs]; subst. destruct (IH Hs) as (H1 & H2 & H3).
    rewrite Forall_app in Ha. destruct Ha as [Ha1 Ha2].
    split; [constructor; assumption|]. split; [assumption|].
    intros x b [<-|Hx] Hb; [rewrite Forall_forall in Ha2; auto|auto].
Qed.

Lemma pdisj_app s1 s2 :
  pdisj s1 -> pdisj s2 -> (forall a b, In a s1 -> In b s2 -> disj a b) -> pdisj (s1 ++ s2).
Proof.
  induction 1 as [|a s1 Ha H1 IH]; cbn [app]; intros H2 Hx; [assumption|].
  constructor.
  - rewrite Forall_app; split; [assumption|]. rewrite Forall_forall; intros b Hb. apply Hx; [now left|assumption].
  - apply IH; [assumption|]. intros; apply Hx; [now right|assumption].
Qed.

Lemma sp_ok_remove pre s post : sp_ok (pre ++ s :: post) -> sp_ok (pre ++ post).
Proof.
  intros [Hv Hd]. unfold all_valid in *. rewrite Forall_app in Hv. destruct Hv as [Hv1 Hv2].
  inversion Hv2; subst. apply pdisj_app_inv in Hd. destruct Hd as (D1 & D2 & D3).
  inversion D2; subst. split; [unfold all_valid; now rewrite Forall_app|].
  apply pdisj_app; auto. intros; apply D3; [assumption|now right].
Qed.

Lemma add_rect_ok fuel : forall sp r sp',
  sp_ok sp -> add_rect fuel sp r = Ok sp' ->
  sp_ok sp' /\ forall p, in_union sp' p = in_union sp p || (rvalid r && pt_in r p).
Proof.
  induction fuel as [|fuel IH]; intros sp r sp' Hok; cbn [add_rect]; [discriminate|].
  destruct (rvalid r) eqn:Hr; cbn [negb].
  2:{ intros [= <-]. split; [assumption|]. intros; now rewrite andb_false_l, orb_false_r. }
  destruct sp as [|s0 sp0] eqn:Esp.
  { intros [= <-]. split.
    - split; [unfold all_valid; auto|]. constructor; constructor.
    - intros p. unfold in_union; cbn. now rewrite orb_false_r. }
  rewrite <- Esp in *. clear s0 sp0 Esp.
  destruct (find_hit sp r) as [[[pre s] post]|] eqn:Hf.
  2:{ intros [= <-]. apply find_hit_none in Hf. destruct Hok as [Hv Hd]. split.
      - split; [unfold all_valid in *; rewrite Forall_app; auto|].
        apply pdisj_app; [assumption|constructor; constructor|].
        intros a b Ha [<-|[]]. rewrite Forall_forall in Hf. unfold all_valid in Hv. rewrite Forall_forall in Hv.
        apply not_intersect_disj; auto.
      - intros p. rewrite in_union_app. unfold in_union at 2; cbn. now rewrite orb_false_r. }
  destruct (find_hit_some _ _ _ _ _ Hf) as [-> Hi].
  assert (Hs : rvalid s = true).
  { destruct Hok as [Hv _]. unfold all_valid in Hv. rewrite Forall_app in Hv. destruct Hv as [_ Hv]. now inversion Hv. }
  destruct (completely_contained s r) eqn:Hc1.
  { intros [= <-]. split; [assumption|]. intros p. cbn [andb].
    destruct (pt_in r p) eqn:Ep; [|now rewrite orb_false_r].
    rewrite orb_true_r. rewrite in_union_app. unfold in_union; cbn [existsb].
    rewrite (contained_pts _ _ _ Hc1 Ep). now rewrite orb_true_r. }
  destruct (completely_contained r s) eqn:Hc2.
  { intros H. apply IH in H; [|eapply sp_ok_remove; eassumption]. destruct H as [H1 H2]. split; [assumption|].
    intros p. rewrite H2. rewrite Hr; cbn [andb]. rewrite !in_union_app, in_union_cons.
    destruct (pt_in s p) eqn:Es; [rewrite (contained_pts _ _ _ Hc2 Es)|];
      destruct (in_union pre p), (in_union post p), (pt_in r p); reflexivity. }
  assert (Hp : partial s r) by (repeat split; assumption).
  intros H.
  assert (Hfold : forall ps acc sp', sp_ok acc ->
            Forall (fun p => rvalid p = true) ps ->
            fold_left (fun a p => let* sp1 := a in add_rect fuel sp1 p) ps (Ok acc) = Ok sp' ->
            sp_ok sp' /\ forall p, in_union sp' p = in_union acc p || in_union ps p).
  { clear H. induction ps as [|q ps IHps]; intros acc sp2 Hacc Hvs Hq; cbn [fold_left] in Hq.
    - injection Hq as <-. split; [assumption|]. intros; unfold in_union at 3; cbn. now rewrite orb_false_r.
    - inversion Hvs as [|? ? Hvq Hvs']; subst. cbn [bind] in Hq.
      destruct (add_rect fuel acc q) as [acc'| | |] eqn:Eq.
      2-4: exfalso; clear -Hq; induction ps; cbn in Hq; [discriminate|auto].
      apply IH in Eq; [|assumption]. destruct Eq as [Hacc' HU].
      apply IHps in Hq; [|assumption..]. destruct Hq as [H1 H2]. split; [assumption|].
      intros p. rewrite H2, HU, Hvq. unfold in_union at 4; cbn [existsb andb]. fold (in_union ps p).
      now rewrite orb_assoc. }
  apply Hfold in H; [|assumption|].
  2:{ pose proof (split_up_small _ _ Hp) as Hsm. revert Hsm. apply Forall_impl. intuition. }
  destruct H as [H1 H2]. split; [assumption|]. intros p. rewrite H2, split_up_pts by assumption.
  cbn [andb]. rewrite !in_union_app, !in_union_cons.
  destruct (pt_in s p), (pt_in r p), (in_union pre p), (in_union post p); reflexivity.
Qed.

(** Termination *)
Lemma fold_add_fail fuel ps (e : res (list rect)) :
  (forall a, e <> Ok a) ->
  forall r, fold_left (fun a p => let* sp1 := a in add_rect fuel sp1 p) ps e = Ok r -> False.
Proof.
  intros He. revert e He; induction ps as [|q ps IH]; intros e He r; cbn [fold_left].
  - intros ->. now apply (He r).
  - apply IH. intros a. destruct e; cbn; try discriminate. exfalso; now apply (He a0).
Qed.

Lemma add_rect_mono fuel : forall sp r sp',
  add_rect fuel sp r = Ok sp' -> add_rect (S fuel) sp r = Ok sp'.
Proof.
  induction fuel as [|fuel IH]; intros sp r sp' H; [discriminate|].
  cbn [add_rect] in H. remember (S fuel) as f1. cbn [add_rect]. subst f1.
  destruct (negb (rvalid r)); [assumption|].
  destruct sp as [|s0 sp0] eqn:Esp; [assumption|]. rewrite <- Esp in *. clear Esp s0 sp0.
  destruct (find_hit sp r) as [[[pre s] post]|]; [|assumption].
  destruct (completely_contained s r); [assumption|].
  destruct (completely_contained r s); [now apply IH|].
  revert H. generalize (split_up s r) as ps. intros ps. generalize sp as acc.
  induction ps as [|q ps IHps]; intros acc H; cbn [fold_left] in *; [assumption|].
  cbn [bind] in *. destruct (add_rect fuel acc q) as [acc'| | |] eqn:E.
  - rewrite (IH _ _ _ E). apply IHps; assumption.
  - exfalso; eapply fold_add_fail; [|exact H]; discriminate.
  - exfalso; eapply fold_add_fail; [|exact H]; discriminate.
  - exfalso; eapply fold_add_fail; [|exact H]; discriminate.
Qed.

Lemma add_rect_mono_le f1 f2 sp r sp' :
  (f1 <= f2)%nat -> add_rect f1 sp r = Ok sp' -> add_rect f2 sp r = Ok sp'.
Proof. induction 1; [auto|]. intros; apply add_rect_mono; auto. Qed.

Lemma add_rect_term_aux m : forall n sp r,
  (Z.to_nat (rw r + rh r) < m)%nat -> (length sp < n)%nat -> sp_ok sp ->
  exists fuel sp', add_rect fuel sp r = Ok sp'.
Proof.
  induction m as [|m IHm]; [intros; lia|].
  induction n as [|n IHn]; [intros; lia|]. intros sp r Hm Hn Hok.
  destruct (rvalid r) eqn:Hr.
  2:{ exists 1%nat, sp. cbn. now rewrite Hr. }
  destruct sp as [|s0 sp0] eqn:Esp.
  { exists 1%nat, [r]. cbn. now rewrite Hr. }
  rewrite <- Esp in *.
  destruct (find_hit sp r) as [[[pre s] post]|] eqn:Hf.
  2:{ exists 1%nat, (sp ++ [r]). cbn [add_rect]. rewrite Hr, Hf; cbn [negb]. now rewrite Esp at 1. }
  destruct (find_hit_some _ _ _ _ _ Hf) as [Hsp Hi].
  destruct (completely_contained s r) eqn:Hc1.
  { exists 1%nat, sp. cbn [add_rect]. rewrite Hr, Hf, Hc1; cbn [negb]. now rewrite Esp at 1. }
  destruct (completely_contained r s) eqn:Hc2.
  { destruct (IHn (pre ++ post) r) as (f & sp' & H).
    - assumption.
    - rewrite Hsp in Hn. rewrite app_length in *. cbn [length] in Hn. lia.
    - rewrite Hsp in Hok. eapply sp_ok_remove; eassumption.
    - exists (S f), sp'. cbn [add_rect]. rewrite Hr, Hf, Hc1, Hc2; cbn [negb]. rewrite Esp at 1. assumption. }
  assert (Hs : rvalid s = true).
  { rewrite Hsp in Hok. destruct Hok as [Hv _]. unfold all_valid in Hv. rewrite Forall_app in Hv. destruct Hv as [_ Hv]. now inversion Hv. }
  assert (Hp : partial s r) by (repeat split; assumption).
  pose proof (split_up_small _ _ Hp) as Hsm.
  assert (Hfold : forall ps acc, sp_ok acc ->
     Forall (fun p => rvalid p = true /\ rw p + rh p < rw r + rh r) ps ->
     exists f sp', fold_left (fun a p => let* sp1 := a in add_rect f sp1 p) ps (Ok acc) = Ok sp').
  { induction ps as [|q ps IHps]; intros acc Hacc Hq; [exists 0%nat, acc; reflexivity|].
    inversion Hq as [|? ? [Hq1 Hq2] Hq']; subst.
    destruct (IHm (S (length acc)) acc q) as (f1 & acc' & H1); [unfold rvalid in *; lia|lia|assumption|].
    destruct (IHps acc') as (f2 & sp' & H2); [eapply add_rect_ok; eassumption|assumption|].
    exists (Nat.max f1 f2), sp'. cbn [fold_left bind].
    rewrite (add_rect_mono_le f1 (Nat.max f1 f2) _ _ _ ltac:(lia) H1).
    clear -H2. revert acc' H2. induction ps as [|q ps IH]; intros acc H; cbn [fold_left] in *; [assumption|].
    cbn [bind] in *. destruct (add_rect f2 acc q) as [a'| | |] eqn:E.
    - rewrite (add_rect_mono_le f2 (Nat.max f1 f2) _ _ _ ltac:(lia) E). now apply IH.
    - exfalso; eapply fold_add_fail; [|exact H]; discriminate.
    - exfalso; eapply fold_add_fail; [|exact H]; discriminate.
    - exfalso; eapply fold_add_fail; [|exact H]; discriminate. }
  destruct (Hfold _ _ Hok Hsm) as (f & sp' & H).
  exists (S f), sp'. cbn [add_rect]. rewrite Hr, Hf, Hc1, Hc2; cbn [negb]. rewrite Esp at 1. assumption.
Qed.

Lemma add_rect_total sp r :
  sp_ok sp -> exists fuel sp', forall f, (fuel <= f)%nat -> add_rect f sp r = Ok sp'.
Proof.
  intros H. destruct (add_rect_term_aux (S (Z.to_nat (rw r + rh r))) (S (length sp)) sp r) as (f & sp' & E);
    [lia|lia|assumption|].
  exists f, sp'. intros f' Hf. eapply add_rect_mono_le; eassumption.
Qed.

Lemma sp_ok_nil : sp_ok [].
Proof. split; constructor. Qed.

Lemma add_rects_total_ok rs : forall sp, sp_ok sp ->
  exists fuel sp', (forall f, (fuel <= f)%nat -> add_rects f sp rs = Ok sp') /\ sp_ok sp' /\
     forall p, in_union sp' p = in_union sp p || existsb (fun r => rvalid r && pt_in r p) rs.
Proof.
  induction rs as [|r rs IH]; intros sp Hok.
  - exists 0%nat, sp. split; [reflexivity|]. split; [assumption|]. intros; cbn. now rewrite orb_false_r.
  - destruct (add_rect_total sp r Hok) as (f1 & sp1 & H1).
    pose proof (add_rect_ok f1 sp r sp1 Hok (H1 f1 (Nat.le_refl _))) as [Hok1 HU1].
    destruct (IH sp1 Hok1) as (f2 & sp2 & H2 & Hok2 & HU2).
    exists (Nat.max f1 f2), sp2. split; [|split; [assumption|]].
    + intros f Hf. unfold add_rects. cbn [fold_left bind]. rewrite H1 by lia. apply H2; lia.
    + intros p. rewrite HU2, HU1. cbn [existsb]. now rewrite orb_assoc.
Qed.

(** a point with rvalid false has no points anyway *)
Lemma pt_in_valid r p : pt_in r p = true -> rvalid r = true.
Proof. unfold pt_in, rvalid. lia. Qed.

Lemma valid_and_pt r p : rvalid r && pt_in r p = pt_in r p.
Proof. destruct (pt_in r p) eqn:E; [rewrite (pt_in_valid _ _ E)|destruct (rvalid r)]; reflexivity. Qed.


Lemma filter_all {A} (f : A -> bool) l : (forall x, In x l -> f x = true) -> filter f l = l.
Proof.
  induction l as [|a l IH]; intros H; cbn; [reflexivity|].
  rewrite (H a) by now left. f_equal. apply IH; intros; apply H; now right.
Qed.

Theorem coverage_exact_lemma rs q :
  rvalid q = true ->
  exists fuel sp, (forall f, (fuel <= f)%nat -> add_rects f [] rs = Ok sp) /\
    calc_area sp q = count (fun p => existsb (fun r => pt_in r p) rs) (lattice q) /\
    (is_completely_covered sp q = true <->
       forall x y, pt_in q (x, y) = true -> exists r, In r rs /\ pt_in r (x, y) = true).
Proof.
  intros Hq. destruct (add_rects_total_ok rs [] sp_ok_nil) as (f & sp & H1 & [Hv Hd] & HU).
  exists f, sp. split; [assumption|].
  assert (Ha : calc_area sp q = count (fun p => existsb (fun r => pt_in r p) rs) (lattice q)).
  { rewrite calc_area_spec by assumption. apply count_ext. intros p _. rewrite HU. cbn.
    clear. induction rs as [|r rs IH]; cbn; [reflexivity|]. now rewrite IH, valid_and_pt. }
  split; [assumption|].
  unfold is_completely_covered. rewrite Hq; cbn [negb]. rewrite Z.eqb_eq, Ha.
  rewrite <- (lattice_length q Hq). split.
  - intros Hc x y Hp. apply in_lattice in Hp; [|assumption].
    pose proof (count_full _ _ Hc _ Hp) as He. cbn in He. apply existsb_exists in He. exact He.
  - intros Hall. unfold count. do 2 f_equal. apply filter_all.
    intros [x y] Hp. apply in_lattice in Hp; [|assumption].
    destruct (Hall x y Hp) as (r & Hr & Hpr). apply existsb_exists. eauto.
Qed.
