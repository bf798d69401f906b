(** Counting the layers of the pyramid. *)
From Verif Require Import Base RectModel CodecModel CoordModel StatModel StatSpec StatProofs LayerProofs.
From Coq Require Import Sorted Permutation.
Open Scope Z_scope.

Lemma same_layer_eq a b : same_layer a b = true <-> a = b.
Proof. destruct a as [a1 a2], b as [b1 b2]. unfold same_layer. cbn [fst snd]. split; [intros H; f_equal; lia|intros [= -> ->]; lia]. Qed.
Lemma on_layer_eq i e : on_layer i e = true <-> layer_of e = i.
Proof. destruct i as [b k]. unfold on_layer. destruct (layer_of e) as [b' k']. cbn [fst snd]. split; [intros H; f_equal; lia|intros [= -> ->]; lia]. Qed.
Lemma on_layer_neq i e : layer_of e <> i -> on_layer i e = false.
Proof. intros H. apply not_true_is_false. rewrite on_layer_eq. exact H. Qed.

Lemma update_layers_fst v i : In i (map fst v) -> map fst (update_layers v i) = map fst v.
Proof.
  induction v as [|[j n] v IH]; cbn [map fst In update_layers]; [contradiction|]. intros H. destruct (same_layer i j) eqn:E; cbn [map fst]; [reflexivity|].
  f_equal. apply IH. destruct H as [->|H]; [|exact H]. exfalso. rewrite (proj2 (same_layer_eq i i) eq_refl) in E. discriminate.
Qed.
Lemma update_layers_new v i : ~ In i (map fst v) -> update_layers v i = v ++ [(i, 1)].
Proof.
  induction v as [|[j n] v IH]; cbn [map fst In update_layers app]; [reflexivity|]. intros H. destruct (same_layer i j) eqn:E; [apply same_layer_eq in E; subst; tauto|].
  f_equal. apply IH. tauto.
Qed.
Lemma update_layers_In v i j n : NoDup (map fst v) -> In i (map fst v) -> In (j, n) (update_layers v i) -> exists k, In (j, k) v /\ n = if same_layer i j then k + 1 else k.
Proof.
  induction v as [|[j0 n0] v IH]; cbn [map fst In update_layers]; [contradiction|]. intros ND H X. apply NoDup_cons_iff in ND. destruct ND as [N1 N2]. destruct (same_layer i j0) eqn:E.
  - apply same_layer_eq in E. subst j0. cbn [In] in X. destruct X as [X|X].
    + injection X as <- <-. exists n0. split; [now left|]. rewrite (proj2 (same_layer_eq i i) eq_refl). reflexivity.
    + exists n. split; [now right|]. destruct (same_layer i j) eqn:E; [|reflexivity]. apply same_layer_eq in E. subst j. exfalso. apply N1. apply in_map_iff. exists (i, n). auto.
  - cbn [In] in X. destruct X as [X|X].
    + injection X as <- <-. exists n0. rewrite E. auto.
    + destruct H as [->|H]; [rewrite (proj2 (same_layer_eq i i) eq_refl) in E; discriminate|]. destruct (IH N2 H X) as (k & K1 & K2). exists k. auto.
Qed.

Lemma update_layers_ok es v e : layers_counted es v -> layers_counted (es ++ [e]) (update_layers v (layer_of e)).
Proof.
  intros (N & I & C). destruct (in_dec (fun a b : Z * Z => ltac:(decide equality; apply Z.eq_dec) : {a = b} + {a <> b}) (layer_of e) (map fst v)) as [H|H].
  - unfold layers_counted. rewrite update_layers_fst by exact H. split; [exact N|]. split.
    + intros i. rewrite I. split; [intros (x & X & Y); exists x; split; [apply in_or_app; now left|exact Y]|].
      intros (x & X & Y). apply in_app_or in X. destruct X as [X|[<-|[]]]; [eauto|]. subst i. apply I in H. exact H.
    + intros i n X. destruct (update_layers_In v _ i n N H X) as (k & K1 & ->). rewrite filter_app, app_length. rewrite (C _ _ K1). cbn [filter]. destruct (same_layer (layer_of e) i) eqn:E.
      * apply same_layer_eq in E. rewrite (proj2 (on_layer_eq i e) E). cbn [length]. lia.
      * assert (layer_of e <> i) by (intros Y; apply same_layer_eq in Y; congruence). rewrite on_layer_neq by assumption. cbn [length]. lia.
  - rewrite update_layers_new by exact H. unfold layers_counted. rewrite map_app. cbn [map fst]. split; [|split].
    + apply Permutation_NoDup with (layer_of e :: map fst v); [apply Permutation_cons_append|]. constructor; assumption.
    + intros i. rewrite in_app_iff, I. cbn [In]. split.
      * intros [(x & X & Y)|[<-|[]]]; [exists x; split; [apply in_or_app; now left|exact Y]|exists e; split; [apply in_or_app; right; now left|reflexivity]].
      * intros (x & X & Y). apply in_app_or in X. destruct X as [X|[<-|[]]]; [left; eauto|right; now left].
    + intros i n X. rewrite filter_app, app_length. cbn [filter]. apply in_app_or in X. destruct X as [X|[X|[]]].
      * rewrite (C _ _ X), on_layer_neq; [cbn [length]; lia|]. intros Y. apply H. rewrite Y. apply in_map_iff. exists (i, n). auto.
      * injection X as <- <-. rewrite (proj2 (on_layer_eq _ _) eq_refl). cbn [length]. assert (Z0 : filter (on_layer (layer_of e)) es = []).
        { destruct (filter (on_layer (layer_of e)) es) as [|x l] eqn:E; [reflexivity|]. exfalso. apply H, I. assert (Hx : In x (x :: l)) by now left. rewrite <- E in Hx. apply filter_In in Hx. exists x. split; [tauto|]. apply on_layer_eq. tauto. }
        rewrite Z0. reflexivity.
Qed.
Lemma no_layers : layers_counted [] [].
Proof. split; [constructor|]. split; [|contradiction]. intros i. split; [contradiction|]. intros (e & [] & _). Qed.

Lemma update_pyr_ok es p e : pyr_with layers_counted es p -> entry_ok e -> pyr_with layers_counted (es ++ [e]) (update_pyr p e).
Proof.
  intros (S1 & S2 & S3) (_ & Hw & Hh & Hsw & Hsh & _). unfold update_pyr. rewrite layer_exact by assumption.
  change (match scene_of e with Some s => s | None => INT_MAX end) with (pyr_key e). set (s := pyr_key e).
  assert (X1 : filter (fun x => pyr_key x =? s) (es ++ [e]) = filter (fun x => pyr_key x =? s) es ++ [e]) by (rewrite filter_app; cbn [filter]; fold s; now rewrite Z.eqb_refl).
  assert (X2 : forall t, t <> s -> filter (fun x => pyr_key x =? t) (es ++ [e]) = filter (fun x => pyr_key x =? t) es) by (intros t Ht; rewrite filter_app; cbn [filter]; fold s; replace (s =? t) with false by lia; apply app_nil_r).
  assert (K : forall t, (exists x, In x (es ++ [e]) /\ pyr_key x = t) <-> t = s \/ exists x, In x es /\ pyr_key x = t).
  { intros t. split.
    - intros (x & X & Y). apply in_app_or in X. destruct X as [X|[<-|[]]]; [right; eauto|left; symmetry; exact Y].
    - intros [->|(x & X & Y)]; [exists e; split; [apply in_or_app; right; now left|reflexivity]|exists x; split; [apply in_or_app; now left|exact Y]]. }
  destruct (afind s p) as [v|] eqn:Ef.
  - apply afind_In in Ef; [|exact S1]. assert (Is : In s (map fst p)) by (apply map_fst_In; eauto). split; [apply aset_sorted; exact S1|]. split.
    + intros t. rewrite aset_fst, K, S2. split; [auto|]. intros [->|H]; [apply S2; exact Is|exact H].
    + intros t w H. apply aset_In in H; [|exact S1|exact Is]. destruct H as [H|[H Ht]].
      * injection H as -> ->. rewrite X1. apply update_layers_ok. apply S3. exact Ef.
      * cbn [fst] in Ht. rewrite X2 by exact Ht. apply S3. exact H.
  - pose proof Ef as Ef'. apply afind_None in Ef'. split; [apply ainsert_sorted; exact S1|]. split.
    + intros t. rewrite K, <- S2, map_fst_In. split.
      * intros (c & H). apply ainsert_In in H; [|exact Ef]. destruct H as [H|H]; [injection H; auto|right; apply map_fst_In; eauto].
      * intros [->|H]; [eexists; apply ainsert_In; [exact Ef|left; reflexivity]|]. apply map_fst_In in H. destruct H as (c & H). exists c. apply ainsert_In; [exact Ef|right; exact H].
    + intros t w H. apply ainsert_In in H; [|exact Ef]. destruct H as [H|H].
      * injection H as -> ->. rewrite X1. assert (Z0 : filter (fun x => pyr_key x =? s) es = []).
        { destruct (filter (fun x => pyr_key x =? s) es) as [|x l] eqn:E; [reflexivity|]. exfalso. apply Ef', S2. assert (Hx : In x (x :: l)) by now left. rewrite <- E in Hx. apply filter_In in Hx. exists x. split; [tauto|lia]. }
        rewrite Z0. apply (update_layers_ok [] [] e no_layers).
      * assert (Ht : t <> s) by (intros ->; apply Ef', map_fst_In; eauto). rewrite X2 by exact Ht. apply S3. exact H.
Qed.

(** ** sorting *)
Definition codes : list (Z * Z) := (0, 0) :: (255, 255) :: map fst known_layers.
Lemma layer_of_code e : In (layer_of e) codes.
Proof.
  unfold layer_of, codes. destruct (layer0 e); [now left|]. destruct (find (fits_layer e) known_layers) as [[[b k] t]|] eqn:E; [|right; now left].
  apply find_some in E. right. right. apply in_map_iff. exists (b, k, t). tauto.
Qed.
Lemma less_rank a b : In a codes -> In b codes -> a <> b -> layer_less a b = (rank a <? rank b) /\ rank a <> rank b.
Proof.
  intros Ha Hb N.
  assert (C : forallb (fun a => forallb (fun b => same_layer a b || (Bool.eqb (layer_less a b) (rank a <? rank b) && negb (rank a =? rank b))) codes) codes = true) by (vm_compute; reflexivity).
  rewrite forallb_forall in C. specialize (C a Ha). rewrite forallb_forall in C. specialize (C b Hb). apply orb_true_iff in C. destruct C as [C|C]; [apply same_layer_eq in C; contradiction|].
  apply andb_true_iff in C. destruct C as [C1 C2]. apply eqb_prop in C1. split; [exact C1|lia].
Qed.
Lemma insert_layer_perm x l : Permutation (insert_layer x l) (x :: l).
Proof. induction l as [|y l IH]; cbn [insert_layer]; [reflexivity|]. destruct (layer_less (fst x) (fst y)); [reflexivity|]. rewrite IH. apply perm_swap. Qed.
Lemma sort_layers_perm l : Permutation (sort_layers l) l.
Proof. unfold sort_layers. induction l as [|x l IH]; cbn [fold_right]; [reflexivity|]. rewrite insert_layer_perm. now constructor. Qed.
Lemma insert_layer_sorted x l : Forall (fun y => In (fst y) codes) (x :: l) -> ~ In (fst x) (map fst l) -> layers_sorted l -> layers_sorted (insert_layer x l).
Proof.
  unfold layers_sorted. induction l as [|y l IH]; intros C N S; cbn [insert_layer]; [repeat constructor|].
  apply Forall_cons_iff in C. destruct C as [Cx C]. pose proof C as C0. apply Forall_cons_iff in C. destruct C as [Cy C]. cbn [map In] in N.
  assert (Nxy : fst x <> fst y) by (intros E; apply N; left; congruence). destruct (less_rank (fst x) (fst y) Cx Cy Nxy) as [L R].
  pose proof S as S0. apply StronglySorted_inv in S. destruct S as [S F]. rewrite L. destruct (rank (fst x) <? rank (fst y)) eqn:E.
  - constructor; [exact S0|]. constructor; [lia|]. eapply Forall_impl; [|exact F]. cbv beta. lia.
  - constructor; [apply IH; [constructor; assumption|tauto|exact S]|]. rewrite Forall_forall in *. intros z Hz. apply (Permutation_in _ (insert_layer_perm x l)) in Hz. destruct Hz as [<-|Hz]; [lia|]. apply F. exact Hz.
Qed.
Lemma sort_layers_sorted l : Forall (fun y => In (fst y) codes) l -> NoDup (map fst l) -> layers_sorted (sort_layers l).
Proof.
  unfold sort_layers. induction l as [|x l IH]; intros C N; cbn [fold_right]; [constructor|]. cbn [map] in N. apply NoDup_cons_iff in N. destruct N as [N1 N2].
  pose proof C as C0. apply Forall_cons_iff in C. destruct C as [Cx C]. change (fold_right insert_layer [] l) with (sort_layers l) in *. apply insert_layer_sorted; [| |apply IH; assumption].
  - constructor; [exact Cx|]. rewrite Forall_forall in *. intros y Hy. apply C. apply (Permutation_in _ (sort_layers_perm l)). exact Hy.
  - intros H. apply N1. apply (Permutation_in _ (Permutation_map fst (sort_layers_perm l))). exact H.
Qed.
Lemma sort_counted es v : layers_counted es v -> layers_counted es (sort_layers v) /\ layers_sorted (sort_layers v).
Proof.
  intros (N & I & C). pose proof (sort_layers_perm v) as P. split.
  - split; [apply (Permutation_NoDup (Permutation_sym (Permutation_map fst P))); exact N|]. split.
    + intros i. rewrite <- I. split; apply Permutation_in; [apply Permutation_map; exact P|apply Permutation_sym, Permutation_map; exact P].
    + intros i n H. apply C. apply (Permutation_in _ P). exact H.
  - apply sort_layers_sorted; [|exact N]. apply Forall_forall. intros [i n] H. cbn [fst]. assert (Hi : In i (map fst v)) by (apply in_map_iff; exists (i, n); auto). apply I in Hi. destruct Hi as (e & _ & <-). apply layer_of_code.
Qed.
Lemma sort_pyr_fst p : map fst (sort_pyr p) = map fst p.
Proof. unfold sort_pyr. rewrite map_map. apply map_ext. intros [s v]. reflexivity. Qed.
Lemma sort_pyr_ok es p : pyr_with layers_counted es p -> pyramid es (sort_pyr p).
Proof.
  intros (S1 & S2 & S3). unfold pyramid, pyr_with. rewrite sort_pyr_fst. split; [exact S1|]. split; [exact S2|].
  intros s v H. unfold sort_pyr in H. apply in_map_iff in H. destruct H as ([s' w] & E & H). injection E as -> <-. apply sort_counted. apply S3. exact H.
Qed.
Lemma pyramid_counted es p : pyramid es p -> pyr_with layers_counted es p.
Proof. intros (S1 & S2 & S3). split; [exact S1|]. split; [exact S2|]. intros s v H. apply (S3 s v H). Qed.

(** ** all statistics *)
Definition stats_inv (es : list sbe) (st : stats) : Prop := describes_dim_m es st /\ length (st_dims st) = 9%nat.
Lemma stats0_inv : stats_inv [] stats0.
Proof.
  split; [|reflexivity]. split; [reflexivity|]. split; [left; split; reflexivity|]. split; [left; split; reflexivity|]. split.
  - intros i Hi. cbn [st_dims stats0]. rewrite nth_repeat. reflexivity.
  - split; [left; repeat split; reflexivity|]. split; [constructor|]. split; [|contradiction]. intros s. split; [contradiction|]. intros H. apply H. reflexivity.
Qed.
Lemma update_stats_ok es u e : stats_inv es (u_st u) -> Forall entry_ok (es ++ [e]) -> bounds_fit (es ++ [e]) ->
  exists u', update_stats u e = Ok u' /\ stats_inv (es ++ [e]) (u_st u') /\ u_pyr u' = update_pyr (u_pyr u) e /\ u_dirty u' = true.
Proof.
  intros ((H1 & H2 & H3 & H4 & H5 & H6) & HL) O F. unfold update_stats.
  assert (OB : Forall box_ok (es ++ [e])) by (eapply Forall_impl; [|exact O]; intros; now apply entry_box). assert (FB := bounds_box _ F).
  destruct (update_box_ok es (st_box (u_st u)) e H2 OB FB) as (b & Eb & Bb). rewrite Eb. cbn [bind].
  destruct (update_box0 (es ++ [e]) es (st_box0 (u_st u)) e (fun x h => h) OB FB H3) as (b0 & Eb0 & Bb0). rewrite Eb0. cbn [bind].
  destruct (dims_ok es (st_dims (u_st u)) e HL H4 O F) as (ds & Ed & Ld & Id). rewrite Ed. cbn [bind].
  destruct (scenes_ok es (st_scenes (u_st u)) e H6 OB FB) as (sc & Es & Bs). rewrite Es. cbn [bind].
  eexists. split; [reflexivity|]. cbn [u_st u_pyr u_dirty]. split; [|split; reflexivity]. split; [|exact Ld]. unfold describes_dim_m, describes_m. cbn [st_count st_box st_box0 st_dims st_minm st_maxm st_scenes].
  split; [rewrite H1, app_length; cbn [length]; lia|]. split; [exact Bb|]. split; [exact Bb0|]. split; [exact Id|]. split; [|exact Bs].
  apply Forall_app in O. destruct O as [_ O]. apply Forall_cons_iff in O. destruct O as [(L & _ & _ & _ & _ & _ & _ & M & _) _]. apply update_m_ok; assumption.
Qed.

Lemma update_all_app es es' : forall u, update_all u (es ++ es') = let* u' := update_all u es in update_all u' es'.
Proof. induction es as [|e es IH]; intros u; cbn [app update_all]; [reflexivity|]. destruct (update_stats u e); cbn [bind]; [apply IH|reflexivity..]. Qed.
Lemma bounds_fit_sub es es' : (forall e, In e es' -> In e es) -> bounds_fit es -> bounds_fit es'.
Proof. intros S H a b Ha Hb. apply H; auto. Qed.

Lemma update_all_ok es : forall u, stats_inv [] (u_st u) -> Forall entry_ok es -> bounds_fit es ->
  exists u', update_all u es = Ok u' /\ stats_inv es (u_st u') /\ (forall es0, pyr_with layers_counted es0 (u_pyr u) -> pyr_with layers_counted (es0 ++ es) (u_pyr u')) /\ (u_dirty u' = true \/ (es = [] /\ u' = u)).
Proof.
  induction es as [|e es IH] using rev_ind; intros u I O F.
  - exists u. split; [reflexivity|]. split; [exact I|]. split; [intros es0; rewrite app_nil_r; auto|auto].
  - rewrite update_all_app. pose proof O as O0. apply Forall_app in O. destruct O as [O Oe].
    destruct (IH u I O) as (u1 & E1 & I1 & P1 & _); [eapply bounds_fit_sub; [|exact F]; intros; apply in_or_app; now left|]. rewrite E1. cbn [bind update_all].
    destruct (update_stats_ok es u1 e I1 O0 F) as (u2 & E2 & I2 & P2 & D2). rewrite E2. cbn [bind]. exists u2. split; [reflexivity|]. split; [exact I2|]. split; [|now left].
    intros es0 H0. rewrite P2, app_assoc. apply update_pyr_ok; [apply P1; exact H0|]. apply Forall_cons_iff in Oe. apply Oe.
Qed.
Lemma no_pyr : pyr_with layers_counted [] [].
Proof. split; [constructor|]. split; [|contradiction]. intros s. split; [contradiction|]. intros (e & [] & _). Qed.

Lemma open_stats_ok es : Forall entry_ok es -> bounds_fit es ->
  exists u, open_stats es = Ok u /\ describes_dim_m es (get_stats u) /\ pyramid es (fst (get_pyr u)).
Proof.
  intros O F. unfold open_stats. destruct (update_all_ok es updater0 stats0_inv O F) as (u & E & [I _] & P & D). rewrite E. cbn [bind]. eexists. split; [reflexivity|].
  specialize (P [] no_pyr). cbn [app] in P. unfold get_stats, get_pyr, consolidate. destruct (u_dirty u) eqn:Du; cbn [u_st u_pyr u_dirty fst].
  - split; [exact I|]. apply sort_pyr_ok, pyramid_counted, sort_pyr_ok. exact P.
  - rewrite Du. cbn [u_pyr fst]. split; [exact I|]. destruct D as [D|[-> ->]]; [congruence|]. cbn [updater0 u_pyr]. apply (sort_pyr_ok [] [] no_pyr).
Qed.
