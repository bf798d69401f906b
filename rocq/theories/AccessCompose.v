(** The pictures delivered by the tile accessor and the pyramid accessor. *)
From Verif Require Import Base RectModel CodecModel CopyModel MemProofs CopyProofs ComposeExamples TextModel CoordModel CoordSpec CoordProofs StatModel StatSpec StatProofs LayerProofs PixelModel PixelSpec FloatProofs FillProofs AccessModel AccessSpec AccessProofs.
From Coq Require Import Permutation Sorted.
Open Scope Z_scope.

(** ** Lists *)
Lemma find_rev_top {A} (R : A -> A -> Prop) (P : A -> bool) l a : StronglySorted R l -> find P (rev l) = Some a ->
  In a l /\ P a = true /\ forall b, In b l -> P b = true -> b = a \/ R b a.
Proof.
  induction l as [|x l IH]; intros S H; [discriminate|]. inversion S as [|? ? S1 S2]; subst. cbn [rev] in H. rewrite find_app in H.
  destruct (find P (rev l)) as [b|] eqn:E.
  - injection H as ->. destruct (IH S1 eq_refl) as (I1 & I2 & I3). split; [now right|]. split; [exact I2|]. intros b [<-|Hb] Pb; [|auto]. right. rewrite Forall_forall in S2. auto.
  - cbn [find] in H. destruct (P x) eqn:Px; [|discriminate]. injection H as ->. split; [now left|]. split; [exact Px|]. intros b [<-|Hb] Pb; [now left|].
    exfalso. apply in_rev in Hb. rewrite (find_none _ _ E b Hb) in Pb. discriminate.
Qed.
Lemma find_none_rev {A} (P : A -> bool) l : find P (rev l) = None -> forall b, In b l -> P b = false.
Proof. intros H b Hb. apply in_rev in Hb. exact (find_none _ _ H b Hb). Qed.

Lemma indexed_In {A} (l : list A) : forall k j x, In (j, x) (indexed k l) <-> k <= j /\ nth_error l (Z.to_nat (j - k)) = Some x.
Proof.
  induction l as [|a l IH]; intros k j x.
  - split; [intros []|]. intros [_ H]. destruct (Z.to_nat (j - k)); discriminate.
  - rewrite indexed_cons. cbn [In]. rewrite IH. destruct (Z.eq_dec j k) as [->|N].
    + replace (k - k) with 0 by lia. cbn [Z.to_nat nth_error]. split; [intros [H|[H _]]; [split; [lia|congruence]|lia]|intros [_ H]; left; congruence].
    + split.
      * intros [H|[H1 H2]]; [congruence|]. split; [lia|]. replace (Z.to_nat (j - k)) with (S (Z.to_nat (j - (k + 1)))) by lia. exact H2.
      * intros [H1 H2]. right. split; [lia|]. replace (Z.to_nat (j - k)) with (S (Z.to_nat (j - (k + 1)))) in H2 by lia. exact H2.
Qed.
Lemma indexed_sorted {A} (l : list A) : forall k, StronglySorted (fun a b => fst a < fst b) (indexed k l).
Proof.
  induction l as [|a l IH]; intros k; [constructor|]. rewrite indexed_cons. constructor; [apply IH|]. apply Forall_forall. intros [j x] H. apply indexed_In in H. cbn [fst]. lia.
Qed.
Lemma filter_sorted {A} (R : A -> A -> Prop) (P : A -> bool) l : StronglySorted R l -> StronglySorted R (filter P l).
Proof.
  induction 1 as [|a l S IH F]; cbn [filter]; [constructor|]. destruct (P a); [|exact IH]. constructor; [exact IH|]. rewrite Forall_forall in *. intros x H. apply filter_In in H. apply F, H.
Qed.
Lemma StronglySorted_impl {A} (R Q : A -> A -> Prop) l : (forall a b, R a b -> Q a b) -> StronglySorted R l -> StronglySorted Q l.
Proof. intros H. induction 1 as [|a l S IH F]; constructor; [exact IH|]. rewrite Forall_forall in *. auto. Qed.
Lemma calls_all {A} (l : list (Z * A)) : calls (fun _ _ => true) l = l.
Proof. induction l as [|[k x] l IH]; [reflexivity|]. cbn [calls]. rewrite IH. reflexivity. Qed.

(** ** Composition of a sorted list *)
Lemma compose_picture (f : Z * sbinfo -> tile) R d l x0 y0 : StronglySorted R l -> bmp_wf d -> (forall k i, In (k, i) l -> tile_wf d (f (k, i))) ->
  exists m, compose_tiles d (map f l) x0 y0 = Ok (bwith d m) /\
    picture (fun k i => In (k, i) l) (fun k i => f (k, i)) (fun a b => b = a \/ R b a) (pix d) (bwith d m) x0 y0.
Proof.
  intros S W F. destruct (compose_tiles_ok (map f l) d x0 y0 W) as (d' & E & (m & ->) & P & _).
  - apply Forall_forall. intros t H. apply in_map_iff in H. destruct H as ([k i] & <- & H). auto.
  - exists m. split; [exact E|]. intros x y Hx Hy p. specialize (P x y Hx Hy). fold p in P. unfold topmost in P. rewrite <- map_rev, find_map in P.
    destruct (find (fun t => shows (f t) p) (rev l)) as [[k i]|] eqn:T; cbn [option_map] in P.
    + destruct (find_rev_top R _ _ _ S T) as (I1 & I2 & I3). left. exists k, i. split; [exact I1|]. split; [exact I2|]. split; [exact P|]. intros k' i' H1 H2. apply I3; assumption.
    + right. split; [|exact P]. intros k i H. exact (find_none_rev _ _ T (k, i) H).
Qed.

Lemma picture_impl (cand cand' : Z -> sbinfo -> Prop) t t' (ab ab' : Z * sbinfo -> Z * sbinfo -> Prop) (back back' : Z -> Z -> bytes) d x0 y0 :
  (forall k i, cand k i -> cand' k i) ->
  (forall k i x y, 0 <= x < bw d -> 0 <= y < bh d -> cand' k i -> shows (t' k i) (x + x0, y + y0) = true -> cand k i) ->
  (forall k i, cand k i -> t k i = t' k i) ->
  (forall a b, cand (fst a) (snd a) -> cand (fst b) (snd b) -> ab a b -> ab' a b) -> (forall x y, 0 <= x < bw d -> 0 <= y < bh d -> back x y = back' x y) ->
  picture cand t ab back d x0 y0 -> picture cand' t' ab' back' d x0 y0.
Proof.
  intros C C' T A B H x y Hx Hy p. specialize (H x y Hx Hy). cbv zeta in H. fold p in H. destruct H as [(k & i & H1 & H2 & H3 & H4)|[H1 H2]].
  - left. exists k, i. rewrite <- (T k i H1). split; [auto|]. split; [exact H2|]. split; [exact H3|]. intros k' i' Hc Hs. assert (Hc' : cand k' i') by (eapply C'; eassumption). apply A; [exact H1|exact Hc'|]. apply H4; [exact Hc'|]. rewrite (T _ _ Hc'). exact Hs.
  - right. split; [|rewrite <- B by assumption; exact H2]. intros k i Hc. destruct (shows (t' k i) p) eqn:E; [|reflexivity]. assert (Hc' : cand k i) by (eapply C'; eassumption). rewrite <- (T _ _ Hc') in E. rewrite (H1 k i Hc') in E. discriminate.
Qed.

Lemma clear_ok bg dst : bmp_wf dst -> background_ok bg dst -> exists m back, clear bg dst = Ok (bwith dst m) /\ background bg dst back /\ forall x y, 0 <= x < bw dst -> 0 <= y < bh dst -> pix (bwith dst m) x y = back x y.
Proof.
  intros W B. destruct bg as [[t c]|]; cbn [clear background background_ok] in *.
  - destruct (fill_px_ok t c dst W (proj1 B) (proj2 B)) as (v & d' & E & S & (m & ->) & P & _). exists m, (fun _ _ => v). split; [exact E|]. split; [exists v; auto|exact P].
  - exists (bdata dst), (pix dst). split; [destruct dst; reflexivity|]. split; [reflexivity|]. destruct dst; reflexivity.
Qed.

Lemma least_layer_unique factor n a b : 2 <= factor -> least_layer factor n a -> least_layer factor n b -> a = b.
Proof.
  intros Hf (A0 & A1 & A2) (B0 & B1 & B2). destruct (Z.lt_trichotomy a b) as [H|[H|H]]; [|exact H|]; exfalso.
  - destruct B2 as [->|B2]; [lia|]. assert (factor ^ a <= factor ^ (b - 1)) by (apply Z.pow_le_mono_r; lia). lia.
  - destruct A2 as [->|A2]; [lia|]. assert (factor ^ b <= factor ^ (a - 1)) by (apply Z.pow_le_mono_r; lia). lia.
Qed.

Lemma m_key_above a b : m_key b <= m_key a -> m_above (snd a) (snd b).
Proof. unfold m_key, m_above, no_m, valid_m, INT_MIN, INT_MAX. intros H Hb. destruct (_ && _) eqn:Eb in H; destruct (_ && _) eqn:Ea in H; lia. Qed.
Lemma m_above_refl i : m_above i i.
Proof. unfold m_above, no_m. lia. Qed.

Section Acc.
  Variable sort : list (Z * sbinfo) -> list (Z * sbinfo).
  Hypothesis Hsort : sorts_by_m sort.
  Variable bitmap : Z -> bmp * option mask * copy_kind.

  Lemma tile_wf_at d k x y : tile_wf d (tile_at bitmap k 0 0) -> tile_wf d (tile_at bitmap k x y).
  Proof. unfold tile_at. destruct (bitmap k) as [[b mk] kind]. intros H. exact H. Qed.

  (** the sorted subset *)
  Lemma subset_sorted (sort_m : bool) l : StronglySorted (fun a b : Z * sbinfo => fst a < fst b) l ->
    StronglySorted (fun a b => drawn_above sort_m b a) (if sort_m then sort l else l) /\ forall x, In x (if sort_m then sort l else l) <-> In x l.
  Proof.
    intros S. destruct sort_m; unfold drawn_above.
    - destruct (Hsort l) as [P Q]. split; [eapply StronglySorted_impl; [|exact Q]; intros a b; apply m_key_above|]. intros x. split; intros H; [eapply Permutation_in; [apply Permutation_sym|]|eapply Permutation_in]; eassumption.
    - split; [|reflexivity]. eapply StronglySorted_impl; [|exact S]. intros a b H. cbv beta iota. cbv beta in H. clear - H. lia.
  Qed.
  Lemma selection_sorted plane roi only0 (P : Z * sbinfo -> bool) dir :
    StronglySorted (fun a b : Z * sbinfo => fst a < fst b) (filter P (enum_subset plane roi only0 (fun _ _ => true) 0 dir)).
  Proof. rewrite enum_subset_exact, calls_all. apply filter_sorted, filter_sorted, indexed_sorted. Qed.
  Lemma sub_block_indexed dir k i : In (k, i) (indexed 0 dir) <-> sub_block dir k i.
  Proof. rewrite indexed_In. unfold sub_block. rewrite Z.sub_0_r. reflexivity. Qed.

  Lemma tile_subset_In sort_m plane roi dir k i : (forall k i, sub_block dir k i -> sizes_logical i) ->
    In (k, i) (tile_subset sort sort_m plane roi dir) <-> plane_tile plane dir k i /\ do_intersect roi (sb_rect i) = true.
  Proof.
    intros Z. unfold tile_subset. cbv zeta. rewrite (proj2 (subset_sorted sort_m _ (selection_sorted (Some plane) None true _ dir))). rewrite filter_In, enum_subset_exact, calls_all, filter_In, sub_block_indexed. cbn [snd].
    unfold selected, plane_tile. cbn [negb orb]. rewrite !andb_true_iff, compare_coordinate_spec. split.
    - intros ((H1 & (H2 & H3) & _) & H4). destruct (Z _ _ H1) as [W H]. apply on_layer0_spec in H2; [|assumption..]. tauto.
    - intros ((H1 & H3 & H5 & H6) & H4). destruct (Z _ _ H1) as [W H]. repeat (split; try assumption; try reflexivity). apply on_layer0_spec; auto.
  Qed.

  Lemma at_home_rect k i dst : bitmap_ok bitmap dst k i -> sb_pw i = rw (sb_rect i) -> sb_ph i = rh (sb_rect i) -> tile_rect (at_home bitmap k i) = sb_rect i.
  Proof.
    intros (_ & B1 & B2) H1 H2. unfold at_home. destruct (bitmap k) as [[b mk] kind]. cbn [fst] in B1, B2. unfold tile_rect. cbn [t_x t_y t_bmp]. rewrite B1, B2, H1, H2. destruct (sb_rect i); reflexivity.
  Qed.

  Theorem tile_get_ok bnds bg sort_m plane x0 y0 dst dir :
    check_plane bnds plane = Ok tt -> bmp_wf dst -> background_ok bg dst -> (forall k i, sub_block dir k i -> sizes_logical i) ->
    (forall k i, plane_tile plane dir k i -> bitmap_ok bitmap dst k i) ->
    exists m back, tile_get sort bitmap bnds bg sort_m plane x0 y0 dst dir = Ok (bwith dst m) /\ background bg dst back /\
      picture (plane_tile plane dir) (at_home bitmap) (drawn_above sort_m) back (bwith dst m) x0 y0.
  Proof.
    intros C W B Zs Bm. unfold tile_get. rewrite C. cbn [bind]. destruct (clear_ok bg dst W B) as (m0 & back & E0 & B0 & P0). rewrite E0. cbn [bind].
    set (roi := mkRect x0 y0 (bw (bwith dst m0)) (bh (bwith dst m0))). set (l := tile_subset sort sort_m plane roi dir).
    assert (In_l : forall k i, In (k, i) l <-> plane_tile plane dir k i /\ do_intersect roi (sb_rect i) = true) by (intros; apply tile_subset_In; exact Zs).
    destruct (compose_picture (fun i => tile_at bitmap (fst i) (rx (sb_rect (snd i))) (ry (sb_rect (snd i)))) (fun a b => drawn_above sort_m b a) (bwith dst m0) l x0 y0) as (m & E & P).
    - apply subset_sorted, selection_sorted.
    - apply bmp_wf_bwith, W.
    - intros k i H. apply tile_wf_bwith. cbn [fst snd]. apply tile_wf_at. apply (Bm k i). apply In_l, H.
    - exists m, back. split; [exact E|]. split; [exact B0|]. change (bwith (bwith dst m0) m) with (bwith dst m) in P. revert P. apply picture_impl.
      + intros k i H. apply In_l, H.
      + intros k i x y Hx Hy Hc Hs. apply In_l. split; [exact Hc|]. apply do_intersect_spec. unfold shows in Hs. apply andb_true_iff in Hs. destruct Hs as [Hs _].
        rewrite (at_home_rect k i dst) in Hs by (try apply Bm; try exact Hc; apply Hc). exists (x + x0), (y + y0). unfold pt_in in Hs. unfold roi. cbn [rx ry rw rh bw bh bwith fst snd] in *. lia.
      + intros k i _. reflexivity.
      + intros [k i] [k' i'] _ _ [H|H]; [|exact H]. injection H as -> ->. unfold drawn_above. destruct sort_m; [apply m_above_refl|lia].
      + intros x y Hx Hy. apply P0; assumption.
  Qed.

  (** the optimisation *)
  Lemma vis_loop_ext roi g g' idxs : (forall i, In i idxs -> g i = g' i) -> forall fuel sp c, vis_loop fuel roi g sp c idxs = vis_loop fuel roi g' sp c idxs.
  Proof.
    induction idxs as [|i idxs IH]; intros H fuel sp c; [reflexivity|]. cbn [vis_loop]. rewrite (H i (or_introl eq_refl)).
    destruct (add_rect fuel sp (g' i)); cbn [bind]; [|reflexivity..]. rewrite !IH by (intros j Hj; apply H; now right). reflexivity.
  Qed.
  Lemma check_visibility_ext fuel roi n g g' : (forall i, (i < n)%nat -> g i = g' i) -> check_visibility fuel roi n g = check_visibility fuel roi n g'.
  Proof.
    intros H. unfold check_visibility. destruct ((n =? 0)%nat || negb (rnonempty roi)); [reflexivity|]. rewrite (vis_loop_ext roi g g'); [reflexivity|]. intros i Hi. apply H. apply in_rev, in_seq in Hi. lia.
  Qed.

  Theorem tile_get_optimised_ok bnds bg sort_m plane x0 y0 dst dir :
    check_plane bnds plane = Ok tt -> bmp_wf dst -> background_ok bg dst -> (forall k i, sub_block dir k i -> sizes_logical i) ->
    (forall k i, plane_tile plane dir k i -> bitmap_ok bitmap dst k i /\ snd (fst (bitmap k)) = None) ->
    exists fuel d m', (forall f, (fuel <= f)%nat -> tile_get_optimised sort bitmap f bnds bg sort_m plane x0 y0 dst dir = Ok d) /\
      tile_get sort bitmap bnds bg sort_m plane x0 y0 dst dir = Ok (bwith dst m') /\
      forall x y, 0 <= x < bw dst -> 0 <= y < bh dst -> pix d x y = pix (bwith dst m') x y.
  Proof.
    intros C W B Zs Bm. unfold tile_get, tile_get_optimised. rewrite C. cbn [bind]. destruct (clear_ok bg dst W B) as (m0 & back & E0 & B0 & P0). rewrite E0. cbn [bind].
    set (roi := mkRect x0 y0 (bw (bwith dst m0)) (bh (bwith dst m0))). set (l := tile_subset sort sort_m plane roi dir). set (no := (0, SbInfo [] (mkRect 0 0 0 0) 0 0 0)).
    set (T := fun i : Z * sbinfo => tile_at bitmap (fst i) (rx (sb_rect (snd i))) (ry (sb_rect (snd i)))).
    assert (In_l : forall k i, In (k, i) l -> plane_tile plane dir k i) by (intros k i H; apply tile_subset_In in H; [apply H|exact Zs]).
    destruct (visibility_unmasked (bwith dst m0) (map T l) x0 y0 (T no)) as (fuel & d1 & d2 & H1 & H2 & H3 & _).
    - apply bmp_wf_bwith, W.
    - apply Forall_forall. intros t H. apply in_map_iff in H. destruct H as ([k i] & <- & H). apply tile_wf_bwith, tile_wf_at. apply (Bm k i). auto.
    - apply Forall_forall. intros t H. apply in_map_iff in H. destruct H as ([k i] & <- & H). destruct (Bm k i (In_l k i H)) as [_ N]. unfold T, tile_at. cbn [fst]. destruct (bitmap k) as [[b mk] kind]. exact N.
    - destruct (compose_tiles_ok (map T l) (bwith dst m0) x0 y0) as (d2' & E2 & (m2 & ->) & _); [apply bmp_wf_bwith, W| |].
      { apply Forall_forall. intros t H. apply in_map_iff in H. destruct H as ([k i] & <- & H). apply tile_wf_bwith, tile_wf_at. apply (Bm k i). auto. }
      assert (d2 = bwith dst m2) by (rewrite H2 in E2; injection E2; auto). subst d2.
      assert (V : forall f, check_visibility f roi (length l) (fun k => sb_rect (snd (nth k l no))) = check_visibility f roi (length (map T l)) (fun i => tile_rect (nth i (map T l) (T no)))).
      { intros f. rewrite map_length. apply check_visibility_ext. intros i Hi. rewrite map_nth. assert (Hn := nth_In l no Hi). destruct (nth i l no) as [k s]. apply In_l in Hn. unfold T. cbn [fst snd].
        change (tile_at bitmap k (rx (sb_rect s)) (ry (sb_rect s))) with (at_home bitmap k s). symmetry. eapply at_home_rect; [apply (Bm k s Hn)|apply Hn|apply Hn]. }
      assert (M : forall vis, map (fun k => let i := nth k l no in tile_at bitmap (fst i) (rx (sb_rect (snd i))) (ry (sb_rect (snd i)))) vis = map (fun i => nth i (map T l) (T no)) vis).
      { intros vis. apply map_ext. intros k. rewrite map_nth. reflexivity. }
      exists fuel, d1, m2. split; [|split; [exact H2|exact H3]].
      intros f Hf. rewrite V. specialize (H1 f Hf). unfold compose_optimised in H1. change (mkRect x0 y0 (bw (bwith dst m0)) (bh (bwith dst m0))) with roi in H1.
      destruct (check_visibility f roi (length (map T l)) _) as [vis| | |]; try discriminate. cbn [bind] in H1 |- *. rewrite M. exact H1.
  Qed.

  (** ** Pyramid accessor *)
  Lemma pyramid_subset_In sort_m plane scenes roi dir k i :
    In (k, i) (pyramid_subset sort sort_m plane scenes roi dir) <-> region_tile plane scenes roi dir k i.
  Proof.
    unfold pyramid_subset. cbv zeta. rewrite (proj2 (subset_sorted sort_m _ (selection_sorted (Some plane) None false _ dir))). rewrite filter_In, enum_subset_exact, calls_all, filter_In, sub_block_indexed. cbn [snd].
    unfold selected, region_tile. cbn [negb orb]. rewrite !andb_true_iff, compare_coordinate_spec, do_intersect_spec. unfold scene_allowed.
    assert (E : (match scenes with Some p => match tget (sb_coord i) 5 with Some s => p s | None => true end | None => true end) = true <->
                (forall p s, scenes = Some p -> tget (sb_coord i) 5 = Some s -> p s = true)).
    { destruct scenes as [p|]; [|split; [congruence|reflexivity]]. destruct (tget (sb_coord i) 5) as [s|]; [|split; [congruence|reflexivity]]. split; [intros H p' s' E1 E2; congruence|auto]. }
    destruct E as [Ea Eb]. split; [intros ((H1 & (H2 & H3) & H4) & H5 & H6); auto|intros (H1 & H2 & H3 & H4)]. split; [repeat (split; auto)|split; auto].
  Qed.

  Lemma by_layer_ok fuel factor layer l : (32 <= fuel)%nat -> 2 <= factor -> (forall k i, In (k, i) l -> sizes_ok i /\ sb_ratio i * factor <= INT_MAX) ->
    exists l', by_layer fuel factor layer l = Ok l' /\ (forall k i, In (k, i) l' <-> In (k, i) l /\ least_layer factor (sb_ratio i) layer) /\
      forall R, StronglySorted R l -> StronglySorted R l'.
  Proof.
    intros Hf Hm. induction l as [|[k i] l IH]; intros H.
    - exists []. split; [reflexivity|]. split; [intros; split; [intros []|intros [[] _]]|auto].
    - destruct IH as (l' & E & I & St); [intros; apply (H k0); now right|]. destruct (H k i (or_introl eq_refl)) as ((S1 & S2 & S3 & S4) & Hr).
      destruct (calc_layer_ok _ _ _ _ factor S1 S2 S3 S4 Hm Hr) as (n & L & F). cbn [by_layer snd]. rewrite (F fuel Hf). cbn [bind]. rewrite E. cbn [bind]. fold (sb_ratio i) in L.
      exists (if n =? layer then (k, i) :: l' else l'). split; [reflexivity|]. split.
      + intros k' i'. destruct (Z.eqb_spec n layer) as [->|N]; cbn [In]; rewrite I.
        * split; [intros [X|X]; [injection X as <- <-; auto|tauto]|intros [[X|X] Y]; tauto].
        * split; [tauto|]. intros [[X|X] Y]; [|tauto]. injection X as <- <-. exfalso. apply N. exact (least_layer_unique factor _ _ _ Hm L Y).
      + intros R X. inversion X as [|? ? X1 X2]; subst. destruct (n =? layer); [|auto]. constructor; [auto|]. rewrite Forall_forall in *. intros [k' i'] Hi. apply X2. apply I in Hi. tauto.
  Qed.

  Lemma place_ok x0 y0 size l : (forall k i, In (k, i) l -> in_i32 (rx (sb_rect i) - x0) /\ in_i32 (ry (sb_rect i) - y0) /\
      (x0 <= rx (sb_rect i) \/ (rx (sb_rect i) - x0) mod size = 0) /\ (y0 <= ry (sb_rect i) \/ (ry (sb_rect i) - y0) mod size = 0)) -> 0 < size ->
    place bitmap x0 y0 size l = Ok (map (fun i => shrunk bitmap x0 y0 size (fst i) (snd i)) l).
  Proof.
    intros H Hs. induction l as [|[k i] l IH]; [reflexivity|]. cbn [place map fst snd]. destruct (H k i (or_introl eq_refl)) as (A & B & C & D).
    rewrite (tile_pos_ok _ _ _ Hs A C), (tile_pos_ok _ _ _ Hs B D), IH by (intros; apply (H k0); now right). reflexivity.
  Qed.

  Theorem pyramid_get_ok bnds bg sort_m plane scenes factor layer x0 y0 dst dir fuel :
    let size := factor ^ layer in let roi := mkRect x0 y0 (bw dst * size) (bh dst * size) in
    (32 <= fuel)%nat -> check_plane bnds plane = Ok tt -> bmp_wf dst -> background_ok bg dst ->
    2 <= factor -> 0 <= layer -> size <= INT_MAX -> bw dst * size <= INT_MAX -> bh dst * size <= INT_MAX ->
    (forall k i, region_tile plane scenes roi dir k i -> sizes_ok i /\ sb_ratio i * factor <= INT_MAX) ->
    (forall k i, region_tile plane scenes roi dir k i -> least_layer factor (sb_ratio i) layer ->
       bitmap_ok bitmap dst k i /\ in_i32 (rx (sb_rect i) - x0) /\ in_i32 (ry (sb_rect i) - y0) /\
       (x0 <= rx (sb_rect i) \/ (rx (sb_rect i) - x0) mod size = 0) /\ (y0 <= ry (sb_rect i) \/ (ry (sb_rect i) - y0) mod size = 0)) ->
    if_some (region_tile plane scenes roi dir) (fun i => least_layer factor (sb_ratio i) layer) ->
    exists m back, pyramid_get sort bitmap fuel bnds bg sort_m plane scenes factor layer x0 y0 dst dir = Ok (bwith dst m) /\ background bg dst back /\
      picture (fun k i => region_tile plane scenes roi dir k i /\ least_layer factor (sb_ratio i) layer) (shrunk bitmap x0 y0 size) (drawn_above sort_m) back (bwith dst m) 0 0.
  Proof.
    intros size roi Hfu C W B Hm Hl Hsz Hbw Hbh Rs Ls Ex. unfold pyramid_get. rewrite pixel_size_ok by (try lia; exact Hsz). fold size. cbn [bind]. rewrite C. cbn [bind].
    assert (Hs0 : 0 < size) by (apply Z.pow_pos_nonneg; lia).
    assert (Wd : 0 <= bw dst /\ 0 <= bh dst) by (split; apply W).
    destruct (clear_ok bg dst W B) as (m0 & back & E0 & B0 & P0). rewrite E0. cbn [bind]. cbn [bwith bw bh]. rewrite !chk_in by (split; [unfold INT_MIN; nia|assumption]). cbn [bind]. fold roi.
    pose proof (pyramid_subset_In sort_m plane scenes roi dir) as In_l.
    assert (So : StronglySorted (fun a b => drawn_above sort_m b a) (pyramid_subset sort sort_m plane scenes roi dir)) by apply subset_sorted, selection_sorted.
    set (l := pyramid_subset sort sort_m plane scenes roi dir) in *. clearbody l.
    destruct (by_layer_ok fuel factor layer l Hfu Hm) as (l' & E1 & I1 & St); [intros k i Hi; apply (Rs k i), In_l, Hi|]. specialize (St _ So).
    destruct l as [|e l0] eqn:El.
    - exists m0, back. split; [reflexivity|]. split; [exact B0|]. intros x y Hx Hy p. right. split; [|apply P0; assumption]. intros k i [Hc _]. apply In_l in Hc. destruct Hc.
    - rewrite <- El in *. replace (match l with [] => Ok (bwith dst m0) | _ :: _ => _ end) with (let* l := by_layer fuel factor layer l in match l with [] => Throw | _ => let* ts := place bitmap x0 y0 size l in compose_tiles (bwith dst m0) ts 0 0 end) by (rewrite El; reflexivity).
      rewrite E1. cbn [bind].
      assert (N : l' <> []).
      { intros ->. destruct Ex as (k & i & H1 & H2). { exists (fst e), (snd e). apply In_l. rewrite El. left. destruct e; reflexivity. } apply (proj2 (I1 k i)). split; [apply In_l, H1|exact H2]. }
      replace (match l' with [] => Throw | _ :: _ => _ end) with (let* ts := place bitmap x0 y0 size l' in compose_tiles (bwith dst m0) ts 0 0) by (destruct l'; [congruence|reflexivity]).
      rewrite place_ok; [|intros k i Hi; apply I1 in Hi; destruct Hi as [Hi L]; apply In_l in Hi; apply (Ls k i Hi L)|exact Hs0]. cbn [bind].
      destruct (compose_picture (fun i => shrunk bitmap x0 y0 size (fst i) (snd i)) (fun a b => drawn_above sort_m b a) (bwith dst m0) l' 0 0 St) as (m & E & P).
      + apply bmp_wf_bwith, W.
      + intros k i Hi. apply tile_wf_bwith. cbn [fst snd]. unfold shrunk. apply I1 in Hi. destruct Hi as [Hi L]. apply In_l in Hi. destruct (Ls k i Hi L) as [[T _] _]. unfold tile_at in T. destruct (bitmap k) as [[b mk] kind]. exact T.
      + exists m, back. split; [exact E|]. split; [exact B0|]. change (bwith (bwith dst m0) m) with (bwith dst m) in P. revert P. apply picture_impl.
        * intros k i Hi. apply I1 in Hi. destruct Hi as [Hi L]. apply In_l in Hi. auto.
        * intros k i x y _ _ [Hi L] _. apply I1. split; [apply In_l, Hi|exact L].
        * reflexivity.
        * intros [k i] [k' i'] _ _ [H|H]; [|exact H]. injection H as -> ->. unfold drawn_above. destruct sort_m; [apply m_above_refl|lia].
        * intros x y Hx Hy. apply P0; assumption.
  Qed.

  (** a layer which no sub-block of the region is on *)
  Theorem pyramid_get_absent bnds bg sort_m plane scenes factor layer x0 y0 dst dir fuel :
    let size := factor ^ layer in let roi := mkRect x0 y0 (bw dst * size) (bh dst * size) in
    (32 <= fuel)%nat -> check_plane bnds plane = Ok tt -> bmp_wf dst -> background_ok bg dst ->
    2 <= factor -> 0 <= layer -> size <= INT_MAX -> bw dst * size <= INT_MAX -> bh dst * size <= INT_MAX ->
    (forall k i, region_tile plane scenes roi dir k i -> sizes_ok i /\ sb_ratio i * factor <= INT_MAX) ->
    (exists k i, region_tile plane scenes roi dir k i) -> (forall k i, region_tile plane scenes roi dir k i -> ~ least_layer factor (sb_ratio i) layer) ->
    pyramid_get sort bitmap fuel bnds bg sort_m plane scenes factor layer x0 y0 dst dir = Throw.
  Proof.
    intros size roi Hfu C W B Hm Hl Hsz Hbw Hbh Rs [k0 [i0 Ex]] No. unfold pyramid_get. rewrite pixel_size_ok by (try lia; exact Hsz). fold size. cbn [bind]. rewrite C. cbn [bind].
    assert (Hs0 : 0 < size) by (apply Z.pow_pos_nonneg; lia).
    assert (Wd : 0 <= bw dst /\ 0 <= bh dst) by (split; apply W).
    destruct (clear_ok bg dst W B) as (m0 & back & E0 & B0 & P0). rewrite E0. cbn [bind]. cbn [bwith bw bh]. rewrite !chk_in by (split; [unfold INT_MIN; nia|assumption]). cbn [bind]. fold roi.
    pose proof (pyramid_subset_In sort_m plane scenes roi dir) as In_l.
    set (l := pyramid_subset sort sort_m plane scenes roi dir) in *. clearbody l.
    destruct (by_layer_ok fuel factor layer l Hfu Hm) as (l' & E1 & I1 & St); [intros k i Hi; apply (Rs k i), In_l, Hi|].
    destruct l as [|e l0] eqn:El; [apply In_l in Ex; destruct Ex|]. rewrite E1. cbn [bind]. destruct l' as [|[k i] l']; [reflexivity|]. exfalso. destruct (proj1 (I1 k i) (or_introl eq_refl)) as [X Y]. apply In_l in X. exact (No k i X Y).
  Qed.
End Acc.

(** the layer the accessor finds agrees with the statistics if the ratio is at most that of the layer *)
Definition accessor_layer (e : sbe) (b k : Z) : Z :=
  if ratio_of (e_w e) (e_h e) (e_sw e) (e_sh e) <=? b ^ k then k else k + 1.
Lemma known_row b k t : In (b, k, t) known_layers -> 2 <= b /\ 1 <= k /\ 10 * b ^ (k - 1) + 5 <= 10 * b ^ k - t /\ 10 * b ^ k + t <= 10 * b ^ (k + 1) /\ b ^ (k + 1) * b <= INT_MAX /\ 0 <= t.
Proof.
  intros H. cbn [known_layers In] in H. unfold INT_MAX.
  repeat (destruct H as [H|H]; [injection H as <- <- <-; cbn; lia|]). destruct H.
Qed.
Lemma row_ratio p q v t lo hi : 0 < p -> 0 < q -> 10 * lo + 5 <= 10 * v - t -> 10 * v + t <= 10 * hi -> Z.abs (10 * p - 10 * v * q) <= t * q -> lo < nearest p q <= hi.
Proof. intros Hp Hq A B H. unfold nearest. split; [|].
  - assert (lo + 1 <= (2 * p + q) / (2 * q)); [|lia]. apply Z.div_le_lower_bound; [lia|]. nia.
  - assert ((2 * p + q) / (2 * q) < hi + 1); [|lia]. apply Z.div_lt_upper_bound; [lia|]. nia.
Qed.

Lemma statistics_accessor e b k fuel : 0 < e_w e <= INT_MAX -> 0 < e_h e <= INT_MAX -> 0 < e_sw e <= INT_MAX -> 0 < e_sh e <= INT_MAX ->
  layer_info e = (b, k) -> b = 2 \/ b = 3 -> (32 <= fuel)%nat -> calc_layer fuel (e_w e) (e_h e) (e_sw e) (e_sh e) b = Ok (accessor_layer e b k).
Proof.
  intros Hw Hh Hsw Hsh L Hb Hf. rewrite layer_exact in L by assumption. unfold layer_of in L. destruct (layer0 e); [injection L as <- <-; lia|].
  destruct (find (fits_layer e) known_layers) as [[[b' k'] t]|] eqn:E; [|injection L as <- <-; lia]. injection L as -> ->. apply find_some in E. destruct E as [I F].
  destruct (known_row b k t I) as (K1 & K2 & K3 & K4 & K5 & K6).
  assert (R : b ^ (k - 1) < ratio_of (e_w e) (e_h e) (e_sw e) (e_sh e) <= b ^ (k + 1)).
  { unfold fits_layer in F. unfold ratio_of. destruct (e_sh e <? e_sw e); eapply row_ratio; try eassumption; lia. }
  destruct (calc_layer_ok (e_w e) (e_h e) (e_sw e) (e_sh e) b Hw Hh Hsw Hsh K1) as (n & Ln & Fn); [nia|]. rewrite (Fn fuel Hf). f_equal. apply (least_layer_unique b _ _ _ K1 Ln). unfold accessor_layer, least_layer.
  set (r := ratio_of (e_w e) (e_h e) (e_sw e) (e_sh e)) in *. destruct (Z.leb_spec r (b ^ k)).
  - split; [lia|]. split; [assumption|]. right. lia.
  - split; [lia|]. split; [lia|]. right. replace (k + 1 - 1) with k by lia. lia.
Qed.
Lemma bottom_accessor e factor fuel : 0 < e_w e <= INT_MAX -> 0 < e_h e <= INT_MAX -> layer_info e = (0, 0) -> 0 < e_sw e <= INT_MAX -> 0 < e_sh e <= INT_MAX -> (1 <= fuel)%nat ->
  calc_layer fuel (e_w e) (e_h e) (e_sw e) (e_sh e) factor = Ok 0.
Proof.
  intros Hw Hh L Hsw Hsh Hf. rewrite layer_exact in L by assumption. unfold layer_of in L. destruct (layer0 e) eqn:E0.
  - unfold layer0 in E0. apply andb_true_iff in E0. assert (e_sw e = e_w e /\ e_sh e = e_h e) as [-> ->] by lia. unfold calc_layer.
    replace (round_int _) with (Ok 1); [destruct fuel; [lia|]; reflexivity|]. destruct (e_h e <? e_w e); symmetry; (etransitivity; [apply round_quot; assumption|]); unfold nearest; f_equal; [replace (2 * e_w e + e_w e) with (e_w e + 1 * (2 * e_w e)) by lia|replace (2 * e_h e + e_h e) with (e_h e + 1 * (2 * e_h e)) by lia]; rewrite Z.div_add, Z.div_small by lia; reflexivity.
  - destruct (find (fits_layer e) known_layers) as [[[b' k'] t]|] eqn:E; [|discriminate]. injection L as -> ->. apply find_some in E. destruct E as [I _]. apply known_row in I. lia.
Qed.
