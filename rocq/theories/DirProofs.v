(** The directory of the in-place editor refines a map with ever new keys. *)
From Verif Require Import Base RectModel CodecModel TextModel CoordModel CoordProofs StatModel StatSpec StatProofs LayerProofs PyrProofs.
From Coq Require Import Sorted Permutation.
Open Scope Z_scope.

Lemma afind_listing f m k : listing f m -> afind k m = f k.
Proof.
  intros [S L]. destruct (f k) as [e|] eqn:E.
  - apply afind_In; [exact S|]. apply L. exact E.
  - apply afind_None. intros H. apply map_fst_In in H. destruct H as (e & H). apply L in H. congruence.
Qed.
Lemma ainsert_end {A} k (a : A) m : (forall j, In j (map fst m) -> j < k) -> ainsert k a m = m ++ [(k, a)].
Proof.
  induction m as [|[j b] m IH]; cbn [ainsert map fst app]; intros H; [reflexivity|]. specialize (H j (or_introl eq_refl)) as Hj.
  replace (k <? j) with false by lia. replace (j =? k) with false by lia. f_equal. apply IH. intros i Hi. apply H. now right.
Qed.

Lemma equal_entries_ok a b : length (e_coord a) = 9%nat -> length (e_coord b) = 9%nat -> equal_entries a b = true <-> duplicates a b.
Proof.
  intros La Lb. unfold equal_entries, duplicates, m_valid. rewrite !andb_true_iff, !negb_true_iff.
  change (same_size a) with (layer0 a). change (same_size b) with (layer0 b). rewrite Z.eqb_eq, (compare_zero _ _ La Lb).
  split; [intros ((H1 & H2) & (H3 & H4) & H5)|intros (H1 & H2 & H3 & H4 & H5)]; repeat split; try assumption; lia.
Qed.

Section Run.
  (** all sub-blocks ever given *)
  Variable all : list sbe.
  Hypothesis (Aok : Forall entry_ok all) (Afit : bounds_fit all).

  Definition dir_inv (w : world) (d : rwdir) : Prop :=
    listing (w_cur w) (d_map d) /\ d_next d = w_added w /\ 0 <= w_added w /\ (forall k, In k (map fst (d_map d)) -> k < w_added w) /\ d_mod d = w_touched w /\
    (forall e, In e (map snd (d_map d)) -> In e all) /\
    (d_cur d = true -> stats_inv (map snd (d_map d)) (u_st (d_upd d))) /\
    (w_edited w = false -> d_cur d = true /\ pyr_with layers_counted (map snd (d_map d)) (u_pyr (d_upd d)) /\ (u_dirty (d_upd d) = true \/ u_pyr (d_upd d) = [])).

  Lemma sub_ok es : (forall e, In e es -> In e all) -> Forall entry_ok es /\ bounds_fit es.
  Proof. intros S. split; [rewrite Forall_forall in *; auto|exact (bounds_fit_sub all es S Afit)]. Qed.

  Lemma inv0 : dir_inv world0 rwdir0.
  Proof.
    unfold dir_inv, world0, rwdir0. cbn [w_cur w_added w_touched w_edited d_map d_next d_mod d_cur d_upd map]. split.
    - split; [constructor|]. intros k e. split; [contradiction|discriminate].
    - split; [reflexivity|]. split; [lia|]. split; [contradiction|]. split; [reflexivity|]. split; [contradiction|]. split; [intros _; apply stats0_inv|]. intros _. split; [reflexivity|]. split; [apply no_pyr|now right].
  Qed.

  Lemma listing_put_new f m k e : listing f m -> (forall j, In j (map fst m) -> j < k) -> listing (put k (Some e) f) (m ++ [(k, e)]).
  Proof.
    intros L0 H. pose proof L0 as [S L]. split.
    - rewrite <- (ainsert_end k e m H). apply ainsert_sorted. exact S.
    - intros j x. rewrite in_app_iff, L. unfold put. cbn [In]. destruct (j =? k) eqn:E.
      + assert (j = k) by lia. subst j. assert (N : f k = None). { rewrite <- (afind_listing f m k L0). apply afind_None. intros X. specialize (H k X). lia. }
        rewrite N. split; [intros [X|[X|[]]]; [discriminate|congruence]|intros [= <-]; right; now left].
      + split; [intros [X|[X|[]]]; [exact X|injection X; lia]|auto].
  Qed.

  Lemma add_ok w d e : dir_inv w d -> In e all -> w_added w < INT_MAX ->
    exists d', rw_add d e = Ok (w_added w, d') /\ dir_inv (mkWorld (put (w_added w) (Some e) (w_cur w)) (w_added w + 1) true (w_edited w)) d'.
  Proof.
    intros (L & N & P & K & M & A & C & Ed) He Hn. unfold rw_add. rewrite N. rewrite chk_in by (unfold in_i32, INT_MIN, INT_MAX in *; lia). cbn [bind].
    assert (Ins : ainsert (w_added w) e (d_map d) = d_map d ++ [(w_added w, e)]) by (apply ainsert_end; exact K).
    assert (L' := listing_put_new _ _ _ e L K).
    assert (K' : forall k, In k (map fst (d_map d ++ [(w_added w, e)])) -> k < w_added w + 1).
    { intros k. rewrite map_app, in_app_iff. cbn [map fst In]. intros [X|[X|[]]]; [specialize (K k X); lia|lia]. }
    assert (A' : forall x, In x (map snd (d_map d ++ [(w_added w, e)])) -> In x all).
    { intros x. rewrite map_app, in_app_iff. cbn [map snd In]. intros [X|[<-|[]]]; auto. }
    destruct (sub_ok _ A') as [O F]. assert (MS : map snd (d_map d ++ [(w_added w, e)]) = map snd (d_map d) ++ [e]) by (rewrite map_app; reflexivity).
    destruct (d_cur d) eqn:Ec.
    - rewrite MS in O, F. destruct (update_stats_ok _ (d_upd d) e (C eq_refl) O F) as (u & Eu & Iu & Pu & Du). rewrite Eu. cbn [bind]. eexists. split; [reflexivity|].
      unfold dir_inv. cbn [w_cur w_added w_touched w_edited d_map d_next d_mod d_cur d_upd]. rewrite Ins. split; [exact L'|]. split; [lia|]. split; [lia|]. split; [exact K'|]. split; [reflexivity|]. split; [exact A'|].
      rewrite MS. split; [intros _; exact Iu|]. intros Hed. destruct (Ed Hed) as (_ & Ep & _). split; [reflexivity|]. rewrite Pu. split; [|now left]. apply update_pyr_ok; [exact Ep|]. rewrite Forall_forall in Aok. auto.
    - eexists. split; [reflexivity|]. unfold dir_inv. cbn [w_cur w_added w_touched w_edited d_map d_next d_mod d_cur d_upd]. rewrite Ins. split; [exact L'|]. split; [lia|]. split; [lia|]. split; [exact K'|]. split; [reflexivity|]. split; [exact A'|].
      split; [discriminate|]. intros Hed. destruct (Ed Hed) as (X & _). discriminate.
  Qed.

  Lemma recreate_ok w d : dir_inv w d -> exists u, update_all (clear_stats (d_upd d)) (map snd (d_map d)) = Ok u /\ stats_inv (map snd (d_map d)) (u_st u).
  Proof.
    intros (L & N & P & K & M & A & C & Ed). destruct (sub_ok _ A) as [O F].
    destruct (update_all_ok (map snd (d_map d)) (clear_stats (d_upd d)) stats0_inv O F) as (u & E & I & _). eauto.
  Qed.
  Lemma current_ok w d : dir_inv w d -> exists d', (if d_cur d then Ok d else rw_recreate d) = Ok d' /\ dir_inv w d' /\ d_map d' = d_map d /\ d_cur d' = true.
  Proof.
    intros I. pose proof I as (L & N & P & K & M & A & C & Ed). destruct (d_cur d) eqn:Ec; [exists d; auto|].
    destruct (recreate_ok w d I) as (u & Eu & Iu). unfold rw_recreate. rewrite Eu. cbn [bind]. eexists. split; [reflexivity|]. cbn [d_map d_cur]. split; [|auto].
    unfold dir_inv. cbn [d_map d_next d_mod d_cur d_upd]. split; [exact L|]. split; [exact N|]. split; [exact P|]. split; [exact K|]. split; [exact M|]. split; [exact A|]. split; [auto|].
    intros Hed. destruct (Ed Hed) as (X & _). congruence.
  Qed.
  Lemma consolidate_st u : u_st (consolidate u) = u_st u.
  Proof. unfold consolidate. destruct (u_dirty u); reflexivity. Qed.
  Lemma consolidate_inv w d c : dir_inv w d -> dir_inv w (mkRw (consolidate (d_upd d)) (d_cur d) c (d_next d) (d_map d) (d_mod d)).
  Proof.
    intros (L & N & P & K & M & A & C & Ed). unfold dir_inv. cbn [d_map d_next d_mod d_cur d_upd]. split; [exact L|]. split; [exact N|]. split; [exact P|]. split; [exact K|]. split; [exact M|]. split; [exact A|].
    rewrite consolidate_st. split; [exact C|]. intros Hed. destruct (Ed Hed) as (X & Y & Z). split; [exact X|]. unfold consolidate. destruct (u_dirty (d_upd d)) eqn:Du; cbn [u_pyr u_dirty].
    - split; [apply pyramid_counted, sort_pyr_ok; exact Y|now left].
    - split; [exact Y|]. rewrite Du. exact Z.
  Qed.

  Lemma op_refines w d o : dir_inv w d -> (forall e, In e (given o) -> In e all) -> w_added w < INT_MAX ->
    exists r d' w', rw_op o d = Ok (r, d') /\ spec_op o w r w' /\ dir_inv w' d' /\ w_added w' <= w_added w + 1.
  Proof.
    intros I G Hn. pose proof I as (L & N & P & K & M & A & C & Ed). destruct o as [e|e|k e|k|k| | | |]; cbn [rw_op given] in *.
    - destruct (add_ok w d e I (G e (or_introl eq_refl)) Hn) as (d' & E & I'). rewrite E. cbn [bind]. do 3 eexists. split; [reflexivity|]. split; [split; reflexivity|]. split; [exact I'|]. cbn [w_added]. lia.
    - assert (He := G e (or_introl eq_refl)). pose proof (proj1 (Forall_forall _ _) Aok) as Aok'. assert (Le : length (e_coord e) = 9%nat) by apply (Aok' e He).
      assert (D : forall k x, w_cur w k = Some x -> (equal_entries x e = true <-> duplicates x e) /\ In (k, x) (d_map d)).
      { intros k x Hx. apply L in Hx. split; [|exact Hx]. apply equal_entries_ok; [|exact Le]. apply (Aok' x). apply A. apply in_map_iff. exists (k, x). auto. }
      unfold rw_try_add. destruct (existsb (fun x => equal_entries (snd x) e) (d_map d)) eqn:Ex.
      + apply existsb_exists in Ex. destruct Ex as ([k x] & Hx & Eq). cbn [snd] in Eq. assert (Hx' := Hx). apply L in Hx'. cbn [bind]. do 3 eexists. split; [reflexivity|]. split.
        * left. split; [exists k, x; split; [exact Hx'|]|split; reflexivity]. apply (D k x Hx'). exact Eq.
        * split; [exact I|lia].
      + destruct (add_ok w d e I He Hn) as (d' & E & I'). rewrite E. cbn [bind]. do 3 eexists. split; [reflexivity|]. split.
        * right. split; [|split; reflexivity]. intros k x Hx Dx. destruct (D k x Hx) as [D1 D2]. apply D1 in Dx. assert (X : existsb (fun x => equal_entries (snd x) e) (d_map d) = true) by (apply existsb_exists; exists (k, x); auto). congruence.
        * split; [exact I'|]. cbn [w_added]. lia.
    - assert (He := G e (or_introl eq_refl)). unfold rw_modify. cbn [spec_op]. pose proof (afind_listing _ _ k L) as Af. rewrite Af. destruct (w_cur w k) as [x|] eqn:Ek.
      2:{ exists (RBool false), d, w. split; [reflexivity|]. split; [split; reflexivity|]. split; [exact I|lia]. }
      apply afind_In in Af; [|apply L]. assert (Ik : In k (map fst (d_map d))) by (apply map_fst_In; eauto).
      do 3 eexists. split; [reflexivity|]. split; [split; reflexivity|]. split; [|cbn [w_added]; lia].
      unfold dir_inv. cbn [w_cur w_added w_touched w_edited d_map d_next d_mod d_cur d_upd]. split.
      { split; [apply aset_sorted, L|]. intros j y. rewrite aset_In by (try apply L; exact Ik). unfold put. cbn [fst]. destruct (j =? k) eqn:E.
        - assert (j = k) by lia. subst. split; [intros [X|[_ X]]; [congruence|contradiction]|intros [= <-]; now left].
        - destruct L as [_ L]. rewrite L. split; [intros [X|[X _]]; [injection X; lia|exact X]|intros X; right; split; [exact X|lia]]. }
      split; [exact N|]. split; [exact P|]. split; [rewrite aset_fst; exact K|]. split; [reflexivity|]. split; [|split; discriminate].
      intros y Hy. apply in_map_iff in Hy. destruct Hy as ([j z] & <- & Hy). apply aset_In in Hy; [|apply L|exact Ik]. destruct Hy as [Hy|[Hy _]]; [injection Hy as -> ->; exact He|]. apply A. apply in_map_iff. exists (j, z). auto.
    - unfold rw_remove. cbn [spec_op]. pose proof (afind_listing _ _ k L) as Af. rewrite Af. destruct (w_cur w k) as [x|] eqn:Ek.
      2:{ exists (REntry None), d, w. split; [reflexivity|]. split; [split; reflexivity|]. split; [exact I|lia]. }
      do 3 eexists. split; [reflexivity|]. split; [split; reflexivity|]. split; [|cbn [w_added]; lia].
      unfold dir_inv. cbn [w_cur w_added w_touched w_edited d_map d_next d_mod d_cur d_upd]. split.
      { split; [apply aerase_sorted, L|]. intros j y. rewrite aerase_In by apply L. unfold put. cbn [fst]. destruct L as [_ L]. rewrite L. destruct (j =? k) eqn:E.
        - split; [intros [_ X]; lia|discriminate].
        - split; [tauto|]. intros X. split; [exact X|lia]. }
      split; [exact N|]. split; [exact P|]. split; [|split; [reflexivity|split; [|split; discriminate]]].
      + intros j Hj. apply map_fst_In in Hj. destruct Hj as (y & Hj). apply aerase_In in Hj; [|apply L]. apply K. apply map_fst_In. exists y. tauto.
      + intros y Hy. apply in_map_iff in Hy. destruct Hy as ([j z] & <- & Hy). apply aerase_In in Hy; [|apply L]. apply A. apply in_map_iff. exists (j, z). tauto.
    - unfold rw_get. rewrite (afind_listing _ _ k L). do 3 eexists. split; [reflexivity|]. split; [split; reflexivity|]. split; [exact I|lia].
    - do 3 eexists. split; [reflexivity|]. split; [split; [|reflexivity]; eexists; split; [reflexivity|exact L]|]. split; [exact I|lia].
    - unfold rw_stats. destruct (current_ok w d I) as (d' & E & I' & Em & Ec). rewrite E. cbn [bind]. do 3 eexists. split; [reflexivity|]. split; [|split; [exact I'|lia]]. split; [|reflexivity].
      exists (d_map d'). eexists. split; [reflexivity|]. destruct I' as (L' & _ & _ & _ & _ & _ & C' & _). split; [exact L'|]. apply C'. exact Ec.
    - assert (X : exists d', (if d_cons d then Ok d else let* d0 := (if d_cur d then Ok d else rw_recreate d) in
                  Ok (if d_cons d0 then d0 else mkRw (consolidate (d_upd d0)) (d_cur d0) true (d_next d0) (d_map d0) (d_mod d0))) = Ok d' /\ dir_inv w d' /\ d_map d' = d_map d).
      { destruct (d_cons d); [exists d; auto|]. destruct (current_ok w d I) as (d' & E & I' & Em & Ec). rewrite E. cbn [bind]. destruct (d_cons d'); [exists d'; auto|].
        eexists. split; [reflexivity|]. split; [apply consolidate_inv; exact I'|exact Em]. }
      destruct X as (d' & E & I' & Em). unfold rw_pyr. rewrite E. cbn [bind]. unfold get_pyr. cbn [bind]. do 3 eexists. split; [reflexivity|].
      split; [|split; [apply consolidate_inv; exact I'|lia]]. split; [|reflexivity]. exists (d_map d'). eexists. split; [reflexivity|]. split; [apply I'|].
      intros Hed. destruct I' as (_ & _ & _ & _ & _ & _ & _ & Ed'). destruct (Ed' Hed) as (X & Y & Z). unfold consolidate. destruct (u_dirty (d_upd d')) eqn:Du; cbn [u_pyr].
      + apply sort_pyr_ok. exact Y.
      + destruct Z as [Z|Z]; [discriminate|]. rewrite Z in *. exact (sort_pyr_ok _ [] Y).
    - do 3 eexists. split; [reflexivity|]. split; [split; [rewrite M; reflexivity|reflexivity]|]. split; [exact I|lia].
  Qed.

  Lemma run_refines : forall os w d, dir_inv w d -> (forall o e, In o os -> In e (given o) -> In e all) -> w_added w + Z.of_nat (length os) <= INT_MAX ->
    exists rs d', rw_run os d = Ok (rs, d') /\ spec_run os rs w.
  Proof.
    induction os as [|o os IH]; intros w d I G Hn; cbn [rw_run].
    - exists [], d. split; [reflexivity|exact Logic.I].
    - cbn [length] in Hn. destruct (op_refines w d o I) as (r & d1 & w1 & E & S & I1 & B); [intros e He; apply (G o e); [now left|exact He]|lia|].
      rewrite E. cbn [bind]. destruct (IH w1 d1 I1) as (rs & d2 & E2 & S2); [intros o' e Ho He; apply (G o' e); [now right|exact He]|lia|]. rewrite E2. cbn [bind]. exists (r :: rs), d2. split; [reflexivity|].
      cbn [spec_run]. exists w1. auto.
  Qed.
End Run.

Lemma editor_refines os : Forall entry_ok (flat_map given os) -> bounds_fit (flat_map given os) -> Z.of_nat (length os) <= INT_MAX ->
  exists rs d, rw_run os rwdir0 = Ok (rs, d) /\ spec_run os rs world0.
Proof.
  intros O F L. apply (run_refines (flat_map given os) O F); [apply inv0| |cbn [w_added world0]; lia]. intros o e Ho He. apply in_flat_map. exists o. auto.
Qed.

Lemma listing_unique f l l' : listing f l -> listing f l' -> l = l'.
Proof.
  intros [S L] [S' L']. assert (E : forall x, In x l <-> In x l') by (intros [k e]; rewrite L, L'; reflexivity). clear L L' f. revert l' S' E.
  induction l as [|[k e] l IH]; intros l' S' E.
  - destruct l' as [|x l']; [reflexivity|]. exfalso. apply (E x). now left.
  - destruct l' as [|[k' e'] l']; [exfalso; apply (E (k, e)); now left|]. cbn [map fst] in S, S'. inversion S as [|? ? S1 S2]; subst. inversion S' as [|? ? S1' S2']; subst. rewrite Forall_forall in S2, S2'.
    assert (M : forall j x (m : list (Z * sbe)), In (j, x) m -> In j (map fst m)) by (intros j x m H; apply in_map_iff; exists (j, x); auto).
    assert (Ek : (k, e) = (k', e')).
    { destruct (proj1 (E (k, e)) (or_introl eq_refl)) as [H|H]; [congruence|]. destruct (proj2 (E (k', e')) (or_introl eq_refl)) as [H'|H']; [congruence|].
      apply M in H, H'. specialize (S2 _ H'). specialize (S2' _ H). lia. }
    injection Ek as <- <-. f_equal. apply IH; [exact S1|exact S1'|]. intros [j x]. specialize (E (j, x)). cbn [In] in E. split; intros H.
    + destruct (proj1 E (or_intror H)) as [X|X]; [|exact X]. injection X as <- <-. apply M in H. specialize (S2 _ H). lia.
    + destruct (proj2 E (or_intror H)) as [X|X]; [|exact X]. injection X as <- <-. apply M in H. specialize (S2' _ H). lia.
Qed.
Lemma spec_run_app : forall os os' rs w, spec_run (os ++ os') rs w -> exists rs1 rs2 w', rs = rs1 ++ rs2 /\ spec_run os rs1 w /\ spec_run os' rs2 w' /\
  (w_edited w = false -> Forall (fun o => match o with DModify _ _ | DRemove _ => False | _ => True end) os -> w_edited w' = false).
Proof.
  induction os as [|o os IH]; cbn [app]; intros os' rs w H.
  - exists [], rs, w. repeat split; try exact H. auto.
  - destruct rs as [|r rs]; [contradiction|]. cbn [spec_run] in H. destruct H as (w1 & H1 & H2). destruct (IH _ _ _ H2) as (rs1 & rs2 & w' & -> & A & B & C). exists (r :: rs1), rs2, w'. split; [reflexivity|].
    split; [exists w1; auto|]. split; [exact B|]. intros Hw HF. inversion HF as [|? ? F1 F2]; subst. apply C; [|exact F2]. clear - H1 Hw F1.
    destruct o; cbn [spec_op] in H1; try contradiction; try (destruct H1 as [_ ->]; exact Hw).
    destruct H1 as [(_ & _ & ->)|(_ & _ & ->)]; exact Hw.
Qed.
Lemma spec_run_length : forall os rs w, spec_run os rs w -> length rs = length os.
Proof. induction os as [|o os IH]; intros [|r rs] w H; try contradiction; [reflexivity|]. destruct H as (w' & _ & H). cbn [length]. f_equal. eapply IH, H. Qed.

(** Statistics after any history *)
Lemma stats_after os : Forall entry_ok (flat_map given os) -> bounds_fit (flat_map given os) -> Z.of_nat (length os) + 3 <= INT_MAX ->
  exists rs l s p d, rw_run (os ++ [DEnum; DStats; DPyr]) rwdir0 = Ok (rs ++ [REntries l; RStats s; RPyr p], d) /\ length rs = length os /\ describes_dim_m (map snd l) s /\
    (Forall (fun o => match o with DModify _ _ | DRemove _ => False | _ => True end) os -> pyramid (map snd l) p).
Proof.
  intros O F L. assert (G : flat_map given (os ++ [DEnum; DStats; DPyr]) = flat_map given os) by (rewrite flat_map_app; cbn [flat_map given app]; apply app_nil_r).
  destruct (editor_refines (os ++ [DEnum; DStats; DPyr])) as (rs & d & E & S); [rewrite G; exact O|rewrite G; exact F|rewrite app_length; cbn [length]; lia|].
  destruct (spec_run_app _ _ _ _ S) as (rs1 & rs2 & w & -> & S1 & S2 & Ed). destruct rs2 as [|r1 rs2]; [contradiction|]. destruct S2 as (w1 & ((l & -> & L1) & ->) & S2). destruct rs2 as [|r2 rs2]; [contradiction|].
  destruct S2 as (w2 & ((l2 & s & -> & L2 & D) & ->) & S2). destruct rs2 as [|r3 rs2]; [contradiction|]. destruct S2 as (w3 & ((l3 & p & -> & L3 & P) & ->) & S2). destruct rs2; [|contradiction].
  rewrite (listing_unique _ _ _ L2 L1) in D. rewrite (listing_unique _ _ _ L3 L1) in P.
  exists rs1, l, s, p, d. split; [exact E|]. split; [eapply spec_run_length, S1|]. split; [exact D|]. intros H. apply P. apply Ed; [reflexivity|exact H].
Qed.
