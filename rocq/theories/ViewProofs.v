(** The cache makes no difference. *)
From Verif Require Import Base RectModel CodecModel WriterModel CodesModel CopyModel TextModel CoordModel StatModel AccessModel ReaderModel CacheModel CacheProofs SubMetaModel ViewModel ViewSpec.
Open Scope Z_scope.

(** ** Policies *)
Lemma policy_places r : Z.testbit (r_policy r) 0 = false \/ Z.testbit (r_policy r) 7 = false -> places_agree r.
Proof.
  intros P k i p H. cbn [rstep unchecked orb] in *. rewrite orb_true_r. cbn [snd]. rewrite orb_false_r in H.
  destruct (r_op r); cbn [snd] in H; [|discriminate]. unfold query in *.
  destruct (at_index (r_dir r) k) as [[e|]| | |]; cbn [bind option_map] in *; try discriminate.
  exists (rinfo_of e). split; [reflexivity|].
  destruct (read_block (r_policy r) (r_stream r) e) as [[j q]| | |] eqn:R; cbn [bind] in H; try discriminate. injection H as -> ->.
  unfold read_block in R. destruct (r_stream r) as [[strict f]|]; [|discriminate].
  destruct (read_subblock strict f (e_pos e)) as [d| | |]; cbn [bind] in R; try discriminate.
  destruct (sb_schema strict f (e_pos e)) as [[dv xy]| | |]; cbn [bind] in R; try discriminate.
  destruct (Z.testbit (r_policy r) 0).
  - destruct P as [P|P]; [discriminate|]. rewrite P in R.
    destruct (discrepancy dv xy e (sd_info d)) as [[]| | |] eqn:D; cbn [bind] in R; try discriminate.
    destruct (dv && xy); [|discriminate]. injection R as <- _. unfold discrepancy in D.
    destruct (_ || _); [discriminate|]. destruct (negb dv); [discriminate|]. destruct (_ || _); [discriminate|]. destruct (negb xy); [discriminate|].
    injection D as D. apply negb_false_iff in D. unfold rinfo_of. cbn [ri_rect]. f_equal; lia.
  - destruct (if Z.testbit (r_policy r) 7 then Ok tt else _) as [[]| | |]; cbn [bind] in R; try discriminate. now injection R as <- _.
Qed.

(** ** One sub-block *)
Definition same (v w : sbd) : Prop := v_obj v = v_obj w /\ ri_rect (v_info v) = ri_rect (v_info w).
Definition same_res (a b : res sbd) : Prop := match a, b with Ok v, Ok w => same v w | _, _ => a = b end.
Lemma same_res_refl a : same_res a a. Proof. destruct a; cbn; [split|..]; reflexivity. Qed.

Section Cache.
  Variable g : outer.
  Variable r : rstate.
  Variable used : bool -> Prop.
  Hypothesis places : places_agree r.
  Hypothesis masks : (exists m, forall m', used m' -> m' = m) \/ unmasked r.

  Lemma load_used m m' k v : used m -> used m' -> load_block g r m k = Ok v -> load_block g r m' k = Ok v.
  Proof.
    intros U U' H. destruct masks as [(m0 & E)|N]; [now rewrite (E _ U'), <- (E _ U)|].
    unfold load_block in *. destruct (snd (rstep r (RBlock k))) as [a| | |] eqn:B; cbn [bind] in *; try discriminate.
    destruct a as [ | | | | | | | |[[i [[d att] meta]]|]| | | | |]; try discriminate. specialize (N _ _ _ _ _ B).
    destruct (create_bitmap g i d) as [[t b]| | |]; cbn [bind] in *; try discriminate. destruct m, m'; rewrite ?N in *; exact H.
  Qed.
  Lemma from_shelf_same m k v : load_block g r m k = Ok v -> same_res (from_shelf r k (v_obj v)) (Ok v).
  Proof.
    intros H. unfold load_block in H. destruct (snd (rstep r (RBlock k))) as [a| | |] eqn:B; cbn [bind] in *; try discriminate.
    destruct a as [ | | | | | | | |[[i [[d att] meta]]|]| | | | |]; try discriminate. destruct (places _ _ _ B) as (j & J & E).
    destruct (create_bitmap g i d) as [[t b]| | |]; cbn [bind] in *; try discriminate.
    destruct (if m then try_get_mask meta att else Ok None) as [mk| | |]; cbn [bind] in H; try discriminate. injection H as <-.
    unfold from_shelf. rewrite J. cbn [bind same_res]. split; [reflexivity|]. now symmetry.
  Qed.

  Definition good (s : shelf) : Prop :=
    acct (sh_cache s) /\ forall k i, holds_item (sh_cache s) k i -> exists m v, used m /\ load_block g r m k = Ok v /\ nth_error (sh_objs s) (Z.to_nat (it_id i)) = Some (v_obj v).
  Lemma good0 : good shelf0.
  Proof. split; [exact acct_empty|]. intros k i (e & [] & _). Qed.
  Lemma good_get s k o s1 : good s -> shelf_get s k = (o, s1) ->
    good s1 /\ forall x, o = Some x -> exists m v, used m /\ load_block g r m k = Ok v /\ x = v_obj v.
  Proof.
    intros [A H]. unfold shelf_get. destruct (cache_get (sh_cache s) k) as [oi c] eqn:G. intros E. injection E as <- <-.
    assert (N : NoDup (keys (c_map (sh_cache s)))) by apply A. split.
    - split; cbn [sh_cache sh_objs].
      + replace c with (snd (cache_get (sh_cache s) k)) by now rewrite G. now apply cache_get_acct.
      + intros j i J. apply H. apply (cache_get_spec (sh_cache s) k N). now rewrite G.
    - intros x X. destruct oi as [i|]; [|discriminate].
      destruct (H k i) as (m & v & U & L & E); [apply get_holds; [exact N|]; now rewrite G|]. exists m, v. rewrite E in X. injection X as <-. auto.
  Qed.
  Lemma good_add s k m v : good s -> used m -> load_block g r m k = Ok v -> good (shelf_add s k (v_obj v)).
  Proof.
    intros [A H] U L. assert (N : NoDup (keys (c_map (sh_cache s)))) by apply A. split; cbn [shelf_add sh_cache sh_objs]; [now apply cache_add_acct|].
    intros j i J. apply (cache_add_spec _ _ _ N) in J. destruct J as [[-> ->]|[D J]].
    - exists m, v. split; [exact U|]. split; [exact L|]. unfold item_of. destruct (v_obj v) as [[t b] mk]. cbn [it_id]. rewrite Nat2Z.id, nth_error_app2 by lia.
      now rewrite Nat.sub_diag.
    - destruct (H _ _ J) as (m1 & v1 & U1 & L1 & E1). exists m1, v1. split; [exact U1|]. split; [exact L1|].
      rewrite nth_error_app1; [exact E1|]. apply nth_error_Some. congruence.
  Qed.
  Lemma good_prune s m n s1 : good s -> shelf_prune s m n = Ok s1 -> good s1.
  Proof.
    intros [A H] P. unfold shelf_prune in P. destruct (cache_prune (sh_cache s) m n) as [c| | |] eqn:C; cbn [bind] in P; try discriminate. injection P as <-.
    destruct (cache_prune_acct _ _ _ _ A C) as (A1 & _ & I). split; [exact A1|]. cbn [sh_cache sh_objs]. intros k i (e & E & X). apply H. exists e. auto.
  Qed.
  Lemma fetch_same only m k s : good s -> used m -> exists x s1, fetch g r only m (Some s) k = (x, Some s1) /\ good s1 /\ same_res x (load_block g r m k).
  Proof.
    intros G U. cbn [fetch]. destruct (shelf_get s k) as [[x|] s1] eqn:S; destruct (good_get _ _ _ _ G S) as [G1 X].
    - destruct (X x eq_refl) as (m' & v & U' & L & ->). exists (from_shelf r k (v_obj v)), s1. split; [reflexivity|]. split; [exact G1|].
      rewrite (load_used _ _ _ _ U' U L). now apply from_shelf_same with m'.
    - destruct (load_block g r m k) as [v| | |] eqn:L; (eexists; eexists; split; [reflexivity|]; split; [|apply same_res_refl]); try exact G1.
      destruct (to_be_added only v); [|exact G1]. now apply good_add with m.
  Qed.

  (** ** Drawing *)
  Definition respects (j : job) : Prop := forall v w d, same v w -> snd j v d = snd j w d.
  Lemma respects_res (f : sbd -> bmp -> res bmp) k a b d : respects (k, f) -> same_res a b -> (let* v := a in f v d) = (let* v := b in f v d).
  Proof. intros R S. destruct a, b; cbn [same_res] in S; try discriminate S; try reflexivity. cbn [bind]. now apply (R _ _ d). Qed.
  Lemma run_same o l : Forall respects l -> used (vo_mask o) -> forall s d, good s ->
    exists s1, run_jobs g r o l (Some s) d = (fst (run_jobs g r o l None d), Some s1) /\ good s1.
  Proof.
    intros R U. induction l as [|[k f] l IH]; intros s d G; cbn [run_jobs]; [exists s; auto|]. inversion R as [|? ? R1 R2]; subst.
    destruct (fetch_same (vo_only o) (vo_mask o) k s G U) as (x & s1 & F & G1 & S). rewrite F. cbn [fetch].
    rewrite (respects_res f k _ _ d R1 S). destruct (let* v := load_block g r (vo_mask o) k in f v d); cbn [fst]; [apply IH; assumption|..]; exists s1; auto.
  Qed.

  Variable sort zm z : list (Z * sbinfo) -> list (Z * sbinfo).
  Lemma same_draw v w : same v w -> v_pt v = v_pt w /\ v_bmp v = v_bmp w /\ v_mask v = v_mask w /\ ri_rect (v_info v) = ri_rect (v_info w).
  Proof. intros [A B]. unfold v_pt, v_bmp, v_mask. rewrite A. auto. Qed.
  Lemma tile_respects o t x y i : respects (tile_job o t x y i).
  Proof. intros v w d S. cbn [tile_job snd]. destruct (same_draw _ _ S) as (-> & -> & -> & ->). reflexivity. Qed.
  Lemma pyramid_respects o t x y n i : respects (pyramid_job o t x y n i).
  Proof. intros v w d S. cbn [pyramid_job snd]. destruct (same_draw _ _ S) as (-> & -> & -> & ->). reflexivity. Qed.
  Lemma scale_respects o t zoom roi i : respects (scale_job o t zoom roi i).
  Proof. intros v w d S. cbn [scale_job snd]. destruct (same_draw _ _ S) as (-> & -> & -> & _). reflexivity. Qed.
  Lemma mapped {A} (f : A -> job) l : (forall a, respects (f a)) -> Forall respects (map f l).
  Proof. intros H. apply Forall_forall. intros j J. apply in_map_iff in J as (a & <- & _). apply H. Qed.
  Lemma paint_respects o t zoom roi l js : paint_jobs_of o t zoom roi l = Ok js -> Forall respects js.
  Proof. unfold paint_jobs_of. destruct (visible _ _ _); cbn [bind]; try discriminate. injection 1 as <-. apply mapped; intro; apply scale_respects. Qed.
  Lemma concat_respects (l : list (res (list job))) : (forall a js, In a l -> a = Ok js -> Forall respects js) -> forall js, concat_res l = Ok js -> Forall respects js.
  Proof.
    induction l as [|a l IH]; intros H js E; cbn [concat_res] in E; [injection E as <-; constructor|].
    destruct a as [x| | |]; cbn [bind] in E; try discriminate. destruct (concat_res l) as [y| | |] eqn:C; cbn [bind] in E; try discriminate. injection E as <-.
    apply Forall_app. split; [apply (H (Ok x)); [now left|reflexivity]|]. apply IH; [|reflexivity]. intros b bs I. apply H. now right.
  Qed.
  Lemma jobs_respect o q t dst l : jobs sort zm z r o q t dst = Ok l -> Forall respects l.
  Proof.
    unfold jobs. destruct q as [plane x y|fuel plane scenes factor layer x y|plane scenes zoom roi].
    - destruct (check_plane _ _); cbn [bind]; try discriminate. destruct (visible _ _ _); cbn [bind]; try discriminate. injection 1 as <-. apply mapped; intro; apply tile_respects.
    - destruct (pixel_size _ _) as [n| | |]; cbn [bind]; try discriminate. destruct (check_plane _ _); cbn [bind]; try discriminate.
      destruct (chk (bw dst * n)) as [w| | |]; cbn [bind]; try discriminate. destruct (chk (bh dst * n)) as [h| | |]; cbn [bind]; try discriminate.
      destruct (pyramid_subset _ _ _ _ _ _) as [|i subs]; [injection 1 as <-; constructor|]. destruct (by_layer _ _ _ _) as [l'| | |]; cbn [bind]; try discriminate.
      destruct l' as [|i' l']; [discriminate|]. injection 1 as <-. apply (mapped (pyramid_job o t x y n) (i' :: l')); intro; apply pyramid_respects.
    - destruct (check_plane _ _); cbn [bind]; try discriminate. destruct (_ <=? 1)%nat; [apply paint_respects|].
      apply concat_respects. intros jl js I E. apply in_map_iff in I as (s & <- & _). now apply paint_respects in E.
  Qed.
  Lemma view_same o q t s dst : used (vo_mask o) -> good s ->
    exists s1, view sort zm z g r o q t (Some s) dst = (fst (view sort zm z g r o q t None dst), Some s1) /\ good s1.
  Proof.
    intros U G. unfold view. destruct (r_op r); [|exists s; auto].
    destruct (jobs sort zm z r o q t dst) as [l| | |] eqn:J; cbn [bind]; try (exists s; auto; fail).
    destruct (clear_for o t dst) as [d| | |]; cbn [bind]; try (exists s; auto; fail). apply run_same; auto. now apply jobs_respect in J.
  Qed.
  Lemma prune_total s m n : good s -> exists s1, shelf_prune s m n = Ok s1.
  Proof.
    intros [A _]. unfold shelf_prune, cache_prune. destruct (_ || _); [|eexists; reflexivity].
    destruct (prune_loop_ok (length (c_map (sh_cache s))) (sh_cache s) m n) as (c1 & ->); [lia|apply A|]. eexists. reflexivity.
  Qed.
  Lemma vrun_same ops : (forall p, In p ops -> match op_mask p with Some m => used m | None => True end) -> forall s, good s ->
    vrun sort zm z g r s ops = alone sort zm z g r ops.
  Proof.
    induction ops as [|p ops IH]; intros U s G; [reflexivity|]. assert (U1 : forall p, In p ops -> match op_mask p with Some m => used m | None => True end) by (intros q Q; apply U; now right).
    specialize (U p (or_introl eq_refl)). destruct p as [o q t dst|m n]; cbn [vrun alone flat_map op_mask] in *.
    - destruct (view_same o q t s dst U G) as (s1 & -> & G1). cbn [app]. f_equal. now apply IH.
    - destruct (prune_total s m n G) as (s1 & P). rewrite P. apply IH; [exact U1|]. now apply good_prune with s m n.
  Qed.

  (** ** Many threads *)
  Variable ok : call -> Prop.
  Hypothesis ok_used : forall a, ok a -> used (vo_mask (ca_o a)).
  Definition call_alone (a : call) : res bmp := fst (view sort zm z g r (ca_o a) (ca_q a) (ca_t a) None (ca_dst a)).
  Definition will (a : call) (l : list job) (d : bmp) : Prop :=
    ok a /\ Forall respects l /\ fst (run_jobs g r (ca_o a) l None d) = call_alone a.
  Definition pc_ok (p : vpc) : Prop :=
    match p with
    | VIdle => True
    | VDraw a l d => will a l d
    | VMiss a k f l d => will a ((k, f) :: l) d
    | VHave a k v f l d => will a ((k, f) :: l) d /\ load_block g r (vo_mask (ca_o a)) k = Ok v
    end.
  Definition sys_ok (y : vsys) : Prop := good (y_shelf y) /\ (forall t, pc_ok (y_thr y t)) /\ Forall (fun e => ok (fst e) /\ snd e = call_alone (fst e)) (y_log y).
  Lemma thr_ok th t p : (forall u, pc_ok (th u)) -> pc_ok p -> forall u, pc_ok (at_thr th t p u).
  Proof. intros H P u. unfold at_thr. destruct (u =? t)%nat; auto. Qed.
  Lemma drawn_ok a k f l d x p e : will a ((k, f) :: l) d -> same_res x (load_block g r (vo_mask (ca_o a)) k) -> drawn a f l x d = (p, e) ->
    pc_ok p /\ Forall (fun e => ok (fst e) /\ snd e = call_alone (fst e)) e.
  Proof.
    intros (O & R & W) S D. inversion R as [|? ? R1 R2]; subst. cbn [run_jobs fetch] in W. unfold drawn in D.
    rewrite (respects_res f k _ _ d R1 S) in D. destruct (let* v := load_block g r (vo_mask (ca_o a)) k in f v d) as [d1| | |]; injection D as <- <-.
    - split; [|constructor]. split; [exact O|]. split; assumption.
    - split; [exact Logic.I|]. constructor; [|constructor]. split; [exact O|exact W].
    - split; [exact Logic.I|]. constructor; [|constructor]. split; [exact O|exact W].
    - split; [exact Logic.I|]. constructor; [|constructor]. split; [exact O|exact W].
  Qed.
  Lemma step_ok a b : sys_ok a -> vstep sort zm z g r ok a b -> sys_ok b.
  Proof.
    intros (G & P & L) S. destruct S as [t a s f log l d T O Op J C|t a k f l d s s1 x p e th log T H D|t a k f l d s s1 th log T H|t a k f l d s p e th log T N D
      |t a k f l d s v th log T H|t a k v f l d s p e th log T D|t a d s th log T|s s1 m n th log H]; cbn [y_shelf y_thr y_log] in *.
    - split; [exact G|]. split; [|exact L]. apply thr_ok; [exact P|]. split; [exact O|]. split; [now apply jobs_respect in J|].
      unfold call_alone, view. rewrite Op, J. cbn [bind]. rewrite C. reflexivity.
    - pose proof (P t) as W. rewrite T in W. cbn [pc_ok] in W. destruct (good_get _ _ _ _ G H) as [G1 X]. destruct (X x eq_refl) as (m & v & U & Lv & ->).
      assert (S : same_res (from_shelf r k (v_obj v)) (load_block g r (vo_mask (ca_o a)) k)).
      { rewrite (load_used _ _ _ _ U (ok_used _ (proj1 W)) Lv). now apply from_shelf_same with m. }
      destruct (drawn_ok _ _ _ _ _ _ _ _ W S D) as [Q E]. split; [exact G1|]. split; [now apply thr_ok|]. apply Forall_app. auto.
    - pose proof (P t) as W. rewrite T in W. split; [apply (good_get _ _ _ _ G H)|]. split; [|exact L]. apply thr_ok; [exact P|exact W].
    - pose proof (P t) as W. rewrite T in W. destruct (drawn_ok _ _ _ _ _ _ _ _ W (same_res_refl _) D) as [Q E]. split; [exact G|]. split; [now apply thr_ok|]. apply Forall_app. auto.
    - pose proof (P t) as W. rewrite T in W. split; [exact G|]. split; [|exact L]. apply thr_ok; [exact P|]. split; [exact W|exact H].
    - pose proof (P t) as W. rewrite T in W. destruct W as [W Lv].
      assert (S : same_res (Ok v) (load_block g r (vo_mask (ca_o a)) k)) by (rewrite Lv; apply same_res_refl).
      destruct (drawn_ok _ _ _ _ _ _ _ _ W S D) as [Q E]. split; [|split; [now apply thr_ok|apply Forall_app; auto]].
      destruct (to_be_added _ _); [|exact G]. apply good_add with (vo_mask (ca_o a)); [exact G|apply ok_used, W|exact Lv].
    - pose proof (P t) as W. rewrite T in W. destruct W as (O & _ & W). split; [exact G|]. split; [apply thr_ok; [exact P|exact Logic.I]|].
      apply Forall_app. split; [exact L|]. constructor; [|constructor]. split; [exact O|exact W].
    - split; [now apply good_prune with s m n|]. auto.
  Qed.
  Lemma reach_ok y : vreach sort zm z g r ok y -> sys_ok y.
  Proof. induction 1 as [|a b _ IH S]; [|now apply step_ok with a]. split; [exact good0|]. split; [intros; exact Logic.I|constructor]. Qed.
End Cache.

Theorem same_picture : forall sort zm z g r ops, places_agree r -> uniform ops \/ unmasked r -> vrun sort zm z g r shelf0 ops = alone sort zm z g r ops.
Proof.
  intros sort zm z g r ops P [(m & U)|U].
  - apply vrun_same with (used := fun m' => m' = m); [exact P|left; exists m; auto| |apply good0].
    intros p I. destruct (U p I) as [->| ->]; auto.
  - apply vrun_same with (used := fun _ => True); [exact P|right; exact U| |apply good0]. intros p I. destruct (op_mask p); exact Logic.I.
Qed.
Theorem same_picture_threads : forall sort zm z g r (ok : call -> Prop) y, places_agree r -> (exists m, forall a, ok a -> vo_mask (ca_o a) = m) \/ unmasked r ->
  vreach sort zm z g r ok y -> forall a p, In (a, p) (y_log y) -> p = fst (view sort zm z g r (ca_o a) (ca_q a) (ca_t a) None (ca_dst a)).
Proof.
  intros sort zm z g r ok y P [(m & U)|U] R a p I.
  - assert (S : sys_ok g r (fun m' => m' = m) sort zm z ok y) by (apply reach_ok; [exact P|left; exists m; auto|exact U|exact R]).
    destruct S as (_ & _ & L). rewrite Forall_forall in L. apply (L _ I).
  - assert (S : sys_ok g r (fun _ => True) sort zm z ok y) by (apply reach_ok; [exact P|right; exact U|auto|exact R]).
    destruct S as (_ & _ & L). rewrite Forall_forall in L. apply (L _ I).
Qed.
