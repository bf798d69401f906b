(** The scaling accessor without masks is not disturbed by a cache, whatever else uses it. *)
From Verif Require Import Base RectModel CodecModel WriterModel CodesModel CopyModel TextModel CoordModel StatModel AccessModel AccessExamples ScaleModel ScaleExamples ReaderModel CacheModel CacheProofs SubMetaModel ViewModel ViewSpec ViewProofs ViewExamples.
Open Scope Z_scope.

Definition alike (v w : sbd) : Prop := v_pt v = v_pt w /\ v_bmp v = v_bmp w.
Definition alike_res (a b : res sbd) : Prop := match a, b with Ok v, Ok w => alike v w | _, _ => a = b end.
Lemma alike_refl a : alike_res a a. Proof. destruct a; cbn; [split|..]; reflexivity. Qed.
Definition heeds (j : job) : Prop := forall v w d, alike v w -> snd j v d = snd j w d.
Lemma heeds_res (f : sbd -> bmp -> res bmp) k a b d : heeds (k, f) -> alike_res a b -> (let* v := a in f v d) = (let* v := b in f v d).
Proof. intros R S. destruct a, b; cbn [alike_res] in S; try discriminate S; try reflexivity. cbn [bind]. now apply (R _ _ d). Qed.

Section Scale.
  Variable g : outer.
  Variable r : rstate.
  Variable sort zm z : list (Z * sbinfo) -> list (Z * sbinfo).
  Let any : bool -> Prop := fun _ => True.
  Let fine := good g r any.

  Lemma info_of k i p : snd (rstep r (RBlock k)) = Ok (ABlock (Some (i, p))) -> exists j, snd (rstep r (RInfo k)) = Ok (AInfo (Some j)).
  Proof.
    intros H. cbn [rstep unchecked orb] in *. rewrite orb_true_r. cbn [snd]. rewrite orb_false_r in H.
    destruct (r_op r); cbn [snd] in H; [|discriminate]. unfold query in *.
    destruct (at_index (r_dir r) k) as [[e|]| | |]; cbn [bind option_map] in *; try discriminate. eexists. reflexivity.
  Qed.
  Lemma hit_alike m k v : load_block g r m k = Ok v -> alike_res (from_shelf r k (v_obj v)) (load_block g r false k).
  Proof.
    intros H. unfold load_block in *. destruct (snd (rstep r (RBlock k))) as [a| | |] eqn:B; cbn [bind] in *; try discriminate.
    destruct a as [ | | | | | | | |[[i [[d att] meta]]|]| | | | |]; try discriminate. destruct (info_of _ _ _ B) as (j & J).
    destruct (create_bitmap g i d) as [[t b]| | |]; cbn [bind] in *; try discriminate.
    destruct (if m then try_get_mask meta att else Ok None) as [mk| | |]; cbn [bind] in H; try discriminate. injection H as <-.
    unfold from_shelf. rewrite J. cbn [bind alike_res]. split; reflexivity.
  Qed.
  Lemma fetch_alike only m k s : fine s -> exists x s1, fetch g r only m (Some s) k = (x, Some s1) /\ fine s1 /\ (m = false -> alike_res x (load_block g r m k)).
  Proof.
    intros G. cbn [fetch]. destruct (shelf_get s k) as [[x|] s1] eqn:S; destruct (good_get g r any _ _ _ _ G S) as [G1 X].
    - destruct (X x eq_refl) as (m' & v & _ & L & ->). exists (from_shelf r k (v_obj v)), s1. split; [reflexivity|]. split; [exact G1|].
      intros ->. now apply hit_alike with m'.
    - destruct (load_block g r m k) as [v| | |] eqn:L; (eexists; eexists; split; [reflexivity|]; split; [|intros _; apply alike_refl]); try exact G1.
      destruct (to_be_added only v); [|exact G1]. now apply (good_add g r any) with m.
  Qed.
  Lemma run_alike o l : forall s d, fine s ->
    exists x s1, run_jobs g r o l (Some s) d = (x, Some s1) /\ fine s1 /\ (vo_mask o = false -> Forall heeds l -> x = fst (run_jobs g r o l None d)).
  Proof.
    induction l as [|[k f] l IH]; intros s d G; cbn [run_jobs]; [exists (Ok d), s; auto|].
    destruct (fetch_alike (vo_only o) (vo_mask o) k s G) as (x & s1 & F & G1 & S). rewrite F. cbn [fetch].
    destruct (let* v := x in f v d) as [d1| | |] eqn:D;
      [destruct (IH s1 d1 G1) as (y & s2 & E2 & G2 & W); rewrite E2; exists y, s2; split; [reflexivity|]; split; [exact G2|]|..];
      try (eexists; exists s1; split; [reflexivity|]; split; [exact G1|]);
      intros M R; inversion R as [|? ? R1 R2]; subst; rewrite (heeds_res f k _ _ d R1 (S M)) in D; rewrite D; [now apply W|reflexivity..].
  Qed.
  Lemma scale_heeds o t zoom roi i : vo_mask o = false -> heeds (scale_job o t zoom roi i).
  Proof. intros M v w d (A & B). cbn [scale_job snd]. rewrite M, A, B. reflexivity. Qed.
  Lemma paint_heeds o t zoom roi l js : vo_mask o = false -> paint_jobs_of o t zoom roi l = Ok js -> Forall heeds js.
  Proof.
    intros M. unfold paint_jobs_of. destruct (visible _ _ _); cbn [bind]; try discriminate. injection 1 as <-.
    apply Forall_forall. intros j J. apply in_map_iff in J as (i & <- & _). now apply scale_heeds.
  Qed.
  Lemma concat_heeds (l : list (res (list job))) : (forall a js, In a l -> a = Ok js -> Forall heeds js) -> forall js, concat_res l = Ok js -> Forall heeds js.
  Proof.
    induction l as [|a l IH]; intros H js E; cbn [concat_res] in E; [injection E as <-; constructor|].
    destruct a as [x| | |]; cbn [bind] in E; try discriminate. destruct (concat_res l) as [y| | |] eqn:C; cbn [bind] in E; try discriminate. injection E as <-.
    apply Forall_app. split; [apply (H (Ok x)); [now left|reflexivity]|]. apply IH; [|reflexivity]. intros b bs I. apply H. now right.
  Qed.
  Lemma jobs_heed o plane scenes zoom roi t dst l : vo_mask o = false -> jobs sort zm z r o (QScale plane scenes zoom roi) t dst = Ok l -> Forall heeds l.
  Proof.
    intros M. unfold jobs. destruct (check_plane _ _); cbn [bind]; try discriminate. destruct (_ <=? 1)%nat; [now apply paint_heeds|].
    apply concat_heeds. intros jl js I E. apply in_map_iff in I as (s & <- & _). now apply paint_heeds in E.
  Qed.
  Lemma view_alike o q t s dst : fine s ->
    exists x s1, view sort zm z g r o q t (Some s) dst = (x, Some s1) /\ fine s1 /\
      (plain_scale o q -> x = fst (view sort zm z g r o q t None dst)).
  Proof.
    intros G. unfold view. destruct (r_op r); [|eexists; exists s; auto].
    destruct (jobs sort zm z r o q t dst) as [l| | |] eqn:J; cbn [bind]; try (eexists; exists s; auto; fail).
    destruct (clear_for o t dst) as [d| | |]; cbn [bind]; try (eexists; exists s; auto; fail).
    destruct (run_alike o l s d G) as (x & s1 & E & G1 & W). exists x, s1. split; [exact E|]. split; [exact G1|].
    intros [M Q]. apply W; [exact M|]. destruct q; try contradiction. now apply jobs_heed in J.
  Qed.
  Lemma vrun_alike ops : forall s, fine s -> forall o q t dst, plain_scale o q ->
    nth_error (vrun sort zm z g r s (ops ++ [OGet o q t dst])) (gets ops) = Some (fst (view sort zm z g r o q t None dst)).
  Proof.
    induction ops as [|p ops IH]; intros s G o q t dst Q; cbn [app vrun gets].
    - destruct (view_alike o q t s dst G) as (x & s1 & -> & G1 & W). cbn. f_equal. now apply W.
    - destruct p as [o1 q1 t1 d1|m n].
      + destruct (view_alike o1 q1 t1 s d1 G) as (x & s1 & -> & G1 & _). cbn [nth_error]. now apply IH.
      + destruct (prune_total g r any s m n G) as (s1 & P). rewrite P. apply IH; [now apply (good_prune g r any) with s m n|exact Q].
  Qed.

  (** ** Many threads *)
  Variable ok : call -> Prop.
  Definition plain_call (a : call) : Prop := plain_scale (ca_o a) (ca_q a).
  Definition lone (a : call) : res bmp := fst (view sort zm z g r (ca_o a) (ca_q a) (ca_t a) None (ca_dst a)).
  Definition would (a : call) (l : list job) (d : bmp) : Prop := plain_call a -> Forall heeds l /\ fst (run_jobs g r (ca_o a) l None d) = lone a.
  Definition pc_fine (p : vpc) : Prop :=
    match p with
    | VIdle => True
    | VDraw a l d => would a l d
    | VMiss a k f l d => would a ((k, f) :: l) d
    | VHave a k v f l d => would a ((k, f) :: l) d /\ load_block g r (vo_mask (ca_o a)) k = Ok v
    end.
  Definition entry_fine (e : call * res bmp) : Prop := plain_call (fst e) -> snd e = lone (fst e).
  Definition sys_fine (y : vsys) : Prop := fine (y_shelf y) /\ (forall t, pc_fine (y_thr y t)) /\ Forall entry_fine (y_log y).
  Lemma thr_fine th t p : (forall u, pc_fine (th u)) -> pc_fine p -> forall u, pc_fine (at_thr th t p u).
  Proof. intros H P u. unfold at_thr. destruct (u =? t)%nat; auto. Qed.
  Lemma drawn_fine a k f l d x p e : would a ((k, f) :: l) d -> (plain_call a -> alike_res x (load_block g r (vo_mask (ca_o a)) k)) -> drawn a f l x d = (p, e) ->
    pc_fine p /\ Forall entry_fine e.
  Proof.
    intros W S D. unfold drawn in D. destruct (let* v := x in f v d) as [d1| | |] eqn:B; injection D as <- <-;
      [split; [|constructor]|split; [exact Logic.I|constructor; [|constructor]]..];
      intros Q; destruct (W Q) as [R E]; inversion R as [|? ? R1 R2]; subst; cbn [run_jobs fetch] in E; rewrite (heeds_res f k _ _ d R1 (S Q)) in B; rewrite B in E; [auto|exact E..].
  Qed.
  Lemma step_fine a b : sys_fine a -> vstep sort zm z g r ok a b -> sys_fine b.
  Proof.
    intros (G & P & L) S. destruct S as [t a s f log l d T O Op J C|t a k f l d s s1 x p e th log T H D|t a k f l d s s1 th log T H|t a k f l d s p e th log T N D
      |t a k f l d s v th log T H|t a k v f l d s p e th log T D|t a d s th log T|s s1 m n th log H]; cbn [y_shelf y_thr y_log] in *.
    - split; [exact G|]. split; [|exact L]. apply thr_fine; [exact P|]. intros [M Q]. split.
      + destruct (ca_q a); try contradiction. now apply jobs_heed in J.
      + unfold lone, view. rewrite Op, J. cbn [bind]. rewrite C. reflexivity.
    - pose proof (P t) as W. rewrite T in W. cbn [pc_fine] in W. destruct (good_get g r any _ _ _ _ G H) as [G1 X]. destruct (X x eq_refl) as (m & v & U & Lv & ->).
      assert (S : plain_call a -> alike_res (from_shelf r k (v_obj v)) (load_block g r (vo_mask (ca_o a)) k)).
      { intros [M _]. rewrite M. now apply hit_alike with m. }
      destruct (drawn_fine _ _ _ _ _ _ _ _ W S D) as [Q E]. split; [exact G1|]. split; [now apply thr_fine|]. apply Forall_app. auto.
    - pose proof (P t) as W. rewrite T in W. split; [apply (good_get g r any _ _ _ _ G H)|]. split; [|exact L]. apply thr_fine; [exact P|exact W].
    - pose proof (P t) as W. rewrite T in W. destruct (drawn_fine _ _ _ _ _ _ _ _ W (fun _ => alike_refl _) D) as [Q E]. split; [exact G|]. split; [now apply thr_fine|]. apply Forall_app. auto.
    - pose proof (P t) as W. rewrite T in W. split; [exact G|]. split; [|exact L]. apply thr_fine; [exact P|]. split; [exact W|exact H].
    - pose proof (P t) as W. rewrite T in W. destruct W as [W Lv].
      assert (S : plain_call a -> alike_res (Ok v) (load_block g r (vo_mask (ca_o a)) k)) by (intros _; rewrite Lv; apply alike_refl).
      destruct (drawn_fine _ _ _ _ _ _ _ _ W S D) as [Q E]. split; [|split; [now apply thr_fine|apply Forall_app; auto]].
      destruct (to_be_added _ _); [|exact G]. apply (good_add g r any) with (vo_mask (ca_o a)); [exact G|exact Logic.I|exact Lv].
    - pose proof (P t) as W. rewrite T in W. split; [exact G|]. split; [apply thr_fine; [exact P|exact Logic.I]|].
      apply Forall_app. split; [exact L|]. constructor; [|constructor]. intros Q. apply (W Q).
    - split; [now apply (good_prune g r any) with s m n|]. auto.
  Qed.
  Lemma reach_fine y : vreach sort zm z g r ok y -> sys_fine y.
  Proof. induction 1 as [|a b _ IH S]; [|now apply step_fine with a]. split; [apply good0|]. split; [intros; exact Logic.I|constructor]. Qed.
End Scale.

Theorem scale_undisturbed : forall sort zm z g r ops o q t dst, plain_scale o q ->
  nth_error (vrun sort zm z g r shelf0 (ops ++ [OGet o q t dst])) (gets ops) = Some (fst (view sort zm z g r o q t None dst)).
Proof. intros. apply vrun_alike; [apply good0|assumption]. Qed.
Theorem scale_undisturbed_threads : forall sort zm z g r (ok : call -> Prop) y, vreach sort zm z g r ok y ->
  forall a p, In (a, p) (y_log y) -> plain_scale (ca_o a) (ca_q a) -> p = fst (view sort zm z g r (ca_o a) (ca_q a) (ca_t a) None (ca_dst a)).
Proof.
  intros sort zm z g r ok y R a p I Q. destruct (reach_fine g r sort zm z ok y R) as (_ & _ & L). rewrite Forall_forall in L. exact (L _ I Q).
Qed.
(** after a call of the tile accessor which put a mask into the cache *)
Definition scale_of_doc (m : bool) : vop := OGet (ask m) (QScale plane0 None (f32_of_Z 1) (mkRect 0 (-4) 2 2)) CodesModel.Gray8 (dst9 2 2).
Lemma ex_undisturbed : seen (vr masked_doc shelf0 [tile_of_doc true 0 (-4) 2 2; scale_of_doc false; tile_of_doc false 0 (-4) 2 2; scale_of_doc true]) =
  [Ok [1; 99; 3; 4]; Ok [1; 2; 3; 4]; Ok [1; 99; 3; 4]; Ok [1; 99; 3; 4]].
Proof. vm_compute. reflexivity. Qed.
