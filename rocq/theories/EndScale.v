(** From the bitmap handed to the writer to the picture of the scaling accessor. *)
From Coq Require Import Permutation Sorted Floats.SpecFloat.
From Verif Require Import Base RectModel CodecModel CodecProofs CodesModel CopyModel TextModel CoordModel CoordSpec OrderProofs StatModel StatSpec StatProofs PyrProofs DirProofs WriterModel WriterProofs WriterSpec WriterLimits WriterMain ZstdModel ZstdProofs HiLoModel HiLoProofs
  AddModel AddSpec AddProofs PixelModel FillProofs AccessModel AccessSpec AccessProofs AccessCompose ScaleModel ScaleSpec ScaleProofs ScaleCompose EditModel EditSpec EditOpen ReaderModel ReaderSpec ReaderProofs ReaderParts ReaderExamples SubMetaModel ViewModel ViewSpec ViewProofs EndSpec EndProofs EndScaleSpec.
Open Scope Z_scope.

(** ** The accessor of the end-to-end model is the one of ScaleModel *)
Definition scale_bitmap (g : outer) (r : rstate) (o : vopts) (k : Z) : bmp * option mask * copy_kind :=
  match load_block g r (vo_mask o) k with
  | Ok v => (v_bmp v, if vo_mask o then v_mask v else None, SameType false)
  | _ => (mkBmp 0 0 0 1 0 (fun _ => 0), None, SameType false)
  end.
Lemma draw_cons bitmap zoom roi i l d : draw bitmap zoom roi (i :: l) d = let* d1 := scale_blt bitmap zoom roi d i in draw bitmap zoom roi l d1.
Proof. unfold draw. cbn [fold_left bind]. destruct (scale_blt bitmap zoom roi d i); [reflexivity|..]; cbn [bind]; induction l; cbn [fold_left bind]; auto. Qed.
Lemma draw_both bitmap zoom roi l1 l2 d : draw bitmap zoom roi (l1 ++ l2) d = let* d1 := draw bitmap zoom roi l1 d in draw bitmap zoom roi l2 d1.
Proof.
  revert d. induction l1 as [|i l1 IH]; intros d; [reflexivity|]. cbn [app]. rewrite !draw_cons. destruct (scale_blt bitmap zoom roi d i); cbn [bind]; auto.
Qed.
Lemma run_scale g r o t p zoom roi l : px_of t = Some p -> p <> PixelModel.Bgra32 ->
  (forall i, In i l -> exists v, load_block g r (vo_mask o) (fst i) = Ok v /\ v_pt v = t) ->
  forall d, run_jobs g r o (map (scale_job o t zoom roi) l) None d = (draw (scale_bitmap g r o) zoom roi l d, None).
Proof.
  intros P N. induction l as [|i l IH]; intros L d; [reflexivity|]. destruct (L i (or_introl eq_refl)) as (v & E & T).
  cbn [map]. rewrite draw_cons. cbn [run_jobs scale_job fetch]. rewrite E. cbn [bind]. rewrite T.
  assert (Q : (if SpecFloat.SFeqb zoom (f32_of_Z 1) then draw_at false t t (v_bmp v) (if vo_mask o then v_mask v else None) d (rx (sb_rect (snd i)) - rx roi) (ry (sb_rect (snd i)) - ry roi)
     else let* k := kind_of false t t in scale_blt (fun _ => (v_bmp v, if vo_mask o then v_mask v else None, k)) zoom roi d i) = scale_blt (scale_bitmap g r o) zoom roi d i).
  { unfold scale_blt. destruct (SFeqb zoom (f32_of_Z 1)).
    - rewrite (draw_at_compose _ _ p) by assumption. unfold tile_at, scale_bitmap. rewrite E. reflexivity.
    - rewrite (kind_same t p false P N). cbn [bind]. unfold scale_bitmap. rewrite E. reflexivity. }
  rewrite Q. destruct (scale_blt _ zoom roi d i); cbn [bind]; try reflexivity. apply IH. intros j J. apply L. now right.
Qed.
Lemma concat_jobs o t zoom roi (f : Z -> list (Z * sbinfo)) sc : vo_vis o = None ->
  concat_res (map (fun s => paint_jobs_of o t zoom roi (f s)) sc) = Ok (map (scale_job o t zoom roi) (flat_map (fun s => chosen zoom (f s)) sc)).
Proof.
  intros V. induction sc as [|s sc IH]; [reflexivity|]. cbn [map concat_res flat_map]. rewrite IH. unfold paint_jobs_of, visible. rewrite V. cbn [bind]. now rewrite map_app.
Qed.
Lemma fold_paint bitmap zoom roi (f : Z -> list (Z * sbinfo)) sc d :
  fold_left (fun r s => let* d := r in paint bitmap None zoom roi (f s) d) sc (Ok d) = draw bitmap zoom roi (flat_map (fun s => chosen zoom (f s)) sc) d.
Proof.
  revert d. induction sc as [|s sc IH]; intros d; [reflexivity|]. cbn [fold_left flat_map bind]. rewrite draw_both. unfold paint at 2. destruct (draw bitmap zoom roi (chosen zoom (f s)) d); cbn [bind]; [apply IH|..];
    clear; induction sc; cbn [fold_left bind]; auto.
Qed.
Lemma view_scale_get sort zm z g r o plane scenes zoom roi t p dst : px_of t = Some p -> p <> PixelModel.Bgra32 -> r_op r = true -> vo_vis o = None ->
  let st := get_stats (r_upd r) in let dir := map sbinfo_of (r_dir r) in let sc := involved st scenes roi in
  (forall i, In i (if (length sc <=? 1)%nat then the_list zm z st (vo_sort o) plane scenes zoom roi dir else flat_map (scene_list zm z (vo_sort o) plane zoom roi dir) sc) ->
    exists v, load_block g r (vo_mask o) (fst i) = Ok v /\ v_pt v = t) ->
  check_plane (st_dims st) plane = Ok tt -> background_ok (option_map (pair p) (vo_bg o)) dst -> bmp_wf dst ->
  view sort zm z g r o (QScale plane scenes zoom roi) t None dst =
  (scale_get zm z (scale_bitmap g r o) None (st_dims st) st (option_map (pair p) (vo_bg o)) (vo_sort o) plane scenes zoom roi dst dir, None).
Proof.
  intros P N O V st dir sc L C B W. unfold view, jobs, scale_get. rewrite O. fold st dir. rewrite C. cbn [bind].
  destruct (clear_ok _ _ W B) as (m & back & Cl & _). rewrite Cl. cbn [bind].
  assert (Cf : clear_for o t dst = Ok (bwith dst m)) by (rewrite <- Cl; unfold clear, clear_for; rewrite P; destruct (vo_bg o); reflexivity).
  fold sc. cbv zeta. destruct (length sc <=? 1)%nat.
  - unfold paint_jobs_of, visible. rewrite V. cbn [bind]. rewrite Cf. cbn [bind]. apply run_scale with p; assumption.
  - rewrite concat_jobs by exact V. cbn [bind]. rewrite Cf. cbn [bind]. rewrite fold_paint. apply run_scale with p; assumption.
Qed.

(** ** The statistics of the document which is open *)
Lemma observe_entry strict f e a : observe strict f e = Ok (expected a) -> with_pos e 0 = with_pos (with_m (ai_e a) (given_m a)) 0.
Proof. unfold observe. destruct (read_subblock strict f (e_pos e)) as [sd| | |]; cbn [bind]; try discriminate. intros E.
  assert (K : mkObs (with_pos e 0) (with_pos (sd_info sd) 0) (sd_meta sd) (sd_data sd) (sd_att sd) = expected a) by congruence. exact (f_equal ob_entry K).
Qed.
Lemma stored_stats : forall strict f l0 h o, stored strict f o l0 ->
  let s := fst (rrun reader0 h) in let d := fst (rstep s (ROpen strict f o)) in
  snd (rstep s (ROpen strict f o)) = Ok ADone ->
  open_stats (r_dir d) = Ok (r_upd d) /\ exists l, Permutation l l0 /\ Forall2 (fun e a => with_pos e 0 = with_pos (with_m (ai_e a) (given_m a)) 0) (r_dir d) l.
Proof.
  intros strict f l0 h o (op & O & Pm) s d E. destruct (open_parts _ _ _ _ O) as (hd & A1 & A2).
  destruct (after_open s strict f o hd (op_dir op) E A1 A2) as (u & at' & Eu & _ & Es).
  assert (Ed : d = opened_state hd (op_dir op) u at' strict f o) by (unfold d; now rewrite Es). rewrite Ed. cbn [opened_state r_dir r_upd]. split; [exact Eu|].
  apply Permutation_map_inv in Pm as (l & El & Pl). exists l. split; [now apply Permutation_sym|].
  clear -El. revert l El. induction (op_dir op) as [|e es IH]; intros [|a l] El; try discriminate; [constructor|]. cbn [map] in El. injection El as E1 E2.
  constructor; [now apply observe_entry in E1|now apply IH].
Qed.

Lemma known_scenes es l st : Forall2 (fun e a => with_pos e 0 = with_pos (with_m (ai_e a) (given_m a)) 0) es l -> additions_fit l -> describes_dim_m es st ->
  scenes_known st (map sbinfo_of es).
Proof.
  intros _ _ (_ & _ & _ & _ & _ & So & Key & Box). split; [exact So|]. intros k i s [_ N] Sc. rewrite nth_error_map in N. destruct (nth_error es (Z.to_nat k)) as [e|] eqn:E; [|discriminate]. injection N as <-.
  assert (In_s : In e (in_scene s es)).
  { unfold in_scene. apply filter_In. split; [eapply nth_error_In; exact E|]. unfold scene, tget, sbinfo_of in Sc. cbn [sb_coord] in Sc. change (Z.to_nat (5 - 1)) with 4%nat in Sc. rewrite Sc. apply Z.eqb_refl. }
  assert (Ks : In s (map fst (st_scenes st))) by (apply Key; intros N; rewrite N in In_s; destruct In_s). apply in_map_iff in Ks as ([s' [b b0]] & Es & H). cbn [fst] in Es. subst s'.
  exists b, b0. split; [exact H|]. destruct (Box s b b0 H) as [[[N _]|(_ & B & _)] _]; [rewrite N in In_s; destruct In_s|]. destruct (B e In_s) as (B1 & B2 & B3 & B4). unfold encloses, sbinfo_of. cbn [sb_rect rx ry rw rh]. tauto.
Qed.
Lemma entry_fits e a : with_pos e 0 = with_pos (with_m (ai_e a) (given_m a)) 0 -> StatSpec.entry_ok (ai_e a) -> StatSpec.entry_ok e.
Proof.
  intros H (A1 & A2 & A3 & A4 & A5 & A6 & A7 & A8 & A9). assert (H1 := f_equal e_coord H). assert (H2 := f_equal e_m H). assert (H3 := f_equal e_x H). assert (H4 := f_equal e_y H).
  assert (H5 := f_equal e_w H). assert (H6 := f_equal e_h H). assert (H7 := f_equal e_sw H). assert (H8 := f_equal e_sh H). unfold with_pos, with_m in *. cbn [e_coord e_m e_x e_y e_w e_h e_sw e_sh] in *.
  unfold StatSpec.entry_ok. rewrite H1, H2, H3, H4, H5, H6, H7, H8. repeat (split; [assumption|]). split; [|exact A9]. unfold given_m. destruct (ai_mv a); [exact A8|unfold in_i32, INT_MIN, INT_MAX; lia].
Qed.
Lemma bounds_same es l : Forall2 (fun e a => with_pos e 0 = with_pos (with_m (ai_e a) (given_m a)) 0) es l -> bounds_fit (map ai_e l) -> bounds_fit es.
Proof.
  intros F B x y X Y.
  assert (G : forall e, In e es -> exists a, In a l /\ with_pos e 0 = with_pos (with_m (ai_e a) (given_m a)) 0).
  { clear -F. induction F as [|e a es l E F IH]; intros e' [].  - subst e'. exists a. split; [now left|exact E]. - destruct (IH e' H) as (a' & I & Q). exists a'. split; [now right|exact Q]. }
  destruct (G x X) as (a & Ia & Ea), (G y Y) as (b & Ib & Eb). specialize (B (ai_e a) (ai_e b) (in_map ai_e l a Ia) (in_map ai_e l b Ib)).
  assert (H1 := f_equal e_coord Ea). assert (H3 := f_equal e_x Ea). assert (H4 := f_equal e_y Ea). assert (H5 := f_equal e_w Ea). assert (H6 := f_equal e_h Ea).
  assert (G1 := f_equal e_coord Eb). assert (G3 := f_equal e_x Eb). assert (G4 := f_equal e_y Eb). unfold with_pos, with_m in *. cbn [e_coord e_m e_x e_y e_w e_h e_sw e_sh] in *.
  rewrite H1, H3, H4, H5, H6, G1, G3, G4. exact B.
Qed.
Lemma stats_known : forall strict f l0 h o, stored strict f o l0 -> additions_fit l0 ->
  let s := fst (rrun reader0 h) in let d := fst (rstep s (ROpen strict f o)) in
  snd (rstep s (ROpen strict f o)) = Ok ADone -> scenes_known (get_stats (r_upd d)) (map sbinfo_of (r_dir d)).
Proof.
  intros strict f l0 h o S [F B] s d E. destruct (stored_stats strict f l0 h o S E) as (U & l & Pl & F2). fold s d in U, F2.
  assert (Fl : Forall (fun a => StatSpec.entry_ok (ai_e a)) l) by (rewrite Forall_forall in *; intros a I; apply F; eapply Permutation_in; eassumption).
  assert (Bl : bounds_fit (map ai_e l)).
  { intros x y X Y. apply B; (eapply Permutation_in; [apply Permutation_map; exact Pl|assumption]). }
  destruct (open_stats_ok (r_dir d)) as (u & Eu & De & _).
  - clear -F2 Fl. induction F2; [constructor|]. inversion Fl; subst. constructor; [eapply entry_fits; eassumption|auto].
  - eapply bounds_same; eassumption.
  - rewrite U in Eu. injection Eu as <-. eapply known_scenes; [exact F2|split; assumption|exact De].
Qed.

(** ** The picture *)
Section Scaled.
  Variable sort zm z : list (Z * sbinfo) -> list (Z * sbinfo).
  Hypothesis Hm : sorts_by_zoom_m zm.
  Hypothesis Hz : sorts_by_zoom z.
  Variable g : outer.
  Variable d : rstate.
  Variable l : list addinfo.
  Hypothesis Hop : r_op d = true.
  Hypothesis Hdir : map sbinfo_of (r_dir d) = map (fun a => sbinfo_of (with_m (ai_e a) (given_m a))) l.
  Hypothesis Hblock : forall k a, nth_error l k = Some a -> snd (rstep d (RBlock (Z.of_nat k))) = Ok (ABlock (Some (shown_as a))).
  Hypothesis Hfit : additions_fit l.
  Hypothesis Hknown : scenes_known (get_stats (r_upd d)) (map sbinfo_of (r_dir d)).
  Let dir := map sbinfo_of (r_dir d).

  Lemma fit_of a : In a l -> StatSpec.entry_ok (ai_e a).
  Proof. destruct Hfit as [F _]. rewrite Forall_forall in F. apply F. Qed.
  Lemma info_eq a : In a l -> sbinfo_of (with_m (ai_e a) (given_m a)) = info_of a.
  Proof. intros I. destruct (fit_of a I) as (_ & _ & _ & A & B & _). unfold sbinfo_of, info_of, with_m. cbn [e_coord e_x e_y e_w e_h e_sw e_sh e_m]. unfold INT_MAX in *. rewrite !u32_small by lia. reflexivity. Qed.
  Lemma block_of k i : sub_block dir k i -> exists a, nth_error l (Z.to_nat k) = Some a /\ In a l /\ i = info_of a.
  Proof.
    intros [_ H]. unfold dir in H. rewrite Hdir, nth_error_map in H. destruct (nth_error l (Z.to_nat k)) as [a|] eqn:E; [|discriminate]. injection H as <-. exists a. split; [reflexivity|].
    assert (I : In a l) by (eapply nth_error_In; exact E). split; [exact I|now apply info_eq].
  Qed.
  Lemma of_block a : In a l -> exists k, nth_error l (Z.to_nat k) = Some a /\ sub_block dir k (info_of a).
  Proof.
    intros H. assert (I := H). apply In_nth_error in H as [n H]. exists (Z.of_nat n). rewrite Nat2Z.id. split; [exact H|]. split; [lia|]. unfold dir. rewrite Nat2Z.id, Hdir, nth_error_map, H. cbn [option_map]. now rewrite info_eq.
  Qed.

  Variable plane : CodecModel.coord.
  Variable scenes : option (Z -> bool).
  Variable zoom : f32.
  Variable roi : rect.
  Let region := region_tile plane scenes roi dir.
  Let ask := asked plane scenes roi l.
  Lemma region_asked k i : region k i -> ask k i.
  Proof. intros (S & P & R & Sc). destruct (block_of k i S) as (a & _ & I & E). exists a. split; [exact I|]. split; [exact E|]. split; [exact P|]. split; [exact R|exact Sc]. Qed.
  Lemma asked_region a k : In a l -> ask k (info_of a) -> exists k', nth_error l (Z.to_nat k') = Some a /\ region k' (info_of a).
  Proof. intros I (_ & _ & _ & P & R & Sc). destruct (of_block a I) as (k' & N & S). exists k'. split; [exact N|]. split; [exact S|]. split; [exact P|]. split; [exact R|exact Sc]. Qed.
  Lemma asked_some k i : ask k i -> exists k', region k' i.
  Proof. intros A. assert (A' := A). destruct A' as (a & I & -> & _). destruct (asked_region a k I A) as (k' & _ & R). now exists k'. Qed.
  Lemma fine_asked k i : fine zoom region k i -> fine zoom ask k i.
  Proof. intros [R Q]. split; [now apply region_asked|exact Q]. Qed.
  Lemma fine_some k i : fine zoom ask k i -> exists k', fine zoom region k' i.
  Proof. intros [R Q]. destruct (asked_some k i R) as (k' & R'). exists k'. now split. Qed.
  Lemma level_asked same k i : level zoom same region k i -> level zoom same ask 0 i.
  Proof.
    intros (F & k0 & i0 & F0 & S & Le & Lt). split; [apply (fine_asked k i F)|]. exists k0, i0. split; [now apply fine_asked|]. split; [exact S|]. split; [|exact Lt].
    intros k' i' F' S'. apply fine_some in F' as (k2 & F2). exact (Le k2 i' F2 S').
  Qed.
  Lemma asked_level same a : In a l -> level zoom same ask 0 (info_of a) -> exists k, nth_error l (Z.to_nat k) = Some a /\ level zoom same region k (info_of a).
  Proof.
    intros I ([A Q] & k0 & i0 & F0 & S & Le & Lt). destruct (asked_region a 0 I A) as (k & N & R). exists k. split; [exact N|]. split; [now split|].
    apply fine_some in F0 as (k2 & F2). exists k2, i0. split; [exact F2|]. split; [exact S|]. split; [|exact Lt]. intros k' i' F' S'. exact (Le k' i' (fine_asked k' i' F') S').
  Qed.

  Variable o : vopts.
  Variable t : CodesModel.pixel_type.
  Variable p : px.
  Variable bpp : Z.
  Variable pic : addinfo -> Z -> byte.
  Variable msk : addinfo -> option mask.
  Variable dst : bmp.
  Variable same : sbinfo -> sbinfo -> Prop.
  Hypothesis Hpx : px_of t = Some p.
  Hypothesis Hnot : p <> PixelModel.Bgra32.
  Hypothesis Hpic : forall a, In a l -> level zoom same ask 0 (info_of a) -> ptype_of a = t /\ handed g a bpp (pic a) /\
    (if vo_mask o then try_get_mask (src_bytes (ai_meta a)) (src_bytes (ai_att a)) else Ok None) = Ok (msk a) /\ (forall m, msk a = Some m -> mask_wf m) /\
    axis_ok (x_axis (info_of a) roi dst) /\ axis_ok (y_axis (info_of a) roi dst).
  Hypothesis Hdst : bmp_wf dst.
  Hypothesis Hbpp : bbpp dst = bpp.
  Hypothesis Hsort : vo_sort o = true.
  Hypothesis Hvis : vo_vis o = None.
  Hypothesis Hbg : background_ok (option_map (pair p) (vo_bg o)) dst.
  Hypothesis Hcheck : check_plane (st_dims (get_stats (r_upd d))) plane = Ok tt.
  Hypothesis Hzoom : zoom_range zoom.
  Hypothesis Hne : SFeqb zoom (f32_of_Z 1) = false.
  Hypothesis Hsizes : forall a, In a l -> ask 0 (info_of a) -> zoom_sizes (info_of a).
  Hypothesis Hlay : layered (ask 0).

  Lemma sizes_of k i : region k i -> zoom_sizes i.
  Proof. intros R. destruct (block_of k i (proj1 R)) as (a & _ & I & ->). apply Hsizes; [exact I|]. exact (region_asked k _ R). Qed.
  Lemma lay_of : layered (fun i => exists k, region k i).
  Proof. destruct Hlay as [L1 L2]. split; [intros a (k & R); apply L1; exact (region_asked k a R)|]. intros a b (k & R) (k' & R'). apply L2; [exact (region_asked k a R)|exact (region_asked k' b R')]. Qed.

  Lemma shown_load k i : level zoom same region k i -> exists a b, nth_error l (Z.to_nat k) = Some a /\ In a l /\ i = info_of a /\ level zoom same ask 0 (info_of a) /\
    load_block g d (vo_mask o) k = Ok (mkSbd (t, bmp_of bpp (width_of a) (height_of a) b, msk a) (fst (shown_as a))) /\
    ZstdModel.shows b (width_of a * bpp) (height_of a) (pic a) /\ 0 < bpp /\ 0 < width_of a /\ 0 < height_of a.
  Proof.
    intros Lv. destruct Lv as [[R Q] Rest] eqn:E0. clear E0. destruct (block_of k i (proj1 R)) as (a & N & I & ->). exists a.
    assert (La : level zoom same ask 0 (info_of a)) by (eapply level_asked; exact Lv). destruct (Hpic a I La) as (T & Hd & Mk & _). destruct (fit_of a I) as (_ & _ & _ & W & H & _).
    destruct (handed_bitmap g a bpp (pic a) Hd) as (b & C & S & Rb); [unfold in_i32, width_of, INT_MIN, INT_MAX in *; lia|unfold in_i32, height_of, INT_MIN, INT_MAX in *; lia|].
    rewrite T in Rb. exists b. split; [exact N|]. split; [exact I|]. split; [reflexivity|]. split; [exact La|]. split; [|tauto].
    unfold load_block. specialize (Hblock _ a N). rewrite Z2Nat.id in Hblock by (destruct R as [[R _] _]; exact R). rewrite Hblock. cbn [bind]. unfold shown_as in *. cbn [fst] in C. rewrite C, T. cbn [bind]. rewrite Mk. reflexivity.
  Qed.
  Lemma shown_bitmap k i : level zoom same region k i -> exists a b, nth_error l (Z.to_nat k) = Some a /\ In a l /\ i = info_of a /\ level zoom same ask 0 (info_of a) /\
    scale_bitmap g d o k = (bmp_of bpp (width_of a) (height_of a) b, msk a, SameType false) /\
    ZstdModel.shows b (width_of a * bpp) (height_of a) (pic a) /\ 0 < bpp /\ 0 < width_of a /\ 0 < height_of a.
  Proof.
    intros Lv. destruct (shown_load k i Lv) as (a & b & N & I & E & La & L & R). exists a, b. repeat (split; [assumption|]). split; [|exact R].
    unfold scale_bitmap. rewrite L. unfold v_bmp, v_mask. cbn [v_obj fst snd]. destruct (Hpic a I La) as (_ & _ & Mk & _). destruct (vo_mask o); [reflexivity|]. injection Mk as <-. reflexivity.
  Qed.
  Lemma shown_drawable k i : level zoom same region k i -> drawable (scale_bitmap g d o) roi dst k i.
  Proof.
    intros Lv. destruct (shown_bitmap k i Lv) as (a & b & N & I & -> & La & E & S & B & W & H). destruct (Hpic a I La) as (_ & _ & _ & Mw & Ax & Ay). split; [|split; assumption].
    unfold ScaleSpec.source_ok. rewrite E. split; [eapply shows_wf; eassumption|]. unfold bmp_of. destruct b as [[? ?] ?]. cbn [bw bh bbpp]. split; [reflexivity|]. split; [reflexivity|]. split; [exact Mw|congruence].
  Qed.
  Lemma shown_value k a x y m : level zoom same region k (info_of a) -> nth_error l (Z.to_nat k) = Some a ->
    scaled_value (scale_bitmap g d o) k (axis_map (x_axis (info_of a) roi (bwith dst m))) (axis_map (y_axis (info_of a) roi (bwith dst m))) x y = puts axis_map roi (bwith dst m) bpp (pic a) (msk a) a x y.
  Proof.
    intros Lv Na. destruct (shown_bitmap k _ Lv) as (a' & b & N & I & _ & La & E & S & B & W & H). assert (a' = a) by congruence. subst a'. destruct (Hpic a I La) as (_ & _ & _ & _ & Ax & Ay).
    unfold scaled_value, puts. rewrite E. change (x_axis (info_of a) roi (bwith dst m)) with (x_axis (info_of a) roi dst). change (y_axis (info_of a) roi (bwith dst m)) with (y_axis (info_of a) roi dst).
    destruct (axis_map (x_axis (info_of a) roi dst) x) as [sx|] eqn:Ex; [|reflexivity]. destruct (axis_map (y_axis (info_of a) roi dst) y) as [sy|] eqn:Ey; [|reflexivity].
    destruct (axis_map_scaled _ Ax) as [Gx _], (axis_map_scaled _ Ay) as [Gy _]. destruct (Gx x sx Ex) as (_ & Rx & _), (Gy y sy Ey) as (_ & Ry & _).
    cbn [x_axis y_axis a_pix info_of sb_pw sb_ph] in Rx, Ry. destruct (ScaleSpec.unmasked (msk a) sx sy); [|reflexivity]. f_equal. apply (shows_pix b bpp (width_of a) (height_of a) (pic a) sx sy B W S); [exact Rx|exact Ry].
  Qed.

  Lemma to_seen above m back : (forall k i k' i', above (k, i) (k', i') <-> above (0, i) (0, i')) ->
    scaled_picture axis_map (scale_bitmap g d o) roi (level zoom same region) above back (bwith dst m) ->
    scaled_seen axis_map same above zoom plane scenes roi l bpp pic msk back (bwith dst m).
  Proof.
    intros Ab S x y X Y. specialize (S x y X Y). destruct S as [(k & i & Lv & V & Top)|[No V]].
    - left. destruct (shown_bitmap k i Lv) as (a & b & N & I & -> & La & _). exists a. split; [exact I|]. split; [exact La|]. split; [rewrite <- (shown_value k a x y m Lv N); exact V|].
      intros a' I' La' V'. destruct (asked_level same a' I' La') as (k' & N' & Lv'). apply (Ab k _ k' _). apply Top; [exact Lv'|]. now rewrite (shown_value k' a' x y m Lv' N').
    - right. split; [|exact V]. intros a I La. destruct (asked_level same a I La) as (k & N & Lv). rewrite <- (shown_value k a x y m Lv N). now apply No.
  Qed.

  Let st := get_stats (r_upd d).
  Lemma scaled_one : same = any -> one_scene st scenes roi -> exists m back, view sort zm z g d o (QScale plane scenes zoom roi) t None dst = (Ok (bwith dst m), None) /\
    background (option_map (pair p) (vo_bg o)) dst back /\ scaled_seen axis_map any (finer_above true) zoom plane scenes roi l bpp pic msk back (bwith dst m).
  Proof.
    intros Sm One. pose proof (involved_one st scenes roi dir Hknown One) as Len.
    destruct (the_list_ok zm z Hm Hz st true plane scenes zoom roi dir Hknown Hzoom sizes_of (fun _ => lay_of)) as [_ Lst].
    rewrite (view_scale_get sort zm z g d o plane scenes zoom roi t p dst Hpx Hnot Hop Hvis); [..|exact Hcheck|exact Hbg|exact Hdst].
    2:{ fold st dir. intros [k i] Hi. replace (length (involved st scenes roi) <=? 1)%nat with true in Hi by (symmetry; now apply Nat.leb_le). rewrite Hsort in Hi. apply Lst in Hi.
        rewrite <- Sm in Hi. destruct (shown_load k i Hi) as (a & b & _ & _ & _ & _ & L & _). cbn [fst]. eexists. split; [exact L|reflexivity]. }
    rewrite Hsort. fold st dir.
    destruct (scale_get_one zm z Hm Hz (scale_bitmap g d o) (st_dims st) st (option_map (pair p) (vo_bg o)) true plane scenes zoom roi dst dir Hcheck Hdst Hbg Hknown Hzoom sizes_of (fun _ => lay_of) Len Hne)
      as (m & back & E & B & P); [rewrite <- Sm; exact shown_drawable|].
    exists m, back. rewrite E. split; [reflexivity|]. split; [exact B|]. rewrite <- Sm. apply to_seen; [|rewrite Sm; exact P]. intros. reflexivity.
  Qed.
  Lemma scaled_several : same = same_scene -> several_scenes st scenes roi -> length plane = 9%nat -> (forall a, In a l -> ask 0 (info_of a) -> scene (info_of a) <> None) ->
    exists m back, view sort zm z g d o (QScale plane scenes zoom roi) t None dst = (Ok (bwith dst m), None) /\
    background (option_map (pair p) (vo_bg o)) dst back /\ scaled_seen axis_map same_scene (scene_above true) zoom plane scenes roi l bpp pic msk back (bwith dst m).
  Proof.
    intros Sm Sev Ln All. pose proof (involved_several st scenes roi Sev) as Len.
    assert (All' : forall k i, region k i -> scene i <> None).
    { intros k i R. destruct (block_of k i (proj1 R)) as (a & _ & I & ->). apply All; [exact I|exact (region_asked k _ R)]. }
    rewrite (view_scale_get sort zm z g d o plane scenes zoom roi t p dst Hpx Hnot Hop Hvis); [..|exact Hcheck|exact Hbg|exact Hdst].
    2:{ fold st dir. intros [k i] Hi. replace (length (involved st scenes roi) <=? 1)%nat with false in Hi by (symmetry; apply Nat.leb_gt; exact Len). rewrite Hsort in Hi. apply in_flat_map in Hi as (s & Is & Hi).
        destruct (scene_list_ok zm z Hm Hz (scale_bitmap g d o) (st_dims st) st true plane scenes zoom roi dir Hcheck Hzoom sizes_of (fun _ => lay_of) Len Ln All' s Is) as [_ Lst].
        apply Lst in Hi as [Hi _]. rewrite <- Sm in Hi. destruct (shown_load k i Hi) as (a & b & _ & _ & _ & _ & L & _). cbn [fst]. eexists. split; [exact L|reflexivity]. }
    rewrite Hsort. fold st dir.
    destruct (scale_get_scenes zm z Hm Hz (scale_bitmap g d o) (st_dims st) st (option_map (pair p) (vo_bg o)) true plane scenes zoom roi dst dir Hcheck Hdst Hbg Hknown Hzoom sizes_of (fun _ => lay_of) Len Ln All' Hne)
      as (m & back & E & B & P); [rewrite <- Sm; exact shown_drawable|].
    exists m, back. rewrite E. split; [reflexivity|]. split; [exact B|]. rewrite <- Sm. apply to_seen; [|rewrite Sm; exact P]. intros. reflexivity.
  Qed.
End Scaled.

Theorem held_scaled : forall l d, held l d -> additions_fit l ->
  forall sort zm z g o plane scenes zoom roi t p bpp pic msk dst st, sorts_by_zoom_m zm -> sorts_by_zoom z ->
  snd (rstep d RStats) = Ok (AStats st) -> check_plane (st_dims st) plane = Ok tt ->
  (one_scene st scenes roi -> scaled_call l g o plane scenes zoom roi t p bpp pic msk dst any ->
   exists m back, fst (view sort zm z g d o (QScale plane scenes zoom roi) t None dst) = Ok (bwith dst m) /\ background (option_map (pair p) (vo_bg o)) dst back /\
     scaled_seen axis_map any (finer_above true) zoom plane scenes roi l bpp pic msk back (bwith dst m) /\
     forall calls, uniform (calls ++ [OGet o (QScale plane scenes zoom roi) t dst]) ->
       exists before, vrun sort zm z g d shelf0 (calls ++ [OGet o (QScale plane scenes zoom roi) t dst]) = before ++ [Ok (bwith dst m)]) /\
  (several_scenes st scenes roi -> length plane = 9%nat -> (forall a, In a l -> asked plane scenes roi l 0 (info_of a) -> scene (info_of a) <> None) ->
   scaled_call l g o plane scenes zoom roi t p bpp pic msk dst same_scene ->
   exists m back, fst (view sort zm z g d o (QScale plane scenes zoom roi) t None dst) = Ok (bwith dst m) /\ background (option_map (pair p) (vo_bg o)) dst back /\
     scaled_seen axis_map same_scene (scene_above true) zoom plane scenes roi l bpp pic msk back (bwith dst m) /\
     forall calls, uniform (calls ++ [OGet o (QScale plane scenes zoom roi) t dst]) ->
       exists before, vrun sort zm z g d shelf0 (calls ++ [OGet o (QScale plane scenes zoom roi) t dst]) = before ++ [Ok (bwith dst m)]).
Proof.
  intros l0 d (strict & f & h & ro & Sto & F & W & P & Ed & E) Fit sort zm z g o plane scenes zoom roi t p bpp pic msk dst st Hm Hz St Hc.
  assert (W' : Forall (fun a => e_w (ai_e a) <> 0 /\ e_h (ai_e a) <> 0) l0) by (eapply Forall_impl; [|exact W]; cbv beta; intros; lia).
  pose proof (stats_known strict f l0 h ro Sto Fit E) as Kn. rewrite <- Ed in Kn.
  destruct (stored_state strict f l0 h ro Sto W' P E) as (l & Pl & Op & Po & Dir & Bl). rewrite <- Ed in Op, Po, Dir, Bl.
  assert (In_l : forall a, In a l <-> In a l0) by (intros a; split; apply Permutation_in; [exact Pl|now apply Permutation_sym]).
  assert (St' : st = get_stats (r_upd d)). { cbn [rstep] in St. rewrite Op in St. cbn [orb query snd] in St. congruence. }
  rewrite St' in *. clear St'.
  assert (Fit' : additions_fit l).
  { destruct Fit as [Fa Fb]. split; [rewrite Forall_forall in *; intros a I; apply Fa, In_l, I|]. intros x y X Y. apply Fb; (eapply Permutation_in; [apply Permutation_map; exact Pl|assumption]). }
  assert (Ask : forall k i, asked plane scenes roi l k i <-> asked plane scenes roi l0 k i).
  { intros k i. split; intros (a & I & R); exists a; (split; [now apply In_l|exact R]). }
  assert (Lev : forall same k i, level zoom same (asked plane scenes roi l) k i <-> level zoom same (asked plane scenes roi l0) k i).
  { intros same k i. apply level_ext. exact Ask. }
  assert (Seen : forall same above back b, scaled_seen axis_map same above zoom plane scenes roi l bpp pic msk back b -> scaled_seen axis_map same above zoom plane scenes roi l0 bpp pic msk back b).
  { intros same above back b S x y X Y. destruct (S x y X Y) as [(a & A1 & A2 & A3 & A4)|[A1 A2]].
    - left. exists a. split; [now apply In_l|]. split; [now apply Lev|]. split; [exact A3|]. intros a' I' L'. apply A4; [now apply In_l|now apply Lev].
    - right. split; [|exact A2]. intros a I L. apply A1; [now apply In_l|now apply Lev]. }
  assert (Calls : forall m, view sort zm z g d o (QScale plane scenes zoom roi) t None dst = (Ok (bwith dst m), None) -> forall calls, uniform (calls ++ [OGet o (QScale plane scenes zoom roi) t dst]) ->
    exists before, vrun sort zm z g d shelf0 (calls ++ [OGet o (QScale plane scenes zoom roi) t dst]) = before ++ [Ok (bwith dst m)]).
  { intros m V calls U. rewrite same_picture; [|apply policy_places; left; now rewrite Po|now left].
    unfold alone. rewrite flat_map_app. cbn [flat_map app]. rewrite V. cbn [fst]. eexists. reflexivity. }
  split.
  - intros One (Hpx & Hn & Hpic & Hd & Hb & Hs & Hv & Hbg & Hzr & Hne & Hsz & Hl).
    destruct (scaled_one sort zm z Hm Hz g d l Op Dir Bl Fit' Kn plane scenes zoom roi o t p bpp pic msk dst any Hpx Hn) as (m & back & V & B & S); try assumption; try reflexivity.
    + intros a I L. apply Hpic; [now apply In_l|now apply Lev].
    + intros a I A. apply Hsz; [now apply In_l|now apply Ask].
    + destruct Hl as [L1 L2]. split; [intros i A; apply L1, Ask, A|]. intros i j A B. apply L2; now apply Ask.
    + exists m, back. rewrite V. split; [reflexivity|]. split; [exact B|]. split; [now apply Seen|now apply Calls].
  - intros Sev Ln All (Hpx & Hn & Hpic & Hd & Hb & Hs & Hv & Hbg & Hzr & Hne & Hsz & Hl).
    destruct (scaled_several sort zm z Hm Hz g d l Op Dir Bl Fit' Kn plane scenes zoom roi o t p bpp pic msk dst same_scene Hpx Hn) as (m & back & V & B & S); try assumption; try reflexivity.
    + intros a I L. apply Hpic; [now apply In_l|now apply Lev].
    + intros a I A. apply Hsz; [now apply In_l|now apply Ask].
    + destruct Hl as [L1 L2]. split; [intros i A; apply L1, Ask, A|]. intros i j A B. apply L2; now apply Ask.
    + intros a I A. apply All; [now apply In_l|now apply Ask].
    + exists m, back. rewrite V. split; [reflexivity|]. split; [exact B|]. split; [now apply Seen|now apply Calls].
Qed.
Theorem document_scaled : forall l d, opened_document l d \/ edited_document l d -> additions_fit l ->
  forall sort zm z g o plane scenes zoom roi t p bpp pic msk dst st, sorts_by_zoom_m zm -> sorts_by_zoom z ->
  snd (rstep d RStats) = Ok (AStats st) -> check_plane (st_dims st) plane = Ok tt ->
  one_scene st scenes roi -> scaled_call l g o plane scenes zoom roi t p bpp pic msk dst any ->
  exists m back, fst (view sort zm z g d o (QScale plane scenes zoom roi) t None dst) = Ok (bwith dst m) /\ background (option_map (pair p) (vo_bg o)) dst back /\
    scaled_seen axis_map any (finer_above true) zoom plane scenes roi l bpp pic msk back (bwith dst m) /\
    forall calls, uniform (calls ++ [OGet o (QScale plane scenes zoom roi) t dst]) ->
      exists before, vrun sort zm z g d shelf0 (calls ++ [OGet o (QScale plane scenes zoom roi) t dst]) = before ++ [Ok (bwith dst m)].
Proof.
  intros l d Hd Fit sort zm z g o plane scenes zoom roi t p bpp pic msk dst st Hm Hz St Hc.
  apply (held_scaled l d); try assumption. destruct Hd; [now apply written_held|now apply edited_held].
Qed.
Theorem document_scenes : forall l d, opened_document l d \/ edited_document l d -> additions_fit l ->
  forall sort zm z g o plane scenes zoom roi t p bpp pic msk dst st, sorts_by_zoom_m zm -> sorts_by_zoom z ->
  snd (rstep d RStats) = Ok (AStats st) -> check_plane (st_dims st) plane = Ok tt ->
  several_scenes st scenes roi -> length plane = 9%nat -> (forall a, In a l -> asked plane scenes roi l 0 (info_of a) -> scene (info_of a) <> None) ->
  scaled_call l g o plane scenes zoom roi t p bpp pic msk dst same_scene ->
  exists m back, fst (view sort zm z g d o (QScale plane scenes zoom roi) t None dst) = Ok (bwith dst m) /\ background (option_map (pair p) (vo_bg o)) dst back /\
    scaled_seen axis_map same_scene (scene_above true) zoom plane scenes roi l bpp pic msk back (bwith dst m) /\
    forall calls, uniform (calls ++ [OGet o (QScale plane scenes zoom roi) t dst]) ->
      exists before, vrun sort zm z g d shelf0 (calls ++ [OGet o (QScale plane scenes zoom roi) t dst]) = before ++ [Ok (bwith dst m)].
Proof.
  intros l d Hd Fit sort zm z g o plane scenes zoom roi t p bpp pic msk dst st Hm Hz St Hc.
  apply (held_scaled l d); try assumption. destruct Hd; [now apply written_held|now apply edited_held].
Qed.
