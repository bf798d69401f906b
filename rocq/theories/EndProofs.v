(** From the bitmap handed to the writer to the picture. *)
From Coq Require Import Permutation Sorted.
From Verif Require Import Base RectModel CodecModel CodecProofs CodesModel CopyModel TextModel CoordModel CoordSpec StatModel WriterModel WriterProofs WriterSpec WriterLimits WriterMain ZstdModel ZstdProofs HiLoModel HiLoProofs
  AddModel AddSpec AddProofs PixelModel FillProofs AccessModel AccessSpec AccessProofs AccessCompose EditModel EditSpec EditOpen ReaderModel ReaderSpec ReaderProofs ReaderParts ReaderExamples SubMetaModel ViewModel ViewSpec ViewProofs EndSpec.
Open Scope Z_scope.

(** ** Bitmaps *)
Lemma mread_map m o n : mread m o n = map (fun j => m (o + Z.of_nat j)) (seq 0 n).
Proof.
  revert o. induction n as [|n IH]; intros o; [reflexivity|]. cbn [mread seq map]. rewrite Z.add_0_r. f_equal. rewrite IH, <- seq_shift, map_map.
  apply map_ext. intros j. f_equal. lia.
Qed.
Lemma shows_pix b bpp w h f x y : 0 < bpp -> 0 < w -> ZstdModel.shows b (w * bpp) h f -> 0 <= x < w -> 0 <= y < h -> pix (bmp_of bpp w h b) x y = pixel_of f bpp w x y.
Proof.
  destruct b as [[s z] m]. intros B W (S1 & S2 & S3) X Y. unfold pix, pix_off, bmp_of. cbn [bdata bstride bbpp]. rewrite mread_map. unfold pixel_of. apply map_ext_in. intros j J. apply in_seq in J.
  replace (y * s + x * bpp + Z.of_nat j) with (y * s + (x * bpp + Z.of_nat j)) by ring. rewrite S3 by nia. f_equal. ring.
Qed.
Lemma shows_wf b bpp w h f : 0 < bpp -> 0 < w -> 0 < h -> ZstdModel.shows b (w * bpp) h f -> bmp_wf (bmp_of bpp w h b).
Proof. destruct b as [[s z] m]. intros B W H (S1 & S2 & _). unfold bmp_wf, bmp_of. cbn [bw bh bbpp bstride bsize]. lia. Qed.

Lemma handed_bitmap g a bpp f : handed g a bpp f -> in_i32 (width_of a) -> in_i32 (height_of a) -> exists b,
  create_bitmap g (fst (shown_as a)) (src_bytes (ai_data a)) = Ok (ptype_of a, bmp_of bpp (width_of a) (height_of a) b) /\
  ZstdModel.shows b (width_of a * bpp) (height_of a) f /\ 0 < bpp /\ bytes_per_pel (ptype_of a) = Ok bpp /\ 0 < width_of a /\ 0 < height_of a.
Proof.
  intros H IW IH.
  assert (Q : forall r b, bytes_per_pel (ptype_of a) = Ok bpp -> 0 < width_of a -> 0 < height_of a -> ZstdModel.shows b (width_of a * bpp) (height_of a) f -> r = Ok b ->
    exists b', (let* b := r in let* p := bytes_per_pel (ptype_of a) in Ok (ptype_of a, bmp_of p (width_of a) (height_of a) b)) = Ok (ptype_of a, bmp_of bpp (width_of a) (height_of a) b') /\
    ZstdModel.shows b' (width_of a * bpp) (height_of a) f /\ 0 < bpp /\ bytes_per_pel (ptype_of a) = Ok bpp /\ 0 < width_of a /\ 0 < height_of a).
  { intros r b B W Hh S ->. exists b. cbn [bind]. rewrite B. cbn [bind]. split; [reflexivity|]. split; [exact S|]. split; [now apply bpp_pos in B|]. auto. }
  assert (E : forall c, e_comp (ai_e a) = c -> 0 < width_of a -> 0 < height_of a -> create_bitmap g (fst (shown_as a)) (src_bytes (ai_data a)) =
    create_bitmap g (mkRi c (ptype_of a) (e_coord (ai_e a)) (mkRect 0 0 0 0) (width_of a) (height_of a) 0 PyrNone) (src_bytes (ai_data a))).
  { intros c <- W Hh. unfold shown_as, create_bitmap, create_jxr. cbn [fst rinfo_of with_m ri_comp ri_pt ri_pw ri_ph e_comp e_pt e_sw e_sh].
    unfold width_of, height_of, ptype_of, in_i32, INT_MIN, INT_MAX in *. rewrite !(u32_small (e_sw (ai_e a))), !(u32_small (e_sh (ai_e a))) by lia. reflexivity. }
  destruct H as [d stride C P S|lines C P S|src ssz stride junk c C B Z S K D|k pack src ssz stride junk c C B Z I1 I2 Bm Bj N S K D].
  - pose proof P as (B & W & Hh & _). rewrite (E 0 C W Hh). unfold create_bitmap. cbn [ri_comp ri_pt ri_pw ri_ph compression_from_int].
    destruct (strided_ok _ _ _ _ _ _ P) as (s & S' & _ & _ & De). rewrite S in S'. injection S' as <-. destruct (De (o_junk g)) as (b & Cr & Sh). apply (Q _ b); assumption.
  - pose proof P as (B & W & Hh & _). rewrite (E 0 C W Hh). unfold create_bitmap. cbn [ri_comp ri_pt ri_pw ri_ph compression_from_int].
    destruct (linewise_ok _ _ _ _ _ P) as (s & S' & _ & _ & De). rewrite S in S'. injection S' as <-. destruct (De (o_junk g)) as (b & Cr & Sh). apply (Q _ b); assumption.
  - pose proof S as (W & (Hh & _) & _). rewrite (E 5 C W Hh), D. unfold create_bitmap. cbn [ri_comp ri_pt ri_pw ri_ph compression_from_int].
    destruct (zstd0_round_trip _ _ _ _ _ _ _ _ _ _ true (o_junk g) (o_junk2 g) Z B S K) as (b & Cr & Sh). apply (Q _ b); assumption.
  - pose proof S as (W & (Hh & _) & _). rewrite (E 6 C W Hh), D. unfold create_bitmap. cbn [ri_comp ri_pt ri_pw ri_ph compression_from_int].
    assert (N' : ~ (pack = true /\ ptype_of a = CodesModel.Bgr48 /\ true = true)) by tauto.
    destruct (zstd1_round_trip _ k (o_impl g) pack _ _ _ _ _ _ _ _ _ true (o_junk g) (o_junk2 g) (o_junk3 g) Z I1 I2 B S Bm Bj N' K) as (b & Cr & Sh). apply (Q _ b); assumption.
Qed.

(** ** The tile accessor of a document *)
Definition bitmap_at (g : outer) (r : rstate) (o : vopts) (k : Z) : bmp * option mask * copy_kind :=
  match load_block g r (vo_mask o) k with Ok v => (v_bmp v, v_mask v, SameType (vo_border o)) | _ => (mkBmp 0 0 0 1 0 (fun _ => 0), None, SameType (vo_border o)) end.
Lemma kind_same t p border : px_of t = Some p -> p <> PixelModel.Bgra32 -> kind_of border t t = Ok (SameType border).
Proof. intros P N. unfold kind_of. rewrite P. destruct p; cbn [px_eqb]; try reflexivity. now destruct N. Qed.
Lemma draw_at_compose border t p src mk dst x y x0 y0 : px_of t = Some p -> p <> PixelModel.Bgra32 ->
  draw_at border t t src mk dst (x - x0) (y - y0) = compose_tile dst (mkTile x y src mk (SameType border)) x0 y0.
Proof.
  intros P N. unfold draw_at. rewrite (kind_same t p border P N). cbn [bind]. unfold compose_tile. cbn [t_mask t_kind t_bmp t_x t_y]. rewrite !Z.sub_0_r.
  destruct mk as [m|]; [unfold copy_with_offset_and_mask|unfold copy_with_offset]; cbv zeta; destruct (_ || _); reflexivity.
Qed.
Lemma compose_cons d t l x y : compose_tiles d (t :: l) x y = let* d1 := compose_tile d t x y in compose_tiles d1 l x y.
Proof.
  unfold compose_tiles. cbn [fold_left bind]. destruct (compose_tile d t x y); [reflexivity|..]; cbn [bind]; induction l; cbn [fold_left bind]; auto.
Qed.
Lemma run_tiles g r o t p x0 y0 l : px_of t = Some p -> p <> PixelModel.Bgra32 ->
  (forall i, In i l -> exists v, load_block g r (vo_mask o) (fst i) = Ok v /\ v_pt v = t /\ ri_rect (v_info v) = sb_rect (snd i)) ->
  forall d, run_jobs g r o (map (tile_job o t x0 y0) l) None d =
    (compose_tiles d (map (fun i => tile_at (bitmap_at g r o) (fst i) (rx (sb_rect (snd i))) (ry (sb_rect (snd i)))) l) x0 y0, None).
Proof.
  intros P N. induction l as [|i l IH]; intros L d; [reflexivity|]. destruct (L i (or_introl eq_refl)) as (v & E & T & R).
  cbn [map]. rewrite compose_cons. cbn [run_jobs tile_job fetch]. rewrite E. cbn [bind]. unfold tile_at at 1, bitmap_at at 1. rewrite E, T, R, (draw_at_compose _ _ p) by assumption.
  destruct (compose_tile _ _ x0 y0); cbn [bind]; try reflexivity. apply IH. intros j J. apply L. now right.
Qed.
Lemma view_tile_get sort zm z g r o plane x0 y0 t p dst : px_of t = Some p -> p <> PixelModel.Bgra32 -> r_op r = true -> vo_vis o = None ->
  (forall i, In i (tile_subset sort (vo_sort o) plane (mkRect x0 y0 (bw dst) (bh dst)) (map sbinfo_of (r_dir r))) ->
    exists v, load_block g r (vo_mask o) (fst i) = Ok v /\ v_pt v = t /\ ri_rect (v_info v) = sb_rect (snd i)) ->
  check_plane (st_dims (get_stats (r_upd r))) plane = Ok tt -> background_ok (option_map (pair p) (vo_bg o)) dst -> bmp_wf dst ->
  view sort zm z g r o (QTile plane x0 y0) t None dst =
  (tile_get sort (bitmap_at g r o) (st_dims (get_stats (r_upd r))) (option_map (pair p) (vo_bg o)) (vo_sort o) plane x0 y0 dst (map sbinfo_of (r_dir r)), None).
Proof.
  intros P N O V L C B W. unfold view, jobs, tile_get. rewrite O, V, C. cbn [bind visible].
  destruct (clear_ok _ _ W B) as (m & back & Cl & _). rewrite Cl. cbn [bind].
  replace (clear_for o t dst) with (clear (option_map (pair p) (vo_bg o)) dst) by (unfold clear, clear_for; rewrite P; destruct (vo_bg o); reflexivity). rewrite Cl. cbn [bind].
  apply run_tiles with p; assumption.
Qed.

(** ** Documents of the writer *)
Lemma nth_error_ex {A} (l : list A) k : (k < length l)%nat -> exists a, nth_error l k = Some a.
Proof. intros H. destruct (nth_error l k) eqn:E; [eauto|]. apply nth_error_None in E. lia. Qed.
Lemma nth_error_same {A} (l l' : list A) : (forall k, nth_error l k = nth_error l' k) -> l = l'.
Proof.
  revert l'. induction l as [|a l IH]; intros [|b l'] H; [reflexivity|specialize (H O); discriminate|specialize (H O); discriminate|].
  f_equal; [specialize (H O); cbn [nth_error] in H; congruence|]. apply IH. intros k. exact (H (S k)).
Qed.
Lemma rrun_two s q1 q2 a b : snd (rrun s [q1; q2]) = [a; b] -> snd (rstep (fst (rstep s q1)) q2) = b.
Proof. cbn [rrun]. destruct (rstep s q1) as [s1 x]. cbn [fst]. destruct (rstep s1 q2) as [s2 y]. cbn [snd]. congruence. Qed.
(** a file whose directory leads to the additions [l0] *)
Definition stored (strict : bool) (f : file) (o : ropts) (l0 : list addinfo) : Prop :=
  exists op, open_file strict (popts_of o) f = Ok op /\ Permutation (map (observe strict f) (op_dir op)) (map (fun a => Ok (expected a)) l0).
Lemma stored_state : forall strict f l0 h o, stored strict f o l0 ->
  Forall (fun a => e_w (ai_e a) <> 0 /\ e_h (ai_e a) <> 0) l0 -> Z.testbit (ro_policy o) 0 = false ->
  let s := fst (rrun reader0 h) in let d := fst (rstep s (ROpen strict f o)) in
  snd (rstep s (ROpen strict f o)) = Ok ADone ->
  exists l, Permutation l l0 /\ r_op d = true /\ r_policy d = ro_policy o /\
    map sbinfo_of (r_dir d) = map (fun a => sbinfo_of (with_m (ai_e a) (given_m a))) l /\
    forall k a, nth_error l k = Some a -> snd (rstep d (RBlock (Z.of_nat k))) = Ok (ABlock (Some (shown_as a))).
Proof.
  intros strict f l0 h o (op & O & Pm) W P s d E.
  destruct (open_parts _ _ _ _ O) as (hd & A1 & A2).
  destruct (after_open s strict f o hd (op_dir op) E A1 A2) as (u & at' & _ & _ & Es).
  apply Permutation_map_inv in Pm as (l & El & Pl). exists l. split; [now apply Permutation_sym|].
  assert (Ed : d = opened_state hd (op_dir op) u at' strict f o) by (unfold d; now rewrite Es). split; [now rewrite Ed|]. split; [now rewrite Ed|].
  assert (K : forall k a, nth_error l k = Some a -> exists e, nth_error (op_dir op) k = Some e /\ rinfo_of e = fst (shown_as a) /\ snd (rstep d (RBlock (Z.of_nat k))) = Ok (ABlock (Some (shown_as a)))).
  { intros k a Ka. assert (Kb : nth_error (map (observe strict f) (op_dir op)) k = Some (Ok (expected a))) by (rewrite El, nth_error_map, Ka; reflexivity).
    rewrite nth_error_map in Kb. destruct (nth_error (op_dir op) k) as [e|] eqn:Ke; [|discriminate]. cbn [option_map] in Kb. injection Kb as Kb. exists e. split; [reflexivity|].
    destruct (observe_block _ _ _ _ Kb) as (sd & D & Ag & Ew & Eh & Sh). split; [now rewrite <- Sh|].
    assert (I : e_w (ai_e a) <> 0 /\ e_h (ai_e a) <> 0).
    { rewrite Forall_forall in W. apply W. eapply Permutation_in; [apply Permutation_sym; exact Pl|]. eapply nth_error_In. exact Ka. }
    destruct (reader_block h strict f o hd (op_dir op) k e sd E A1 A2 Ke D) as [R _]; [lia|lia|]. fold s in R.
    rewrite P in R. specialize (R (or_intror Ag)). rewrite Sh in R. apply rrun_two in R. exact R. }
  assert (Ln : length (op_dir op) = length l) by (apply (f_equal (@length _)) in El; now rewrite !map_length in El).
  split; [|intros k a Ka; destruct (K k a Ka) as (e & _ & _ & R); exact R].
  rewrite Ed. cbn [opened_state r_dir]. apply nth_error_same. intros k. rewrite !nth_error_map.
  destruct (nth_error l k) as [a|] eqn:Ka.
  - destruct (K k a Ka) as (e & -> & R & _). cbn [option_map]. f_equal. unfold shown_as in R. cbn [fst] in R. fold (given_m a) in R. unfold rinfo_of in R. unfold sbinfo_of.
    assert (R1 := f_equal ri_coord R). assert (R2 := f_equal ri_rect R). assert (R3 := f_equal ri_pw R). assert (R4 := f_equal ri_ph R). assert (R5 := f_equal ri_m R).
    cbn [ri_coord ri_rect ri_pw ri_ph ri_m] in *. now rewrite R1, R2, R3, R4, R5.
  - apply nth_error_None in Ka. assert (Kn : nth_error (op_dir op) k = None) by (apply nth_error_None; lia). now rewrite Kn.
Qed.

(** ** The picture *)
Lemma added_geometry ops rs a : Forall (request_ok INT_MAX) ops -> In a (added ops rs) -> sbe_wf (with_pos (ai_e a) 0).
Proof.
  intros F. revert rs. induction F as [|q ops Q F IH]; intros rs H; [destruct H|]. destruct rs as [|x rs]; [destruct q; destruct H|].
  destruct q; destruct x; cbn [added] in H; try (now apply (IH rs)). destruct H as [<-|H]; [apply Q|now apply (IH rs)].
Qed.
Definition fits (a : addinfo) : Prop := in_i32 (width_of a) /\ in_i32 (height_of a) /\ in_i32 (given_m a).
Lemma seen_wf a ops rs : Forall (request_ok INT_MAX) ops -> In a (added ops rs) -> fits a.
Proof.
  intros F H. pose proof (added_geometry _ _ _ F H) as (_ & M & _ & _ & _ & _ & W & Hh & _). unfold with_pos in *. cbn [e_m e_sw e_sh] in *.
  split; [exact W|]. split; [exact Hh|]. unfold given_m. destruct (ai_mv a); [exact M|]. unfold in_i32, INT_MIN, INT_MAX. lia.
Qed.
Lemma edited_wf strict f e a : sbe_wf e -> observe strict f e = Ok (expected a) -> fits a.
Proof.
  unfold observe. destruct (read_subblock strict f (e_pos e)) as [d| | |]; cbn [bind]; try discriminate. intros W H.
  assert (K : mkObs (with_pos e 0) (with_pos (sd_info d) 0) (sd_meta d) (sd_data d) (sd_att d) = expected a) by congruence. clear H. apply (f_equal ob_entry) in K. unfold expected in K. cbn [ob_entry] in K. fold (given_m a) in K.
  destruct W as (_ & M & _ & _ & _ & _ & W & Hh & _). assert (H1 := f_equal e_m K). assert (H2 := f_equal e_sw K). assert (H3 := f_equal e_sh K).
  unfold with_pos, with_m in *. cbn [e_m e_sw e_sh] in *. unfold fits, width_of, height_of. rewrite <- H1, <- H2, <- H3. auto.
Qed.
Lemma u32_eq v w : in_i32 v -> 0 < w <= INT_MAX -> u32 v = w <-> v = w.
Proof.
  unfold in_i32, INT_MIN, INT_MAX. intros V W. destruct (Z.ltb_spec v 0) as [L|L].
  - assert (E : u32 v = v + 4294967296) by (unfold u32; symmetry; apply Z.mod_unique_pos with (-1); lia). rewrite E. lia.
  - rewrite u32_small by lia. reflexivity.
Qed.
Section Seen.
  Variable sort zm z : list (Z * sbinfo) -> list (Z * sbinfo).
  Hypothesis Hsort : sorts_by_m sort.
  Variable g : outer.
  Variable d : rstate.
  Variable l : list addinfo.
  Hypothesis Hop : r_op d = true.
  Hypothesis Hdir : map sbinfo_of (r_dir d) = map (fun a => sbinfo_of (with_m (ai_e a) (given_m a))) l.
  Hypothesis Hblock : forall k a, nth_error l k = Some a -> snd (rstep d (RBlock (Z.of_nat k))) = Ok (ABlock (Some (shown_as a))).
  Hypothesis Hwf : forall a, In a l -> in_i32 (width_of a) /\ in_i32 (height_of a) /\ in_i32 (given_m a).
  Hypothesis Hext : forall a, In a l -> 0 < e_w (ai_e a) <= INT_MAX /\ 0 < e_h (ai_e a) <= INT_MAX.

  Lemma seen_block k i : sub_block (map sbinfo_of (r_dir d)) k i -> exists a, nth_error l (Z.to_nat k) = Some a /\ In a l /\ i = sbinfo_of (with_m (ai_e a) (given_m a)).
  Proof.
    intros [_ H]. rewrite Hdir, nth_error_map in H. destruct (nth_error l (Z.to_nat k)) as [a|] eqn:E; [|discriminate]. injection H as <-. exists a. split; [reflexivity|]. split; [eapply nth_error_In; exact E|reflexivity].
  Qed.
  Lemma seen_block_of a : In a l -> exists k, sub_block (map sbinfo_of (r_dir d)) k (sbinfo_of (with_m (ai_e a) (given_m a))) /\ nth_error l (Z.to_nat k) = Some a.
  Proof.
    intros H. apply In_nth_error in H as [n H]. exists (Z.of_nat n). rewrite Nat2Z.id. split; [|exact H]. split; [lia|]. now rewrite Nat2Z.id, Hdir, nth_error_map, H.
  Qed.
  Lemma seen_sizes k i : sub_block (map sbinfo_of (r_dir d)) k i -> sizes_logical i.
  Proof. intros H. destruct (seen_block k i H) as (a & _ & I & ->). unfold sizes_logical, sbinfo_of, with_m. cbn [sb_rect rw rh e_w e_h]. specialize (Hext a I). lia. Qed.
  Lemma seen_plane plane k a : sub_block (map sbinfo_of (r_dir d)) k (sbinfo_of (with_m (ai_e a) (given_m a))) -> In a l ->
    plane_tile plane (map sbinfo_of (r_dir d)) k (sbinfo_of (with_m (ai_e a) (given_m a))) <-> in_picture plane a.
  Proof.
    intros S I. unfold plane_tile, in_picture. unfold sbinfo_of at 2 3 4 5 6. unfold with_m. cbn [sb_coord sb_pw sb_ph sb_rect rw rh e_coord e_sw e_sh e_w e_h e_x e_y e_m].
    destruct (Hwf a I) as (W & H & _), (Hext a I) as (W' & H'). unfold width_of, height_of in *. rewrite (u32_eq _ _ W W'), (u32_eq _ _ H H'). split; [intros (_ & P)|intros P; split]; assumption.
  Qed.

  Variable o : vopts.
  Variable plane : CodecModel.coord.
  Variable t : CodesModel.pixel_type.
  Variable p : px.
  Variable bpp : Z.
  Variable pic : addinfo -> Z -> byte.
  Variable msk : addinfo -> option mask.
  Hypothesis Hpx : px_of t = Some p.
  Hypothesis Hnot : p <> PixelModel.Bgra32.
  Hypothesis Hpic : forall a, In a l -> in_picture plane a -> ptype_of a = t /\ handed g a bpp (pic a) /\
    (if vo_mask o then try_get_mask (src_bytes (ai_meta a)) (src_bytes (ai_att a)) else Ok None) = Ok (msk a) /\ forall m, msk a = Some m -> mask_wf m.

  Lemma seen_load k a : nth_error l (Z.to_nat k) = Some a -> 0 <= k -> in_picture plane a -> exists b,
    load_block g d (vo_mask o) k = Ok (mkSbd (t, bmp_of bpp (width_of a) (height_of a) b, msk a) (fst (shown_as a))) /\
    ZstdModel.shows b (width_of a * bpp) (height_of a) (pic a) /\ 0 < bpp /\ bytes_per_pel t = Ok bpp /\ 0 < width_of a /\ 0 < height_of a.
  Proof.
    intros N K I. assert (Ia : In a l) by (eapply nth_error_In; exact N). destruct (Hpic a Ia I) as (T & Hd & Mk & _), (Hwf a Ia) as (W & H & _).
    destruct (handed_bitmap g a bpp (pic a) Hd W H) as (b & C & S & R). rewrite T in R. exists b. split; [|split; [exact S|exact R]].
    unfold load_block. specialize (Hblock _ a N). rewrite Z2Nat.id in Hblock by exact K. rewrite Hblock. cbn [bind]. unfold shown_as in *. cbn [fst] in C. rewrite C, T. cbn [bind]. rewrite Mk. reflexivity.
  Qed.

  Variable dst : bmp.
  Hypothesis Hdst : bmp_wf dst.
  Hypothesis Hbpp : bbpp dst = bpp.
  Hypothesis Hborder : vo_border o = false.
  Hypothesis Hm : vo_sort o = true.
  Hypothesis Hvis : vo_vis o = None.
  Hypothesis Hbg : background_ok (option_map (pair p) (vo_bg o)) dst.
  Hypothesis Hcheck : check_plane (st_dims (get_stats (r_upd d))) plane = Ok tt.

  Lemma seen_tile k a : nth_error l (Z.to_nat k) = Some a -> 0 <= k -> in_picture plane a -> exists b,
    bitmap_at g d o k = (bmp_of bpp (width_of a) (height_of a) b, msk a, SameType false) /\
    ZstdModel.shows b (width_of a * bpp) (height_of a) (pic a) /\ 0 < bpp /\ 0 < width_of a /\ 0 < height_of a.
  Proof.
    intros N K I. destruct (seen_load k a N K I) as (b & L & S & B & _ & W & H). exists b. unfold bitmap_at. rewrite L, Hborder. cbn [v_bmp v_mask v_obj fst snd]. auto.
  Qed.
  Lemma seen_ok k i : plane_tile plane (map sbinfo_of (r_dir d)) k i -> bitmap_ok (bitmap_at g d o) dst k i.
  Proof.
    intros P. destruct (seen_block k i (proj1 P)) as (a & N & Ia & ->). assert (I : in_picture plane a) by (apply (seen_plane plane k a (proj1 P) Ia), P).
    destruct (seen_tile k a N (proj1 (proj1 P)) I) as (b & E & S & B & W & H). destruct (Hpic a Ia I) as (_ & _ & _ & Mw), (Hwf a Ia) as (W32 & H32 & _).
    unfold bitmap_ok, tile_at. rewrite E. cbn [fst]. split.
    - unfold tile_wf. cbn [t_bmp t_mask t_kind]. split; [eapply shows_wf; eassumption|]. split; [exact Mw|]. split; [reflexivity|]. unfold bmp_of. destruct b as [[? ?] ?]. cbn [bbpp]. congruence.
    - unfold bmp_of. destruct b as [[? ?] ?]. cbn [bw bh]. unfold sbinfo_of, with_m. cbn [sb_pw sb_ph e_sw e_sh]. unfold width_of, height_of, in_i32, INT_MIN, INT_MAX in *. rewrite !u32_small by lia. split; reflexivity.
  Qed.
  Lemma seen_shows k a q : nth_error l (Z.to_nat k) = Some a -> 0 <= k -> In a l -> in_picture plane a ->
    (CopyModel.shows (at_home (bitmap_at g d o) k (sbinfo_of (with_m (ai_e a) (given_m a)))) q = true <-> covers (msk a) a q).
  Proof.
    intros N K Ia I. destruct (seen_tile k a N K I) as (b & E & _). unfold at_home. rewrite E. unfold sbinfo_of, with_m. cbn [sb_rect rx ry e_x e_y].
    unfold CopyModel.shows, tile_rect, pt_in, covers, bmp_of. destruct b as [[s y] m]. cbn [t_bmp t_x t_y t_mask rx ry rw rh bw bh]. destruct I as (_ & I1 & I2). unfold width_of, height_of. rewrite I1, I2.
    destruct (msk a) as [mk|]; cbv zeta; rewrite !andb_true_iff, ?Z.leb_le, ?Z.ltb_lt; tauto.
  Qed.
  Lemma seen_value k a x y x0 y0 : nth_error l (Z.to_nat k) = Some a -> 0 <= k -> In a l -> in_picture plane a -> covers (msk a) a (x + x0, y + y0) ->
    tile_value (at_home (bitmap_at g d o) k (sbinfo_of (with_m (ai_e a) (given_m a)))) (x + x0, y + y0) = pixel_of (pic a) bpp (width_of a) (x + x0 - e_x (ai_e a)) (y + y0 - e_y (ai_e a)).
  Proof.
    intros N K Ia I C. destruct (seen_tile k a N K I) as (b & E & S & B & W & H). unfold at_home. rewrite E. unfold sbinfo_of, with_m. cbn [sb_rect rx ry e_x e_y].
    unfold tile_value. cbn [t_kind t_bmp t_x t_y fst snd]. destruct C as (C1 & C2 & _), I as (_ & I1 & I2). cbn [fst snd] in *. apply shows_pix; try assumption; unfold width_of, height_of in *; lia.
  Qed.

  Theorem seen_picture x0 y0 : exists m back, view sort zm z g d o (QTile plane x0 y0) t None dst = (Ok (bwith dst m), None) /\
    background (option_map (pair p) (vo_bg o)) dst back /\ seen_at plane l bpp pic msk back (bwith dst m) x0 y0.
  Proof.
    rewrite (view_tile_get sort zm z g d o plane x0 y0 t p dst Hpx Hnot Hop Hvis); [..|assumption|assumption|assumption].
    2:{ intros [k i] Hi. apply (tile_subset_In sort Hsort (bitmap_at g d o) _ _ _ _ _ _ seen_sizes) in Hi. destruct Hi as [P _]. destruct (seen_block k i (proj1 P)) as (a & N & Ia & ->).
      assert (I : in_picture plane a) by (apply (seen_plane plane k a (proj1 P) Ia), P).
      destruct (seen_load k a N (proj1 (proj1 P)) I) as (b & L & _). cbn [fst snd]. eexists. split; [exact L|]. split; reflexivity. }
    destruct (tile_get_ok sort Hsort (bitmap_at g d o) (st_dims (get_stats (r_upd d))) (option_map (pair p) (vo_bg o)) (vo_sort o) plane x0 y0 dst (map sbinfo_of (r_dir d)) Hcheck Hdst Hbg seen_sizes seen_ok)
      as (m & back & E & B & P).
    exists m, back. rewrite E. split; [reflexivity|]. split; [exact B|]. intros x y X Y q. specialize (P x y X Y). cbv zeta in P. fold q in P.
    assert (Cand : forall a, In a l -> in_picture plane a -> exists k, plane_tile plane (map sbinfo_of (r_dir d)) k (sbinfo_of (with_m (ai_e a) (given_m a))) /\ nth_error l (Z.to_nat k) = Some a).
    { intros a Ia I. destruct (seen_block_of a Ia) as (k & S & N). exists k. split; [|exact N]. apply (seen_plane plane k a S Ia), I. }
    destruct P as [(k & i & Pt & Sh & V & Top)|[No V]].
    - left. destruct (seen_block k i (proj1 Pt)) as (a & N & Ia & ->). assert (I : in_picture plane a) by (apply (seen_plane plane k a (proj1 Pt) Ia), Pt).
      assert (K := proj1 (proj1 Pt)). assert (C : covers (msk a) a q) by (apply (seen_shows k a q N K Ia I), Sh).
      exists a. split; [exact Ia|]. split; [exact I|]. split; [exact C|]. split; [rewrite V; apply seen_value; assumption|].
      intros a' Ia' I' C'. destruct (Cand a' Ia' I') as (k' & Pt' & N'). assert (K' := proj1 (proj1 Pt')).
      specialize (Top k' _ Pt' (proj2 (seen_shows k' a' q N' K' Ia' I') C')). rewrite Hm in Top. unfold drawn_above, m_above in Top. cbn [snd] in Top. unfold m_over. intros M.
      unfold sbinfo_of at 1 2, no_m in Top. unfold sbinfo_of, with_m in Top. cbn [sb_m e_m] in Top. destruct (Top M) as [T1 T2]. destruct (Hwf a Ia) as (_ & _ & [Wa Wb]). split; [lia|exact T2].
    - right. split; [|exact V]. intros a Ia I C. destruct (Cand a Ia I) as (k & Pt & N). specialize (No k _ Pt). rewrite (proj2 (seen_shows k a q N (proj1 (proj1 Pt)) Ia I) C) in No. discriminate.
  Qed.
End Seen.

(** the reader has a document with the additions [l] open *)
Definition held (l0 : list addinfo) (d : rstate) : Prop := exists strict f h o, stored strict f o l0 /\ Forall fits l0 /\
  Forall (fun a => 0 < e_w (ai_e a) <= INT_MAX /\ 0 < e_h (ai_e a) <= INT_MAX) l0 /\ Z.testbit (ro_policy o) 0 = false /\
  let s := fst (rrun reader0 h) in let q := ROpen strict f o in d = fst (rstep s q) /\ snd (rstep s q) = Ok ADone.
Lemma written_held l d : opened_document l d -> held l d.
Proof.
  intros (m0 & strict & i & ops & ws & rs & r & h & ro & H1 & H2 & H3 & H4 & H5 & H6 & W & P & Ed & E & ->).
  exists strict, (file_of m0 ws), h, ro. split.
  - destruct (session_roundtrip m0 strict (popts_of ro) i ops ws rs r H1 H2 H3 H4 H5 H6) as (_ & op & O & _ & Pm). exists op. split; assumption.
  - split; [apply Forall_forall; intros a; apply seen_wf, H3|]. split; [exact W|]. split; [exact P|]. split; assumption.
Qed.
Lemma document_stored strict f h dc l o : EditSpec.document strict f h dc -> map snd (d_subs dc) = map expected l -> ro_lax o = true -> stored strict f o l /\ Forall fits l.
Proof.
  intros D L Lx. destruct (document_shows _ _ _ _ D) as (op & (O & Sb & _) & _). split.
  - exists op. unfold popts_of. rewrite Lx. split; [exact O|].
    replace (map (observe strict f) (op_dir op)) with (map (fun a => Ok (expected a)) l) by
      (rewrite <- (map_map expected Ok), <- L, map_map; clear -Sb; induction Sb; cbn [map]; congruence). apply Permutation_refl.
  - destruct D as (es & ats & Sz & _ & _ & F & _). rewrite L in F. clear -F Sz. revert es F. induction l as [|a l IH]; intros es F; [constructor|]. cbn [map] in F. inversion F as [|e v es' vs [W Ow] F' Ee Ev]. subst.
    constructor; [|apply (IH es'); exact F']. apply (edited_wf strict f e); [exact W|]. destruct Ow as (_ & _ & _ & _ & Q). apply Q; [lia|auto].
Qed.
Lemma edited_held l d : edited_document l d -> held l d.
Proof.
  intros (strict & force & guid & f & hd & dc & os & f' & rs & r & h & o & D & Re & G & Eo & Ng & Cs & Ne & Cf & E & Sz & L & W & Lx & P & Ed & Ok).
  destruct (edit_document strict force guid f hd dc os D Re G Eo Ng Cs Ne Cf) as (f1 & rs1 & r1 & E1 & Q). rewrite E in E1. injection E1 as <- <- <-. destruct (Q Sz) as (_ & _ & h' & D' & _).
  exists strict, f', h, o. destruct (document_stored strict f' h' _ l o D') as [S F]; [|exact Lx|].
  - unfold reopened. cbn [d_subs]. rewrite <- L. clear. generalize 0. induction (d_subs (fst (drun dc os))) as [|x m IH]; intros k; cbn [map number snd]; [reflexivity|]. now rewrite IH.
  - split; [exact S|]. split; [exact F|]. split; [exact W|]. split; [exact P|]. split; assumption.
Qed.

Theorem held_seen : forall l d, held l d ->
  forall sort zm z g o plane t p bpp pic msk dst x0 y0 st, sorts_by_m sort -> px_of t = Some p -> p <> PixelModel.Bgra32 ->
  (forall a, In a l -> in_picture plane a -> ptype_of a = t /\ handed g a bpp (pic a) /\
    (if vo_mask o then try_get_mask (src_bytes (ai_meta a)) (src_bytes (ai_att a)) else Ok None) = Ok (msk a) /\ forall m, msk a = Some m -> mask_wf m) ->
  bmp_wf dst -> bbpp dst = bpp -> vo_border o = false -> vo_sort o = true -> vo_vis o = None -> background_ok (option_map (pair p) (vo_bg o)) dst ->
  snd (rstep d RStats) = Ok (AStats st) -> check_plane (st_dims st) plane = Ok tt ->
  exists m back, fst (view sort zm z g d o (QTile plane x0 y0) t None dst) = Ok (bwith dst m) /\
    background (option_map (pair p) (vo_bg o)) dst back /\ seen_at plane l bpp pic msk back (bwith dst m) x0 y0 /\
    forall calls, uniform (calls ++ [OGet o (QTile plane x0 y0) t dst]) ->
      exists before, vrun sort zm z g d shelf0 (calls ++ [OGet o (QTile plane x0 y0) t dst]) = before ++ [Ok (bwith dst m)].
Proof.
  intros l0 d (strict & f & h & ro & Sto & F & W & P & Ed & E) sort zm z g o plane t p bpp pic msk dst x0 y0 st Hs Hpx Hn Hpic Hd Hb Ho Hm Hv Hbg St Hc.
  assert (W' : Forall (fun a => e_w (ai_e a) <> 0 /\ e_h (ai_e a) <> 0) l0) by (eapply Forall_impl; [|exact W]; cbv beta; intros; lia).
  destruct (stored_state strict f l0 h ro Sto W' P E) as (l & Pl & Op & Po & Dir & Bl). rewrite <- Ed in Op, Po, Dir, Bl.
  assert (In_l : forall a, In a l <-> In a l0) by (intros a; split; apply Permutation_in; [exact Pl|now apply Permutation_sym]).
  assert (St' : st = get_stats (r_upd d)). { cbn [rstep] in St. rewrite Op in St. cbn [orb query snd] in St. congruence. }
  rewrite St' in Hc. rewrite Forall_forall in W, F.
  destruct (seen_picture sort zm z Hs g d l Op Dir Bl (fun a H => F a (proj1 (In_l a) H)) (fun a H => W a (proj1 (In_l a) H)) o plane t p bpp pic msk Hpx Hn
    (fun a H => Hpic a (proj1 (In_l a) H)) dst Hd Hb Ho Hm Hv Hbg Hc x0 y0) as (m & back & V & B & S).
  exists m, back. split; [now rewrite V|]. split; [exact B|]. split.
  - intros x y X Y. destruct (S x y X Y) as [(a & A1 & A2 & A3 & A4 & A5)|[A1 A2]].
    + left. exists a. split; [now apply In_l|]. split; [exact A2|]. split; [exact A3|]. split; [exact A4|]. intros a' I'. apply A5. now apply In_l.
    + right. split; [|exact A2]. intros a Ia. apply A1. now apply In_l.
  - intros calls U. rewrite same_picture; [|apply policy_places; left; now rewrite Po|now left].
    unfold alone. rewrite flat_map_app. cbn [flat_map app]. rewrite V. cbn [fst]. eexists. reflexivity.
Qed.

Theorem document_seen : forall l d, opened_document l d \/ edited_document l d ->
  forall sort zm z g o plane t p bpp pic msk dst x0 y0 st, sorts_by_m sort -> px_of t = Some p -> p <> PixelModel.Bgra32 ->
  (forall a, In a l -> in_picture plane a -> ptype_of a = t /\ handed g a bpp (pic a) /\
    (if vo_mask o then try_get_mask (src_bytes (ai_meta a)) (src_bytes (ai_att a)) else Ok None) = Ok (msk a) /\ forall m, msk a = Some m -> mask_wf m) ->
  bmp_wf dst -> bbpp dst = bpp -> vo_border o = false -> vo_sort o = true -> vo_vis o = None -> background_ok (option_map (pair p) (vo_bg o)) dst ->
  snd (rstep d RStats) = Ok (AStats st) -> check_plane (st_dims st) plane = Ok tt ->
  exists m back, fst (view sort zm z g d o (QTile plane x0 y0) t None dst) = Ok (bwith dst m) /\
    background (option_map (pair p) (vo_bg o)) dst back /\ seen_at plane l bpp pic msk back (bwith dst m) x0 y0 /\
    forall calls, uniform (calls ++ [OGet o (QTile plane x0 y0) t dst]) ->
      exists before, vrun sort zm z g d shelf0 (calls ++ [OGet o (QTile plane x0 y0) t dst]) = before ++ [Ok (bwith dst m)].
Proof. intros l d [H|H]; apply held_seen; [now apply written_held|now apply edited_held]. Qed.
