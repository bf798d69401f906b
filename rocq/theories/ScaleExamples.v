(** Concrete documents for the scaling accessor. *)
From Coq Require Import QArith Qabs Permutation Sorted Floats.SpecFloat.
From Verif Require Import Base RectModel CodecModel CopyModel MemProofs CopyProofs TextModel CoordModel CoordSpec CoordProofs OrderProofs StatModel StatSpec PixelModel PixelSpec PixelProofs FloatProofs FillProofs PixelExamples ComposeExamples AccessModel AccessSpec AccessCompose AccessExamples ScaleModel ScaleSpec ScaleProofs ScaleCompose.
Open Scope Z_scope.

(** ** Sorts with the contracts of std::sort and std::stable_sort *)
Section Insertion.
  Variable A : Type.
  Variable lt : A -> A -> bool.
  Fixpoint put (x : A) (l : list A) : list A := match l with [] => [x] | y :: l' => if lt y x then y :: put x l' else x :: l end.
  Definition isort (l : list A) : list A := fold_right put [] l.
  Lemma put_perm x l : Permutation (x :: l) (put x l).
  Proof. induction l as [|y l IH]; [reflexivity|]. cbn [put]. destruct (lt y x); [|reflexivity]. eapply perm_trans; [apply perm_swap|]. now constructor. Qed.
  Lemma isort_perm l : Permutation l (isort l).
  Proof. induction l as [|x l IH]; [constructor|]. cbn [isort fold_right]. eapply perm_trans; [apply perm_skip, IH|apply put_perm]. Qed.
  Variable P : A -> Prop.
  Hypothesis Hlt : strict_weak_order P lt.
  Notation le a b := (lt b a = false).
  Lemma le_trans a b c : P a -> P b -> P c -> le a b -> le b c -> le a c.
  Proof.
    destruct Hlt as (I & T & N). intros Pa Pb Pc H1 H2. destruct (lt c a) eqn:E; [|reflexivity]. exfalso.
    destruct (lt a b) eqn:E1; [rewrite (T c a b) in H2 by assumption; discriminate|]. destruct (lt b c) eqn:E2; [rewrite (T b c a) in H1 by assumption; discriminate|].
    destruct (N a b c) as [_ X]; auto. congruence.
  Qed.
  Lemma put_sorted x l : P x -> Forall P l -> StronglySorted (fun a b => le a b) l -> StronglySorted (fun a b => le a b) (put x l).
  Proof.
    intros Px Pl. induction 1 as [|y l S IH F]; cbn [put]; [repeat constructor|]. inversion Pl as [|? ? Py Pl']; subst. destruct (lt y x) eqn:E.
    - constructor; [auto|]. rewrite Forall_forall in *. intros z Hz. apply (Permutation_in _ (Permutation_sym (put_perm x l))) in Hz. destruct Hz as [<-|Hz]; [|auto].
      destruct (lt x y) eqn:E'; [|reflexivity]. destruct Hlt as (I & T & _). rewrite <- (I x Px). symmetry. apply (T x y x); assumption.
    - constructor; [now constructor|]. constructor; [exact E|]. rewrite Forall_forall in *. intros z Hz. apply (le_trans x y z); auto.
  Qed.
  Lemma isort_sorted l : Forall P l -> StronglySorted (fun a b => le a b) (isort l).
  Proof.
    induction 1 as [|x l Px Pl IH]; [constructor|]. cbn [isort fold_right]. apply put_sorted; [exact Px| |exact IH]. rewrite Forall_forall in *. intros z Hz. apply (Permutation_in _ (Permutation_sym (isort_perm l))) in Hz. auto.
  Qed.
End Insertion.
Definition by_zoom_m : list item -> list item := isort _ (fun a b => zoom_less (snd a) (snd b)).
Definition by_zoom : list item -> list item := isort _ (lex (fun a b => SFltb (sb_zoom (snd a)) (sb_zoom (snd b))) (by_key fst)).
Lemma by_zoom_m_ok : sorts_by_zoom_m by_zoom_m.
Proof.
  intros l L. split; [apply isort_perm|]. apply (isort_sorted _ _ (fun a => exists k, In (k, snd a) l)).
  - apply (swo_map _ (fun i => exists k, In (k, i) l) snd zoom_less); [auto|]. apply drawing_order_swo, L.
  - apply Forall_forall. intros [k i] H. exists k. exact H.
Qed.
Lemma distinct_sorted (R : item -> item -> Prop) l : NoDup (map fst l) -> StronglySorted R l -> StronglySorted (fun a b => R a b /\ fst a <> fst b) l.
Proof.
  intros N. induction 1 as [|a l S IH F]; [constructor|]. cbn [map] in N. inversion N as [|? ? N1 N2]; subst. constructor; [auto|]. rewrite Forall_forall in *. intros b Hb. split; [auto|]. intros E. apply N1. rewrite E. now apply in_map.
Qed.
Lemma increasing_nodup (l : list item) : StronglySorted (fun a b => fst a < fst b) l -> NoDup (map fst l).
Proof.
  induction 1 as [|a l S IH F]; cbn [map]; [constructor|]. constructor; [|exact IH]. intros H. apply in_map_iff in H. destruct H as (b & E & Hb). rewrite Forall_forall in F. specialize (F b Hb). cbv beta in F. lia.
Qed.
Lemma by_zoom_ok : sorts_by_zoom by_zoom.
Proof.
  intros l S N. split; [apply isort_perm|].
  assert (St : StronglySorted (fun a b : item => lex (fun a b => SFltb (sb_zoom (snd a)) (sb_zoom (snd b))) (by_key fst) b a = false) (by_zoom l)).
  { apply (isort_sorted _ _ (fun a => In a l)); [|apply Forall_forall; auto]. apply lex_swo; [|apply by_key_swo]. apply (swo_map _ is_num (fun a : item => sb_zoom (snd a)) SFltb); [|apply SFltb_swo]. intros [k i] H. apply (N k i H). }
  apply distinct_sorted in St.
  - eapply StronglySorted_impl; [|exact St]. intros a b [H1 H2]. unfold lex, by_key in H1. apply orb_false_iff in H1. destruct H1 as [H1 H3]. split; [exact H1|]. destruct (SFltb (sb_zoom (snd a)) (sb_zoom (snd b))); [now left|right]. cbn [negb andb] in H3. lia.
  - eapply Permutation_NoDup; [apply Permutation_map, isort_perm|]. apply increasing_nodup, S.
Qed.

(** ** Drawing one sub-block *)
Definition half : f32 := S754_finite false 8388608 (-24).
Definition gray (w h : Z) (f : mem) : bmp := mkBmp w h w 1 (w * h) f.
Definition bitmaps (l : list bmp) (k : Z) : bmp * option mask * copy_kind := (nth (Z.to_nat k) l (gray 1 1 (fun _ => 0)), None, SameType false).
Definition tl (s : option Z) (x y w h pw ph m : Z) : sbinfo := SbInfo [None; Some 0; None; None; s; None; None; None; None] (mkRect x y w h) pw ph m.
Definition canvas (w h : Z) : bmp := gray w h (fun _ => 0).
Ltac closed := repeat split; vm_compute; first [reflexivity|discriminate].

(** 8 x 4 of the document stored as 4 x 2, shown at half the size *)
Definition one := tl None 10 20 8 4 4 2 INT_MAX.
Definition one_bmp := bitmaps [gray 4 2 (fun a => 100 + a)].
Lemma one_example :
  let roi := mkRect 8 20 12 4 in
  SFeqb half (f32_of_Z 1) = false /\ bmp_wf (canvas 6 2) /\ drawable one_bmp roi (canvas 6 2) 0 one /\
  exists d, scale_blt one_bmp half roi (canvas 6 2) (0, one) = Ok d /\
    map (fun x => pix d x 0) [0; 1; 2; 3; 4; 5] = [[0]; [100]; [101]; [102]; [103]; [0]] /\ map (fun x => pix d x 1) [0; 1; 2; 3; 4; 5] = [[0]; [104]; [105]; [106]; [107]; [0]].
Proof.
  intros roi. split; [reflexivity|]. split; [wf|]. split.
  - split; [|split; closed]. split; [wf|]. split; [reflexivity|]. split; [reflexivity|]. split; [discriminate|reflexivity].
  - eexists. split; [vm_compute; reflexivity|]. split; vm_compute; reflexivity.
Qed.

(** ** Deviations of a single tile *)
(** the tile starts exactly at pixel 7, which keeps the background *)
Lemma left_edge_missing : exists bitmap zoom roi dst i d',
  SFeqb zoom (f32_of_Z 1) = false /\ bmp_wf dst /\ drawable bitmap roi dst 0 i /\ calc_size (rw roi) zoom = Ok (bw dst) /\ calc_size (rh roi) zoom = Ok (bh dst) /\
  scale_blt bitmap zoom roi dst (0, i) = Ok d' /\
  (tile_from (x_axis i roi dst) == 7 /\ tile_to (x_axis i roi dst) == 25 /\ tile_from (y_axis i roi dst) == 0 /\ tile_to (y_axis i roi dst) == 1)%Q /\
  pix dst 7 0 = [0] /\ pix d' 7 0 = [0] /\ pix d' 8 0 = [50].
Proof.
  exists (bitmaps [gray 36 2 (fun _ => 50)]), half, (mkRect 0 0 50 2), (canvas 25 1), (tl None 14 0 36 2 36 2 INT_MAX). eexists.
  split; [reflexivity|]. split; [wf|]. split; [split; [|split; closed]; split; [wf|]; split; [reflexivity|]; split; [reflexivity|]; split; [discriminate|reflexivity]|].
  split; [reflexivity|]. split; [reflexivity|]. split; [vm_compute; reflexivity|]. split; [repeat split; reflexivity|]. split; [reflexivity|]. split; vm_compute; reflexivity.
Qed.
(** the tile ends exactly where pixel 5 begins, and is drawn there all the same *)
Lemma right_edge_beyond : exists bitmap zoom roi dst i d',
  SFeqb zoom (f32_of_Z 1) = false /\ bmp_wf dst /\ drawable bitmap roi dst 0 i /\ calc_size (rw roi) zoom = Ok (bw dst) /\ calc_size (rh roi) zoom = Ok (bh dst) /\
  scale_blt bitmap zoom roi dst (0, i) = Ok d' /\ (tile_to (x_axis i roi dst) == 5)%Q /\ pix dst 5 0 = [0] /\ pix d' 5 0 = [50].
Proof.
  exists (bitmaps [gray 10 2 (fun _ => 50)]), half, (mkRect 0 0 20 2), (canvas 10 1), (tl None 0 0 10 2 10 2 INT_MAX). eexists.
  split; [reflexivity|]. split; [wf|]. split; [split; [|split; closed]; split; [wf|]; split; [reflexivity|]; split; [reflexivity|]; split; [discriminate|reflexivity]|].
  split; [reflexivity|]. split; [reflexivity|]. split; [vm_compute; reflexivity|]. split; [reflexivity|]. split; [reflexivity|]. vm_compute. reflexivity.
Qed.

(** ** Pictures *)
Definition with_scenes (l : list (Z * (rect * rect))) : stats := mkStats 0 0 0 (mkRect 0 0 0 0) (mkRect 0 0 0 0) [] l.
Lemma cases (dir : list sbinfo) k i : sub_block dir k i -> exists n, (n < length dir)%nat /\ k = Z.of_nat n /\ nth_error dir n = Some i.
Proof. intros [H E]. exists (Z.to_nat k). split; [apply nth_error_Some; congruence|]. split; [lia|exact E]. Qed.
Lemma some_eq {A} (a b : A) : Some a = Some b -> a = b. Proof. congruence. Qed.
Ltac each d H := let n := fresh "n" in let L := fresh "L" in let E := fresh "E" in apply cases in H; destruct H as (n & L & -> & E); unfold d in L, E; cbn [length] in L;
  repeat (destruct n as [|n]; [cbn [nth_error] in E; apply some_eq in E; subst|]); [..|exfalso; lia].
Ltac tile_ok := split; [|split; closed]; split; [wf|]; split; [reflexivity|]; split; [reflexivity|]; split; [discriminate|reflexivity].

(** a pyramid tile, two tiles of layer 0 below it and one elsewhere *)
Definition pyr_dir : list sbinfo := [tl None 0 0 8 4 4 2 INT_MAX; tl None 0 0 4 4 4 4 1; tl None 4 0 4 4 4 4 2; tl None 50 0 4 4 4 4 3].
Definition pyr_bmp := bitmaps [gray 4 2 (fun a => 100 + a); gray 4 4 (fun a => 10 + a); gray 4 4 (fun a => 40 + a); gray 4 4 (fun _ => 200)].
Definition pyr_roi := mkRect 0 0 8 4.
Lemma pyr_layered : layered (fun i => exists k, region_tile (ch 0) None pyr_roi pyr_dir k i).
Proof.
  split.
  - intros i (k & H & _). each pyr_dir H; vm_compute; discriminate.
  - intros a b (ka & Ha & _) (kb & Hb & _) La Lb. each pyr_dir Ha; each pyr_dir Hb; first [discriminate|left; vm_compute; reflexivity|right; vm_compute; reflexivity].
Qed.
Lemma pyr_example :
  sorts_by_zoom_m by_zoom_m /\ sorts_by_zoom by_zoom /\ check_plane ex_bnds (ch 0) = Ok tt /\ bmp_wf (canvas 4 2) /\ background_ok (Some (Gray8, ex_color)) (canvas 4 2) /\
  scenes_known (with_scenes []) pyr_dir /\ zoom_range half /\ (forall k i, region_tile (ch 0) None pyr_roi pyr_dir k i -> zoom_sizes i) /\
  layered (fun i => exists k, region_tile (ch 0) None pyr_roi pyr_dir k i) /\ one_scene (with_scenes []) None pyr_roi /\ SFeqb half (f32_of_Z 1) = false /\
  (forall k i, level half any (region_tile (ch 0) None pyr_roi pyr_dir) k i -> drawable pyr_bmp pyr_roi (canvas 4 2) k i) /\
  exists d, scale_get by_zoom_m by_zoom pyr_bmp None ex_bnds (with_scenes []) (Some (Gray8, ex_color)) true (ch 0) None half pyr_roi (canvas 4 2) pyr_dir = Ok d /\
    map (fun x => pix d x 0) [0; 1; 2; 3] = [[100]; [101]; [102]; [103]] /\ map (fun x => pix d x 1) [0; 1; 2; 3] = [[104]; [105]; [106]; [107]].
Proof.
  split; [exact by_zoom_m_ok|]. split; [exact by_zoom_ok|]. split; [reflexivity|]. split; [wf|]. split; [split; [reflexivity|exact ex_color_ok]|]. split.
  { split; [constructor|]. intros k i s H. each pyr_dir H; discriminate. }
  split; [closed|]. split; [intros k i (H & _); each pyr_dir H; closed|]. split; [exact pyr_layered|]. split; [intros s t (b & b0 & [] & _)|]. split; [reflexivity|]. split.
  - intros k i [[(H & _ & M & _) _] _]. each pyr_dir H; [tile_ok|tile_ok|tile_ok|]. exfalso. destruct M as (x & y & M). cbn [tl sb_rect rx ry rw rh pyr_roi] in M. lia.
  - eexists. split; [vm_compute; reflexivity|]. split; vm_compute; reflexivity.
Qed.

(** two overlapping scenes *)
Definition scenes_dir : list sbinfo := [tl (Some 1) 4 0 8 4 4 2 INT_MAX; tl (Some 0) 0 0 8 4 4 2 INT_MAX; tl (Some 1) 4 0 8 4 8 4 0].
Definition scenes_bmp := bitmaps [gray 4 2 (fun a => 100 + a); gray 4 2 (fun a => 10 + a); gray 8 4 (fun a => 200)].
Definition scenes_st := with_scenes [(0, (mkRect 0 0 8 4, mkRect 0 0 8 4)); (1, (mkRect 4 0 8 4, mkRect 4 0 8 4))].
Definition scenes_roi := mkRect 0 0 12 4.
Lemma scenes_example :
  check_plane ex_bnds (ch 0) = Ok tt /\ bmp_wf (canvas 6 2) /\ background_ok (Some (Gray8, ex_color)) (canvas 6 2) /\
  scenes_known scenes_st scenes_dir /\ zoom_range half /\ (forall k i, region_tile (ch 0) None scenes_roi scenes_dir k i -> zoom_sizes i) /\
  layered (fun i => exists k, region_tile (ch 0) None scenes_roi scenes_dir k i) /\ several_scenes scenes_st None scenes_roi /\ length (ch 0) = 9%nat /\
  (forall k i, region_tile (ch 0) None scenes_roi scenes_dir k i -> scene i <> None) /\ SFeqb half (f32_of_Z 1) = false /\
  (forall k i, level half same_scene (region_tile (ch 0) None scenes_roi scenes_dir) k i -> drawable scenes_bmp scenes_roi (canvas 6 2) k i) /\
  exists d, scale_get by_zoom_m by_zoom scenes_bmp None ex_bnds scenes_st (Some (Gray8, ex_color)) true (ch 0) None half scenes_roi (canvas 6 2) scenes_dir = Ok d /\
    map (fun x => pix d x 0) [0; 1; 2; 3; 4; 5] = [[10]; [11]; [100]; [101]; [102]; [103]].
Proof.
  split; [reflexivity|]. split; [wf|]. split; [split; [reflexivity|exact ex_color_ok]|]. split.
  { split; [repeat constructor|]. intros k i s H Hs. each scenes_dir H; cbn in Hs; apply some_eq in Hs; subst s; eexists _, _; (split; [cbn; tauto|closed]). }
  split; [closed|]. split; [intros k i (H & _); each scenes_dir H; closed|]. split.
  { split.
    - intros i (k & H & _). each scenes_dir H; vm_compute; discriminate.
    - intros a b (ka & Ha & _) (kb & Hb & _) La Lb. each scenes_dir Ha; each scenes_dir Hb; first [discriminate|left; vm_compute; reflexivity|right; vm_compute; reflexivity]. }
  split; [exists 0, 1; split; [exists (mkRect 0 0 8 4), (mkRect 0 0 8 4)|split; [exists (mkRect 4 0 8 4), (mkRect 4 0 8 4)|lia]]; (split; [cbn; tauto|split; [discriminate|cbn; lia]])|]. split; [reflexivity|]. split; [intros k i (H & _); each scenes_dir H; discriminate|]. split; [reflexivity|]. split.
  - intros k i [[(H & _ & M & _) _] _]. each scenes_dir H; tile_ok.
  - eexists. split; [vm_compute; reflexivity|]. vm_compute. reflexivity.
Qed.

(** ** What the picture lacks *)
Definition zoom_1049 : f32 := S754_finite false 8799650 (-23).
Definition zoom_2 : f32 := f32_of_Z 2.
(** two adjacent tiles of layer 0 which cover the region, magnified 1.049 times: pixel 22 shows the background *)
Definition seam_dir : list sbinfo := [tl None 0 0 21 1 21 1 1; tl None 21 0 20 1 20 1 2].
Definition seam_bmp := bitmaps [gray 21 1 (fun _ => 50); gray 20 1 (fun _ => 60)].
Lemma seam : let roi := mkRect 0 0 41 1 in
  (forall x y, pt_in roi (x, y) = true -> exists k i, region_tile (ch 0) None roi seam_dir k i /\ layer0_tile i /\ pt_in (sb_rect i) (x, y) = true) /\
  (forall k i, region_tile (ch 0) None roi seam_dir k i -> drawable seam_bmp roi (canvas 43 1) k i) /\
  exists d, scale_get_into by_zoom_m by_zoom seam_bmp None ex_bnds (with_scenes []) None true (ch 0) None zoom_1049 roi (canvas 43 1) seam_dir = Ok d /\
    map (fun x => pix d x 0) [20; 21; 22; 23; 24] = [[50]; [50]; [0]; [60]; [60]].
Proof.
  intros roi. split; [|split].
  - intros x y H. unfold roi, pt_in in H. cbn [rx ry rw rh fst snd] in H. destruct (Z_lt_le_dec x 21) as [L|L]; [exists 0, (tl None 0 0 21 1 21 1 1)|exists 1, (tl None 21 0 20 1 20 1 2)].
    all: split; [split; [split; [lia|reflexivity]|]; split; [intros d v Hd Hv; cbn in Hd; repeat (destruct Hd as [<-|Hd]; [cbn in Hv |- *; congruence|]); destruct Hd|]; split; [exists x, y; cbn; lia|discriminate]|].
    all: split; [split; reflexivity|]. all: unfold pt_in; cbn [sb_rect tl rx ry rw rh fst snd]; lia.
  - intros k i (H & _). each seam_dir H; tile_ok.
  - eexists. split; [vm_compute; reflexivity|]. vm_compute. reflexivity.
Qed.
(** the pyramid tile covers the left half only; the tile of layer 0 at the right is not drawn *)
Definition hole_dir : list sbinfo := [tl None 0 0 8 4 4 2 INT_MAX; tl None 8 0 8 4 8 4 1].
Definition hole_bmp := bitmaps [gray 4 2 (fun _ => 50); gray 8 4 (fun _ => 60)].
Lemma hole : let roi := mkRect 0 0 16 4 in
  sub_block hole_dir 1 (tl None 8 0 8 4 8 4 1) /\ layer0_tile (tl None 8 0 8 4 8 4 1) /\
  (exists d, scale_get_into by_zoom_m by_zoom hole_bmp None ex_bnds (with_scenes []) None true (ch 0) None half roi (canvas 8 2) hole_dir = Ok d /\
    map (fun x => pix d x 0) [2; 3; 4; 5; 6] = [[50]; [50]; [0]; [0]; [0]]) /\
  exists d, scale_get_into by_zoom_m by_zoom hole_bmp None ex_bnds (with_scenes []) None true (ch 0) None half roi (canvas 8 2) (skipn 1 hole_dir) = Ok d /\ pix d 5 0 = [50].
Proof. intros roi. split; [split; [lia|reflexivity]|]. split; [split; reflexivity|]. split; (eexists; split; [vm_compute; reflexivity|]); vm_compute; reflexivity. Qed.
(** magnified twice: nothing is drawn *)
Lemma magnified : let roi := mkRect 0 0 4 2 in
  exists d, scale_get_into by_zoom_m by_zoom (bitmaps [gray 4 2 (fun _ => 50)]) None ex_bnds (with_scenes []) None true (ch 0) None zoom_2 roi (canvas 8 4) [tl None 0 0 4 2 4 2 1] = Ok d /\
    forallb (fun x => forallb (fun y => match pix d x y with [0] => true | _ => false end) [0; 1; 2; 3]) [0; 1; 2; 3; 4; 5; 6; 7] = true.
Proof. intros roi. eexists. split; [vm_compute; reflexivity|]. vm_compute. reflexivity. Qed.
(** a tile without scene, drawn as long as the region meets one scene only *)
Definition loose_dir : list sbinfo := [tl None 8 0 4 2 4 2 0; tl (Some 0) 0 0 4 2 4 2 1; tl (Some 1) 4 0 4 2 4 2 2].
Definition loose_bmp := bitmaps [gray 4 2 (fun _ => 50); gray 4 2 (fun _ => 60); gray 4 2 (fun _ => 70)].
Definition loose_st := with_scenes [(0, (mkRect 0 0 4 2, mkRect 0 0 4 2)); (1, (mkRect 4 0 4 2, mkRect 4 0 4 2))].
Lemma loose_known : scenes_known loose_st loose_dir.
Proof. split; [repeat constructor|]. intros k i s H Hs. each loose_dir H; cbn in Hs; try discriminate; apply some_eq in Hs; subst s; eexists _, _; (split; [cbn; tauto|closed]). Qed.
Lemma loose : scenes_known loose_st loose_dir /\
  (exists d, scale_get_into by_zoom_m by_zoom loose_bmp None ex_bnds loose_st None true (ch 0) None half (mkRect 0 0 12 2) (canvas 6 1) loose_dir = Ok d /\
    map (fun x => pix d x 0) [0; 1; 2; 3; 4; 5] = [[60]; [60]; [70]; [70]; [70]; [0]]) /\
  (exists d, scale_get_into by_zoom_m by_zoom loose_bmp None ex_bnds loose_st None true (ch 0) None half (mkRect 4 0 8 2) (canvas 4 1) loose_dir = Ok d /\
    map (fun x => pix d x 0) [0; 1; 2; 3] = [[70]; [70]; [70]; [50]]).
Proof. split; [exact loose_known|]. split; (eexists; split; [vm_compute; reflexivity|]); vm_compute; reflexivity. Qed.

(** ** Zoom 1 *)
Definition zoom_1 : f32 := f32_of_Z 1.
Lemma tiles_example :
  check_plane ex_bnds (ch 0) = Ok tt /\ bmp_wf (canvas 8 4) /\ background_ok None (canvas 8 4) /\ scenes_known (with_scenes []) pyr_dir /\ zoom_range zoom_1 /\
  (forall k i, region_tile (ch 0) None pyr_roi pyr_dir k i -> zoom_sizes i) /\ layered (fun i => exists k, region_tile (ch 0) None pyr_roi pyr_dir k i) /\
  one_scene (with_scenes []) None pyr_roi /\ SFeqb zoom_1 (f32_of_Z 1) = true /\
  (forall k i, region_tile (ch 0) None pyr_roi pyr_dir k i -> layer0_tile i \/ (zoomQ i < sfQ (f32_div zoom_1 single_105))%Q) /\
  bw (canvas 8 4) = rw pyr_roi /\ bh (canvas 8 4) = rh pyr_roi /\
  (forall k i, plane_tile (ch 0) pyr_dir k i -> bitmap_ok pyr_bmp (canvas 8 4) k i /\ snd (fst (pyr_bmp k)) = None) /\
  exists d d', scale_get by_zoom_m by_zoom pyr_bmp None ex_bnds (with_scenes []) None true (ch 0) None zoom_1 pyr_roi (canvas 8 4) pyr_dir = Ok d /\
    scale_get by_zoom_m by_zoom pyr_bmp (Some 100%nat) ex_bnds (with_scenes []) None true (ch 0) None zoom_1 pyr_roi (canvas 8 4) pyr_dir = Ok d' /\
    map (fun x => pix d x 1) [0; 1; 3; 4; 5; 7] = [[14]; [15]; [17]; [44]; [45]; [47]] /\ map (fun x => pix d' x 1) [0; 1; 3; 4; 5; 7] = [[14]; [15]; [17]; [44]; [45]; [47]].
Proof.
  split; [reflexivity|]. split; [wf|]. split; [exact I|]. split; [split; [constructor|]; intros k i s H; each pyr_dir H; discriminate|]. split; [closed|].
  split; [intros k i (H & _); each pyr_dir H; closed|]. split; [exact pyr_layered|]. split; [intros s t (b & b0 & [] & _)|]. split; [reflexivity|]. split.
  { intros k i (H & _). each pyr_dir H; first [left; split; reflexivity|right; vm_compute; reflexivity]. }
  split; [reflexivity|]. split; [reflexivity|]. split.
  { intros k i (H & _ & W & _). each pyr_dir H; [discriminate|..]; (split; [|reflexivity]); (split; [|split; reflexivity]); (split; [wf|]); (split; [discriminate|]); split; reflexivity. }
  eexists _, _. split; [vm_compute; reflexivity|]. split; [vm_compute; reflexivity|]. split; vm_compute; reflexivity.
Qed.
(** the tile without scene is missing from the picture of the scaling accessor, not from that of the tile accessor *)
Lemma loose_1 : scenes_known loose_st loose_dir /\ (forall k i, sub_block loose_dir k i -> layer0_tile i) /\
  (exists d, scale_get_into by_zoom_m by_zoom loose_bmp None ex_bnds loose_st None true (ch 0) None zoom_1 (mkRect 0 0 12 2) (canvas 12 2) loose_dir = Ok d /\
    map (fun x => pix d x 0) [0; 3; 4; 7; 8; 11] = [[60]; [60]; [70]; [70]; [0]; [0]]) /\
  (exists d, tile_get AccessExamples.sort_m loose_bmp ex_bnds None true (ch 0) 0 0 (canvas 12 2) loose_dir = Ok d /\
    map (fun x => pix d x 0) [0; 3; 4; 7; 8; 11] = [[60]; [60]; [70]; [70]; [50]; [50]]).
Proof. split; [exact loose_known|]. split; [intros k i H; each loose_dir H; split; reflexivity|]. split; (eexists; split; [vm_compute; reflexivity|]); vm_compute; reflexivity. Qed.
(** a tile beneath the two tiles of [seam_dir] shows through the seam, unless the optimisation leaves it out *)
Definition under_dir : list sbinfo := tl None 0 0 41 1 41 1 0 :: seam_dir.
Definition under_bmp := bitmaps [gray 41 1 (fun _ => 40); gray 21 1 (fun _ => 50); gray 20 1 (fun _ => 60)].
Lemma under : let roi := mkRect 0 0 41 1 in
  (forall k, snd (fst (under_bmp k)) = None) /\ (forall k i, sub_block under_dir k i -> drawable under_bmp roi (canvas 43 1) k i) /\
  exists d d', scale_get_into by_zoom_m by_zoom under_bmp None ex_bnds (with_scenes []) None true (ch 0) None zoom_1049 roi (canvas 43 1) under_dir = Ok d /\
    (forall f, scale_get_into by_zoom_m by_zoom under_bmp (Some (100 + f)%nat) ex_bnds (with_scenes []) None true (ch 0) None zoom_1049 roi (canvas 43 1) under_dir = Ok d') /\
    pix d 22 0 = [40] /\ pix d' 22 0 = [0].
Proof.
  intros roi. split; [reflexivity|]. split; [intros k i H; unfold under_dir, seam_dir in H; each seam_dir H; tile_ok|].
  eexists _, _. split; [vm_compute; reflexivity|]. split; [intros f; cbn [Nat.add]; vm_compute; reflexivity|]. split; vm_compute; reflexivity.
Qed.
