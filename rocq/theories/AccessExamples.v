(** Concrete documents for the accessors. *)
From Verif Require Import Base RectModel CodecModel CopyModel MemProofs CopyProofs TextModel CoordModel CoordSpec CoordProofs StatModel StatSpec StatProofs LayerProofs StatExamples PixelModel PixelSpec FloatProofs FillProofs PixelExamples ComposeExamples AccessModel AccessSpec AccessProofs AccessCompose.
From Coq Require Import Permutation Sorted.
Open Scope Z_scope.

(** a sort with the contract of std::sort *)
Fixpoint insert_m (x : Z * sbinfo) (l : list (Z * sbinfo)) : list (Z * sbinfo) :=
  match l with [] => [x] | y :: l' => if m_key y <? m_key x then y :: insert_m x l' else x :: l end.
Definition sort_m (l : list (Z * sbinfo)) : list (Z * sbinfo) := fold_right insert_m [] l.
Lemma insert_m_perm x l : Permutation (x :: l) (insert_m x l).
Proof. induction l as [|y l IH]; [reflexivity|]. cbn [insert_m]. destruct (m_key y <? m_key x); [|reflexivity]. eapply perm_trans; [apply perm_swap|]. now constructor. Qed.
Lemma insert_m_sorted x l : StronglySorted (fun a b => m_key a <= m_key b) l -> StronglySorted (fun a b => m_key a <= m_key b) (insert_m x l).
Proof.
  induction 1 as [|y l S IH F]; cbn [insert_m]; [repeat constructor|]. destruct (Z.ltb_spec (m_key y) (m_key x)) as [H|H].
  - constructor; [exact IH|]. rewrite Forall_forall in *. intros z Hz. apply (Permutation_in _ (Permutation_sym (insert_m_perm x l))) in Hz. destruct Hz as [<-|Hz]; [lia|auto].
  - constructor; [now constructor|]. constructor; [exact H|]. rewrite Forall_forall in *. intros z Hz. specialize (F z Hz). cbv beta in F. lia.
Qed.
Lemma sort_m_ok : sorts_by_m sort_m.
Proof.
  intros l. induction l as [|x l [P S]]; [split; constructor|]. split.
  - cbn [sort_m fold_right]. eapply perm_trans; [apply perm_skip, P|apply insert_m_perm].
  - cbn [sort_m fold_right]. apply insert_m_sorted, S.
Qed.

(** channel 0: two overlapping tiles and a pyramid tile above them; channel 1: one tile *)
Definition ch (c : Z) : coord := [None; Some c; None; None; None; None; None; None; None].
Definition ex_dir : list sbinfo :=
  [SbInfo (ch 0) (mkRect 100 200 3 1) 3 1 1; SbInfo (ch 0) (mkRect 101 200 3 1) 3 1 0; SbInfo (ch 1) (mkRect 100 200 3 1) 3 1 7; SbInfo (ch 0) (mkRect 100 200 6 2) 3 1 INT_MAX].
Definition ex_bitmap (k : Z) : bmp * option mask * copy_kind := ((if k =? 0 then ex_src else ex_src2), None, SameType false).
Definition ex_bnds : bounds := [None; Some (0, 2); None; None; None; None; None; None; None].
Lemma ex_cases k i : sub_block ex_dir k i -> k = 0 /\ i = nth 0 ex_dir i \/ k = 1 /\ i = nth 1 ex_dir i \/ k = 2 /\ i = nth 2 ex_dir i \/ k = 3 /\ i = nth 3 ex_dir i.
Proof.
  intros [H E]. assert (Hk : (Z.to_nat k < 4)%nat) by (change 4%nat with (length ex_dir); apply (nth_error_Some ex_dir); congruence).
  assert (D : k = 0 \/ k = 1 \/ k = 2 \/ k = 3) by lia. destruct D as [->|[->|[->| ->]]]; injection E as <-; auto 10.
Qed.
Lemma ex_bitmap_wf k x y : tile_wf ex_dst (tile_at ex_bitmap k x y).
Proof. unfold tile_at, ex_bitmap. destruct (k =? 0); (split; [exact ex_src_wf || exact ex_src2_wf|]); split; try discriminate; split; reflexivity. Qed.
Lemma ex_bitmap_ok k i : sub_block ex_dir k i -> bitmap_ok ex_bitmap ex_dst k i.
Proof. intros H. split; [apply ex_bitmap_wf|]. apply ex_cases in H. destruct H as [[-> ->]|[[-> ->]|[[-> ->]|[-> ->]]]]; split; reflexivity. Qed.
Lemma ex_sizes k i : sub_block ex_dir k i -> sizes_logical i.
Proof. intros H. apply ex_cases in H. unfold sizes_logical, INT_MAX. destruct H as [[-> ->]|[[-> ->]|[[-> ->]|[-> ->]]]]; cbn; lia. Qed.

Lemma tile_get_example :
  sorts_by_m sort_m /\ check_plane ex_bnds (ch 0) = Ok tt /\ bmp_wf ex_dst /\ background_ok (Some (Gray8, ex_color)) ex_dst /\
  (forall k i, sub_block ex_dir k i -> sizes_logical i) /\ (forall k i, plane_tile (ch 0) ex_dir k i -> bitmap_ok ex_bitmap ex_dst k i) /\
  (exists d, tile_get sort_m ex_bitmap ex_bnds (Some (Gray8, ex_color)) true (ch 0) 100 200 ex_dst ex_dir = Ok d /\
    map (fun x => pix d x 0) [0; 1; 2] = [[11]; [12]; [13]] /\ pix d 0 1 <> pix ex_dst 0 1) /\
  (exists d, tile_get sort_m ex_bitmap ex_bnds None false (ch 0) 100 200 ex_dst ex_dir = Ok d /\
    map (fun x => pix d x 0) [0; 1; 2] = [[11]; [21]; [22]] /\ pix d 0 1 = [0]).
Proof.
  split; [exact sort_m_ok|]. split; [reflexivity|]. split; [exact ex_dst_wf|]. split; [split; [reflexivity|exact ex_color_ok]|]. split; [exact ex_sizes|]. split; [intros k i H; apply ex_bitmap_ok, H|].
  split; (eexists; split; [vm_compute; reflexivity|]); split; vm_compute; congruence.
Qed.

(** the pyramid accessor *)
Lemma ex_ratio k i : sub_block ex_dir k i -> sizes_ok i /\ sb_ratio i * 2 <= INT_MAX /\ (k = 3 /\ sb_ratio i = 2 /\ sb_rect i = mkRect 100 200 6 2 \/ k <> 3 /\ sb_ratio i = 1).
Proof. intros H. apply ex_cases in H. unfold sizes_ok, INT_MAX, sb_ratio, ratio_of, nearest. destruct H as [[-> ->]|[[-> ->]|[[-> ->]|[-> ->]]]]; cbn; repeat (split; [lia|]); first [left; repeat split; reflexivity|right; split; [lia|reflexivity]]. Qed.
Lemma layer1 n : n = 1 \/ n = 2 -> (least_layer 2 n 1 <-> n = 2).
Proof. unfold least_layer. change (2 ^ 1) with 2. change (2 ^ (1 - 1)) with 1. lia. Qed.
Lemma region3 : region_tile (ch 0) None (mkRect 100 200 6 4) ex_dir 3 (SbInfo (ch 0) (mkRect 100 200 6 2) 3 1 INT_MAX).
Proof.
  split; [split; [lia|reflexivity]|]. split; [apply compare_coordinate_spec; reflexivity|]. split; [apply do_intersect_spec; reflexivity|]. discriminate.
Qed.
Lemma pyramid_get_example :
  sorts_by_m sort_m /\ check_plane ex_bnds (ch 0) = Ok tt /\ bmp_wf ex_dst /\ background_ok None ex_dst /\
  (forall k i, region_tile (ch 0) None (mkRect 100 200 6 4) ex_dir k i -> sizes_ok i /\ sb_ratio i * 2 <= INT_MAX) /\
  (forall k i, region_tile (ch 0) None (mkRect 100 200 6 4) ex_dir k i -> least_layer 2 (sb_ratio i) 1 ->
       bitmap_ok ex_bitmap ex_dst k i /\ in_i32 (rx (sb_rect i) - 100) /\ in_i32 (ry (sb_rect i) - 200) /\
       (100 <= rx (sb_rect i) \/ (rx (sb_rect i) - 100) mod 2 = 0) /\ (200 <= ry (sb_rect i) \/ (ry (sb_rect i) - 200) mod 2 = 0)) /\
  if_some (region_tile (ch 0) None (mkRect 100 200 6 4) ex_dir) (fun i => least_layer 2 (sb_ratio i) 1) /\
  exists d, pyramid_get sort_m ex_bitmap 32 ex_bnds None true (ch 0) None 2 1 100 200 ex_dst ex_dir = Ok d /\ map (fun x => pix d x 0) [0; 1; 2] = [[21]; [22]; [23]].
Proof.
  split; [exact sort_m_ok|]. split; [reflexivity|]. split; [exact ex_dst_wf|]. split; [exact I|]. split; [intros k i [H _]; apply ex_ratio in H; tauto|]. split; [|split].
  - intros k i [H _] L. split; [apply ex_bitmap_ok, H|]. destruct (ex_ratio k i H) as (_ & _ & [(_ & _ & R)|(_ & R)]).
    + rewrite R. unfold in_i32, INT_MIN, INT_MAX. cbn. lia.
    + apply layer1 in L; lia.
  - intros _. exists 3, (SbInfo (ch 0) (mkRect 100 200 6 2) 3 1 INT_MAX). split; [exact region3|]. apply layer1; [right|]; reflexivity.
  - eexists. split; [vm_compute; reflexivity|]. vm_compute. reflexivity.
Qed.
Lemma pyramid_absent_example : (forall k i, region_tile (ch 0) None (mkRect 100 200 12 8) ex_dir k i -> sizes_ok i /\ sb_ratio i * 2 <= INT_MAX) /\
  (exists k i, region_tile (ch 0) None (mkRect 100 200 12 8) ex_dir k i) /\ (forall k i, region_tile (ch 0) None (mkRect 100 200 12 8) ex_dir k i -> ~ least_layer 2 (sb_ratio i) 2).
Proof.
  split; [intros k i [H _]; apply ex_ratio in H; tauto|]. split.
  - exists 3, (SbInfo (ch 0) (mkRect 100 200 6 2) 3 1 INT_MAX). split; [split; [lia|reflexivity]|]. split; [apply compare_coordinate_spec; reflexivity|]. split; [apply do_intersect_spec; reflexivity|]. discriminate.
  - intros k i [H _] (_ & _ & L). change (2 ^ (2 - 1)) with 2 in L. apply ex_ratio in H. lia.
Qed.
(** two regions one output pixel apart show the same picture *)
Lemma negative_offset : exists d1 d2,
  pyramid_get sort_m ex_bitmap 32 ex_bnds None true (ch 0) None 2 1 99 200 ex_dst ex_dir = Ok d1 /\
  pyramid_get sort_m ex_bitmap 32 ex_bnds None true (ch 0) None 2 1 101 200 ex_dst ex_dir = Ok d2 /\
  map (fun x => pix d1 x 0) [0; 1; 2] = [[21]; [22]; [23]] /\ map (fun x => pix d2 x 0) [0; 1; 2] = [[21]; [22]; [23]].
Proof. eexists _, _. split; [vm_compute; reflexivity|]. split; [vm_compute; reflexivity|]. split; vm_compute; reflexivity. Qed.

(** a document without tiles on layer 0 *)
Definition only_pyramid : list sbe := [tile 0 0 0 0 0 20 20 10 10].
Lemma no_layer0_ub : Forall entry_ok only_pyramid /\ bounds_fit only_pyramid /\ exists u, open_stats only_pyramid = Ok u /\
  forall p, transform_point (default_frame FDefault) (st_box0 (get_stats u)) FPixel p FRaw = UB.
Proof. split; [unfold only_pyramid, tile; ok_entries|]. split; [apply fitb_ok; vm_compute; reflexivity|]. eexists. split; [vm_compute; reflexivity|]. reflexivity. Qed.

(** overflow of the accumulated factor *)
Lemma layer_overflow : exists w h pw ph factor, 0 < w <= INT_MAX /\ 0 < h <= INT_MAX /\ 0 < pw <= INT_MAX /\ 0 < ph <= INT_MAX /\ 2 <= factor <= 255 /\
  forall fuel, (10 <= fuel)%nat -> calc_layer fuel w h pw ph factor = UB.
Proof.
  exists 1, 16581376, 1, 1, 255. unfold INT_MAX. repeat (split; [lia|]). intros fuel H. do 10 (destruct fuel as [|fuel]; [lia|]). vm_compute. reflexivity.
Qed.
(** a tile the statistics place on layer 4 of a factor 2 pyramid *)
Lemma layers_disagree : exists e, 0 < e_w e <= INT_MAX /\ 0 < e_h e <= INT_MAX /\ 0 < e_sw e <= INT_MAX /\ 0 < e_sh e <= INT_MAX /\ layer_info e = (2, 4) /\
  calc_layer 32 (e_w e) (e_h e) (e_sw e) (e_sh e) 2 = Ok 5.
Proof. exists (tile 0 0 0 0 0 84 84 5 5). unfold INT_MAX. cbn [e_w e_h e_sw e_sh tile]. repeat (split; [lia|]). split; vm_compute; reflexivity. Qed.
Lemma layers_agree : exists e, 0 < e_w e <= INT_MAX /\ 0 < e_h e <= INT_MAX /\ 0 < e_sw e <= INT_MAX /\ 0 < e_sh e <= INT_MAX /\ layer_info e = (3, 2) /\ accessor_layer e 3 2 = 2 /\ e_w e <> 9 * e_sw e.
Proof. exists (tile 0 0 0 0 0 1000 1000 112 112). unfold INT_MAX. cbn [e_w e_h e_sw e_sh tile]. repeat (split; [lia|]). split; vm_compute; [reflexivity|split; [reflexivity|discriminate]]. Qed.
