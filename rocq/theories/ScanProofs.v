(** Proofs about the plane scan. *)
From Coq Require Import QArith Qabs Lqa Permutation Sorted Floats.SpecFloat.
From Verif Require Import Base RectModel CodecModel CopyModel MemProofs CopyProofs TextModel CoordModel CoordSpec CoordProofs OrderProofs StatModel StatSpec PixelModel PixelSpec PixelProofs FloatProofs SFloatProofs FillProofs LutProofs AccessModel AccessSpec AccessCompose ScaleModel ScaleSpec ScaleProofs ScaleCompose ScanModel ScanSpec.
Open Scope Z_scope.

Fixpoint zrange (k : Z) (n : nat) : list Z := match n with O => [] | S n => k :: zrange (k + 1) n end.
Lemma in_zrange k n a : In a (zrange k n) <-> k <= a < k + Z.of_nat n.
Proof. revert k. induction n as [|n IH]; intros k; cbn [zrange In]; [lia|]. rewrite IH. lia. Qed.
Lemma nodup_zrange k n : NoDup (zrange k n).
Proof. revert k. induction n as [|n IH]; intros k; cbn [zrange]; constructor; [|apply IH]. rewrite in_zrange. lia. Qed.
Lemma collect_ok {A} n k f (g : Z -> list A) : (forall a, k <= a < k + Z.of_nat n -> f a = Ok (g a)) -> collect n k f = Ok (flat_map g (zrange k n)).
Proof.
  revert k. induction n as [|n IH]; intros k H; [reflexivity|]. cbn [collect zrange flat_map]. rewrite H by lia. cbn [bind]. rewrite IH; [reflexivity|]. intros a Ha. apply H. lia.
Qed.

Lemma chk_ok z : INT_MIN <= z <= INT_MAX -> chk z = Ok z.
Proof. intros H. unfold chk. replace (in_i32b z) with true by (symmetry; apply in_i32b_spec; exact H). reflexivity. Qed.
Lemma tile_count_ok n t : 0 < n -> 0 < t -> n + t <= INT_MAX -> tile_count n t = Ok ((n + t - 1) / t).
Proof.
  intros H1 H2 H3. unfold tile_count. rewrite !chk_ok by (unfold INT_MIN, INT_MAX in *; lia). cbn [bind]. rewrite chk_ok by (unfold INT_MIN, INT_MAX in *; lia). cbn [bind]. replace (t =? 0) with false by lia.
  rewrite Z.quot_div_nonneg by lia. apply chk_ok. unfold INT_MIN, INT_MAX in *. nia.
Qed.
Lemma in_count n t k : 0 < n -> 0 < t -> 0 <= k -> k < (n + t - 1) / t <-> k * t < n.
Proof.
  intros H1 H2 H3. split; intros H.
  - assert (t * ((n + t - 1) / t) <= n + t - 1) by (apply Z.mul_div_le; lia). nia.
  - apply Z.lt_le_trans with (k + 1); [lia|]. apply Z.div_le_lower_bound; [lia|]. nia.
Qed.
Lemma tile_axis_ok s n t k : 0 < n -> 0 < t -> 0 <= k -> k * t < n -> n <= INT_MAX -> INT_MIN <= s -> s + n <= INT_MAX -> tile_axis s n t k = Ok (s + k * t, Z.min t (n - k * t)).
Proof.
  intros. assert (0 <= k * t) by nia. unfold tile_axis. unfold INT_MIN, INT_MAX in *. rewrite chk_ok by (unfold INT_MIN, INT_MAX; lia). cbn [bind]. rewrite chk_ok by (unfold INT_MIN, INT_MAX; lia). cbn [bind]. rewrite chk_ok by (unfold INT_MIN, INT_MAX; lia). reflexivity.
Qed.

Definition region_ok (roi : rect) : Prop :=
  0 < rw roi /\ 0 < rh roi /\ INT_MIN <= rx roi /\ INT_MIN <= ry roi /\ rx roi + rw roi <= INT_MAX /\ ry roi + rh roi <= INT_MAX.
Definition tile_ok (roi : rect) (tw th : Z) : Prop := 0 < tw /\ 0 < th /\ rw roi + tw <= INT_MAX /\ rh roi + th <= INT_MAX.

Section Tiles.
  Variables (roi : rect) (tw th : Z).
  Hypothesis R : region_ok roi.
  Hypothesis T : tile_ok roi tw th.
  Let nx := (rw roi + tw - 1) / tw.
  Let ny := (rh roi + th - 1) / th.
  Definition the_tile y x := mkRect (rx roi + x * tw) (ry roi + y * th) (Z.min tw (rw roi - x * tw)) (Z.min th (rh roi - y * th)).
  Lemma nx_0 : 0 <= nx. Proof. destruct R as (R1 & R2 & _), T as (T1 & T2 & _). apply Z.div_pos; lia. Qed.
  Lemma ny_0 : 0 <= ny. Proof. destruct R as (R1 & R2 & _), T as (T1 & T2 & _). apply Z.div_pos; lia. Qed.
  Definition the_tiles := flat_map (fun y => flat_map (fun x => [the_tile y x]) (zrange 0 (Z.to_nat nx))) (zrange 0 (Z.to_nat ny)).
  Lemma scan_tiles_eq : scan_tiles roi tw th = Ok the_tiles.
  Proof.
    pose proof nx_0. pose proof ny_0. destruct R as (R1 & R2 & R3 & R4 & R5 & R6), T as (T1 & T2 & T3 & T4). unfold scan_tiles. cbv zeta. rewrite !s32_id by (unfold in_i32, INT_MIN, INT_MAX in *; lia).
    rewrite tile_count_ok by assumption. cbn [bind]. fold ny. apply collect_ok. intros y Hy. rewrite tile_count_ok by assumption. cbn [bind]. fold nx. apply collect_ok. intros x Hx.
    assert (x * tw < rw roi) by (apply (in_count (rw roi) tw x); try lia; fold nx; lia). assert (y * th < rh roi) by (apply (in_count (rh roi) th y); try lia; fold ny; lia).
    rewrite tile_axis_ok by lia. cbn [bind]. rewrite tile_axis_ok by lia. reflexivity.
  Qed.
  Lemma in_tiles t : In t the_tiles <-> exists y x, 0 <= y /\ y * th < rh roi /\ 0 <= x /\ x * tw < rw roi /\ t = the_tile y x.
  Proof.
    pose proof nx_0. pose proof ny_0. destruct R as (R1 & R2 & _), T as (T1 & T2 & _). unfold the_tiles. rewrite in_flat_map. split.
    - intros (y & Hy & H1). apply in_flat_map in H1. destruct H1 as (x & Hx & [H1|[]]). apply in_zrange in Hx, Hy. exists y, x.
      split; [lia|]. split; [apply (in_count (rh roi) th y); try lia; fold ny; lia|]. split; [lia|]. split; [apply (in_count (rw roi) tw x); try lia; fold nx; lia|]. now symmetry.
    - intros (y & x & Y0 & Y1 & X0 & X1 & ->). exists y. apply (in_count (rh roi) th y) in Y1; try lia. apply (in_count (rw roi) tw x) in X1; try lia. fold nx in X1. fold ny in Y1.
      split; [apply in_zrange; lia|]. apply in_flat_map. exists x. split; [apply in_zrange; lia|now left].
  Qed.
  Lemma the_tile_inj y x y' x' : the_tile y x = the_tile y' x' -> y = y' /\ x = x'.
  Proof. destruct T as (T1 & T2 & _). intros H. pose proof (f_equal rx H) as H1. pose proof (f_equal ry H) as H2. cbn [the_tile rx ry] in H1, H2. split; nia. Qed.
  Theorem scan_cuts : exists ts, scan_tiles roi tw th = Ok ts /\ cuts ts roi tw th.
  Proof.
    exists the_tiles. split; [apply scan_tiles_eq|]. pose proof R as (R1 & R2 & R3 & R4 & R5 & R6). pose proof T as (T1 & T2 & T3 & T4). split; [|split].
    - unfold the_tiles. apply NoDup_flat; [apply nodup_zrange| |].
      + intros y _. apply NoDup_flat; [apply nodup_zrange|intros; repeat constructor; intros []|]. intros x x' a _ _ [<-|[]] [H|[]]. apply the_tile_inj in H. symmetry. apply H.
      + intros y y' a _ _ H1 H2. apply in_flat_map in H1, H2. destruct H1 as (x & _ & [<-|[]]), H2 as (x' & _ & [H|[]]). apply the_tile_inj in H. symmetry. apply H.
    - intros t H. apply in_tiles in H. destruct H as (y & x & Y0 & Y1 & X0 & X1 & ->). unfold contained, the_tile. cbn [rx ry rw rh]. assert (0 <= x * tw) by nia. assert (0 <= y * th) by nia. repeat split; lia.
    - intros x y [Hx Hy].
      assert (F : forall s n t a, 0 < t -> s <= a < s + n -> exists k, 0 <= k /\ k * t < n /\ s + k * t <= a < s + k * t + Z.min t (n - k * t)).
      { intros s n t a Ht Ha. exists ((a - s) / t). pose proof (Z.div_pos (a - s) t ltac:(lia) ltac:(lia)). pose proof (Z.mul_div_le (a - s) t ltac:(lia)). pose proof (Z.mod_pos_bound (a - s) t ltac:(lia)). pose proof (Z.div_mod (a - s) t ltac:(lia)). rewrite (Z.mul_comm ((a - s) / t)). lia. }
      destruct (F (rx roi) (rw roi) tw x ltac:(lia) Hx) as (kx & X0 & X1 & X2). destruct (F (ry roi) (rh roi) th y ltac:(lia) Hy) as (ky & Y0 & Y1 & Y2).
      exists (the_tile ky kx). split; [apply in_tiles; exists ky, kx; auto|]. split; [split; cbn [the_tile rx ry rw rh]; lia|].
      intros t H [C1 C2]. apply in_tiles in H. destruct H as (ky' & kx' & Y0' & Y1' & X0' & X1' & ->). cbn [the_tile rx ry rw rh] in C1, C2.
      assert (G : forall k k' t s n a, 0 < t -> s + k * t <= a < s + k * t + Z.min t (n - k * t) -> s + k' * t <= a < s + k' * t + Z.min t (n - k' * t) -> k' = k).
      { intros k k' t s n a Ht A B. assert (A' : k * t <= a - s < k * t + t) by lia. assert (B' : k' * t <= a - s < k' * t + t) by lia. clear A B.
        destruct (Z.lt_trichotomy k k') as [L|[L|L]]; [exfalso|now symmetry|exfalso]; [assert ((k + 1) * t <= k' * t) by (apply Z.mul_le_mono_nonneg_r; lia)|assert ((k' + 1) * t <= k * t) by (apply Z.mul_le_mono_nonneg_r; lia)]; lia. }
      rewrite (G kx kx' tw (rx roi) (rw roi) x T1 X2 C1), (G ky ky' th (ry roi) (rh roi) y T2 Y2 C2). reflexivity.
  Qed.
End Tiles.

(** At zoom 1 sizes are kept. *)
Lemma calc_size_1 w zoom : zoom = f32_of_Z 1 -> 0 <= w < 2 ^ 24 -> calc_size w zoom = Ok w.
Proof.
  intros -> H. destruct (f32_of_Z_ok w H) as [Nw Qw]. destruct (f32_of_Z_ok 1 ltac:(lia)) as [N1 Q1].
  assert (S : (sfQ (f32_of_Z w) * sfQ (f32_of_Z 1) == inject_Z w)%Q) by (rewrite Qw, Q1; ring).
  destruct (f32_mul_op (f32_of_Z w) (f32_of_Z 1) 24 Nw N1) as (A & E & HE & _ & Rn).
  { rewrite S, b2_Z by lia. apply injZ_lt. lia. } { lia. }
  assert (V : (sfQ (f32_mul (f32_of_Z w) (f32_of_Z 1)) == inject_Z w)%Q).
  { etransitivity; [|exact S]. apply (rnd_exact E 0 w _ _ Rn); [unfold SpecFloat.fexp, emin in *; lia|]. rewrite S, b2_0. ring. }
  unfold calc_size. destruct (f32_cast_nn 0 (2 ^ 32 - 1) _ A ltac:(lia)) as (t & Et & _ & L).
  { rewrite V. apply injZ_lt. lia. }
  rewrite Et. f_equal. rewrite V in L. destruct L as [L1 L2]. rewrite <- Zle_Qle in L1. rewrite <- Zlt_Qlt in L2. lia.
Qed.

(** ** The pictures of the tiles, put together, are the picture of the region *)
Section Stitch.
  Variables sm sz : list item -> list item.
  Hypothesis Hm : sorts_by_zoom_m sm.
  Hypothesis Hs : sorts_by_zoom sz.
  Variable bitmap : Z -> bmp * option mask * copy_kind.
  Variable fresh : Z -> Z -> bmp.
  Variables (bnds : bounds) (st : stats) (bg : option (px * rgbf)) (sort_m : bool) (plane : coord) (filter_s : option (Z -> bool)) (zoom : f32) (dir : list sbinfo) (roi : rect).
  Hypothesis Hplane : check_plane bnds plane = Ok tt.
  Hypothesis Known : scenes_known st dir.
  Hypothesis Hzoom : zoom_range zoom.
  Hypothesis One : SFeqb zoom (f32_of_Z 1) = true.
  Hypothesis Fresh : forall w h, 0 < w -> 0 < h -> bmp_wf (fresh w h) /\ bw (fresh w h) = w /\ bh (fresh w h) = h /\ background_ok bg (fresh w h) /\ forall k i, plane_tile plane dir k i -> bitmap_ok bitmap (fresh w h) k i.
  Hypothesis Sizes : forall k i, region_tile plane filter_s roi dir k i -> zoom_sizes i.
  Hypothesis Layers : sort_m = true -> layered (fun i => exists k, region_tile plane filter_s roi dir k i).
  Hypothesis Scene : one_scene st filter_s roi.
  Hypothesis Coarse : forall k i, region_tile plane filter_s roi dir k i -> layer0_tile i \/ (zoomQ i < sfQ (f32_div zoom single_105))%Q.
  Hypothesis Top : settled bitmap sort_m plane dir.

  Lemma share_in a b i : contained a b -> share_point a i -> share_point b i.
  Proof. intros C (x & y & H). exists x, y. unfold contained in C. lia. Qed.
  Lemma region_in r k i : contained r roi -> region_tile plane filter_s r dir k i -> region_tile plane filter_s roi dir k i.
  Proof. intros C (H1 & H2 & H3 & H4). split; [exact H1|]. split; [exact H2|]. split; [now apply (share_in r)|exact H4]. Qed.
  Lemma scene_one_in r : contained r roi -> one_scene st filter_s r.
  Proof.
    intros C s t Hs' Ht. apply Scene; [revert Hs'|revert Ht]; intros (b & b0 & H1 & H2 & H3 & H4); exists b, b0; (split; [exact H1|]); (split; [exact H2|]); unfold contained in C; lia.
  Qed.

  (** the value where nothing is drawn *)
  Definition blank_value (d : bmp) (x y : Z) : bytes :=
    match bg with None => pix d x y | Some (t, c) => match fill_bytes t c with Ok v => v | _ => [] end end.
  Lemma cleared d : bmp_wf d -> background_ok bg d -> exists m, clear bg d = Ok (bwith d m) /\ forall x y, 0 <= x < bw d -> 0 <= y < bh d -> pix (bwith d m) x y = blank_value d x y.
  Proof.
    intros W B. unfold blank_value. destruct bg as [[t c]|]; cbn [clear background_ok] in *.
    - destruct (fill_bytes_ok t c (proj2 B)) as (v & E & L & S). destruct B as [B1 B2]. unfold fill_px. rewrite E. cbn [bind]. rewrite <- B1 in L |- *.
      destruct (store_loop_ok d (fun _ _ => v) W (fun _ _ => L)) as (m & Em & P).
      rewrite Em. cbn [bind]. exists m. split; [reflexivity|]. intros x y Hx Hy. destruct P as (_ & P & _). apply (P x y Hx Hy).
    - exists (bdata d). split; [destruct d; reflexivity|]. destruct d; reflexivity.
  Qed.
  Lemma shot_tiles r : contained r roi -> rw r < 2 ^ 24 -> rh r < 2 ^ 24 ->
    exists b, scale_shot sm sz bitmap fresh None bnds st bg sort_m plane filter_s zoom dir r = Ok b /\ bw b = rw r /\ bh b = rh r /\
      picture (fun k i => plane_tile plane dir k i /\ scene_in filter_s i) (at_home bitmap) (drawn_above sort_m) (blank_value (fresh (rw r) (rh r))) b (rx r) (ry r).
  Proof.
    intros C Hw Hh. pose proof C as (C1 & C2 & _). assert (Z1 : zoom = f32_of_Z 1) by
      (destruct (f32_of_Z_ok 1 ltac:(lia)) as [N1 _]; apply CompositorProofs.nn_inj; [apply Hzoom|exact N1|]; pose proof One as O; unfold SFeqb in O; rewrite (nn_compare 24 128) in O; [|apply Hzoom|exact N1]; destruct (Qcompare (sfQ zoom) (sfQ (f32_of_Z 1))) eqn:E; try discriminate; apply Qeq_alt, E).
    unfold scale_shot. rewrite !calc_size_1 by (try exact Z1; lia). cbn [bind]. destruct (Fresh (rw r) (rh r) C1 C2) as (W & E1 & E2 & B & Bm). set (d := fresh (rw r) (rh r)) in *.
    destruct (cleared d W B) as (m0 & E0 & P0).
    destruct (scale_get_tiles sm sz Hm Hs bitmap bnds st None sort_m plane filter_s zoom r (bwith d m0) dir Hplane (bmp_wf_bwith _ _ W) Logic.I Known Hzoom) as (m & back & E & Bk & P).
    - intros k i H. apply (Sizes k i). now apply region_in with (r := r).
    - intros S. destruct (Layers S) as [L1 L2]. split.
      + intros a (k & H). apply L1. exists k. now apply region_in with (r := r).
      + intros a b (k & H) (k' & H'). apply L2; [exists k|exists k']; now apply region_in with (r := r).
    - apply (involved_one st filter_s r dir Known). now apply scene_one_in.
    - exact One.
    - intros k i H. apply (Coarse k i). now apply region_in with (r := r).
    - exact E1.
    - exact E2.
    - intros k i (R1 & R2 & _) L0. apply (Bm k i). split; [exact R1|]. split; [exact R2|exact L0].
    - exact Bm.
    - exists (bwith d m). split.
      + revert E. unfold scale_get. rewrite Hplane. cbn [bind]. rewrite E0. cbn [bind clear]. intros E. exact E.
      + cbn [bwith bw bh]. split; [exact E1|]. split; [exact E2|]. cbn [background] in Bk. subst back. revert P. apply picture_impl; try (intros; assumption); try reflexivity.
        intros x y Hx Hy. apply P0; assumption.
  Qed.
  Theorem stitched tw th : region_ok roi -> tile_ok roi tw th -> rw roi < 2 ^ 24 -> rh roi < 2 ^ 24 ->
    exists l whole, plane_scan (scale_shot sm sz bitmap fresh None bnds st bg sort_m plane filter_s zoom dir) roi tw th = Ok l /\
      scale_shot sm sz bitmap fresh None bnds st bg sort_m plane filter_s zoom dir roi = Ok whole /\ bw whole = rw roi /\ bh whole = rh roi /\
      cuts (map fst l) roi tw th /\ Forall (part_of whole roi (determined bitmap bg plane filter_s dir)) l.
  Proof.
    intros Hr Ht Hw Hh. destruct (scan_cuts roi tw th Hr Ht) as (ts & E & Cu). unfold plane_scan. rewrite E. cbn [bind].
    assert (Cr : contained roi roi) by (destruct Hr as (R1 & R2 & _); unfold contained; lia).
    destruct (shot_tiles roi Cr Hw Hh) as (whole & Ew & Ww & Wh & Pw).
    assert (All : forall t, In t ts -> contained t roi) by (intros t H; apply Cu, H).
    assert (X : exists l, fold_right (fun t r => let* b := scale_shot sm sz bitmap fresh None bnds st bg sort_m plane filter_s zoom dir t in let* l := r in Ok ((t, b) :: l)) (Ok []) ts = Ok l /\ map fst l = ts /\
      Forall (part_of whole roi (determined bitmap bg plane filter_s dir)) l).
    { clear E Cu. induction ts as [|t ts IH]; [exists []; cbn; auto|]. destruct IH as (l & El & Ml & Fl); [intros; apply All; now right|].
      assert (Ct : contained t roi) by (apply All; now left). pose proof Ct as (C1 & C2 & C3 & C4 & C5 & C6).
      assert (Nw : rw t < 2 ^ 24) by lia. assert (Nh : rh t < 2 ^ 24) by lia.
      destruct (shot_tiles t Ct Nw Nh) as (b & Eb & Wb & Hb & Pb).
      exists ((t, b) :: l). cbn [fold_right]. rewrite El, Eb. cbn [bind map fst]. split; [reflexivity|]. split; [now rewrite Ml|]. constructor; [|exact Fl].
      split; [exact Wb|]. split; [exact Hb|]. intros x y [Hx Hy] De.
      specialize (Pb (x - rx t) (y - ry t) ltac:(lia) ltac:(lia)). specialize (Pw (x - rx roi) (y - ry roi) ltac:(lia) ltac:(lia)). cbv zeta in Pb, Pw.
      replace (x - rx t + rx t, y - ry t + ry t) with (x, y) in Pb by (f_equal; lia). replace (x - rx roi + rx roi, y - ry roi + ry roi) with (x, y) in Pw by (f_equal; lia).
      destruct Pb as [(k & i & K1 & K2 & K3 & K4)|[N K3]], Pw as [(k' & i' & K1' & K2' & K3' & K4')|[N' K3']].
      - rewrite K3, K3'. destruct (Z.eq_dec k k') as [->|Ne].
        + destruct K1 as [((_ & S1) & _) _], K1' as [((_ & S2) & _) _]. rewrite S1 in S2. assert (i = i') by congruence. now subst.
        + exfalso. specialize (K4 k' i' K1' K2'). specialize (K4' k i K1 K2). unfold drawn_above in K4, K4'. cbn [fst snd] in K4, K4'. pose proof Top as Top'. unfold settled in Top'. destruct sort_m; [|lia].
          destruct (Top' eq_refl k i k' i' (x, y) (proj1 K1) (proj1 K1') Ne K2 K2') as (V1 & V2 & V3). specialize (K4 V2). specialize (K4' V1). lia.
      - exfalso. rewrite (N' k i K1) in K2. discriminate.
      - exfalso. rewrite (N k' i' K1') in K2'. discriminate.
      - destruct De as [De|(k & i & D1 & D2 & D3)]; [|rewrite (N k i (conj D1 D2)) in D3; discriminate]. rewrite K3, K3'. unfold blank_value. destruct bg as [[t' c]|]; [reflexivity|contradiction]. }
    destruct X as (l & El & Ml & Fl). exists l, whole. split; [exact El|]. split; [exact Ew|]. split; [exact Ww|]. split; [exact Wh|]. split; [now rewrite Ml|exact Fl].
  Qed.
End Stitch.
