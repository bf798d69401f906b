From Verif Require Import Base RectModel RectProofs CopyModel MemProofs.

(** effect of a block operation: pixel (c,r) of the w x h block gets [g r c] (or keeps its value),
    all addresses outside the block keep theirs *)
Definition block_post (dr : region) (w h : Z) (g : Z -> Z -> option bytes) (m m' : mem) : Prop :=
  (forall r c, 0 <= r < h -> 0 <= c < w ->
     mread m' (g_off dr + r * g_stride dr + c * g_bpp dr) (Z.to_nat (g_bpp dr))
     = match g r c with
       | Some d => d
       | None => mread m (g_off dr + r * g_stride dr + c * g_bpp dr) (Z.to_nat (g_bpp dr))
       end) /\
  (forall a, (forall r k, 0 <= r < h -> 0 <= k < w * g_bpp dr -> a <> g_off dr + r * g_stride dr + k) ->
     m' a = m a).

(** all bytes of the block lie inside the buffer *)
Definition region_ok (dr : region) (w h : Z) : Prop :=
  0 < g_bpp dr /\ 0 < w /\ 0 < h /\ 0 <= g_off dr /\ w * g_bpp dr <= g_stride dr /\
  g_off dr + (h - 1) * g_stride dr + w * g_bpp dr <= g_size dr.

Lemma region_row_in dr w h y :
  region_ok dr w h -> 0 <= y < h ->
  0 <= g_off dr + y * g_stride dr /\ g_off dr + y * g_stride dr + w * g_bpp dr <= g_size dr.
Proof. intros (H1 & H2 & H3 & H4 & H5 & H6) Hy. nia. Qed.

Lemma region_pix_in dr w h y x :
  region_ok dr w h -> 0 <= y < h -> 0 <= x < w ->
  0 <= g_off dr + y * g_stride dr + x * g_bpp dr /\
  g_off dr + y * g_stride dr + x * g_bpp dr + g_bpp dr <= g_size dr.
Proof. intros H Hy Hx. pose proof (region_row_in _ _ _ _ H Hy). destruct H as (H1 & _). nia. Qed.

(** pixel-wise writes *)
Definition pix_writes (dr : region) (w h : Z) (g : Z -> Z -> option bytes) : list wr :=
  flat_map (fun y => flat_map (fun x =>
     match g y x with
     | Some d => [(g_off dr + y * g_stride dr + x * g_bpp dr, d)]
     | None => []
     end) (iota 0 (Z.to_nat w))) (iota 0 (Z.to_nat h)).

Lemma in_pix_writes dr w h g x :
  In x (pix_writes dr w h g) <->
  exists r c d, 0 <= r < h /\ 0 <= c < w /\ g r c = Some d /\
                x = (g_off dr + r * g_stride dr + c * g_bpp dr, d).
Proof.
  unfold pix_writes. rewrite in_flat_map. split.
  - intros (r & Hr & Hx). apply in_flat_map in Hx. destruct Hx as (c & Hc & Hx).
    rewrite in_iota in *. destruct (g r c) as [d|] eqn:E; [|destruct Hx].
    destruct Hx as [<-|[]]. exists r, c, d. repeat split; auto; lia.
  - intros (r & c & d & Hr & Hc & Hg & ->). exists r. rewrite in_iota. split; [lia|].
    apply in_flat_map. exists c. rewrite in_iota. split; [lia|]. rewrite Hg. now left.
Qed.

Lemma pix_writes_disj dr w h g :
  region_ok dr w h ->
  (forall r c d, g r c = Some d -> length d = Z.to_nat (g_bpp dr)) ->
  ForallOrdPairs wr_disj (pix_writes dr w h g).
Proof.
  intros (H1 & H2 & H3 & H4 & H5 & H6) Hl. apply fop_flat_map.
  - intros r Hr. apply fop_flat_map.
    + intros c Hc. destruct (g r c); repeat constructor.
    + intros c c' a b Hc Hc' Ha Hb. destruct (g r c) as [d|] eqn:E1; [|destruct Ha].
      destruct (g r c') as [d'|] eqn:E2; [|destruct Hb]. destruct Ha as [<-|[]], Hb as [<-|[]].
      apply Hl in E1, E2. intros a. unfold in_wr; cbn [fst snd]. rewrite E1, E2. nia.
  - intros r r' a b Hr Hr' Ha Hb.
    apply in_flat_map in Ha, Hb. destruct Ha as (c & Hc & Ha), Hb as (c' & Hc' & Hb).
    rewrite in_iota in *.
    destruct (g r c) as [d|] eqn:E1; [|destruct Ha].
    destruct (g r' c') as [d'|] eqn:E2; [|destruct Hb]. destruct Ha as [<-|[]], Hb as [<-|[]].
    apply Hl in E1, E2. intros a. unfold in_wr; cbn [fst snd]. rewrite E1, E2.
    assert (c * g_bpp dr + g_bpp dr <= w * g_bpp dr) by nia.
    assert (0 <= c' * g_bpp dr) by nia.
    assert (r * g_stride dr + g_stride dr <= r' * g_stride dr) by nia. lia.
Qed.

Lemma pix_writes_post dr w h g m :
  region_ok dr w h ->
  (forall r c d, g r c = Some d -> length d = Z.to_nat (g_bpp dr)) ->
  block_post dr w h g m (apply_writes m (pix_writes dr w h g)).
Proof.
  intros Hok Hl. pose proof (pix_writes_disj dr w h g Hok Hl) as Hd.
  destruct Hok as (H1 & H2 & H3 & H4 & H5 & H6). split.
  - intros r c Hr Hc. destruct (g r c) as [d|] eqn:E.
    + assert (Hin : In (g_off dr + r * g_stride dr + c * g_bpp dr, d) (pix_writes dr w h g)).
      { apply in_pix_writes. exists r, c, d. repeat split; auto; lia. }
      pose proof (apply_writes_read _ m _ Hd Hin) as Hr'. cbn [fst snd] in Hr'.
      rewrite (Hl _ _ _ E) in Hr'. exact Hr'.
    + apply mread_same. intros i Hi. apply apply_writes_out. intros x Hx.
      apply in_pix_writes in Hx. destruct Hx as (r' & c' & d & Hr' & Hc' & Hg & ->).
      unfold in_wr; cbn [fst snd]. rewrite (Hl _ _ _ Hg).
      destruct (Z.eq_dec r r') as [<-|Hne].
      * destruct (Z.eq_dec c c') as [<-|Hne]; [congruence|]. nia.
      * assert (c * g_bpp dr + g_bpp dr <= w * g_bpp dr) by nia.
        assert (c' * g_bpp dr + g_bpp dr <= w * g_bpp dr) by nia.
        assert (0 <= c' * g_bpp dr) by nia. assert (0 <= c * g_bpp dr) by nia.
        assert (r * g_stride dr + g_stride dr <= r' * g_stride dr \/ r' * g_stride dr + g_stride dr <= r * g_stride dr) by nia.
        lia.
  - intros a Ha. apply apply_writes_out. intros x Hx Hc.
    apply in_pix_writes in Hx. destruct Hx as (r' & c' & d & Hr' & Hc' & Hg & ->).
    unfold in_wr in Hc; cbn [fst snd] in Hc. rewrite (Hl _ _ _ Hg) in Hc.
    apply (Ha r' (a - (g_off dr + r' * g_stride dr)) Hr'); [|lia]. nia.
Qed.

(** CopySamePixelType without border *)
Lemma copy_same_ok dr sr w h src dst :
  region_ok dr w h -> region_ok sr w h -> g_bpp dr = g_bpp sr ->
  exists m', copy_same dr sr w h false src dst = Ok m' /\
    block_post dr w h (fun r c => Some (mread src (g_off sr + r * g_stride sr + c * g_bpp sr) (Z.to_nat (g_bpp sr)))) dst m'.
Proof.
  intros Hd Hs Hb.
  set (g := fun y => [(g_off dr + y * g_stride dr, mread src (g_off sr + y * g_stride sr) (Z.to_nat (w * g_bpp dr)))] : list wr).
  exists (apply_writes dst (flat_map g (iota 0 (Z.to_nat h)))). split.
  - unfold copy_same. cbn [negb]. apply for_loop_writes. intros y m Hy.
    pose proof (region_row_in dr w h y Hd ltac:(lia)). pose proof (region_row_in sr w h y Hs ltac:(lia)).
    unfold memcpy. rewrite <- Hb in *.
    match goal with |- context [if ?c then _ else _] => replace c with true end; [reflexivity|].
    destruct Hd as (? & ? & _). nia.
  - assert (Hdj : ForallOrdPairs wr_disj (flat_map g (iota 0 (Z.to_nat h)))).
    { apply fop_flat_map; [intros; repeat constructor|].
      intros j k a b Hj Hk Ha Hb'. destruct Ha as [<-|[]], Hb' as [<-|[]]. intros a. unfold in_wr; cbn [fst snd].
      rewrite !mread_length. destruct Hd as (? & ? & ? & ? & ? & ?). nia. }
    destruct Hd as (H1 & H2 & H3 & H4 & H5 & H6). split.
    + intros r c Hr Hc. rewrite <- Hb.
      apply (mread_sub _ _ (g_off dr + r * g_stride dr) (g_off sr + r * g_stride sr) (Z.to_nat (w * g_bpp dr)) (c * g_bpp dr)); [|nia|nia].
      assert (Hin : In (g_off dr + r * g_stride dr, mread src (g_off sr + r * g_stride sr) (Z.to_nat (w * g_bpp dr)))
                       (flat_map g (iota 0 (Z.to_nat h)))).
      { apply in_flat_map. exists r. rewrite in_iota. split; [lia|now left]. }
      pose proof (apply_writes_read _ dst _ Hdj Hin) as Hx. cbn [fst snd] in Hx. rewrite mread_length in Hx. exact Hx.
    + intros a Ha. apply apply_writes_out. intros x Hx Hc. apply in_flat_map in Hx.
      destruct Hx as (r & Hr & Hx). rewrite in_iota in Hr. destruct Hx as [<-|[]].
      unfold in_wr in Hc; cbn [fst snd] in Hc. rewrite mread_length in Hc.
      apply (Ha r (a - (g_off dr + r * g_stride dr))); lia.
Qed.

(** Copy with converter *)
Lemma copy_conv_ok conv dr sr w h src dst :
  region_ok dr w h -> region_ok sr w h ->
  (forall v, length v = Z.to_nat (g_bpp sr) -> length (conv v) = Z.to_nat (g_bpp dr)) ->
  exists m', copy_conv conv dr sr w h src dst = Ok m' /\
    block_post dr w h (fun r c => Some (conv (mread src (g_off sr + r * g_stride sr + c * g_bpp sr) (Z.to_nat (g_bpp sr))))) dst m'.
Proof.
  intros Hd Hs Hl.
  set (g := fun r c => Some (conv (mread src (g_off sr + r * g_stride sr + c * g_bpp sr) (Z.to_nat (g_bpp sr))))).
  exists (apply_writes dst (pix_writes dr w h g)). split.
  - unfold copy_conv, pix_writes. apply for_loop_writes. intros y m Hy.
    apply for_loop_writes. intros x m' Hx. unfold convert_pixel.
    pose proof (region_pix_in dr w h y x Hd ltac:(lia) ltac:(lia)).
    pose proof (region_pix_in sr w h y x Hs ltac:(lia) ltac:(lia)).
    match goal with |- context [if ?c then _ else _] => replace c with true by lia end. reflexivity.
  - apply pix_writes_post; [assumption|]. intros r c d [= <-]. apply Hl. apply mread_length.
Qed.

(** masked copy, same type *)
Definition mask_region_ok (mk : mask) (mx my w h : Z) : Prop :=
  forall x y, 0 <= x < w -> 0 <= y < h ->
    0 <= (y + my) * mstride mk + (x + mx) / 8 < msize mk.

Lemma copy_same_masked_ok dr sr w h mk mx my src dst :
  region_ok dr w h -> region_ok sr w h -> g_bpp dr = g_bpp sr -> mask_region_ok mk mx my w h ->
  exists m', copy_same_masked dr sr w h mk mx my src dst = Ok m' /\
    block_post dr w h (fun r c =>
      if mask_bit mk (c + mx) (r + my)
      then Some (mread src (g_off sr + r * g_stride sr + c * g_bpp sr) (Z.to_nat (g_bpp sr))) else None) dst m'.
Proof.
  intros Hd Hs Hb Hm.
  set (g := fun r c => if mask_bit mk (c + mx) (r + my)
      then Some (mread src (g_off sr + r * g_stride sr + c * g_bpp sr) (Z.to_nat (g_bpp sr))) else None).
  exists (apply_writes dst (pix_writes dr w h g)). split.
  - unfold copy_same_masked, pix_writes. apply for_loop_writes. intros y m Hy.
    apply for_loop_writes. intros x m' Hx. unfold get_mask_pixel.
    pose proof (Hm x y ltac:(lia) ltac:(lia)).
    match goal with |- context [if ?c then Ok _ else UB] => replace c with true by lia end. cbn [bind].
    unfold g. destruct (mask_bit mk (x + mx) (y + my)); [|reflexivity].
    unfold memcpy. rewrite <- Hb.
    pose proof (region_pix_in dr w h y x Hd ltac:(lia) ltac:(lia)).
    pose proof (region_pix_in sr w h y x Hs ltac:(lia) ltac:(lia)). rewrite <- Hb in *.
    destruct Hd as (Hbp & _).
    match goal with |- context [if ?c then _ else _] => replace c with true by lia end. reflexivity.
  - apply pix_writes_post; [assumption|]. intros r c d. unfold g.
    destruct (mask_bit mk (c + mx) (r + my)); [|discriminate]. intros [= <-]. rewrite Hb. apply mread_length.
Qed.

(** bitmap level *)
Lemma bwith_fields b m : bw (bwith b m) = bw b /\ bh (bwith b m) = bh b /\ bstride (bwith b m) = bstride b
  /\ bbpp (bwith b m) = bbpp b /\ bsize (bwith b m) = bsize b.
Proof. repeat split. Qed.

(** d' is d with the pixels replaced according to v; bytes which belong to no pixel unchanged *)
Definition pix_post (d d' : bmp) (v : Z -> Z -> option bytes) : Prop :=
  (exists m, d' = bwith d m) /\
  (forall x y, 0 <= x < bw d -> 0 <= y < bh d ->
     pix d' x y = match v x y with Some b => b | None => pix d x y end) /\
  (forall a, (forall x y k, 0 <= x < bw d -> 0 <= y < bh d -> 0 <= k < bbpp d -> a <> pix_off d x y + k) ->
     bdata d' a = bdata d a).

Lemma region_of_bmp b x0 y0 w h :
  bmp_wf b -> 0 <= x0 -> 0 <= y0 -> 0 < w -> 0 < h -> x0 + w <= bw b -> y0 + h <= bh b ->
  region_ok (mkRegion (bsize b) (y0 * bstride b + x0 * bbpp b) (bstride b) (bbpp b)) w h.
Proof.
  intros (H1 & H2 & H3 & H4 & H5) Hx Hy Hw Hh Hxw Hyh. unfold region_ok; cbn [g_bpp g_off g_stride g_size].
  specialize (H5 ltac:(lia)).
  assert (0 <= bstride b) by nia. assert (w * bbpp b <= bw b * bbpp b) by nia.
  assert ((x0 + w) * bbpp b <= bw b * bbpp b) by nia.
  assert ((y0 + h - 1) * bstride b <= (bh b - 1) * bstride b) by nia.
  repeat split; try lia; nia.
Qed.

(** two different pixels of a bitmap have disjoint bytes *)
Lemma pix_off_disj d x y x' y' k k' :
  bmp_wf d -> 0 <= x < bw d -> 0 <= x' < bw d -> 0 <= k < bbpp d -> 0 <= k' < bbpp d ->
  pix_off d x y + k = pix_off d x' y' + k' -> x = x' /\ y = y'.
Proof.
  intros (H1 & H2 & H3 & H4 & H5) Hx Hx' Hk Hk' He. unfold pix_off in He.
  assert (0 <= x * bbpp d /\ x * bbpp d + bbpp d <= bw d * bbpp d) by nia.
  assert (0 <= x' * bbpp d /\ x' * bbpp d + bbpp d <= bw d * bbpp d) by nia.
  assert (y = y') by nia. subst. split; [nia|reflexivity].
Qed.

(** from a block at (x0,y0) to the whole bitmap *)
Lemma block_to_pix d m' x0 y0 w h g v :
  bmp_wf d -> 0 <= x0 -> 0 <= y0 -> 0 < w -> 0 < h -> x0 + w <= bw d -> y0 + h <= bh d ->
  block_post (mkRegion (bsize d) (y0 * bstride d + x0 * bbpp d) (bstride d) (bbpp d)) w h g (bdata d) m' ->
  (forall x y, 0 <= x < bw d -> 0 <= y < bh d ->
      v x y = if (x0 <=? x) && (x <? x0 + w) && (y0 <=? y) && (y <? y0 + h) then g (y - y0) (x - x0) else None) ->
  pix_post d (bwith d m') v.
Proof.
  intros Hwf Hx0 Hy0 Hw Hh Hxw Hyh [P1 P2] Hv. cbn [g_bpp g_off g_stride g_size] in *.
  split; [eexists; reflexivity|]. split.
  - intros x y Hx Hy. rewrite (Hv x y Hx Hy). unfold pix, pix_off; cbn [bwith bdata bstride bbpp].
    destruct ((x0 <=? x) && (x <? x0 + w) && (y0 <=? y) && (y <? y0 + h)) eqn:E.
    + specialize (P1 (y - y0) (x - x0) ltac:(lia) ltac:(lia)).
      replace (y0 * bstride d + x0 * bbpp d + (y - y0) * bstride d + (x - x0) * bbpp d)
        with (y * bstride d + x * bbpp d) in P1 by lia. exact P1.
    + apply mread_same. intros i Hi. apply P2. intros r k Hr Hk He.
      set (c := k / bbpp d). assert (0 < bbpp d) by apply Hwf.
      assert (Hkc : k = c * bbpp d + k mod bbpp d) by (unfold c; rewrite (Z.div_mod k (bbpp d)) at 1; lia).
      pose proof (Z.mod_pos_bound k (bbpp d) ltac:(lia)) as Hmod.
      assert (Hc : 0 <= c < w) by nia.
      destruct (pix_off_disj d x y (x0 + c) (y0 + r) i (k mod bbpp d)) as [-> ->]; auto; try lia.
      unfold pix_off. lia.
  - intros a Ha. cbn [bwith bdata]. apply P2. intros r k Hr Hk He.
    set (c := k / bbpp d). assert (0 < bbpp d) by apply Hwf.
    assert (Hkc : k = c * bbpp d + k mod bbpp d) by (unfold c; rewrite (Z.div_mod k (bbpp d)) at 1; lia).
    pose proof (Z.mod_pos_bound k (bbpp d) ltac:(lia)) as Hmod.
    assert (Hc : 0 <= c < w) by nia.
    apply (Ha (x0 + c) (y0 + r) (k mod bbpp d)); try lia. unfold pix_off. lia.
Qed.

Definition kind_wf (src dst : bmp) (k : copy_kind) : Prop :=
  match k with
  | SameType b => b = false /\ bbpp src = bbpp dst
  | Convert c => forall v, length v = Z.to_nat (bbpp src) -> length (c v) = Z.to_nat (bbpp dst)
  end.
Definition kind_val (k : copy_kind) (v : bytes) : bytes := match k with SameType _ => v | Convert c => c v end.

(** CopyWithOffset: no access outside of the buffers, exactly the overlap is changed *)
Lemma copy_with_offset_ok k src dst xo yo :
  bmp_wf src -> bmp_wf dst -> kind_wf src dst k ->
  exists d', copy_with_offset k src dst xo yo = Ok d' /\
    pix_post dst d' (fun x y =>
      if (0 <=? x - xo) && (x - xo <? bw src) && (0 <=? y - yo) && (y - yo <? bh src)
      then Some (kind_val k (pix src (x - xo) (y - yo))) else None).
Proof.
  intros Hs Hd Hk. unfold copy_with_offset.
  set (i := intersect (mkRect xo yo (bw src) (bh src)) (mkRect 0 0 (bw dst) (bh dst))).
  assert (Hi : (rw i = 0 \/ rh i = 0) /\ (forall x y, 0 <= x < bw dst -> 0 <= y < bh dst ->
                   (0 <=? x - xo) && (x - xo <? bw src) && (0 <=? y - yo) && (y - yo <? bh src) = false)
            \/ (0 < rw i /\ 0 < rh i /\ rx i = Z.max xo 0 /\ ry i = Z.max yo 0 /\
                rx i + rw i = Z.min (xo + bw src) (bw dst) /\ ry i + rh i = Z.min (yo + bh src) (bh dst))).
  { unfold i, intersect; cbn [rx ry rw rh].
    destruct Hs as (? & ? & _), Hd as (? & ? & _).
    match goal with |- context [if ?c then _ else _] => destruct c eqn:E end; cbn [rx ry rw rh].
    - destruct (Z.eq_dec (Z.min (xo + bw src) (0 + bw dst) - Z.max xo 0) 0); [left; split; [lia|intros; lia]|].
      destruct (Z.eq_dec (Z.min (yo + bh src) (0 + bh dst) - Z.max yo 0) 0); [left; split; [lia|intros; lia]|].
      right. repeat split; lia.
    - left. split; [lia|intros; lia]. }
  destruct Hi as [[H0 Hz]|(Hw & Hh & Hx & Hy & Hxw & Hyh)].
  - replace ((rw i =? 0) || (rh i =? 0)) with true by lia. exists dst. split; [reflexivity|].
    split; [exists (bdata dst); now destruct dst|]. split; [|reflexivity].
    intros x y Hxx Hyy. now rewrite Hz.
  - replace ((rw i =? 0) || (rh i =? 0)) with false by lia.
    assert (RD := region_of_bmp dst (rx i) (ry i) (rw i) (rh i) Hd ltac:(lia) ltac:(lia) Hw Hh ltac:(lia) ltac:(lia)).
    assert (RS := region_of_bmp src (Z.max (- xo) 0) (Z.max (- yo) 0) (rw i) (rh i) Hs ltac:(lia) ltac:(lia) Hw Hh ltac:(lia) ltac:(lia)).
    destruct k as [b|c]; cbn [copy_block kind_wf kind_val] in *.
    + destruct Hk as [-> Hb].
      destruct (copy_same_ok _ _ (rw i) (rh i) (bdata src) (bdata dst) RD RS ltac:(cbn; congruence)) as (m' & -> & HP).
      cbn [bind]. eexists; split; [reflexivity|].
      eapply block_to_pix; [exact Hd| | | | | | |exact HP|]; try lia.
      intros x y Hxx Hyy. cbn beta. cbn [g_off g_stride g_bpp].
      replace ((rx i <=? x) && (x <? rx i + rw i) && (ry i <=? y) && (y <? ry i + rh i))
        with ((0 <=? x - xo) && (x - xo <? bw src) && (0 <=? y - yo) && (y - yo <? bh src)) by lia.
      match goal with |- context [if ?c then _ else _] => destruct c eqn:E end; [|reflexivity].
      f_equal. unfold pix, pix_off. f_equal. rewrite Hx, Hy. 
      replace (y - yo) with (Z.max (- yo) 0 + (y - Z.max yo 0)) by lia.
      replace (x - xo) with (Z.max (- xo) 0 + (x - Z.max xo 0)) by lia. lia.
    + destruct (copy_conv_ok c _ _ (rw i) (rh i) (bdata src) (bdata dst) RD RS Hk) as (m' & -> & HP).
      cbn [bind]. eexists; split; [reflexivity|].
      eapply block_to_pix; [exact Hd| | | | | | |exact HP|]; try lia.
      intros x y Hxx Hyy. cbn beta. cbn [g_off g_stride g_bpp].
      replace ((rx i <=? x) && (x <? rx i + rw i) && (ry i <=? y) && (y <? ry i + rh i))
        with ((0 <=? x - xo) && (x - xo <? bw src) && (0 <=? y - yo) && (y - yo <? bh src)) by lia.
      match goal with |- context [if ?c then _ else _] => destruct c eqn:E end; [|reflexivity].
      f_equal. unfold pix, pix_off. do 2 f_equal. rewrite Hx, Hy.
      replace (y - yo) with (Z.max (- yo) 0 + (y - Z.max yo 0)) by lia.
      replace (x - xo) with (Z.max (- xo) 0 + (x - Z.max xo 0)) by lia. lia.
Qed.

Lemma mask_pixel_bit k x y : mask_pixel k x y = mask_bit k x y.
Proof.
  unfold mask_pixel, mask_bit. set (b := mdata k (y * mstride k + x / 8)). cbv zeta.
  assert (T : forall n, 0 <= n -> Z.testbit b n = Z.odd (b / 2 ^ n)) by (intros n Hn; rewrite Z.testbit_odd, Z.shiftr_div_pow2 by exact Hn; reflexivity).
  assert (C : x mod 8 = 0 \/ x mod 8 = 1 \/ x mod 8 = 2 \/ x mod 8 = 3 \/ x mod 8 = 4 \/ x mod 8 = 5 \/ x mod 8 = 6 \/ x mod 8 = 7) by lia.
  repeat (destruct C as [C|C]; [rewrite C, T by lia; try reflexivity|]); rewrite C, T by lia;
    change (2 ^ (7 - 7)) with 1; rewrite Z.div_1_r; reflexivity.
Qed.

(** CopyWithOffsetAndMask for identical pixel types *)
Lemma copy_with_offset_and_mask_ok src dst mk xo yo :
  bmp_wf src -> bmp_wf dst -> mask_wf mk -> bbpp src = bbpp dst ->
  exists d', copy_with_offset_and_mask (SameType false) src dst mk xo yo = Ok d' /\
    pix_post dst d' (fun x y =>
      if (0 <=? x - xo) && (x - xo <? bw src) && (0 <=? y - yo) && (y - yo <? bh src)
         && (x - xo <? mw mk) && (y - yo <? mh mk) && mask_pixel mk (x - xo) (y - yo)
      then Some (pix src (x - xo) (y - yo)) else None).
Proof.
  intros Hs Hd Hm Hk. unfold copy_with_offset_and_mask.
  set (w0 := Z.min (bw src) (mw mk)). set (h0 := Z.min (bh src) (mh mk)).
  set (i := intersect (mkRect xo yo w0 h0) (mkRect 0 0 (bw dst) (bh dst))).
  assert (Hi : (rw i = 0 \/ rh i = 0) /\ (forall x y, 0 <= x < bw dst -> 0 <= y < bh dst ->
                   (0 <=? x - xo) && (x - xo <? w0) && (0 <=? y - yo) && (y - yo <? h0) = false)
            \/ (0 < rw i /\ 0 < rh i /\ rx i = Z.max xo 0 /\ ry i = Z.max yo 0 /\
                rx i + rw i = Z.min (xo + w0) (bw dst) /\ ry i + rh i = Z.min (yo + h0) (bh dst))).
  { unfold i, intersect; cbn [rx ry rw rh].
    destruct Hs as (? & ? & _), Hd as (? & ? & _), Hm as (? & ? & _).
    match goal with |- context [if ?c then _ else _] => destruct c eqn:E end; cbn [rx ry rw rh].
    - destruct (Z.eq_dec (Z.min (xo + w0) (0 + bw dst) - Z.max xo 0) 0); [left; split; [lia|intros; lia]|].
      destruct (Z.eq_dec (Z.min (yo + h0) (0 + bh dst) - Z.max yo 0) 0); [left; split; [lia|intros; lia]|].
      right. repeat split; lia.
    - left. split; [lia|intros; lia]. }
  destruct Hi as [[H0 Hz]|(Hw & Hh & Hx & Hy & Hxw & Hyh)].
  - replace ((rw i =? 0) || (rh i =? 0)) with true by lia. exists dst. split; [reflexivity|].
    split; [exists (bdata dst); now destruct dst|]. split; [|reflexivity].
    intros x y Hxx Hyy. specialize (Hz x y Hxx Hyy).
    match goal with |- context [if ?c then _ else _] => destruct c eqn:E end; [lia|reflexivity].
  - replace ((rw i =? 0) || (rh i =? 0)) with false by lia.
    assert (RD := region_of_bmp dst (rx i) (ry i) (rw i) (rh i) Hd ltac:(lia) ltac:(lia) Hw Hh ltac:(lia) ltac:(lia)).
    assert (RS := region_of_bmp src (Z.max (- xo) 0) (Z.max (- yo) 0) (rw i) (rh i) Hs ltac:(lia) ltac:(lia) Hw Hh ltac:(lia) ltac:(lia)).
    assert (RM : mask_region_ok mk (Z.max (- xo) 0) (Z.max (- yo) 0) (rw i) (rh i)).
    { intros x y Hxx Hyy. destruct Hm as (M1 & M2 & M3 & M4). specialize (M4 ltac:(lia)).
      set (X := x + Z.max (- xo) 0). set (Y := y + Z.max (- yo) 0).
      assert (0 <= X < mw mk) by lia. assert (0 <= Y < mh mk) by lia.
      assert (0 <= X / 8) by (apply Z.div_pos; lia).
      assert (X / 8 + 1 <= (mw mk + 7) / 8).
      { replace (X / 8 + 1) with ((X + 8) / 8) by (replace (X + 8) with (X + 1 * 8) by lia; rewrite Z.div_add; lia).
        apply Z.div_le_mono; lia. }
      assert (Y * mstride mk <= (mh mk - 1) * mstride mk) by nia.
      nia. }
    destruct (copy_same_masked_ok _ _ (rw i) (rh i) mk _ _ (bdata src) (bdata dst) RD RS ltac:(cbn; congruence) RM) as (m' & -> & HP).
    cbn [bind]. eexists; split; [reflexivity|].
    eapply block_to_pix; [exact Hd| | | | | | |exact HP|]; try lia.
    intros x y Hxx Hyy. cbn beta. rewrite mask_pixel_bit. cbn [g_off g_stride g_bpp].
    replace (x - rx i + Z.max (- xo) 0) with (x - xo) by lia.
    replace (y - ry i + Z.max (- yo) 0) with (y - yo) by lia.
    destruct ((rx i <=? x) && (x <? rx i + rw i) && (ry i <=? y) && (y <? ry i + rh i)) eqn:E.
    + replace ((0 <=? x - xo) && (x - xo <? bw src) && (0 <=? y - yo) && (y - yo <? bh src)
         && (x - xo <? mw mk) && (y - yo <? mh mk) && mask_bit mk (x - xo) (y - yo))
        with (mask_bit mk (x - xo) (y - yo)) by (destruct (mask_bit mk (x - xo) (y - yo)); lia).
      destruct (mask_bit mk (x - xo) (y - yo)); [|reflexivity].
      f_equal. unfold pix, pix_off. f_equal.
      replace (y - yo) with (Z.max (- yo) 0 + (y - ry i)) by lia.
      replace (x - xo) with (Z.max (- xo) 0 + (x - rx i)) by lia. lia.
    + match goal with |- context [if ?c then _ else _] => destruct c eqn:E2 end; [lia|reflexivity].
Qed.

(** one tile *)
Lemma compose_tile_ok dst t xpos ypos :
  bmp_wf dst -> tile_wf dst t ->
  exists d', compose_tile dst t xpos ypos = Ok d' /\
    pix_post dst d' (fun x y => if shows t (x + xpos, y + ypos) then Some (tile_value t (x + xpos, y + ypos)) else None).
Proof.
  intros Hd (Ht & Hm & Hk). unfold compose_tile, shows, tile_value, pt_in, tile_rect; cbn [rx ry rw rh fst snd].
  destruct (t_mask t) as [mk|] eqn:Em.
  - destruct (t_kind t) as [b|c]; [|destruct Hk; discriminate]. destruct Hk as [-> Hb].
    destruct (copy_with_offset_and_mask_ok (t_bmp t) dst mk (t_x t - xpos) (t_y t - ypos) Ht Hd (Hm mk eq_refl) Hb) as (d' & -> & H1 & H2 & H3).
    exists d'. split; [reflexivity|]. split; [assumption|]. split; [|assumption].
    intros x y Hx Hy. rewrite H2 by assumption.
    replace (x - (t_x t - xpos)) with (x + xpos - t_x t) by lia.
    replace (y - (t_y t - ypos)) with (y + ypos - t_y t) by lia.
    match goal with |- (match (if ?c then _ else _) with _ => _ end) = match (if ?c' then _ else _) with _ => _ end =>
      replace c with c'; [reflexivity|] end.
    destruct (mask_pixel mk (x + xpos - t_x t) (y + ypos - t_y t)); lia.
  - assert (Hk' : kind_wf (t_bmp t) dst (t_kind t)) by (destruct (t_kind t); cbn; intuition).
    destruct (copy_with_offset_ok (t_kind t) (t_bmp t) dst (t_x t - xpos) (t_y t - ypos) Ht Hd Hk') as (d' & -> & H1 & H2 & H3).
    exists d'. split; [reflexivity|]. split; [assumption|]. split; [|assumption].
    intros x y Hx Hy. rewrite H2 by assumption. unfold kind_val.
    replace (x - (t_x t - xpos)) with (x + xpos - t_x t) by lia.
    replace (y - (t_y t - ypos)) with (y + ypos - t_y t) by lia.
    match goal with |- (match (if ?c then _ else _) with _ => _ end) = match (if ?c' then _ else _) with _ => _ end =>
      replace c with c'; [reflexivity|] end. lia.
Qed.

Lemma bmp_wf_bwith d m : bmp_wf d -> bmp_wf (bwith d m).
Proof. exact (fun H => H). Qed.
Lemma tile_wf_bwith d m t : tile_wf d t -> tile_wf (bwith d m) t.
Proof. exact (fun H => H). Qed.

Lemma find_app {A} (f : A -> bool) l1 l2 :
  find f (l1 ++ l2) = match find f l1 with Some a => Some a | None => find f l2 end.
Proof. induction l1 as [|a l IH]; [reflexivity|]. cbn. destruct (f a); auto. Qed.

Lemma compose_tiles_ok ts : forall dst xpos ypos,
  bmp_wf dst -> Forall (tile_wf dst) ts ->
  exists d', compose_tiles dst ts xpos ypos = Ok d' /\
    pix_post dst d' (fun x y => option_map (fun t => tile_value t (x + xpos, y + ypos)) (topmost ts (x + xpos, y + ypos))).
Proof.
  induction ts as [|t ts IH]; intros dst xpos ypos Hd Hts.
  - exists dst. split; [reflexivity|]. split; [exists (bdata dst); now destruct dst|]. split; reflexivity.
  - inversion Hts as [|? ? Ht Hts']; subst.
    destruct (compose_tile_ok dst t xpos ypos Hd Ht) as (d1 & E1 & (m1 & ->) & P1 & Q1).
    destruct (IH (bwith dst m1) xpos ypos (bmp_wf_bwith _ _ Hd)) as (d2 & E2 & (m2 & ->) & P2 & Q2).
    { revert Hts'. apply Forall_impl. intros; now apply tile_wf_bwith. }
    exists (bwith dst m2). split; [|split; [|split]].
    + unfold compose_tiles in *. cbn [fold_left bind]. rewrite E1. exact E2.
    + eexists; reflexivity.
    + intros x y Hx Hy. change (bwith (bwith dst m1) m2) with (bwith dst m2) in P2.
      rewrite P2 by assumption. unfold topmost. cbn [rev]. rewrite find_app.
      destruct (find (fun t0 => shows t0 (x + xpos, y + ypos)) (rev ts)); cbn [option_map]; [reflexivity|].
      rewrite P1 by assumption. cbn [find]. destruct (shows t (x + xpos, y + ypos)); reflexivity.
    + intros a Ha. change (bwith (bwith dst m1) m2) with (bwith dst m2) in Q2.
      rewrite Q2 by (intros; apply Ha; assumption). now apply Q1.
Qed.

(** visibility *)
Lemma calc_area_le sp r roi : sp_ok sp -> rvalid roi = true -> forall fuel sp',
  add_rect fuel sp r = Ok sp' -> calc_area sp roi <= calc_area sp' roi.
Proof.
  intros Hok Hroi fuel sp' H. destruct (add_rect_ok _ _ _ _ Hok H) as [[Hv' Hd'] HU]. destruct Hok as [Hv Hd].
  rewrite !calc_area_spec by assumption. apply count_mono. intros p _ Hp. rewrite HU, Hp. reflexivity.
Qed.

Definition in_rects (get : nat -> rect) (idxs : list nat) p := find (fun i => pt_in (get i) p) idxs.

Lemma vis_loop_ok roi get : rvalid roi = true -> forall idxs sp,
  sp_ok sp ->
  exists fuel ks, (forall f, (fuel <= f)%nat -> vis_loop f roi get sp (calc_area sp roi) idxs = Ok ks) /\
    (forall p, pt_in roi p = true -> in_union sp p = false -> in_rects get ks p = in_rects get idxs p) /\
    incl ks idxs.
Proof.
  intros Hroi. induction idxs as [|i idxs IH]; intros sp Hok.
  - exists 0%nat, []. repeat split; intros; try reflexivity. intros ? [].
  - destruct (add_rect_total sp (get i) Hok) as (f1 & sp1 & H1).
    pose proof (H1 f1 (Nat.le_refl _)) as E1.
    destruct (add_rect_ok _ _ _ _ Hok E1) as [Hok1 HU1].
    pose proof (calc_area_le sp (get i) roi Hok Hroi _ _ E1) as Hle.
    assert (HUi : forall p, in_union sp1 p = in_union sp p || pt_in (get i) p).
    { intros p. rewrite HU1. now rewrite valid_and_pt. }
    assert (Hkey : forall p, pt_in roi p = true -> in_union sp p = false -> pt_in (get i) p = true ->
                    calc_area sp roi < calc_area sp1 roi).
    { intros p Hp Hn Hi. destruct (Z.eq_dec (calc_area sp roi) (calc_area sp1 roi)) as [He|]; [|lia].
      exfalso. destruct Hok as [Hv Hd], Hok1 as [Hv1 Hd1]. rewrite !calc_area_spec in He by assumption.
      destruct p as [x y]. assert (Hin : In (x, y) (lattice roi)) by now apply in_lattice.
      assert (in_union sp (x, y) = true); [|congruence].
      apply (count_mono_eq (in_union sp) (in_union sp1) (lattice roi)); auto.
      - intros q _ Hq. rewrite HUi, Hq. reflexivity.
      - lia.
      - rewrite HUi, Hi. apply orb_true_r. }
    destruct (calc_area sp roi <? calc_area sp1 roi) eqn:Ec.
    + destruct (calc_area sp1 roi =? rw roi * rh roi) eqn:Ef.
      * exists f1, [i]. split; [|split].
        -- intros f Hf. cbn [vis_loop]. rewrite (H1 f Hf). cbn [bind]. now rewrite Ec, Ef.
        -- intros [x y] Hp Hn. unfold in_rects; cbn [find].
           destruct (pt_in (get i) (x, y)) eqn:Ei; [reflexivity|]. exfalso.
           destruct Hok1 as [Hv1 Hd1]. rewrite calc_area_spec in Ef by assumption.
           apply Z.eqb_eq in Ef. rewrite <- lattice_length in Ef by assumption.
           pose proof (count_full _ _ Ef (x, y) (proj2 (in_lattice roi x y Hroi) Hp)) as Hc.
           rewrite HUi, Hn, Ei in Hc. discriminate.
        -- intros k [<-|[]]; now left.
      * destruct (IH sp1 Hok1) as (f2 & ks & H2 & P2 & I2).
        exists (Nat.max f1 f2), (i :: ks). split; [|split].
        -- intros f Hf. cbn [vis_loop]. rewrite H1 by lia. cbn [bind]. rewrite Ec, Ef.
           rewrite H2 by lia. reflexivity.
        -- intros p Hp Hn. unfold in_rects; cbn [find]. destruct (pt_in (get i) p) eqn:Ei; [reflexivity|].
           apply P2; [assumption|]. now rewrite HUi, Hn, Ei.
        -- intros k [<-|Hk]; [now left|right; auto].
    + destruct (IH sp1 Hok1) as (f2 & ks & H2 & P2 & I2).
      exists (Nat.max f1 f2), ks. split; [|split].
      * intros f Hf. cbn [vis_loop]. rewrite H1 by lia. cbn [bind]. rewrite Ec.
        replace (calc_area sp roi) with (calc_area sp1 roi) by lia. apply H2; lia.
      * intros p Hp Hn. unfold in_rects; cbn [find]. destruct (pt_in (get i) p) eqn:Ei.
        -- specialize (Hkey p Hp Hn Ei). lia.
        -- apply P2; [assumption|]. now rewrite HUi, Hn, Ei.
      * intros k Hk; right; auto.
Qed.

Lemma calc_area_nil roi : calc_area [] roi = 0.
Proof. unfold calc_area. now destruct (negb (rvalid roi)). Qed.

Lemma find_map {A B} (g : A -> B) (f : B -> bool) l :
  find f (map g l) = option_map g (find (fun a => f (g a)) l).
Proof. induction l as [|a l IH]; [reflexivity|]. cbn. destruct (f (g a)); auto. Qed.

Lemma find_ext_in {A} (f g : A -> bool) l : (forall a, In a l -> f a = g a) -> find f l = find g l.
Proof.
  induction l as [|a l IH]; intros H; [reflexivity|]. cbn. rewrite (H a) by now left.
  destruct (g a); [reflexivity|]. apply IH; intros; apply H; now right.
Qed.

Lemma map_nth_seq {A} (l : list A) d : map (fun i => nth i l d) (seq 0 (length l)) = l.
Proof.
  apply (nth_ext _ _ d d); [now rewrite map_length, seq_length|].
  intros n Hn. rewrite map_length, seq_length in Hn.
  rewrite (nth_indep _ d (nth 0 l d)) by (rewrite map_length, seq_length; lia).
  rewrite (map_nth (fun i => nth i l d)). now rewrite seq_nth.
Qed.

Lemma check_visibility_ok roi n get :
  rvalid roi = true ->
  exists fuel ks, (forall f, (fuel <= f)%nat -> check_visibility f roi n get = Ok ks) /\
    (forall p, pt_in roi p = true ->
        find (fun i => pt_in (get i) p) (rev ks) = find (fun i => pt_in (get i) p) (rev (seq 0 n))) /\
    (forall k, In k ks -> (k < n)%nat).
Proof.
  intros Hroi. unfold check_visibility.
  destruct (Nat.eqb n 0 || negb (rnonempty roi)) eqn:E.
  - exists 0%nat, []. split; [reflexivity|]. split; [|intros ? []].
    intros p Hp. apply orb_true_iff in E. destruct E as [E|E].
    + apply Nat.eqb_eq in E. now subst.
    + exfalso. unfold rnonempty, pt_in in *. lia.
  - destruct (vis_loop_ok roi get Hroi (rev (seq 0 n)) [] sp_ok_nil) as (f0 & ks & H & P & I).
    exists f0, (rev ks). split; [|split].
    + intros f Hf. rewrite calc_area_nil in H. rewrite (H f Hf). reflexivity.
    + intros p Hp. rewrite rev_involutive. now apply P.
    + intros k Hk. apply in_rev in Hk. apply I in Hk. apply in_rev in Hk. apply in_seq in Hk. lia.
Qed.

Lemma find_sub {A} (f g : A -> bool) l :
  (forall a, In a l -> g a = true -> f a = true) ->
  (forall t, find f l = Some t -> g t = true) -> find g l = find f l.
Proof.
  induction l as [|a l IH]; intros H Hf; [reflexivity|]. cbn [find] in *.
  destruct (f a) eqn:Ef.
  - now rewrite (Hf a eq_refl).
  - destruct (g a) eqn:Eg; [rewrite (H a) in Ef by (auto; now left); discriminate|].
    apply IH; [intros; apply H; [now right|assumption]|assumption].
Qed.

(** tile which covers p with its rectangle and is drawn last (regardless of masks) *)
Definition topmost_rect (ts : list tile) (p : Z * Z) : option tile :=
  find (fun t => pt_in (tile_rect t) p) (rev ts).

Lemma shows_in_rect t p : shows t p = true -> pt_in (tile_rect t) p = true.
Proof. unfold shows. intros H; apply andb_prop in H; apply H. Qed.

Lemma compose_optimised_ok dst ts xpos ypos dflt :
  bmp_wf dst -> Forall (tile_wf dst) ts ->
  exists fuel d1 d2,
    (forall f, (fuel <= f)%nat -> compose_optimised f dst ts xpos ypos dflt = Ok d1) /\
    compose_tiles dst ts xpos ypos = Ok d2 /\
    (forall x y, 0 <= x < bw dst -> 0 <= y < bh dst ->
       (forall t, topmost_rect ts (x + xpos, y + ypos) = Some t -> shows t (x + xpos, y + ypos) = true) ->
       pix d1 x y = pix d2 x y) /\
    (forall a, (forall x y k, 0 <= x < bw dst -> 0 <= y < bh dst -> 0 <= k < bbpp dst -> a <> pix_off dst x y + k) ->
       bdata d1 a = bdata d2 a).
Proof.
  intros Hd Hts.
  assert (Hroi : rvalid (mkRect xpos ypos (bw dst) (bh dst)) = true)
    by (destruct Hd as (? & ? & _); unfold rvalid; cbn; lia).
  destruct (check_visibility_ok _ (length ts) (fun i => tile_rect (nth i ts dflt)) Hroi) as (fuel & ks & Hv & P & I).
  assert (Hsub : forall t, In t (map (fun i => nth i ts dflt) ks) -> In t ts).
  { intros t Ht. apply in_map_iff in Ht. destruct Ht as (k & <- & Hk). apply nth_In. auto. }
  destruct (compose_tiles_ok (map (fun i => nth i ts dflt) ks) dst xpos ypos Hd) as (d1 & E1 & _ & P1 & Q1).
  { apply Forall_forall. intros t Ht. rewrite Forall_forall in Hts. auto. }
  destruct (compose_tiles_ok ts dst xpos ypos Hd Hts) as (d2 & E2 & _ & P2 & Q2).
  exists fuel, d1, d2. split; [|split; [assumption|split]].
  - intros f Hf. unfold compose_optimised. rewrite (Hv f Hf). cbn [bind]. exact E1.
  - intros x y Hx Hy Htop. rewrite P1, P2 by assumption.
    set (p := (x + xpos, y + ypos)) in *.
    assert (Hr : topmost_rect (map (fun i => nth i ts dflt) ks) p = topmost_rect ts p).
    { unfold topmost_rect. replace (rev ts) with (rev (map (fun i => nth i ts dflt) (seq 0 (length ts)))) by (now rewrite map_nth_seq). rewrite <- !map_rev, !find_map.
      rewrite P; [reflexivity|]. unfold p, pt_in; cbn. lia. }
    replace (topmost (map (fun i => nth i ts dflt) ks) p) with (topmost ts p); [reflexivity|].
    unfold topmost.
    rewrite (find_sub (fun t => pt_in (tile_rect t) p) (fun t => shows t p) (rev ts));
      [|intros; now apply shows_in_rect|exact Htop].
    rewrite (find_sub (fun t => pt_in (tile_rect t) p) (fun t => shows t p) (rev (map (fun i => nth i ts dflt) ks)));
      [symmetry; exact Hr|intros; now apply shows_in_rect|].
    intros t Ht. apply Htop. rewrite <- Hr. exact Ht.
  - intros a Ha. rewrite Q1, Q2 by assumption. reflexivity.
Qed.

(** ---- tile border variant of CopySamePixelType ---- *)
Definition border_writes (dr sr : region) (w h : Z) (src : mem) : list wr :=
  [(g_off dr, repeat 0 (Z.to_nat (w * g_bpp dr)))] ++
  flat_map (fun y =>
    [(g_off dr + y * g_stride dr + g_bpp dr, mread src (g_off sr + y * g_stride sr) (Z.to_nat (w * g_bpp dr - 2 * g_bpp dr)));
     (g_off dr + y * g_stride dr, repeat 0 (Z.to_nat (g_bpp dr)));
     (g_off dr + y * g_stride dr + w * g_bpp dr - g_bpp dr, repeat 0 (Z.to_nat (g_bpp dr)))]) (iota 1 (Z.to_nat (h - 2))) ++
  [(g_off dr + (h - 1) * g_stride dr, repeat 0 (Z.to_nat (w * g_bpp dr)))].

Lemma mread_repeat_sub m off n k len :
  mread m off n = repeat 0 n -> 0 <= k -> (Z.to_nat k + len <= n)%nat -> mread m (off + k) len = repeat 0 len.
Proof.
  intros H Hk Hl. rewrite (mread_sub m (fun _ => 0) off off n k len); [| |assumption..].
  - clear. generalize (off + k). induction len as [|l IH]; intros z; cbn [mread repeat]; [reflexivity|]. now rewrite IH.
  - rewrite H. clear. generalize off. induction n as [|l IH]; intros z; cbn [mread repeat]; [reflexivity|]. now rewrite <- IH.
Qed.

Lemma copy_same_border_ok dr sr w h src dst :
  region_ok dr w h -> region_ok sr w h -> g_bpp dr = g_bpp sr -> 2 <= w -> 2 <= h ->
  exists m', copy_same dr sr w h true src dst = Ok m' /\
    block_post dr w h (fun r c =>
      if (r =? 0) || (r =? h - 1) || (c =? 0) || (c =? w - 1) then Some (repeat 0 (Z.to_nat (g_bpp dr)))
      else Some (mread src (g_off sr + r * g_stride sr + (c - 1) * g_bpp sr) (Z.to_nat (g_bpp sr)))) dst m'.
Proof.
  intros Hd Hs Hb Hw Hh.
  exists (apply_writes dst (border_writes dr sr w h src)). split.
  - unfold copy_same. cbn [negb].
    pose proof (region_row_in dr w h 0 Hd ltac:(lia)) as R0.
    pose proof (region_row_in dr w h (h - 1) Hd ltac:(lia)) as R1.
    assert (Hbp : 0 < g_bpp dr) by apply Hd.
    assert (Hwb : 2 * g_bpp dr <= w * g_bpp dr) by nia.
    unfold memset0 at 1. rewrite Z.mul_0_l, Z.add_0_r in R0.
    match goal with |- context [if ?c then _ else _] => replace c with true by lia end. cbn [bind].
    rewrite (for_loop_writes _ _ _ (fun y =>
      [(g_off dr + y * g_stride dr + g_bpp dr, mread src (g_off sr + y * g_stride sr) (Z.to_nat (w * g_bpp dr - 2 * g_bpp dr)));
     (g_off dr + y * g_stride dr, repeat 0 (Z.to_nat (g_bpp dr)));
     (g_off dr + y * g_stride dr + w * g_bpp dr - g_bpp dr, repeat 0 (Z.to_nat (g_bpp dr)))])).
    + cbn [bind]. unfold memset0.
      match goal with |- context [if ?c then _ else _] => replace c with true by lia end.
      unfold border_writes. rewrite !apply_writes_app. reflexivity.
    + intros y m Hy. pose proof (region_row_in dr w h y Hd ltac:(lia)). pose proof (region_row_in sr w h y Hs ltac:(lia)).
      rewrite <- Hb in *. unfold memcpy.
      match goal with |- context [if ?c then _ else _] => replace c with true by lia end. cbn [bind].
      unfold memset0.
      match goal with |- context [if ?c then _ else _] => replace c with true by lia end. cbn [bind].
      match goal with |- context [if ?c then _ else _] => replace c with true by lia end. reflexivity.
  - destruct Hd as (H1 & H2 & H3 & H4 & H5 & H6).
    assert (Hwb : 2 * g_bpp dr <= w * g_bpp dr) by nia.
    assert (Hdj : ForallOrdPairs wr_disj (border_writes dr sr w h src)).
    { unfold border_writes. apply fop_app; [repeat constructor| |].
      - apply fop_app; [|repeat constructor|].
        + apply fop_flat_map.
          * intros y Hy. repeat constructor; intros a; unfold in_wr; cbn [fst snd]; rewrite ?mread_length, ?repeat_length; lia.
          * intros y y' a b Hy Hy' Ha Hb'. assert (y * g_stride dr + g_stride dr <= y' * g_stride dr) by nia.
            destruct Ha as [<-|[<-|[<-|[]]]], Hb' as [<-|[<-|[<-|[]]]]; intros a; unfold in_wr; cbn [fst snd];
              rewrite ?mread_length, ?repeat_length; lia.
        + intros a b Ha [<-|[]]. apply in_flat_map in Ha. destruct Ha as (y & Hy & Ha). rewrite in_iota in Hy.
          assert (y * g_stride dr + g_stride dr <= (h - 1) * g_stride dr) by nia.
          destruct Ha as [<-|[<-|[<-|[]]]]; intros a; unfold in_wr; cbn [fst snd]; rewrite ?mread_length, ?repeat_length; lia.
      - intros a b [<-|[]] Hb'. apply in_app_iff in Hb'. destruct Hb' as [Hb'|[<-|[]]].
        + apply in_flat_map in Hb'. destruct Hb' as (y & Hy & Hb'). rewrite in_iota in Hy.
          assert (g_stride dr <= y * g_stride dr) by nia.
          destruct Hb' as [<-|[<-|[<-|[]]]]; intros a; unfold in_wr; cbn [fst snd]; rewrite ?mread_length, ?repeat_length; lia.
        + assert (g_stride dr <= (h - 1) * g_stride dr) by nia.
          intros a; unfold in_wr; cbn [fst snd]; rewrite ?mread_length, ?repeat_length; lia. }
    assert (Hread : forall x, In x (border_writes dr sr w h src) ->
       mread (apply_writes dst (border_writes dr sr w h src)) (fst x) (length (snd x)) = snd x)
      by (intros; now apply apply_writes_read).
    set (m' := apply_writes dst (border_writes dr sr w h src)) in *. split.
    + intros r c Hr Hc. assert (Hcb : 0 <= c * g_bpp dr /\ c * g_bpp dr + g_bpp dr <= w * g_bpp dr) by nia.
      destruct (Z.eq_dec r 0) as [->|Hr0].
      { rewrite Z.eqb_refl. cbn [orb]. rewrite Z.mul_0_l, Z.add_0_r.
        apply (mread_repeat_sub _ _ (Z.to_nat (w * g_bpp dr))); [|lia|lia].
        specialize (Hread _ (or_introl eq_refl)). cbn [fst snd] in Hread. rewrite repeat_length in Hread. exact Hread. }
      destruct (Z.eq_dec r (h - 1)) as [->|Hr1].
      { rewrite Z.eqb_refl, orb_true_r. cbn [orb].
        apply (mread_repeat_sub _ _ (Z.to_nat (w * g_bpp dr))); [|lia|lia].
        specialize (Hread (g_off dr + (h - 1) * g_stride dr, repeat 0 (Z.to_nat (w * g_bpp dr)))).
        cbn [fst snd] in Hread. rewrite repeat_length in Hread. apply Hread.
        unfold border_writes. apply in_or_app; right. apply in_or_app; right. now left. }
      assert (Hin : forall x, In x
        [(g_off dr + r * g_stride dr + g_bpp dr, mread src (g_off sr + r * g_stride sr) (Z.to_nat (w * g_bpp dr - 2 * g_bpp dr)));
         (g_off dr + r * g_stride dr, repeat 0 (Z.to_nat (g_bpp dr)));
         (g_off dr + r * g_stride dr + w * g_bpp dr - g_bpp dr, repeat 0 (Z.to_nat (g_bpp dr)))] -> In x (border_writes dr sr w h src)).
      { intros x Hx. unfold border_writes. apply in_or_app; right. apply in_or_app; left.
        apply in_flat_map. exists r. rewrite in_iota. split; [lia|exact Hx]. }
      replace (r =? 0) with false by lia. replace (r =? h - 1) with false by lia. cbn [orb].
      destruct (Z.eq_dec c 0) as [->|Hc0].
      { rewrite Z.eqb_refl. cbn [orb]. rewrite Z.mul_0_l, Z.add_0_r.
        specialize (Hread _ (Hin _ (or_intror (or_introl eq_refl)))). cbn [fst snd] in Hread. rewrite repeat_length in Hread. exact Hread. }
      destruct (Z.eq_dec c (w - 1)) as [->|Hc1].
      { rewrite Z.eqb_refl, orb_true_r. 
        specialize (Hread _ (Hin _ (or_intror (or_intror (or_introl eq_refl))))). cbn [fst snd] in Hread. rewrite repeat_length in Hread.
        replace (g_off dr + r * g_stride dr + (w - 1) * g_bpp dr) with (g_off dr + r * g_stride dr + w * g_bpp dr - g_bpp dr) by lia.
        exact Hread. }
      replace (c =? 0) with false by lia. replace (c =? w - 1) with false by lia. cbn [orb].
      specialize (Hread _ (Hin _ (or_introl eq_refl))). cbn [fst snd] in Hread. rewrite mread_length in Hread.
      rewrite <- Hb.
      replace (g_off dr + r * g_stride dr + c * g_bpp dr) with (g_off dr + r * g_stride dr + g_bpp dr + (c - 1) * g_bpp dr) by lia.
      apply (mread_sub _ _ _ _ (Z.to_nat (w * g_bpp dr - 2 * g_bpp dr))); [exact Hread|nia|nia].
    + intros a Ha. unfold m'. apply apply_writes_out. intros x Hx Hc.
      unfold border_writes in Hx. apply in_app_iff in Hx. destruct Hx as [[<-|[]]|Hx].
      { unfold in_wr in Hc; cbn [fst snd] in Hc. rewrite repeat_length in Hc.
        apply (Ha 0 (a - g_off dr)); lia. }
      apply in_app_iff in Hx. destruct Hx as [Hx|[<-|[]]].
      2:{ unfold in_wr in Hc; cbn [fst snd] in Hc. rewrite repeat_length in Hc.
          apply (Ha (h - 1) (a - (g_off dr + (h - 1) * g_stride dr))); lia. }
      apply in_flat_map in Hx. destruct Hx as (r & Hr & Hx). rewrite in_iota in Hr.
      destruct Hx as [<-|[<-|[<-|[]]]]; unfold in_wr in Hc; cbn [fst snd] in Hc;
        rewrite ?mread_length, ?repeat_length in Hc; apply (Ha r (a - (g_off dr + r * g_stride dr))); lia.
Qed.
