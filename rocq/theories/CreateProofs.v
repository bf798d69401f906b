(** The mosaic of the command CreateCZI. *)
From Coq Require Import Floats.SpecFloat Permutation.
From Verif Require Import Base RectModel TextModel TextProofs CodecModel CodesModel CoordModel CoordSpec CoordProofs OrderProofs StatModel StatSpec StatProofs PyrProofs PixelModel CreateModel CreateSpec CreateNum.
Open Scope Z_scope.

Definition fits (rows cols w h : Z) : Prop :=
  1 <= rows /\ 1 <= cols /\ 1 <= w /\ 1 <= h /\ cols * w <= INT_MAX /\ rows * h <= INT_MAX /\ rows * cols <= 2 ^ 31.

Definition posn (percent : option Z) (size k : Z) : Z := match tile_pos k size (overlap_of percent) with Ok v => v | _ => 0 end.
Lemma posn_ok percent n size k : percent_ok percent -> 1 <= size -> n * size <= INT_MAX -> 0 <= k < n ->
  tile_pos k size (overlap_of percent) = Ok (posn percent size k) /\ about (share percent) k size (posn percent size k).
Proof.
  intros HP Hs B Hk. unfold posn. destruct (tile_pos_ok percent k size HP) as (o & _ & _ & E & A); [lia|lia|nia|]. rewrite E. auto.
Qed.
Lemma posn_0 percent size : percent_ok percent -> 1 <= size <= INT_MAX -> posn percent size 0 = 0.
Proof.
  intros HP Hs. unfold posn, tile_pos. rewrite Z.mul_0_l. change (u32 0) with 0. change (f32_of_Z 0) with (S754_zero false).
  destruct (overlap_ok percent HP) as ([_ S] & _). destruct (overlap_of percent) as [s|s| |s m e]; try contradiction; subst; reflexivity.
Qed.
Lemma posn_gap percent n size : percent_ok percent -> 1 <= size -> 1 <= n -> n * size <= INT_MAX -> no_gap n size (posn percent size).
Proof.
  intros HP Hs Hn B.
  assert (G : forall j, 0 <= j -> j < n -> forall x, posn percent size 0 <= x < posn percent size j + size -> exists k, 0 <= k < n /\ posn percent size k <= x < posn percent size k + size).
  { intros j Hj. pattern j. apply natlike_ind; [|clear j Hj|exact Hj].
    - intros L x Hx. exists 0. split; [lia|exact Hx].
    - intros j Hj IH L x Hx. destruct (Z_lt_le_dec x (posn percent size j + size)) as [C|C]; [apply IH; lia|].
      exists (Z.succ j). split; [lia|]. split; [|lia].
      destruct (posn_ok percent n size j HP Hs B ltac:(lia)) as [E _]. destruct (posn_ok percent n size (j + 1) HP Hs B ltac:(lia)) as [E' _].
      pose proof (tile_pos_step percent j size _ _ HP Hj ltac:(lia) ltac:(nia) E E'). unfold Z.succ. lia. }
  intros x Hx. apply (G (n - 1)); lia.
Qed.
Lemma posn_plain n size k : 1 <= size -> n * size <= INT_MAX -> 0 <= k < n -> posn None size k = k * size.
Proof. intros. unfold posn. rewrite tile_pos_plain; [reflexivity|lia|lia|nia]. Qed.

(** ** the list of tiles *)
Section Tiles.
  Context (rows cols w h : Z) (percent : option Z) (HP : percent_ok percent) (F : fits rows cols w h).
  Local Notation ti := (mkTiles rows cols (overlap_of percent)).
  Definition tile_no (k : Z) : Z * Z * Z := (posn percent w (k mod cols), posn percent h (k / cols), k).
  Definition numbers (k : Z) (n : nat) : list Z := map (fun i => k + Z.of_nat i) (seq 0 n).
  Definition all_tiles : list (Z * Z * Z) := map tile_no (numbers 0 (Z.to_nat (rows * cols))).

  Lemma numbers_S k n : numbers k (S n) = k :: numbers (k + 1) n.
  Proof. unfold numbers. cbn [seq map]. rewrite Z.add_0_r. f_equal. rewrite <- seq_shift, map_map. apply map_ext. intros. lia. Qed.
  Lemma tile_step k : 0 <= k < rows * cols -> get_pos_and_m ti w h k = Ok (Some (tile_no k)).
  Proof.
    intros Hk. destruct F as (H1 & H2 & H3 & H4 & H5 & H6 & H7). unfold get_pos_and_m, ti_valid. cbn [ti_rows ti_cols].
    replace ((0 <? rows) && (0 <? cols)) with true by lia. unfold calc_tile_position. cbn [ti_rows ti_cols ti_overlap].
    pose proof (Z.div_mod k cols ltac:(lia)) as D. pose proof (Z.mod_pos_bound k cols ltac:(lia)) as M.
    assert (R : 0 <= k / cols < rows) by (split; [apply Z.div_pos; lia|apply Z.div_lt_upper_bound; lia]).
    assert (Q : 0 <= k / cols * cols <= k) by nia.
    replace (u32 (k / cols * cols)) with (k / cols * cols) by (unfold u32; symmetry; apply Z.mod_small; lia).
    replace (k - k / cols * cols) with (k mod cols) by lia.
    replace (u32 (k mod cols)) with (k mod cols) by (unfold u32; symmetry; apply Z.mod_small; lia).
    replace ((rows <=? k / cols) || (cols <=? k mod cols)) with false by lia.
    destruct (posn_ok percent cols w (k mod cols) HP H3 H5 M) as [-> _]. destruct (posn_ok percent rows h (k / cols) HP H4 H6 R) as [-> _]. cbn [bind].
    replace (s32 k) with k; [reflexivity|]. unfold s32. rewrite Z.mod_small by lia. destruct (k <? 2 ^ 31) eqn:E; lia.
  Qed.
  Lemma tile_end : get_pos_and_m ti w h (rows * cols) = Ok None.
  Proof.
    destruct F as (H1 & H2 & _). unfold get_pos_and_m, ti_valid. cbn [ti_rows ti_cols].
    replace ((0 <? rows) && (0 <? cols)) with true by lia. unfold calc_tile_position. cbn [ti_rows ti_cols ti_overlap].
    rewrite Z.div_mul by lia. replace (rows <=? rows) with true by lia. reflexivity.
  Qed.
  Lemma tiles_run n : forall k fuel, 0 <= k -> k + Z.of_nat n = rows * cols -> (n < fuel)%nat ->
    tiles_from fuel ti w h k = Ok (map tile_no (numbers k n)).
  Proof.
    induction n as [|n IH]; intros k fuel K E L; (destruct fuel as [|fuel]; [lia|]); cbn [tiles_from].
    - replace k with (rows * cols) by lia. rewrite tile_end. reflexivity.
    - rewrite tile_step by lia. cbn [bind]. destruct F as (_ & _ & _ & _ & _ & _ & H7).
      replace (u32 (k + 1)) with (k + 1) by (unfold u32; symmetry; apply Z.mod_small; lia).
      rewrite IH by lia. cbn [bind]. rewrite numbers_S. reflexivity.
  Qed.
  Lemma tiles_ok fuel : rows * cols < Z.of_nat fuel -> tiles fuel ti w h = Ok all_tiles.
  Proof. intros L. destruct F as (H1 & H2 & _). apply tiles_run; nia. Qed.
  Lemma in_all x y m : In (x, y, m) all_tiles <-> 0 <= m < rows * cols /\ x = posn percent w (m mod cols) /\ y = posn percent h (m / cols).
  Proof.
    destruct F as (H1 & H2 & _). unfold all_tiles. rewrite in_map_iff. unfold tile_no, numbers. split.
    - intros (k & E & I). injection E as <- <- <-. apply in_map_iff in I. destruct I as (i & <- & I). apply in_seq in I. split; [nia|auto].
    - intros (Hm & -> & ->). exists m. split; [reflexivity|]. apply in_map_iff. exists (Z.to_nat m). split; [lia|apply in_seq; lia].
  Qed.
  Lemma all_mosaic : mosaic rows cols (posn percent w) (posn percent h) all_tiles.
  Proof.
    destruct F as (H1 & H2 & _). split.
    - unfold all_tiles, numbers. rewrite !map_length, seq_length. nia.
    - intros r c Hr Hc. unfold all_tiles. rewrite nth_error_map. unfold numbers. rewrite nth_error_map.
      assert (B : 0 <= r * cols + c < rows * cols) by nia.
      rewrite (nth_error_nth' _ 0%nat) by (rewrite seq_length; lia). rewrite seq_nth by lia. cbn [option_map].
      replace (0 + Z.of_nat (0 + Z.to_nat (r * cols + c))) with (r * cols + c) by lia. unfold tile_no. do 3 f_equal.
      + f_equal. rewrite Z.add_comm, Z.mod_add by lia. apply Z.mod_small. lia.
      + rewrite Z.add_comm, Z.div_add by lia. rewrite Z.div_small by lia. f_equal.
  Qed.
End Tiles.

Theorem tiles_mosaic percent rows cols w h : percent_ok percent -> fits rows cols w h ->
  exists l px py, (forall fuel, rows * cols < Z.of_nat fuel -> tiles fuel (mkTiles rows cols (overlap_of percent)) w h = Ok l) /\
    mosaic rows cols px py l /\ px 0 = 0 /\ py 0 = 0 /\
    (forall c, 0 <= c < cols -> about (share percent) c w (px c)) /\ (forall r, 0 <= r < rows -> about (share percent) r h (py r)) /\
    (forall x y, 0 <= x < px (cols - 1) + w -> 0 <= y < py (rows - 1) + h -> exists tx ty m, In (tx, ty, m) l /\ tx <= x < tx + w /\ ty <= y < ty + h) /\
    (percent = None -> (forall c, 0 <= c < cols -> px c = c * w) /\ forall r, 0 <= r < rows -> py r = r * h).
Proof.
  intros HP F. exists (all_tiles rows cols w h percent), (posn percent w), (posn percent h). pose proof F as (H1 & H2 & H3 & H4 & H5 & H6 & H7).
  pose proof (posn_0 percent w HP ltac:(nia)) as X0. pose proof (posn_0 percent h HP ltac:(nia)) as Y0.
  split; [now apply tiles_ok|]. split; [now apply all_mosaic|]. split; [exact X0|]. split; [exact Y0|].
  split; [intros c Hc; now apply (posn_ok percent cols w c HP)|]. split; [intros r Hr; now apply (posn_ok percent rows h r HP)|]. split.
  - intros x y Hx Hy. destruct (posn_gap percent cols w HP H3 H2 H5 x ltac:(lia)) as (c & Hc & Cx). destruct (posn_gap percent rows h HP H4 H1 H6 y ltac:(lia)) as (r & Hr & Cy).
    exists (posn percent w c), (posn percent h r), (r * cols + c). split; [|auto]. apply in_all; [exact F|]. split; [nia|]. split; f_equal.
    + rewrite Z.add_comm, Z.mod_add by lia. symmetry. apply Z.mod_small. lia.
    + rewrite Z.add_comm, Z.div_add by lia. rewrite Z.div_small by lia. lia.
  - intros ->. split; intros k Hk; [now apply (posn_plain cols)|now apply (posn_plain rows)].
Qed.

(** ** all coordinates *)
Lemma with_channel_ok b : table9 b -> and_channel b (with_channel b).
Proof.
  intros T. unfold with_channel. destruct (tget b 2) as [p|] eqn:E.
  - split; [exact T|]. intros d Hd. rewrite E. now rewrite Bool.andb_false_r.
  - assert (D2 : In 2 dims) by (cbn; auto). split; [now apply tset_length|]. intros d Hd. rewrite tget_tset by assumption. rewrite E, Bool.andb_true_r, Z.eqb_sym. reflexivity.
Qed.
Definition box_fits (b : bounds) : Prop := CoordSpec.box_ok b /\ forall d st sz, In d dims -> tget b d = Some (st, sz) -> sz <= INT_MAX.
Lemma channel_box b b' : box_fits b -> and_channel b b' -> box_fits b'.
Proof.
  intros [[T B] S] [T' C]. split; [split; [exact T'|]|]; intros d st sz Hd E; rewrite C in E by exact Hd;
    destruct ((d =? 2) && _); try (injection E as <- <-; unfold in_i32, INT_MIN, INT_MAX; lia); eauto.
Qed.
Lemma each_ok {A B} (f : A -> res (list B)) g l : (forall a, In a l -> f a = Ok (g a)) -> each f l = Ok (flat_map g l).
Proof.
  induction l as [|a l IH]; intros H; [reflexivity|]. cbn [each flat_map]. rewrite H by now left. cbn [bind]. rewrite IH by (intros; apply H; now right). reflexivity.
Qed.
Lemma until_true {A} (l : list A) : forall k, map snd (fst (until_false (fun _ _ => true) k l)) = l.
Proof.
  induction l as [|a l IH]; intros k; [reflexivity|]. cbn [until_false]. specialize (IH (k + 1)). destruct (until_false _ (k + 1) l) as [cs r]. cbn [fst map snd] in *. now rewrite IH.
Qed.
Lemma flat_map_snd {A B C} (g : B -> list C) (l : list (A * B)) : flat_map (fun p => g (snd p)) l = flat_map g (map snd l).
Proof. induction l as [|p l IH]; [reflexivity|]. cbn [flat_map map]. now rewrite IH. Qed.

Section Create.
  Context (rows cols w h pt comp : Z) (percent : option Z) (HP : percent_ok percent) (F : fits rows cols w h).
  Local Notation ti := (mkTiles rows cols (overlap_of percent)).
  Local Notation at_coord c := (map (entry_for c w h pt comp) (all_tiles rows cols w h percent)).
  Lemma small : s32 w = w /\ s32 h = h /\ 1 <= w <= INT_MAX /\ 1 <= h <= INT_MAX.
  Proof.
    destruct F as (H1 & H2 & H3 & H4 & H5 & H6 & H7). assert (w <= INT_MAX /\ h <= INT_MAX) by nia. unfold INT_MAX in *. unfold s32. rewrite !Z.mod_small by lia.
    destruct (w <? 2 ^ 31) eqn:E1, (h <? 2 ^ 31) eqn:E2; lia.
  Qed.
  Lemma in_at c e : In e (at_coord c) <-> exists x y m, In (x, y, m) (all_tiles rows cols w h percent) /\ e = mkSbe c m x y w h w h pt 0 comp 0.
  Proof.
    rewrite in_map_iff. split.
    - intros ([[x y] m] & <- & I). unfold entry_for. destruct small as (-> & -> & _). eauto 6.
    - intros (x & y & m & I & ->). exists (x, y, m). split; [|exact I]. unfold entry_for. destruct small as (-> & -> & _). reflexivity.
  Qed.
  Lemma keys_nodup L : NoDup L -> NoDup (map (fun e => (e_coord e, e_m e)) (flat_map (fun c => at_coord c) L)).
  Proof.
    intros N.
    assert (E : map (fun e => (e_coord e, e_m e)) (flat_map (fun c => at_coord c) L) = flat_map (fun c => map (pair c) (numbers 0 (Z.to_nat (rows * cols)))) L).
    { clear N. induction L as [|c L IH]; [reflexivity|]. cbn [flat_map]. rewrite map_app, IH. f_equal. unfold all_tiles. rewrite !map_map. reflexivity. }
    rewrite E. apply NoDup_flat; [exact N| |].
    - intros c _. apply FinFun.Injective_map_NoDup; [intros a a' H; now injection H|]. unfold numbers.
      apply FinFun.Injective_map_NoDup; [intros a a' H; lia|apply seq_NoDup].
    - intros c c' p _ _ I I'. apply in_map_iff in I. apply in_map_iff in I'. destruct I as (m & <- & _). destruct I' as (m' & E' & _). congruence.
  Qed.
  Definition created (L : list CodecModel.coord) : list sbe := flat_map (fun c => at_coord c) L.
  Lemma in_created L e : In e (created L) <-> In (e_coord e) L /\ In (e_x e, e_y e, e_m e) (all_tiles rows cols w h percent) /\
    e = mkSbe (e_coord e) (e_m e) (e_x e) (e_y e) w h w h pt 0 comp 0.
  Proof.
    unfold created. rewrite in_flat_map. split.
    - intros (c & I & J). apply in_at in J. destruct J as (x & y & m & J & ->). cbn. auto.
    - intros (I & J & E). exists (e_coord e). split; [exact I|]. apply in_at. eauto 6.
  Qed.
  Lemma created_complete b L : NoDup L -> (forall c, In c L <-> in_box b c) -> complete b w h (all_tiles rows cols w h percent) (created L).
  Proof.
    intros N B. split; [now apply keys_nodup|]. split.
    - intros e I. apply in_created in I. destruct I as (_ & _ & ->). cbn. auto.
    - intros c x y m. split.
      + intros [I J]. exists (mkSbe c m x y w h w h pt 0 comp 0). split; [|cbn; auto]. apply in_created. cbn. split; [now apply B|auto].
      + intros (e & I & <- & <- & <- & <-). apply in_created in I. destruct I as (I & J & _). split; [now apply B|exact J].
  Qed.
  Lemma created_ordered L : NoDup L -> Forall (fun c => table9 c) L -> all_different (sb_less false) (map as_entry (created L)).
  Proof.
    intros N T. pose proof (keys_nodup L N) as K. fold (created L) in K.
    assert (T' : Forall (fun e => table9 (e_coord e) /\ e = mkSbe (e_coord e) (e_m e) (e_x e) (e_y e) w h w h pt 0 comp 0 /\ e_m e <> INT_MIN) (created L)).
    { apply Forall_forall. intros e I. apply in_created in I. destruct I as (I & J & E). rewrite Forall_forall in T. split; [now apply T|]. split; [exact E|].
      apply in_all in J; [|exact F]. unfold INT_MIN. lia. }
    induction (created L) as [|e l IH]; [constructor|]. cbn [map] in *. inversion K as [|? ? K1 K2]; subst. inversion T' as [|? ? T1 T2]; subst. constructor; [|now apply IH].
    apply Forall_forall. intros a I. apply in_map_iff in I. destruct I as (e' & <- & I). rewrite Forall_forall in T2. specialize (T2 e' I).
    assert (D : (e_coord e, e_m e) <> (e_coord e', e_m e')) by (intros D; apply K1; rewrite D; apply in_map_iff; eauto).
    destruct T1 as (T9 & E & M). destruct T2 as (T9' & E' & M'). rewrite E, E'. unfold sb_less, as_entry, en_zoom. cbn [e_coord e_m e_x e_y e_w e_h e_sw e_sh e_pos en_coord en_m en_x en_y en_w en_h en_sw en_sh en_pos].
    rewrite zoom_differs_self. replace (e_m e =? INT_MIN) with false by lia. replace (e_m e' =? INT_MIN) with false by lia. cbn [negb andb].
    pose proof (compare_from_antisym dims (e_coord e) (e_coord e')) as S. fold (compare (e_coord e') (e_coord e)) in S. fold (compare (e_coord e) (e_coord e')) in S.
    pose proof (compare_zero (e_coord e) (e_coord e') T9 T9') as Z0.
    destruct (Z.lt_trichotomy (compare (e_coord e) (e_coord e')) 0) as [C|[C|C]].
    - left. replace (compare (e_coord e) (e_coord e') <? 0) with true by lia. replace (compare (e_coord e') (e_coord e) <? 0) with false by lia. replace (0 <? compare (e_coord e') (e_coord e)) with true by lia. auto.
    - assert (EC : e_coord e = e_coord e') by now apply Z0. assert (e_m e <> e_m e') by congruence.
      replace (compare (e_coord e) (e_coord e') <? 0) with false by lia. replace (compare (e_coord e') (e_coord e) <? 0) with false by lia.
      replace (0 <? compare (e_coord e') (e_coord e)) with false by lia. replace (0 <? compare (e_coord e) (e_coord e')) with false by lia.
      destruct (Z_lt_le_dec (e_m e) (e_m e')).
      + left. replace (e_m e <? e_m e') with true by lia. replace (e_m e' <? e_m e) with false by lia. auto.
      + right. replace (e_m e' <? e_m e) with true by lia. replace (e_m e <? e_m e') with false by lia. auto.
    - right. replace (compare (e_coord e) (e_coord e') <? 0) with false by lia. replace (compare (e_coord e') (e_coord e) <? 0) with true by lia. replace (0 <? compare (e_coord e) (e_coord e')) with true by lia. auto.
  Qed.
End Create.

Theorem create_complete percent rows cols w h pt b mode comp : percent_ok percent -> fits rows cols w h -> box_fits b -> branch_of mode = Some comp ->
  exists n es l b', (forall fuel, (n <= fuel)%nat -> create_czi fuel mode b (mkTiles rows cols (overlap_of percent)) w h pt = Ok es) /\
    (forall fuel, (n <= fuel)%nat -> tiles fuel (mkTiles rows cols (overlap_of percent)) w h = Ok l) /\
    and_channel b b' /\ complete b' w h l es /\ all_different (sb_less false) (map as_entry es) /\ Forall (fun e => e_pt e = pt /\ e_comp e = comp) es.
Proof.
  intros HP F B M. destruct (with_channel_ok b (proj1 (proj1 B))) as [T' C']. pose proof (channel_box b (with_channel b) B (conj T' C')) as B'.
  assert (V : valid_dims (with_channel b) <> []).
  { assert (I : In 2 (valid_dims (with_channel b))).
    { apply filter_In. split; [cbn; auto|]. rewrite C' by (cbn; auto). destruct (tget b 2) as [p|] eqn:E; cbn; now rewrite ?E. }
    intros E. rewrite E in I. destruct I. }
  destruct (enum_all_exact _ (proj1 B') V) as (L & N & IL & EL).
  exists (Z.to_nat (rows * cols) + 1 + length L)%nat, (created rows cols w h pt comp percent L), (all_tiles rows cols w h percent), (with_channel b).
  assert (R : 0 <= rows * cols) by (destruct F as (H1 & H2 & _); nia).
  split; [|split; [intros fuel Hf; apply tiles_ok; try assumption; lia|split; [now split|]]].
  - intros fuel Hf. unfold create_czi. rewrite EL by lia. pose proof (until_true L 0) as U. destruct (until_false _ 0 L) as [calls r]. cbn [bind fst] in *.
    rewrite (each_ok _ (fun call => map (entry_for (snd call) w h pt comp) (all_tiles rows cols w h percent))).
    + unfold created. f_equal. etransitivity; [apply (flat_map_snd (fun c => map (entry_for c w h pt comp) (all_tiles rows cols w h percent)))|]. exact (f_equal _ U).
    + intros call _. unfold add_sub_blocks. rewrite tiles_ok by (try assumption; lia). cbn [bind]. now rewrite M.
  - split; [now apply created_complete|]. split; [apply created_ordered; try assumption|].
    + apply Forall_forall. intros c I. apply IL in I. apply I.
    + apply Forall_forall. intros e I. apply in_created in I; [|assumption]. destruct I as (_ & _ & ->). cbn. auto.
Qed.
