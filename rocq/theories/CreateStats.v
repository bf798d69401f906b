(** What the statistics say about a document made by the command CreateCZI. *)
From Coq Require Import Permutation.
From Verif Require Import Base RectModel TextModel TextProofs CodecModel CodesModel WriterModel CoordModel CoordSpec CoordProofs StatModel StatSpec StatProofs PyrProofs CreateModel CreateSpec CreateNum CreateProofs.
Open Scope Z_scope.

Lemma filter_all {A} (f : A -> bool) l : (forall a, In a l -> f a = true) -> filter f l = l.
Proof. induction l as [|a l IH]; intros H; [reflexivity|]. cbn [filter]. rewrite H by now left. rewrite IH; [reflexivity|]. intros; apply H; now right. Qed.
Lemma some_in_box b : CoordSpec.box_ok b -> in_box b (first_coord b).
Proof.
  intros [T B]. split; [unfold table9, first_coord; now rewrite map_length|]. intros d Hd.
  assert (E : tget (first_coord b) d = match tget b d with Some (st, _) => Some st | None => None end).
  { exact (map_nth (fun o : option (Z * Z) => match o with Some (st, _) => Some st | None => None end) b None (Z.to_nat (d - 1))). }
  rewrite E. destruct (tget b d) as [[st sz]|] eqn:D; [|exact I]. destruct (B d st sz Hd D). lia.
Qed.
Lemma value_in_box b d st sz v : CoordSpec.box_ok b -> In d dims -> tget b d = Some (st, sz) -> st <= v < st + sz -> exists c, in_box b c /\ tget c d = Some v.
Proof.
  intros B Hd E Hv. destruct (some_in_box b B) as [T I]. exists (tset (first_coord b) d v). split.
  - split; [now apply tset_length|]. intros d' Hd'. rewrite tget_tset by assumption. destruct (Z.eqb_spec d d') as [<-|N]; [now rewrite E|now apply I].
  - rewrite tget_tset by assumption. now rewrite Z.eqb_refl.
Qed.

Section Stats.
  Context (rows cols w h : Z) (F : fits rows cols w h) (b : bounds) (B : box_fits b) (es es' : list sbe).
  Local Notation l := (all_tiles rows cols w h None).
  Context (C : complete b w h l es) (P : Permutation es (map (fun e => with_pos e 0) es')).
  Hypothesis (Ch : tget b 2 <> None).

  Lemma entry e : In e es' -> in_box b (e_coord e) /\ (exists r c, 0 <= r < rows /\ 0 <= c < cols /\ e_m e = r * cols + c /\ e_x e = c * w /\ e_y e = r * h) /\ e_w e = w /\ e_h e = h /\ e_sw e = w /\ e_sh e = h.
  Proof.
    intros I. destruct C as (_ & S & E). pose proof F as (H1 & H2 & H3 & H4 & H5 & H6 & H7).
    assert (J : In (with_pos e 0) es) by (apply (Permutation_in _ (Permutation_sym P)); apply in_map_iff; eauto).
    destruct (S _ J) as (S1 & S2 & S3 & S4). destruct (proj2 (E (e_coord e) (e_x e) (e_y e) (e_m e))) as [Q T]; [exists (with_pos e 0); split; [exact J|]; now destruct e|].
    split; [exact Q|]. split; [|destruct e; cbn in *; auto]. apply in_all in T; [|exact F]. destruct T as (M & X & Y).
    pose proof (Z.div_mod (e_m e) cols ltac:(lia)). pose proof (Z.mod_pos_bound (e_m e) cols ltac:(lia)).
    assert (R : 0 <= e_m e / cols < rows) by (split; [apply Z.div_pos; lia|apply Z.div_lt_upper_bound; lia]).
    exists (e_m e / cols), (e_m e mod cols). rewrite (posn_plain cols) in X by assumption. rewrite (posn_plain rows) in Y by assumption. repeat split; try lia; assumption.
  Qed.
  Lemma present c r k : in_box b c -> 0 <= r < rows -> 0 <= k < cols -> exists e, In e es' /\ e_coord e = c /\ e_m e = r * cols + k /\ e_x e = k * w /\ e_y e = r * h /\ e_w e = w /\ e_h e = h.
  Proof.
    intros I Hr Hk. destruct C as (_ & S & E). pose proof F as (H1 & H2 & H3 & H4 & H5 & H6 & H7).
    destruct (proj1 (E c (k * w) (r * h) (r * cols + k))) as (e & J & Q).
    { split; [exact I|]. apply in_all; [exact F|]. split; [nia|]. split.
      - rewrite Z.add_comm, Z.mod_add by lia. rewrite Z.mod_small by lia. symmetry. now apply (posn_plain cols).
      - rewrite Z.add_comm, Z.div_add by lia. rewrite Z.div_small by lia. symmetry. now apply (posn_plain rows). }
    destruct (S _ J) as (S1 & S2 & _). apply (Permutation_in _ P) in J. apply in_map_iff in J. destruct J as (e' & <- & J). exists e'. split; [exact J|]. destruct e'; cbn in *. tauto.
  Qed.
  Lemma nth_coord (c : TextModel.coord) i v : length c = 9%nat -> nth i c None = Some v -> In (Z.of_nat i + 1) dims /\ tget c (Z.of_nat i + 1) = Some v /\ (i < 9)%nat.
  Proof.
    intros L E. assert (i < 9)%nat by (destruct (Nat.lt_ge_cases i 9); [assumption|rewrite nth_overflow in E by lia; discriminate]).
    split; [|split; [|assumption]]; [unfold dims; cbn [In]; lia|]. unfold tget. replace (Z.to_nat (Z.of_nat i + 1 - 1)) with i by lia. exact E.
  Qed.
  Lemma coord_range (c : TextModel.coord) d v : in_box b c -> In d dims -> tget c d = Some v -> exists st sz, tget b d = Some (st, sz) /\ st <= v < st + sz /\ in_i32 st /\ in_i32 (st + sz) /\ sz <= INT_MAX.
  Proof.
    intros [_ I] Hd E. specialize (I d Hd). rewrite E in I. destruct (tget b d) as [[st sz]|] eqn:D; [|contradiction]. destruct B as [[_ B1] B2].
    destruct (B1 d st sz Hd D) as (S1 & S2 & S3). pose proof (B2 d st sz Hd D). exists st, sz. auto 8.
  Qed.
  Lemma all_ok : Forall entry_ok es'.
  Proof.
    pose proof F as (H1 & H2 & H3 & H4 & H5 & H6 & H7). apply Forall_forall. intros e I. destruct (entry e I) as (Q & (r & k & R & K & M & X & Y) & W1 & W2 & W3 & W4).
    pose proof Q as [L _]. unfold entry_ok. rewrite W1, W2, W3, W4. assert (w <= INT_MAX /\ h <= INT_MAX) by nia. split; [exact L|]. do 4 (split; [lia|]).
    assert (0 <= k * w <= INT_MAX /\ 0 <= r * h <= INT_MAX /\ 0 <= r * cols + k < 2 ^ 31) by nia. unfold in_i32, INT_MIN, INT_MAX in *. do 3 (split; [lia|]).
    apply Forall_forall. intros o O. destruct o as [v|]; [|exact Logic.I]. apply (In_nth _ _ None) in O. destruct O as (i & Hi & E).
    destruct (nth_coord _ _ _ L E) as (Hd & T & _). destruct (coord_range _ _ _ Q Hd T) as (st & sz & _ & V & A1 & A2 & _). unfold in_i32, INT_MIN, INT_MAX in *. lia.
  Qed.
  Lemma all_fit : bounds_fit es'.
  Proof.
    pose proof F as (H1 & H2 & H3 & H4 & H5 & H6 & H7). intros e a I J. destruct (entry e I) as (Q & (r & k & R & K & M & X & Y) & W1 & W2 & _).
    destruct (entry a J) as (Q' & (r' & k' & R' & K' & M' & X' & Y') & _). rewrite X, Y, X', Y', W1, W2.
    assert (k * w + w <= cols * w /\ r * h + h <= rows * h /\ 0 <= k' * w /\ 0 <= r' * h) by nia. do 4 (split; [lia|]).
    intros i v v' E E'. destruct (nth_coord _ _ _ (proj1 Q) E) as (Hd & T & _). destruct (nth_coord _ _ _ (proj1 Q') E') as (_ & T' & _).
    destruct (coord_range _ _ _ Q Hd T) as (st & sz & D & V & A1 & A2 & A3). destruct (coord_range _ _ _ Q' Hd T') as (st' & sz' & D' & V' & _).
    rewrite D in D'. injection D' as <- <-. unfold in_i32 in *. lia.
  Qed.
  Lemma whole r : bounding es' r -> r = mkRect 0 0 (cols * w) (rows * h).
  Proof.
    pose proof F as (H1 & H2 & H3 & H4 & H5 & H6 & H7). pose proof (some_in_box b (proj1 B)) as Q0.
    destruct (present _ 0 0 Q0 ltac:(lia) ltac:(lia)) as (e0 & I0 & _ & _ & X0 & Y0 & W0 & G0).
    destruct (present _ (rows - 1) (cols - 1) Q0 ltac:(lia) ltac:(lia)) as (e1 & I1 & _ & _ & X1 & Y1 & W1 & G1).
    intros [[E _]|(_ & A & (a1 & J1 & K1) & (a2 & J2 & K2) & (a3 & J3 & K3) & (a4 & J4 & K4))]; [rewrite E in I0; destruct I0|].
    pose proof (A _ I0) as Z0. pose proof (A _ I1) as Z1. rewrite X0, Y0 in Z0. rewrite X1, Y1, W1, G1 in Z1.
    destruct (entry _ J1) as (_ & (r1 & c1 & ? & ? & _ & E1 & _) & _). destruct (entry _ J2) as (_ & (r2 & c2 & ? & ? & _ & E2 & _) & V2 & _).
    destruct (entry _ J3) as (_ & (r3 & c3 & ? & ? & _ & _ & E3) & _). destruct (entry _ J4) as (_ & (r4 & c4 & ? & ? & _ & _ & E4) & _ & V4 & _).
    rewrite E1 in K1. rewrite E2, V2 in K2. rewrite E3 in K3. rewrite E4, V4 in K4. destruct r as [x y rw rh]. cbn [rx ry RectModel.rw RectModel.rh] in *.
    assert (0 <= c1 * w /\ c2 * w + w <= cols * w /\ 0 <= r3 * h /\ r4 * h + h <= rows * h) by nia. f_equal; lia.
  Qed.
  Lemma m_range lo hi : min_max (m_indices es') lo hi -> lo = 0 /\ hi = rows * cols - 1.
  Proof.
    pose proof F as (H1 & H2 & H3 & H4 & H5 & H6 & H7). pose proof (some_in_box b (proj1 B)) as Q0.
    assert (G : forall v, In v (m_indices es') -> 0 <= v < rows * cols).
    { intros v I. unfold m_indices in I. apply in_map_iff in I. destruct I as (e & <- & I). apply filter_In in I. destruct (entry e (proj1 I)) as (_ & (r & k & R & K & M & _) & _). nia. }
    assert (G' : forall r k, 0 <= r < rows -> 0 <= k < cols -> In (r * cols + k) (m_indices es')).
    { intros r k R K. destruct (present _ r k Q0 R K) as (e & I & _ & M & _). unfold m_indices. apply in_map_iff. exists e. split; [exact M|]. apply filter_In. split; [exact I|]. unfold INT_MIN. nia. }
    pose proof (G' 0 0 ltac:(lia) ltac:(lia)) as A. pose proof (G' (rows - 1) (cols - 1) ltac:(lia) ltac:(lia)) as A'.
    intros [[E _]|(L & U & V)]; [rewrite E in A; destruct A|]. apply G in L. apply G in U. pose proof (V _ A). pose proof (V _ A'). nia.
  Qed.
  Lemma dim_range d o : In d dims -> interval (dim_values (Z.to_nat (d - 1)) es') o -> o = tget b d.
  Proof.
    intros Hd H. pose proof (some_in_box b (proj1 B)) as Q0. pose proof F as (H1 & H2 & _).
    assert (V : forall v, In v (dim_values (Z.to_nat (d - 1)) es') <-> exists c, in_box b c /\ tget c d = Some v).
    { intros v. split.
      - intros I. apply dim_values_In in I. destruct I as (e & I & E). exists (e_coord e). split; [now apply entry|exact E].
      - intros (c & Q & E). destruct (present c 0 0 Q ltac:(lia) ltac:(lia)) as (e & I & Ec & _). unfold dim_values. apply in_flat_map. exists e. split; [exact I|].
        unfold tget in E. rewrite Ec, E. now left. }
    destruct (tget b d) as [[st sz]|] eqn:D.
    - assert (S : 1 <= sz) by (destruct (proj1 B) as [_ B1]; now destruct (B1 d st sz Hd D)).
      assert (V' : forall v, In v (dim_values (Z.to_nat (d - 1)) es') <-> st <= v < st + sz).
      { intros v. rewrite V. split; [|intros Hv; now apply (value_in_box b d st sz v (proj1 B))].
        intros (c & [_ Q] & E). specialize (Q d Hd). rewrite D, E in Q. exact Q. }
      destruct o as [[a n]|]; cbn [interval] in H.
      + destruct H as (A1 & A2 & A3). apply V' in A1. apply V' in A2. pose proof (A3 _ (proj2 (V' st) ltac:(lia))). pose proof (A3 _ (proj2 (V' (st + sz - 1)) ltac:(lia))). do 2 f_equal; lia.
      + exfalso. pose proof (proj2 (V' st) ltac:(lia)) as A. rewrite H in A. destruct A.
    - destruct o as [[a n]|]; [|reflexivity]. destruct H as (A1 & _). apply V in A1. destruct A1 as (c & [_ Q] & E). specialize (Q d Hd). rewrite D, E in Q. contradiction.
  Qed.
  Lemma stats_told : exists u, open_stats es' = Ok u /\ st_count (get_stats u) = Z.of_nat (length es) /\
    st_box (get_stats u) = mkRect 0 0 (cols * w) (rows * h) /\ st_box0 (get_stats u) = mkRect 0 0 (cols * w) (rows * h) /\
    st_minm (get_stats u) = 0 /\ st_maxm (get_stats u) = rows * cols - 1 /\ forall d, In d dims -> tget (st_dims (get_stats u)) d = tget b d.
  Proof.
    destruct (open_stats_ok es' all_ok all_fit) as (u & E & D & _). exists u. split; [exact E|]. destruct D as (D1 & D2 & D3 & D4 & D5 & _).
    rewrite filter_all in D3. 2: { intros e I. destruct (entry e I) as (_ & _ & W1 & W2 & W3 & W4). unfold layer0. lia. }
    rewrite filter_all in D5. 2: { intros e I. destruct (entry e I) as ([_ Q] & _). unfold has_dimension. apply existsb_exists. exists 1%nat. split; [apply in_seq; lia|].
      specialize (Q 2 ltac:(cbn; auto)). change (tget (e_coord e) 2) with (nth 1 (e_coord e) None) in Q. destruct (nth 1 (e_coord e) None); [reflexivity|].
      destruct (tget b 2) as [[? ?]|]; [contradiction|now contradict Ch]. }
    split; [rewrite D1; pose proof (Permutation_length P) as PL; rewrite map_length in PL; lia|]. split; [now apply whole|]. split; [now apply whole|].
    destruct (m_range _ _ D5) as [-> ->]. split; [reflexivity|]. split; [reflexivity|]. intros d Hd. apply dim_range; [exact Hd|]. apply D4. cbn [dims In] in Hd. lia.
  Qed.
End Stats.

Theorem create_statistics rows cols w h pt b mode comp : fits rows cols w h -> box_fits b -> branch_of mode = Some comp ->
  exists n es b', (forall fuel, (n <= fuel)%nat -> create_czi fuel mode b (mkTiles rows cols (overlap_of None)) w h pt = Ok es) /\ and_channel b b' /\
    forall es', Permutation es (map (fun e => with_pos e 0) es') -> exists u, open_stats es' = Ok u /\ st_count (get_stats u) = Z.of_nat (length es) /\
      st_box (get_stats u) = mkRect 0 0 (cols * w) (rows * h) /\ st_box0 (get_stats u) = mkRect 0 0 (cols * w) (rows * h) /\
      st_minm (get_stats u) = 0 /\ st_maxm (get_stats u) = rows * cols - 1 /\ forall d, In d dims -> tget (st_dims (get_stats u)) d = tget b' d.
Proof.
  intros F B M. destruct (create_complete None rows cols w h pt b mode comp Logic.I F B M) as (n & es & l & b' & E & T & A & C & _).
  exists n, es, b'. split; [exact E|]. split; [exact A|]. intros es' P.
  assert (R : l = all_tiles rows cols w h None).
  { pose proof (T (n + Z.to_nat (rows * cols) + 1)%nat ltac:(lia)) as T1. rewrite (tiles_ok rows cols w h None Logic.I F) in T1; [congruence|]. destruct F as (H1 & H2 & _). nia. }
  subst l. apply (stats_told rows cols w h F b' (channel_box b b' B A) es es' C P). destruct A as [_ A]. rewrite A by (cbn; auto). destruct (tget b 2) eqn:D; cbn; rewrite ?D; discriminate.
Qed.

(** the same in terms of what is asked for *)
Lemma stored_branch mode comp : stored_as mode comp -> branch_of mode = Some comp.
Proof. intros []; reflexivity. Qed.
Theorem create_complete_as percent rows cols w h pt b mode comp : percent_ok percent -> fits rows cols w h -> box_fits b -> stored_as mode comp ->
  exists n es l b', (forall fuel, (n <= fuel)%nat -> create_czi fuel mode b (mkTiles rows cols (overlap_of percent)) w h pt = Ok es) /\
    (forall fuel, (n <= fuel)%nat -> tiles fuel (mkTiles rows cols (overlap_of percent)) w h = Ok l) /\
    and_channel b b' /\ complete b' w h l es /\ all_different (sb_less false) (map as_entry es) /\ Forall (fun e => e_pt e = pt /\ e_comp e = comp) es.
Proof. intros P F B S. apply create_complete; try assumption. now apply stored_branch. Qed.
Theorem create_statistics_as rows cols w h pt b mode comp : fits rows cols w h -> box_fits b -> stored_as mode comp ->
  exists n es b', (forall fuel, (n <= fuel)%nat -> create_czi fuel mode b (mkTiles rows cols (overlap_of None)) w h pt = Ok es) /\ and_channel b b' /\
    forall es', Permutation es (map (fun e => with_pos e 0) es') -> exists u, open_stats es' = Ok u /\ st_count (get_stats u) = Z.of_nat (length es) /\
      st_box (get_stats u) = mkRect 0 0 (cols * w) (rows * h) /\ st_box0 (get_stats u) = mkRect 0 0 (cols * w) (rows * h) /\
      st_minm (get_stats u) = 0 /\ st_maxm (get_stats u) = rows * cols - 1 /\ forall d, In d dims -> tget (st_dims (get_stats u)) d = tget b' d.
Proof. intros F B S. apply create_statistics with (comp := comp); try assumption. now apply stored_branch. Qed.

(** without tile information: one tile *)
Lemma tiles_single t w h fuel : ti_rows t = 0 \/ ti_cols t = 0 -> (2 <= fuel)%nat -> tiles fuel t w h = Ok [(0, 0, 0)].
Proof.
  intros V L. do 2 (destruct fuel as [|fuel]; [lia|]). unfold tiles. cbn [tiles_from]. unfold get_pos_and_m, ti_valid.
  replace ((0 <? ti_rows t) && (0 <? ti_cols t)) with false by lia. reflexivity.
Qed.
Lemma each_ext {A B} (f g : A -> res (list B)) l : (forall a, f a = g a) -> each f l = each g l.
Proof. intros E. induction l as [|a l IH]; [reflexivity|]. cbn [each]. now rewrite E, IH. Qed.
Theorem create_single t w h pt b mode comp : ti_rows t = 0 \/ ti_cols t = 0 -> fits 1 1 w h -> box_fits b -> stored_as mode comp ->
  exists n es b', (forall fuel, (n <= fuel)%nat -> create_czi fuel mode b t w h pt = Ok es) /\
    and_channel b b' /\ complete b' w h [(0, 0, 0)] es /\ all_different (sb_less false) (map as_entry es) /\ Forall (fun e => e_pt e = pt /\ e_comp e = comp) es.
Proof.
  intros V F B S. destruct (create_complete_as None 1 1 w h pt b mode comp Logic.I F B S) as (n & es & l & b' & E & T & A & C & R).
  assert (L1 : l = [(0, 0, 0)]).
  { pose proof (T (n + 2)%nat ltac:(lia)) as T1. rewrite (tiles_ok 1 1 w h None Logic.I F) in T1 by lia. injection T1 as <-.
    destruct F as (F1 & F2 & F3). pose proof (tiles_ok 1 1 w h None Logic.I (conj F1 (conj F2 F3)) 2%nat ltac:(lia)) as T2.
    assert (Q : tiles 2 (mkTiles 1 1 (overlap_of None)) w h = Ok [(0, 0, 0)]).
    { unfold tiles. cbn [tiles_from]. unfold get_pos_and_m, ti_valid, calc_tile_position, tile_pos. cbn [ti_rows ti_cols ti_overlap]. vm_compute. reflexivity. }
    congruence. }
  subst l. exists (n + 2)%nat, es, b'. split; [|split; [exact A|split; [exact C|exact R]]].
  intros fuel Hf. rewrite <- (E fuel) by lia. unfold create_czi. destruct (enum_all_coordinates fuel (with_channel b) _) as [[calls r]| | |]; try reflexivity. cbn [bind].
  apply each_ext. intros call. unfold add_sub_blocks. rewrite tiles_single by (assumption || lia). now rewrite T by lia.
Qed.
