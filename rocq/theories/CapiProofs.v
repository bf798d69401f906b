(** Proofs about the C API. *)
From Verif Require Import Base RectModel CodecModel CodesModel WriterModel WriterSpec StatModel ReaderModel ReaderParts AddModel AddSpec AddProofs CapiModel CapiSpec.
Open Scope Z_scope.

(** ** Coordinates and bounds *)
Definition is_some {A} (o : option A) : bool := match o with Some _ => true | None => false end.
Definition somes {A} (c : list (option A)) : list A := flat_map (fun o => match o with Some v => [v] | None => [] end) c.

Lemma interop_of_somes {A} (c : list (option A)) : forall i, snd (interop_of c i) = somes c.
Proof.
  induction c as [|[v|] c IH]; intros i; [reflexivity| |]; cbn [interop_of somes flat_map].
  - specialize (IH (i + 1)). destruct (interop_of c (i + 1)) as (m, vs). cbn [snd] in *. cbn [app]. now rewrite IH.
  - apply IH.
Qed.
Lemma interop_of_low {A} (c : list (option A)) : forall i j, 0 <= i -> j < i -> Z.testbit (fst (interop_of c i)) j = false.
Proof.
  induction c as [|[v|] c IH]; intros i j Hi Hj; cbn [interop_of].
  - apply Z.testbit_0_l.
  - specialize (IH (i + 1) j). destruct (interop_of c (i + 1)) as (m, vs). cbn [fst] in *. rewrite Z.lor_spec, IH by lia.
    rewrite Z.pow2_bits_false by lia. reflexivity.
  - apply IH; lia.
Qed.
Lemma interop_of_bits {A} (c : list (option A)) : forall i k, 0 <= i -> Z.testbit (fst (interop_of c i)) (i + Z.of_nat k) = is_some (nth k c None).
Proof.
  induction c as [|o c IH]; intros i k Hi; cbn [interop_of].
  - cbn [fst]. rewrite Z.testbit_0_l. now destruct k.
  - destruct k as [|k].
    + rewrite Z.add_0_r. cbn [nth]. destruct o as [v|]; cbn [is_some].
      * destruct (interop_of c (i + 1)) as (m, vs). cbn [fst]. rewrite Z.lor_spec, Z.pow2_bits_true by lia. reflexivity.
      * apply interop_of_low; lia.
    + cbn [nth]. specialize (IH (i + 1) k ltac:(lia)). replace (i + Z.of_nat (S k)) with (i + 1 + Z.of_nat k) by lia. destruct o as [v|].
      * destruct (interop_of c (i + 1)) as (m, vs). cbn [fst] in *. rewrite Z.lor_spec, Z.pow2_bits_false by lia. exact IH.
      * exact IH.
Qed.
Lemma rank {A} (c : list (option A)) m : (forall k, Z.testbit m (Z.of_nat k) = is_some (nth k c None)) -> forall i, (i <= length c)%nat ->
  set_below m i = length (somes (firstn i c)).
Proof.
  intros H i. induction i as [|i IH]; intros L; [reflexivity|]. unfold set_below in *. rewrite seq_S, filter_app, app_length, IH by lia.
  replace (firstn (S i) c) with (firstn i c ++ [nth i c None]).
  - unfold somes. rewrite flat_map_app, app_length. f_equal. cbn [filter plus]. rewrite H. now destruct (nth i c None).
  - clear -L. revert i L. induction c as [|o c IH]; intros i L; [cbn in L; lia|]. destruct i as [|i]; [reflexivity|]. cbn [length] in L.
    cbn [firstn nth app]. f_equal. apply IH. lia.
Qed.
Lemma somes_nth {A} (c : list (option A)) i v (x : A) : nth i c None = Some v -> nth (length (somes (firstn i c))) (somes c) x = v.
Proof.
  revert i. induction c as [|o c IH]; intros i E; [now destruct i|]. destruct i as [|i].
  - cbn in E. subst o. reflexivity.
  - cbn [nth] in E. cbn [firstn]. unfold somes. cbn [flat_map]. fold (somes (firstn i c)). fold (somes c). destruct o; cbn [app length nth]; now apply IH.
Qed.
Lemma somes_rank {A} (c : list (option A)) i v : nth i c None = Some v -> (length (somes (firstn i c)) < length (somes c))%nat.
Proof.
  revert i. induction c as [|o c IH]; intros i E; [now destruct i|]. destruct i as [|i].
  - cbn in E. subst o. cbn. lia.
  - cbn [nth] in E. specialize (IH i E). cbn [firstn]. unfold somes in *. cbn [flat_map]. rewrite !app_length. lia.
Qed.
Lemma somes_le {A} (c : list (option A)) : (length (somes c) <= length c)%nat.
Proof. unfold somes. induction c as [|[v|] c IH]; cbn [flat_map app length]; lia. Qed.
Lemma nine_nth vs k : (k < length vs)%nat -> nth k (nine vs) 0 = nth k vs 0.
Proof. intros H. unfold nine. now rewrite app_nth1. Qed.
Lemma nine_length vs : (length vs <= 9)%nat -> length (nine vs) = 9%nat.
Proof. intros H. unfold nine. rewrite app_length, repeat_length. lia. Qed.
Lemma interop_of_high {A} (c : list (option A)) i : (length c <= i)%nat -> Z.testbit (fst (interop_of c 0)) (Z.of_nat i) = false.
Proof. intros H. change (Z.of_nat i) with (0 + Z.of_nat i). rewrite (interop_of_bits c 0 i) by lia. rewrite nth_overflow by assumption. reflexivity. Qed.

Lemma to_interop_at c i : (i < length c)%nat -> interop_at (to_interop c) i = nth i c None.
Proof.
  intros L. unfold to_interop, interop_at. pose proof (interop_of_somes c 0) as S. pose proof (fun k => interop_of_bits c 0 k ltac:(lia)) as B.
  destruct (interop_of c 0) as (m, vs). cbn [fst snd ic_valid ic_value] in *. subst vs. change (Z.of_nat i) with (0 + Z.of_nat i). rewrite B.
  destruct (nth i c None) as [v|] eqn:E; [|reflexivity]. cbn [is_some]. rewrite (rank c m B i) by lia.
  rewrite nine_nth by (eapply somes_rank; eauto). now rewrite (somes_nth c i v 0 E).
Qed.
Lemma to_interop_shape c : length c = 9%nat -> length (ic_value (to_interop c)) = 9%nat /\ forall i, (9 <= i)%nat -> Z.testbit (ic_valid (to_interop c)) (Z.of_nat i) = false.
Proof.
  intros L. unfold to_interop. pose proof (interop_of_somes c 0) as S. pose proof (fun i => interop_of_high c i) as B. destruct (interop_of c 0) as (m, vs).
  cbn [fst snd ic_valid ic_value] in *. subst vs. split; [apply nine_length; pose proof (somes_le c); lia|]. intros i Hi. apply B. lia.
Qed.
Lemma coord_nth_ext (c1 c2 : coord) : length c1 = length c2 -> (forall i, (i < length c1)%nat -> nth i c1 None = nth i c2 None) -> c1 = c2.
Proof. intros L H. apply (nth_ext c1 c2 None None L H). Qed.
Lemma coord_there_back c : length c = 9%nat -> from_interop (to_interop c) = c.
Proof.
  intros L. apply coord_nth_ext; rewrite from_interop_length; [congruence|]. intros i Hi. rewrite from_interop_at by assumption. apply to_interop_at. lia.
Qed.
Lemma coord_back_there ic i : (i < 9)%nat -> interop_at (to_interop (from_interop ic)) i = interop_at ic i.
Proof. intros Hi. rewrite to_interop_at by (rewrite from_interop_length; lia). now apply from_interop_at. Qed.

Lemma bounds_interop_at b i : (i < length b)%nat -> bounds_at (bounds_interop b) i = nth i b None.
Proof.
  intros L. unfold bounds_interop, bounds_at. pose proof (interop_of_somes b 0) as S. pose proof (fun k => interop_of_bits b 0 k ltac:(lia)) as B.
  destruct (interop_of b 0) as (m, vs). cbn [fst snd ib_valid ib_start ib_size] in *. subst vs. change (Z.of_nat i) with (0 + Z.of_nat i). rewrite B.
  destruct (nth i b None) as [(s, z)|] eqn:E; [|reflexivity]. cbn [is_some]. rewrite (rank b m B i) by lia.
  pose proof (somes_rank b i _ E) as R. rewrite !nine_nth by (rewrite map_length; exact R).
  rewrite (map_nth fst (somes b) (0, 0)), (map_nth snd (somes b) (0, 0)). rewrite (somes_nth b i _ (0, 0) E). reflexivity.
Qed.
Lemma bounds_interop_shape b : length b = 9%nat -> length (ib_start (bounds_interop b)) = 9%nat /\ length (ib_size (bounds_interop b)) = 9%nat /\
  forall i, (9 <= i)%nat -> Z.testbit (ib_valid (bounds_interop b)) (Z.of_nat i) = false.
Proof.
  intros L. unfold bounds_interop. pose proof (interop_of_somes b 0) as S. pose proof (fun i => interop_of_high b i) as B. destruct (interop_of b 0) as (m, vs).
  cbn [fst snd ib_valid ib_start ib_size] in *. subst vs. pose proof (somes_le b) as Q.
  split; [apply nine_length; rewrite map_length; lia|]. split; [apply nine_length; rewrite map_length; lia|]. intros i Hi. apply B. lia.
Qed.

(** ** Statistics *)
Lemma scenes_ex_eq avail : forall l i, scenes_ex avail i l = firstn (Z.to_nat (avail - i)) l.
Proof.
  induction l as [|s l IH]; intros i; cbn [scenes_ex]; [now rewrite firstn_nil|]. destruct (Z.ltb_spec i avail).
  - replace (Z.to_nat (avail - i)) with (S (Z.to_nat (avail - (i + 1)))) by lia. cbn [firstn]. now rewrite IH.
  - replace (Z.to_nat (avail - i)) with O by lia. reflexivity.
Qed.
Lemma stats_ex_ok avail s : length (st_dims s) = 9%nat -> Z.of_nat (length (st_scenes s)) <= INT_MAX ->
  let '(i, n) := stats_ex avail s in
  is_count i = st_count s /\ is_minm i = st_minm s /\ is_maxm i = st_maxm s /\ is_box i = st_box s /\ is_box0 i = st_box0 s /\
  (forall d, (d < 9)%nat -> bounds_at (is_dims i) d = nth d (st_dims s) None) /\
  (forall k, (k < length (is_scenes i))%nat -> nth_error (is_scenes i) k = nth_error (st_scenes s) k) /\
  Z.of_nat (length (is_scenes i)) = Z.min (match avail with Some a => Z.max 0 a | None => 0 end) (Z.of_nat (length (st_scenes s))) /\
  n = match avail with Some _ => Some (Z.of_nat (length (st_scenes s))) | None => None end.
Proof.
  intros L B. unfold stats_ex. cbn [is_count is_minm is_maxm is_box is_box0 is_dims is_scenes]. do 5 (split; [reflexivity|]).
  split; [intros d Hd; apply bounds_interop_at; lia|]. rewrite scenes_ex_eq. split; [|split].
  - intros k Hk. rewrite firstn_length in Hk. set (n := Z.to_nat _) in *. clearbody n. revert n k Hk. generalize (st_scenes s). intros l.
    induction l as [|x l IH]; intros n k Hk; [now rewrite firstn_nil|]. destruct n as [|n]; [cbn in Hk; lia|]. destruct k as [|k]; [reflexivity|].
    cbn [firstn nth_error length] in *. apply IH. lia.
  - rewrite firstn_length. destruct avail; lia.
  - destruct avail; [|reflexivity]. f_equal. apply s32_id. unfold in_i32, INT_MIN, INT_MAX in *. lia.
Qed.
Lemma stats_two_calls s : length (st_dims s) = 9%nat -> Z.of_nat (length (st_scenes s)) <= INT_MAX ->
  exists n, snd (stats_ex (Some 0) s) = Some n /\ is_scenes (fst (stats_ex (Some n) s)) = st_scenes s.
Proof.
  intros L B. exists (Z.of_nat (length (st_scenes s))). unfold stats_ex. cbn [snd fst is_scenes]. split.
  - f_equal. apply s32_id. unfold in_i32, INT_MIN, INT_MAX in *. lia.
  - rewrite scenes_ex_eq. apply firstn_all2. lia.
Qed.

(** ** Descriptions *)
Lemma info_told a ob : recorded a ob -> pixel_type_from_int (ia_pt a) <> PixInvalid -> in_i32 (ia_pw a) -> in_i32 (ia_ph a) -> in_i32 (ia_m a) ->
  told a (info_interop (rinfo_of (ob_entry ob))).
Proof.
  intros (C & L & M & X & Y & W & H & PW & PH & PT & _) N B1 B2 B3. unfold told, info_interop, rinfo_of.
  cbn [ri_comp ri_pt ri_coord ri_rect ri_pw ri_ph ri_m ii_comp ii_pt ii_coord ii_x ii_y ii_w ii_h ii_pw ii_ph ii_m rx ry rw rh].
  split; [intros d Hd; rewrite to_interop_at by lia; now apply C|].
  split.
  { rewrite PT. unfold pixel_enum. destruct (pixel_type_from_int (ia_pt a)) eqn:E; try congruence; rewrite <- E; now apply pix_int; rewrite E. }
  do 4 (split; [assumption|]). rewrite PW, PH. split; [now apply s32_u32|]. split; [now apply s32_u32|]. rewrite M. split.
  - intros V1 V2. replace (ia_mvalid a =? 0) with false by lia. unfold valid_m. destruct (Z.eqb_spec (ia_m a) INT_MIN) as [E|E].
    + rewrite E. rewrite andb_false_r. reflexivity.
    + replace (ia_m a =? INT_MAX) with false by lia. reflexivity.
  - intros V. replace (ia_mvalid a =? 0) with true by lia. reflexivity.
Qed.

(** ** Strings *)
Lemma is_cont_iff b : is_cont b = true <-> 128 <= b < 192.
Proof. unfold is_cont. lia. Qed.
Lemma back_off_cut s n : (n <= length s)%nat -> longest_cut s n (back_off s n).
Proof.
  induction n as [|n IH]; intros L; cbn [back_off].
  - split; [now left|]. split; [lia|]. split; [lia|]. intros j _ H _. exact H.
  - destruct (is_cont (nth (S n) s 0)) eqn:E.
    + destruct (IH ltac:(lia)) as (B & K1 & K2 & Mx). split; [exact B|]. split; [lia|]. split; [exact K2|]. intros j Bj Hj Lj.
      destruct (Nat.eq_dec j (S n)) as [->|]; [|apply Mx; trivial; lia]. exfalso. apply is_cont_iff in E.
      destruct Bj as [Q|[Q|(Q & W)]]; [lia| |tauto]. rewrite nth_overflow in E by lia. lia.
    + split; [|split; [lia|split; [lia|intros; assumption]]]. destruct (Nat.eq_dec (S n) (length s)) as [Q|Q]; [right; left; exact Q|].
      right; right. split; [lia|]. intros W. apply is_cont_iff in W. congruence.
Qed.
Lemma back_off_end s : back_off s (length s) = length s.
Proof. destruct (length s) eqn:E; [reflexivity|]. cbn [back_off]. rewrite nth_overflow by lia. reflexivity. Qed.
Lemma copy_truncate_ok s size : 0 < size -> exists k, longest_cut s (Z.to_nat (size - 1)) k /\
  fst (copy_truncate s size) = firstn k s ++ [0] /\ (snd (copy_truncate s size) = false <-> k = length s) /\ Z.of_nat (length (fst (copy_truncate s size))) <= size.
Proof.
  intros Hs. unfold copy_truncate. replace (size =? 0) with false by lia. destruct (Z.eqb_spec size 1) as [->|N1].
  - exists O. split; [split; [now left|split; [lia|split; [lia|intros j _ H _; exact H]]]|]. cbn [fst snd firstn app]. split; [reflexivity|].
    split; [|cbn; lia]. destruct s; cbn; [tauto|]. split; [discriminate|lia].
  - cbn [fst snd]. destruct (Z.ltb_spec (Z.of_nat (length s)) (size - 1)) as [Q|Q].
    + exists (length s). rewrite back_off_end. split.
      { split; [right; now left|]. split; [lia|]. split; [lia|]. intros j _ _ H. exact H. }
      split; [reflexivity|]. split; [|rewrite firstn_all, app_length; cbn; lia].
      replace (Z.of_nat (length s) <? Z.of_nat (length s)) with false by lia. replace (length s <? length s)%nat with false by lia. tauto.
    + set (n := Z.to_nat (size - 1)) in *. assert (Ln : (n <= length s)%nat) by lia. exists (back_off s n).
      pose proof (back_off_cut s n Ln) as C. split; [exact C|]. split; [reflexivity|]. destruct C as (_ & K1 & K2 & _). split.
      * split; intros F; [lia|]. lia.
      * rewrite app_length, firstn_length. cbn [length]. lia.
Qed.
Lemma overwrite_starts d junk : (length d <= length junk)%nat -> starts_with d junk (overwrite d junk).
Proof.
  intros L. unfold overwrite. split; [rewrite app_length, skipn_length; lia|]. split.
  - rewrite firstn_app, firstn_all, Nat.sub_diag, firstn_O. apply app_nil_r.
  - intros i Hi. rewrite app_nth2 by assumption. rewrite nth_skipn_add. f_equal. lia.
Qed.
Lemma name_interop_ok name junk : length junk = 255%nat -> exists k w, longest_cut name 254 k /\ w = firstn k name ++ [0] /\
  let '(field, over, full) := name_interop name junk in
  starts_with w junk field /\ (over = false <-> k = length name) /\ full = (if over then Some (name ++ [0]) else None).
Proof.
  intros L. destruct (copy_truncate_ok name 255 ltac:(lia)) as (k & C & E & T & B). exists k, (firstn k name ++ [0]). split; [exact C|]. split; [reflexivity|].
  unfold name_interop. destruct (copy_truncate name 255) as (w, o). cbn [fst snd] in *. subst w. split; [apply overwrite_starts; lia|]. split; [exact T|].
  destruct o; [|reflexivity]. destruct name as [|b l]; [|reflexivity]. exfalso. destruct C as (_ & _ & K & _). assert (k = length (@nil byte)) by (cbn in K |- *; lia).
  destruct T as (_ & T). specialize (T H). discriminate.
Qed.

(** ** Data *)
Lemma get_raw_ok data size d : 0 <= size <= Z.of_nat (length d) ->
  exists d', get_raw data size (Some d) = Ok (Z.of_nat (length data), Some d') /\
    starts_with (firstn (Z.to_nat size) data) d d'.
Proof.
  intros H. unfold get_raw. replace (Z.min size (Z.of_nat (length data)) <=? blen d) with true by (unfold blen; lia). eexists. split; [reflexivity|].
  replace (firstn (Z.to_nat (Z.min size (Z.of_nat (length data)))) data) with (firstn (Z.to_nat size) data).
  - apply overwrite_starts. rewrite firstn_length. lia.
  - destruct (Z.le_gt_cases size (Z.of_nat (length data))) as [Q|Q]; [f_equal; lia|]. rewrite !firstn_all2 by lia. reflexivity.
Qed.
Lemma get_raw_two_calls data junk : exists n, get_raw data junk None = Ok (n, None) /\
  forall d, Z.of_nat (length d) = n -> get_raw data n (Some d) = Ok (n, Some data).
Proof.
  exists (Z.of_nat (length data)). split; [reflexivity|]. intros d L. unfold get_raw. rewrite Z.min_id.
  replace (Z.of_nat (length data) <=? blen d) with true by (unfold blen; lia). rewrite Nat2Z.id, firstn_all. unfold overwrite.
  rewrite skipn_all2 by lia. now rewrite app_nil_r.
Qed.
Lemma metadata_xml_ok xml : xml <> [] -> exists m, metadata_xml xml = Ok (m, Z.of_nat (length xml)) /\
  firstn (length xml) m = xml /\ last m 1 = 0 /\ (length xml <= length m <= S (length xml))%nat /\ (length m = length xml <-> last xml 1 = 0).
Proof.
  intros N. destruct (exists_last N) as (l & b & ->). clear N. unfold metadata_xml. remember (l ++ [b]) as e eqn:E. destruct e as [|c r]; [now destruct l|]. rewrite E. clear E c r. rewrite !last_last.
  destruct (Z.eqb_spec b 0) as [->|B].
  - rewrite removelast_last. eexists. split; [reflexivity|]. rewrite firstn_all, last_last. split; [reflexivity|]. split; [reflexivity|]. split; [rewrite !app_length; cbn [length]; lia|tauto].
  - eexists. split; [reflexivity|]. rewrite firstn_app, firstn_all, Nat.sub_diag, firstn_O, app_nil_r, last_last. split; [reflexivity|].
    split; [reflexivity|]. rewrite !app_length. cbn [length]. split; [lia|]. split; [lia|intros Q; contradiction].
Qed.
Lemma available_dims_ok dims count dest : count = Z.of_nat (length dest) ->
  (Z.of_nat (length dims) < count -> exists d, available_dims dims count dest = Ok d /\ starts_with (dims ++ [0]) dest d) /\
  (count <= Z.of_nat (length dims) -> available_dims dims count dest = Throw).
Proof.
  intros ->. unfold available_dims. split; intros H.
  - replace (_ <? _) with false by lia. eexists. split; [reflexivity|]. apply overwrite_starts. change byte with Z. rewrite app_length. cbn [length]. lia.
  - replace (_ <? _) with true by lia. reflexivity.
Qed.

(** ** Bitmaps *)
Lemma copy_rows_ok b stride len : 0 <= len <= stride -> forall n y d, 0 <= y ->
  (forall r x, y <= r < y + Z.of_nat n -> 0 <= x < len -> copy_rows n y b stride len d (r * stride + x) = bm_mem b (r * bm_stride b + x)) /\
  (forall a, ~ (exists r x, y <= r < y + Z.of_nat n /\ 0 <= x < len /\ a = r * stride + x) -> copy_rows n y b stride len d a = d a).
Proof.
  intros L. induction n as [|n IH]; intros y d Hy; cbn [copy_rows].
  - split; [intros; lia|reflexivity].
  - destruct (IH (y + 1) (copy_row (bm_mem b) (y * bm_stride b) d (y * stride) len) ltac:(lia)) as (I1 & I2). split.
    + intros r x Hr Hx. destruct (Z.eq_dec r y) as [->|Nr].
      * rewrite I2.
        -- unfold copy_row. replace ((y * stride <=? y * stride + x) && (y * stride + x <? y * stride + len)) with true by lia. f_equal. lia.
        -- intros (r' & x' & Hr' & Hx' & E). assert ((r' - y) * stride >= 1 * stride) by (apply Z.le_ge, Z.mul_le_mono_nonneg_r; lia). nia.
      * apply I1; lia.
    + intros a Ha. rewrite I2.
      * unfold copy_row. destruct ((y * stride <=? a) && (a <? y * stride + len)) eqn:E; [|reflexivity]. exfalso. apply Ha.
        exists y, (a - y * stride). lia.
      * intros (r & x & Hr & Hx & E). apply Ha. exists r, x. lia.
Qed.
Lemma pixel_enum_inj p q : pixel_enum p = pixel_enum q -> p = q.
Proof. destruct p, q; cbn; intros E; try reflexivity; discriminate. Qed.
Lemma bitmap_copy_ok b w h pt stride d bpp : w = bm_w b -> h = bm_h b -> pt = pixel_enum (bm_pt b) -> bytes_per_pel (bm_pt b) = Ok bpp -> 0 <= w -> 0 <= h -> w * bpp <= stride ->
  exists d', bitmap_copy_to b w h pt stride d = Ok d' /\
    (forall y x, 0 <= y < h -> 0 <= x < w * bpp -> d' (y * stride + x) = bm_mem b (y * bm_stride b + x)) /\
    (forall a, ~ (exists y x, 0 <= y < h /\ 0 <= x < w * bpp /\ a = y * stride + x) -> d' a = d a).
Proof.
  intros Ew Eh Ep Eb W H S. unfold bitmap_copy_to. subst w h pt. rewrite !Z.eqb_refl. cbn [negb orb]. rewrite Eb. cbn [bind].
  replace (bpp * bm_w b) with (bm_w b * bpp) by lia. replace (stride <? bm_w b * bpp) with false by lia. eexists. split; [reflexivity|].
  assert (B : 0 < bpp) by (destruct (bm_pt b); cbn in Eb; try discriminate; injection Eb as <-; lia).
  assert (0 <= bm_w b * bpp) by (apply Z.mul_nonneg_nonneg; lia).
  destruct (copy_rows_ok b stride (bm_w b * bpp) ltac:(lia) (Z.to_nat (bm_h b)) 0 d ltac:(lia)) as (I1 & I2). split.
  - intros y x Hy Hx. apply I1; lia.
  - intros a Ha. apply I2. intros (r & x & Hr & Hx & E). apply Ha. exists r, x. lia.
Qed.
Lemma bitmap_copy_refuses b w h pt stride d bpp : bytes_per_pel (bm_pt b) = Ok bpp ->
  w <> bm_w b \/ h <> bm_h b \/ pt <> pixel_enum (bm_pt b) \/ stride < w * bpp -> bitmap_copy_to b w h pt stride d = Throw.
Proof.
  intros Eb H. unfold bitmap_copy_to. destruct (negb (w =? bm_w b) || negb (h =? bm_h b)) eqn:E1; [reflexivity|].
  destruct (negb (pixel_enum (bm_pt b) =? pt)) eqn:E2; [reflexivity|]. rewrite Eb. cbn [bind]. replace (stride <? bpp * w) with true by lia. reflexivity.
Qed.

Lemma bstep_inv n o n' a : bstep (Some n) o = (Some n', a) -> n' = n + held [o] [a].
Proof.
  destruct o; cbn [bstep].
  - intros E. assert (n' = n + 1 /\ a = BOk) by (split; congruence). destruct H as (-> & ->). reflexivity.
  - destruct (1 <=? n); intros E; injection E as <- <-; cbn; lia.
  - intros E; injection E as <- <-; cbn; lia.
  - destruct (n =? 0); intros E; [discriminate|]; injection E as <- <-; cbn; lia.
Qed.
Lemma held_step o a ops ans : held (o :: ops) (a :: ans) = held [o] [a] + held ops ans.
Proof. destruct o, a; cbn [held]; lia. Qed.
Lemma brun_app s ops1 ops2 : snd (brun s (ops1 ++ ops2)) = snd (brun s ops1) ++ snd (brun (fst (brun s ops1)) ops2).
Proof.
  revert s. induction ops1 as [|o ops1 IH]; intros s; [reflexivity|]. cbn [app brun]. destruct (bstep s o) as (s1, a). specialize (IH s1).
  destruct (brun s1 (ops1 ++ ops2)) as (s2, l). destruct (brun s1 ops1) as (s3, l3). cbn [fst snd app] in *. now rewrite IH.
Qed.
Lemma brun_length s ops : length (snd (brun s ops)) = length ops.
Proof.
  revert s. induction ops as [|o ops IH]; intros s; [reflexivity|]. cbn [brun]. destruct (bstep s o) as (s1, a). specialize (IH s1).
  destruct (brun s1 ops) as (s2, l). cbn [snd length] in *. now rewrite IH.
Qed.
Lemma brun_alive ops : forall n, 0 <= n -> ~ released ops (snd (brun (Some n) ops)) ->
  fst (brun (Some n) ops) = Some (n + held ops (snd (brun (Some n) ops))) /\ 0 <= n + held ops (snd (brun (Some n) ops)).
Proof.
  induction ops as [|o ops IH]; intros n Hn A.
  - cbn. split; [f_equal; lia|lia].
  - cbn [brun] in *. destruct (bstep (Some n) o) as (s1, a) eqn:E.
    destruct s1 as [n1|].
    + pose proof (bstep_inv _ _ _ _ E) as N1. assert (0 <= n1).
      { destruct o; cbn [bstep] in E; [|destruct (Z.leb_spec 1 n)| |destruct (n =? 0); [discriminate|]]; injection E as <- <-; lia. }
      specialize (IH n1 H). destruct (brun (Some n1) ops) as (s2, l). cbn [fst snd] in *. rewrite held_step.
      assert (A2 : ~ released ops l) by (intros (i & I1 & I2); apply A; exists (S i); split; assumption). destruct (IH A2) as (I1 & I2).
      replace (n + (held [o] [a] + held ops l)) with (n1 + held ops l) by lia. split; assumption.
    + exfalso. destruct o; cbn [bstep] in E; [|destruct (1 <=? n)| |destruct (n =? 0) eqn:Q]; try discriminate. injection E as <-.
      destruct (brun None ops) as (s2, l). apply A. exists O. split; reflexivity.
Qed.
Lemma lock_history pre o post : let ans := snd (brun (Some 0) pre) in ~ released pre ans ->
  0 <= held pre ans /\
  nth_error (snd (brun (Some 0) (pre ++ o :: post))) (length pre) =
  Some (match o with
        | BLock | BCopy => BOk
        | BUnlock => if 0 <? held pre ans then BOk else BViolated
        | BRelease => if held pre ans =? 0 then BOk else BViolated
        end).
Proof.
  intros ans A. destruct (brun_alive pre 0 ltac:(lia) A) as (E & N). fold ans in E, N. rewrite Z.add_0_l in E, N. split; [exact N|].
  rewrite brun_app. rewrite nth_error_app2 by (rewrite brun_length; lia). rewrite brun_length, Nat.sub_diag. fold ans. rewrite E. cbn [brun].
  destruct (bstep (Some (held pre ans)) o) as (s1, a) eqn:B. destruct (brun s1 post) as (s2, l). cbn [snd nth_error]. f_equal.
  destruct o; cbn [bstep] in B.
  - congruence.
  - destruct (Z.leb_spec 1 (held pre ans)); replace (0 <? held pre ans) with (1 <=? held pre ans) by lia.
    + replace (1 <=? held pre ans) with true by lia. congruence.
    + replace (1 <=? held pre ans) with false by lia. congruence.
  - congruence.
  - destruct (held pre ans =? 0); congruence.
Qed.

(** ** Examples *)
Definition ex_stats : stats := mkStats 3 0 1 (mkRect 0 0 9 9) (mkRect 0 0 8 8) [None; None; None; None; Some (0, 2); None; None; None; None]
  [(0, (mkRect 0 0 4 4, mkRect 0 0 3 3)); (1, (mkRect 5 5 4 4, mkRect 5 5 3 3))].
Definition ex_bm : ibitmap := mkBm 2 2 Bgr24 8 (fun a => a).
