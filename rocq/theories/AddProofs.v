(** Proofs about handing over pictures. *)
From Coq Require Import Permutation.
From Verif Require Import Base CodesModel CodecModel CodecProofs WriterModel WriterProofs WriterSpec WriterMain ZstdModel ZstdProofs AddModel AddSpec.

Definition got (vs : list (option bytes)) : bytes := flat_map (fun o => match o with Some b => b | None => [] end) vs.

Lemma slice_len {A} (d : list A) off n : (off + n <= length d)%nat -> length (slice d off n) = n.
Proof. intros H. unfold slice. rewrite firstn_length, skipn_length. lia. Qed.
Lemma slice_nth {A} (x : A) d off n k : (k < n)%nat -> nth k (slice d off n) x = nth (off + k) d x.
Proof. intros H. unfold slice. rewrite nth_firstn_lt by assumption. apply nth_skipn_add. Qed.

Lemma view_ok d off n : 0 <= off -> off + n <= blen d -> view (Some d) off n = Ok (Some (slice d (Z.to_nat off) (Z.to_nat n))).
Proof. intros H1 H2. unfold view. replace ((0 <=? off) && (off + n <=? blen d)) with true by lia. reflexivity. Qed.

Lemma views_ok d n : forall offs, Forall (fun o => 0 <= o /\ o + n <= blen d) offs ->
  views (Some d) offs n = Ok (map (fun o => Some (slice d (Z.to_nat o) (Z.to_nat n))) offs).
Proof.
  induction 1 as [|o os (H1 & H2) _ IH]; [reflexivity|]. cbn [views map]. rewrite view_ok by assumption. cbn [bind].
  rewrite IH. reflexivity.
Qed.

Lemma upto_in h y : In y (upto h) <-> 0 <= y < h.
Proof.
  unfold upto. rewrite in_map_iff. split.
  - intros (k & <- & I). apply in_seq in I. lia.
  - intros H. exists (Z.to_nat y). rewrite in_seq. lia.
Qed.

(** equal pieces in a row *)
Lemma got_nth (f : Z -> bytes) (l : nat) n : (forall k, (k < n)%nat -> length (f (Z.of_nat k)) = l) -> forall s,
  (forall k, (s <= k < s + n)%nat -> length (f (Z.of_nat k)) = l) -> forall i j, (i < n)%nat -> (j < l)%nat ->
  nth (i * l + j) (got (map (fun y => Some (f y)) (map Z.of_nat (seq s n)))) 0 = nth j (f (Z.of_nat (s + i))) 0.
Proof.
  intros _. induction n as [|n IH]; intros s H i j Hi Hj; [lia|]. cbn [seq map]. unfold got. cbn [flat_map].
  fold (got (map (fun y => Some (f y)) (map Z.of_nat (seq (S s) n)))).
  assert (L : length (f (Z.of_nat s)) = l) by (apply H; lia).
  destruct i as [|i].
  - rewrite app_nth1 by (cbn; lia). rewrite Nat.add_0_r. reflexivity.
  - rewrite app_nth2 by (cbn; lia). replace (S i * l + j - length (f (Z.of_nat s)))%nat with (i * l + j)%nat by (cbn; lia).
    rewrite IH; [|intros k Hk; apply H; lia|lia|assumption]. f_equal. f_equal. lia.
Qed.
Lemma got_len (f : Z -> bytes) (l : nat) n : forall s, (forall k, (s <= k < s + n)%nat -> length (f (Z.of_nat k)) = l) ->
  length (got (map (fun y => Some (f y)) (map Z.of_nat (seq s n)))) = (n * l)%nat.
Proof.
  induction n as [|n IH]; intros s H; [reflexivity|]. cbn [seq map]. unfold got. cbn [flat_map].
  fold (got (map (fun y => Some (f y)) (map Z.of_nat (seq (S s) n)))). rewrite app_length, IH by (intros k Hk; apply H; lia).
  rewrite H by lia. lia.
Qed.
Lemma no_null {A} (f : A -> bytes) l : ~ In None (map (fun y => Some (f y)) l).
Proof. intros I. apply in_map_iff in I. destruct I as (? & E & _). discriminate. Qed.

(** a source made of [h] rows of [l] bytes delivers the picture with these rows *)
Lemma rows_source (f : Z -> bytes) l h g : 0 < l -> 0 < h -> h * l < 2 ^ 64 -> (forall y, 0 <= y < h -> Z.of_nat (length (f y)) = l) ->
  (forall i, 0 <= i < h * l -> g i = nth (Z.to_nat (i mod l)) (f (i / l)) 0) ->
  let s := mkSrc (u64 (h * l)) (map (fun y => Some (f y)) (upto h)) in
  WriterSpec.source_ok s /\ Z.of_nat (length (src_bytes s)) = h * l /\ forall i, 0 <= i < h * l -> padded (src_bytes s) i = g i.
Proof.
  intros Hl Hh Hb Hf Hg s.
  assert (LF : forall k, (0 <= k < 0 + Z.to_nat h)%nat -> length (f (Z.of_nat k)) = Z.to_nat l).
  { intros k Hk. specialize (Hf (Z.of_nat k) ltac:(lia)). lia. }
  assert (LG : length (got (src_chunks s)) = (Z.to_nat h * Z.to_nat l)%nat) by (apply got_len; exact LF).
  assert (P : 0 < h * l) by (apply Z.mul_pos_pos; lia).
  assert (US : src_size s = h * l) by (cbn [src_size s]; unfold u64; apply Z.mod_small; lia).
  assert (NL : (Z.to_nat h * Z.to_nat l)%nat = Z.to_nat (h * l)) by (rewrite Z2Nat.inj_mul; lia).
  assert (SB : src_bytes s = got (src_chunks s)).
  { unfold src_bytes. fold (got (src_chunks s)). rewrite US. apply firstn_all2. rewrite LG, NL. lia. }
  split; [|split].
  - split; [|apply no_null]. fold (got (src_chunks s)). rewrite US, LG, NL. lia.
  - rewrite SB, LG, NL. lia.
  - intros i Hi. rewrite Hg by assumption. unfold padded. rewrite SB.
    pose proof (Z.div_mod i l ltac:(lia)) as D. pose proof (Z.mod_pos_bound i l Hl) as M.
    assert (Q : 0 <= i / l < h) by (split; [apply Z.div_pos; lia|apply Z.div_lt_upper_bound; lia]).
    replace (Z.to_nat i) with (Z.to_nat (i / l) * Z.to_nat l + Z.to_nat (i mod l))%nat
      by (rewrite <- Z2Nat.inj_mul by lia; rewrite <- Z2Nat.inj_add; [f_equal; lia| |lia]; apply Z.mul_nonneg_nonneg; lia).
    cbn [src_chunks s]. unfold upto. rewrite (got_nth f (Z.to_nat l) (Z.to_nat h) (fun k Hk => LF k ltac:(lia)) 0 LF); [|lia|lia].
    rewrite Nat.add_0_l, Z2Nat.id by lia. reflexivity.
Qed.

Lemma rows_decode s pt bpp w h g : bytes_per_pel pt = Ok bpp -> 0 < w -> 0 < h -> w * bpp + 3 < 2 ^ 32 -> h * (w * bpp + 3) < 2 ^ 64 ->
  (forall i, 0 <= i < h * (w * bpp) -> padded (src_bytes s) i = g i) -> decodes_to (src_bytes s) pt bpp w h g.
Proof.
  intros Eb W H L1 L2 G junk. destruct (uncompressed_ok (src_bytes s) pt bpp w h junk Eb W H L1 L2) as (b & E & Sh).
  exists b. split; [exact E|]. destruct b as ((st, z), m). destruct Sh as (S1 & S2 & S3). split; [exact S1|]. split; [exact S2|].
  intros y x Hy Hx. rewrite S3 by assumption. apply G. pose proof (bpp_pos _ _ Eb). split; [|].
  - apply Z.add_nonneg_nonneg; [apply Z.mul_nonneg_nonneg; lia|lia].
  - assert (y * (w * bpp) <= (h - 1) * (w * bpp)) by (apply Z.mul_le_mono_nonneg_r; lia). lia.
Qed.

(** ** Pictures given with a stride *)
Lemma row_ends y h stride line n : 0 <= y < h -> 0 <= stride -> (h - 1) * stride + line <= n -> 0 <= y * stride /\ y * stride + line <= n.
Proof. intros H1 H2 H3. split; [apply Z.mul_nonneg_nonneg; lia|]. assert (y * stride <= (h - 1) * stride) by (apply Z.mul_le_mono_nonneg_r; lia). lia. Qed.

Lemma strided_ok d stride pt bpp w h : picture_ok d stride pt bpp w h ->
  exists s, strided (Some d) stride pt w h = Ok s /\ WriterSpec.source_ok s /\ src_size s = h * (w * bpp) /\
    decodes_to (src_bytes s) pt bpp w h (given_byte d stride (w * bpp)).
Proof.
  intros (Eb & W & H & ST & L1 & L2 & LD). pose proof (bpp_pos _ _ Eb) as B. unfold strided. rewrite Eb. cbn [bind].
  replace ((w <? 0) || (h <? 0)) with false by lia.
  assert (WB : 0 < w * bpp) by (apply Z.mul_pos_pos; lia).
  assert (HB : h * (w * bpp) < 2 ^ 64) by (rewrite Z.mul_add_distr_l in L2; lia).
  rewrite views_ok.
  2:{ apply Forall_forall. intros o I. apply in_map_iff in I. destruct I as (y & <- & I). apply upto_in in I.
      apply (row_ends y h); assumption. }
  cbn [bind]. rewrite map_map.
  set (f := fun y => slice d (Z.to_nat (y * stride)) (Z.to_nat (w * bpp))).
  destruct (rows_source f (w * bpp) h (given_byte d stride (w * bpp)) WB H HB) as (S1 & S2 & S3).
  - intros y Hy. pose proof (row_ends y h stride (w * bpp) _ Hy ST LD). unfold f. rewrite slice_len; lia.
  - intros i Hi. unfold given_byte, f. pose proof (Z.mod_pos_bound i _ WB) as M.
    assert (Q : 0 <= i / (w * bpp) < h) by (split; [apply Z.div_pos; lia|apply Z.div_lt_upper_bound; lia]).
    rewrite slice_nth by lia. f_equal. rewrite Z2Nat.inj_add; [reflexivity|apply Z.mul_nonneg_nonneg; lia|lia].
  - exists (mkSrc (u64 (h * (w * bpp))) (map (fun y => Some (f y)) (upto h))). split; [reflexivity|]. split; [exact S1|].
    split; [cbn [src_size]; unfold u64; apply Z.mod_small; lia|]. apply rows_decode; assumption.
Qed.

Lemma lines_views_ok lines n : forall ys, Forall (fun y => exists d, lines y = Some d /\ n <= blen d) ys -> 0 <= n ->
  line_views lines ys n = Ok (map (fun y => Some (match lines y with Some d => slice d 0 (Z.to_nat n) | None => [] end)) ys).
Proof.
  intros ys F Hn. induction F as [|y ys (d & E & L) _ IH]; [reflexivity|]. cbn [line_views map]. rewrite E, view_ok by lia.
  cbn [bind]. rewrite IH. reflexivity.
Qed.

Lemma linewise_ok lines pt bpp w h : lines_ok lines pt bpp w h ->
  exists s, linewise lines pt w h = Ok s /\ WriterSpec.source_ok s /\ src_size s = h * (w * bpp) /\
    decodes_to (src_bytes s) pt bpp w h (line_byte lines (w * bpp)).
Proof.
  intros (Eb & W & H & L1 & L2 & LD). pose proof (bpp_pos _ _ Eb) as B. unfold linewise. rewrite Eb. cbn [bind].
  replace ((w <? 0) || (h <? 0)) with false by lia.
  assert (WB : 0 < w * bpp) by (apply Z.mul_pos_pos; lia).
  assert (HB : h * (w * bpp) < 2 ^ 64) by (rewrite Z.mul_add_distr_l in L2; lia).
  rewrite lines_views_ok; [|apply Forall_forall; intros y I; apply upto_in in I; apply LD; lia|lia].
  cbn [bind].
  set (f := fun y => match lines y with Some d => slice d 0 (Z.to_nat (w * bpp)) | None => [] end).
  destruct (rows_source f (w * bpp) h (line_byte lines (w * bpp)) WB H HB) as (S1 & S2 & S3).
  - intros y Hy. destruct (LD y Hy) as (d & E & L). unfold f. rewrite E, slice_len; lia.
  - intros i Hi. unfold line_byte, f. pose proof (Z.mod_pos_bound i _ WB) as M.
    assert (Q : 0 <= i / (w * bpp) < h) by (split; [apply Z.div_pos; lia|apply Z.div_lt_upper_bound; lia]).
    destruct (LD _ Q) as (d & E & L). rewrite E, slice_nth by lia. reflexivity.
  - exists (mkSrc (u64 (h * (w * bpp))) (map (fun y => Some (f y)) (upto h))). split; [reflexivity|]. split; [exact S1|].
    split; [cbn [src_size]; unfold u64; apply Z.mod_small; lia|]. apply rows_decode; assumption.
Qed.

(** the editor, for pictures without padding and of less than 4 GiB *)
Lemma strided_edit_ok d pt bpp w h : picture_ok d (w * bpp) pt bpp w h -> h * (w * bpp) < 2 ^ 32 ->
  strided_edit (Some d) (w * bpp) w h = strided (Some d) (w * bpp) pt w h.
Proof.
  intros (Eb & W & H & ST & L1 & L2 & LD) LE. unfold strided_edit, strided. rewrite Eb. cbn [bind].
  replace ((w <? 0) || (h <? 0)) with false by lia.
  replace (map (fun y => u32 (y * (w * bpp))) (upto h)) with (map (fun y => y * (w * bpp)) (upto h)); [reflexivity|].
  apply map_ext_in. intros y I. apply upto_in in I. unfold u32. symmetry. apply Z.mod_small.
  destruct (row_ends y h (w * bpp) (w * bpp) _ I ST LD) as (P & _). split; [exact P|].
  assert (y * (w * bpp) <= h * (w * bpp)) by (apply Z.mul_le_mono_nonneg_r; lia). lia.
Qed.
Lemma linewise_edit_ok lines pt bpp w h : lines_ok lines pt bpp w h -> w * bpp <= INT_MAX ->
  linewise_edit lines pt w h = linewise lines pt w h.
Proof.
  intros (Eb & W & H & _) L. pose proof (bpp_pos _ _ Eb) as B. unfold linewise_edit. rewrite Eb. cbn [bind].
  replace ((w <? 0) || (h <? 0)) with false by lia.
  assert (WB : 0 < w * bpp) by (apply Z.mul_pos_pos; lia). unfold in_i32b, INT_MIN. unfold INT_MAX in L |- *.
  replace (negb _) with false by lia. reflexivity.
Qed.

(** ** A session *)
Lemma in_perm_map {A B C} (f : A -> C) (g : B -> C) la lb b : Permutation (map f la) (map g lb) -> In b lb -> exists a, In a la /\ f a = g b.
Proof.
  intros P I. assert (J : In (g b) (map f la)) by (eapply Permutation_in; [apply Permutation_sym; exact P|apply in_map; exact I]).
  apply in_map_iff in J. destruct J as (a & E & J). now exists a.
Qed.

Lemma session_finds m0 strict po i ops ws rs r a :
  session i ops = (ws, rs, r) -> creation_ok i -> Forall (request_ok INT_MAX) ops ->
  file_size ws < 2 ^ 63 -> Z.of_nat (length ops) <= INT_MAX -> In a (added ops rs) ->
  r = Ok tt /\ exists o e, open_file strict po (file_of m0 ws) = Ok o /\ In e (op_dir o) /\ observe strict (file_of m0 ws) e = Ok (expected a).
Proof.
  intros Hs Hc Hr Hf Hl Ha.
  assert (N : added ops rs <> []) by (intros E; rewrite E in Ha; destruct Ha).
  destruct (session_roundtrip m0 strict po i ops ws rs r Hs Hc Hr Hf Hl (or_intror N)) as (R & o & O & _ & P).
  split; [exact R|]. destruct (in_perm_map _ _ _ _ a P Ha) as (e & I & E). exists o, e. repeat split; assumption.
Qed.

Lemma session_strided m0 strict po i ops ws rs r a d stride pt bpp w h :
  session i ops = (ws, rs, r) -> creation_ok i -> Forall (request_ok INT_MAX) ops ->
  file_size ws < 2 ^ 63 -> Z.of_nat (length ops) <= INT_MAX -> In a (added ops rs) ->
  picture_ok d stride pt bpp w h -> strided (Some d) stride pt w h = Ok (ai_data a) ->
  r = Ok tt /\ exists o e ob, open_file strict po (file_of m0 ws) = Ok o /\ In e (op_dir o) /\
    observe strict (file_of m0 ws) e = Ok ob /\ decodes_to (ob_data ob) pt bpp w h (given_byte d stride (w * bpp)).
Proof.
  intros Hs Hc Hr Hf Hl Ha Hp Es. destruct (session_finds m0 strict po i ops ws rs r a Hs Hc Hr Hf Hl Ha) as (R & o & e & O & I & E).
  split; [exact R|]. exists o, e, (expected a). split; [exact O|]. split; [exact I|]. split; [exact E|].
  destruct (strided_ok d stride pt bpp w h Hp) as (s & E2 & _ & _ & D). rewrite Es in E2. injection E2 as E2. cbn [ob_data expected]. rewrite E2. exact D.
Qed.

(** ** The C API *)
Lemma coord_of_interop_nth c : forall n i k j, (j < n)%nat ->
  nth j (coord_of_interop n (Z.of_nat i) k c) None =
  if Z.testbit (ic_valid c) (Z.of_nat (i + j)) then Some (nth (k + length (filter (fun b => Z.testbit (ic_valid c) (Z.of_nat b)) (seq i j))) (ic_value c) 0) else None.
Proof.
  induction n as [|n IH]; intros i k j Hj; [lia|]. cbn [coord_of_interop].
  replace (Z.of_nat i + 1) with (Z.of_nat (S i)) by lia.
  destruct j as [|j].
  - rewrite Nat.add_0_r. cbn [seq filter length]. rewrite Nat.add_0_r. now destruct (Z.testbit (ic_valid c) (Z.of_nat i)).
  - cbn [seq filter]. replace (i + S j)%nat with (S i + j)%nat by lia.
    destruct (Z.testbit (ic_valid c) (Z.of_nat i)); cbn [nth length]; rewrite IH by lia; [|reflexivity].
    destruct (Z.testbit (ic_valid c) (Z.of_nat (S i + j))); [|reflexivity]. do 2 f_equal. lia.
Qed.
Lemma coord_of_interop_length c : forall n i k, length (coord_of_interop n i k c) = n.
Proof. induction n as [|n IH]; intros i k; [reflexivity|]. cbn [coord_of_interop]. destruct (Z.testbit _ _); cbn [length]; now rewrite IH. Qed.
Lemma from_interop_at c i : (i < 9)%nat -> nth i (from_interop c) None = interop_at c i.
Proof. intros H. exact (coord_of_interop_nth c 9 0 0 i H). Qed.
Lemma from_interop_length c : length (from_interop c) = 9%nat.
Proof. apply coord_of_interop_length. Qed.

Lemma one_piece_ok d n : 0 <= n <= blen d -> exists s, one_piece (Some d) n = Ok s /\ WriterSpec.source_ok s /\ src_size s = n /\ src_bytes s = firstn (Z.to_nat n) d.
Proof.
  intros H. unfold one_piece. destruct (Z.eqb_spec n 0) as [->|N].
  - exists (mkSrc 0 []). split; [reflexivity|]. split; [split; [cbn; lia|intros []]|]. split; reflexivity.
  - rewrite view_ok by lia. cbn [bind]. exists (mkSrc n [Some (slice d 0 (Z.to_nat n))]). split; [reflexivity|].
    assert (L : length (slice d 0 (Z.to_nat n)) = Z.to_nat n) by (apply slice_len; unfold blen in H; lia).
    split; [|split; [reflexivity|]].
    + split; [cbn [flat_map src_chunks src_size]; rewrite app_nil_r, L; lia|]. intros [E|[]]. discriminate.
    + unfold src_bytes. cbn [src_size src_chunks flat_map]. rewrite app_nil_r, firstn_all2 by lia. reflexivity.
Qed.
Lemma one_piece_none n : n = 0 -> forall b, one_piece b n = Ok (mkSrc 0 []).
Proof. intros -> b. reflexivity. Qed.
Lemma part_ok b n : part_given b n -> exists s, one_piece b n = Ok s /\ WriterSpec.source_ok s /\ src_size s = n /\ src_bytes s = part_bytes b n.
Proof.
  intros [->|(d & -> & H)].
  - exists (mkSrc 0 []). rewrite one_piece_none by reflexivity. split; [reflexivity|]. split; [split; [cbn; lia|intros []]|]. split; [reflexivity|]. destruct b; reflexivity.
  - destruct (one_piece_ok d n H) as (s & E & Hs). exists s. split; [exact E|]. exact Hs.
Qed.

Lemma pix_int pt : pixel_type_from_int pt <> PixInvalid -> int_from_pixel_type (pixel_type_from_int pt) = pt.
Proof. intros N. destruct codes_round_trip as (_ & _ & _ & H & _). destruct (H pt); congruence. Qed.

Lemma capi_described a a' : capi_add a = Ok a' -> pixel_type_from_int (ia_pt a) <> PixInvalid ->
  recorded a (expected a').
Proof.
  intros E N. unfold capi_add in E.
  destruct (match compression_from_int (ia_comp a) with UnCompressed => _ | _ => _ end) as [data| | |]; cbn [bind] in E; [|discriminate..].
  destruct (one_piece (ia_meta a) (ia_msize a)) as [meta| | |]; cbn [bind] in E; [|discriminate..].
  destruct (one_piece (ia_att a) (ia_asize a)) as [att| | |]; cbn [bind] in E; [|discriminate..].
  assert (A : a' = mkAdd (fill_out a) (negb (ia_mvalid a =? 0)) meta data att) by congruence. subst a'. clear E.
  unfold recorded. cbn [expected ai_e ai_mv ob_entry ob_info]. unfold fill_out, with_pos, with_m.
  cbn [e_coord e_m e_x e_y e_w e_h e_sw e_sh e_pt e_pos e_comp e_pyr].
  split; [intros i Hi; now apply from_interop_at|]. split; [apply from_interop_length|].
  split; [destruct (ia_mvalid a =? 0); reflexivity|]. rewrite (pix_int _ N). repeat split; reflexivity.
Qed.

Lemma capi_parts a a' : capi_add a = Ok a' -> part_given (ia_meta a) (ia_msize a) -> part_given (ia_att a) (ia_asize a) ->
  ob_meta (expected a') = part_bytes (ia_meta a) (ia_msize a) /\ ob_att (expected a') = part_bytes (ia_att a) (ia_asize a).
Proof.
  intros E PM PA. unfold capi_add in E.
  destruct (match compression_from_int (ia_comp a) with UnCompressed => _ | _ => _ end) as [data| | |]; cbn [bind] in E; [|discriminate..].
  destruct (part_ok _ _ PM) as (m & Em & _ & _ & Bm). destruct (part_ok _ _ PA) as (t & Et & _ & _ & Bt).
  rewrite Em, Et in E. cbn [bind] in E.
  assert (A : a' = mkAdd (fill_out a) (negb (ia_mvalid a =? 0)) m data t) by congruence. subst a'. cbn [expected ob_meta ob_att ai_meta ai_att].
  split; assumption.
Qed.

Lemma capi_picture a d bpp : ia_comp a = 0 -> ia_data a = Some d -> picture_ok d (ia_stride a) (pixel_type_from_int (ia_pt a)) bpp (ia_pw a) (ia_ph a) ->
  part_given (ia_meta a) (ia_msize a) -> part_given (ia_att a) (ia_asize a) ->
  exists a', capi_add a = Ok a' /\
    decodes_to (ob_data (expected a')) (pixel_type_from_int (ia_pt a)) bpp (ia_pw a) (ia_ph a) (given_byte d (ia_stride a) (ia_pw a * bpp)) /\
    e_comp (ob_entry (expected a')) = 0 /\ e_comp (ob_info (expected a')) = 0.
Proof.
  intros C D P PM PA. unfold capi_add. rewrite C, D. cbn [compression_from_int].
  destruct (strided_ok d _ _ _ _ _ P) as (s & E & _ & _ & Dec). rewrite E. cbn [bind].
  destruct (part_ok _ _ PM) as (m & Em & _). destruct (part_ok _ _ PA) as (t & Et & _). rewrite Em, Et. cbn [bind].
  eexists. split; [reflexivity|]. cbn [expected ob_data ai_data]. split; [exact Dec|]. split; reflexivity.
Qed.
Lemma capi_compressed a d : compression_from_int (ia_comp a) <> UnCompressed -> ia_data a = Some d -> 0 <= ia_size a <= Z.of_nat (length d) ->
  part_given (ia_meta a) (ia_msize a) -> part_given (ia_att a) (ia_asize a) ->
  exists a', capi_add a = Ok a' /\ ob_data (expected a') = firstn (Z.to_nat (ia_size a)) d.
Proof.
  intros C D H PM PA. unfold capi_add. rewrite D.
  destruct (one_piece_ok d (ia_size a) H) as (s & E & _ & _ & B).
  destruct (part_ok _ _ PM) as (m & Em & _). destruct (part_ok _ _ PA) as (t & Et & _). rewrite Em, Et, E.
  destruct (compression_from_int (ia_comp a)); [congruence|..]; cbn [bind]; eexists; (split; [reflexivity|exact B]).
Qed.
Lemma capi_compression_lost a a' : capi_add a = Ok a' -> e_comp (ob_entry (expected a')) = 0 /\ e_comp (ob_info (expected a')) = 0.
Proof.
  intros E. unfold capi_add in E.
  destruct (match compression_from_int (ia_comp a) with UnCompressed => _ | _ => _ end) as [data| | |]; cbn [bind] in E; [|discriminate..].
  destruct (one_piece (ia_meta a) (ia_msize a)) as [meta| | |]; cbn [bind] in E; [|discriminate..].
  destruct (one_piece (ia_att a) (ia_asize a)) as [att| | |]; cbn [bind] in E; [|discriminate..].
  assert (A : a' = mkAdd (fill_out a) (negb (ia_mvalid a =? 0)) meta data att) by congruence. subst a'. split; reflexivity.
Qed.

(** from the C API through the file to the reader *)
Lemma capi_session m0 strict po i ops ws rs r a a' :
  session i ops = (ws, rs, r) -> creation_ok i -> Forall (request_ok INT_MAX) ops ->
  file_size ws < 2 ^ 63 -> Z.of_nat (length ops) <= INT_MAX -> In a' (added ops rs) -> capi_add a = Ok a' ->
  pixel_type_from_int (ia_pt a) <> PixInvalid -> part_given (ia_meta a) (ia_msize a) -> part_given (ia_att a) (ia_asize a) ->
  r = Ok tt /\ exists o e ob, open_file strict po (file_of m0 ws) = Ok o /\ In e (op_dir o) /\
    observe strict (file_of m0 ws) e = Ok ob /\ recorded a ob /\
    ob_meta ob = part_bytes (ia_meta a) (ia_msize a) /\ ob_att ob = part_bytes (ia_att a) (ia_asize a) /\
    (forall d bpp, ia_comp a = 0 -> ia_data a = Some d -> picture_ok d (ia_stride a) (pixel_type_from_int (ia_pt a)) bpp (ia_pw a) (ia_ph a) ->
       decodes_to (ob_data ob) (pixel_type_from_int (ia_pt a)) bpp (ia_pw a) (ia_ph a) (given_byte d (ia_stride a) (ia_pw a * bpp)) /\
       e_comp (ob_entry ob) = 0) /\
    (forall d, compression_from_int (ia_comp a) <> UnCompressed -> ia_data a = Some d -> 0 <= ia_size a <= Z.of_nat (length d) ->
       ob_data ob = firstn (Z.to_nat (ia_size a)) d).
Proof.
  intros Hs Hc Hr Hf Hl Ha Ec Np PM PA. destruct (session_finds m0 strict po i ops ws rs r a' Hs Hc Hr Hf Hl Ha) as (R & o & e & O & I & E).
  split; [exact R|]. exists o, e, (expected a'). split; [exact O|]. split; [exact I|]. split; [exact E|].
  split; [now apply capi_described|]. destruct (capi_parts a a' Ec PM PA) as (M & A). split; [exact M|]. split; [exact A|]. split.
  - intros d bpp C D P. destruct (capi_picture a d bpp C D P PM PA) as (a2 & E2 & Dec & Cm & _).
    assert (a2 = a') by congruence. subst a2. split; assumption.
  - intros d C D S. destruct (capi_compressed a d C D S PM PA) as (a2 & E2 & Dec). assert (a2 = a') by congruence. now subst a2.
Qed.
