(** C38-C41, C61: bitonal bitmaps, chunk containers and valid-pixel masks *)
From Verif Require Import Base CopyModel HiLoModel HiLoProofs BitonalModel BitonalProofs DecimateProofs BitonalExamples ChunkModel ChunkProofs ChunkExamples.

(** C38.  A region completely to the left of the bitmap must change nothing, but fills pixels; a region whose right edge
    exceeds INT_MAX overflows.  For every other region exactly the clipped region is filled; the padding bits of the
    lines are unchanged, too. *)
Theorem C38_fill_refuted : exists b m, bm_wf b /\ fill b (-10) 0 5 1 true = Ok m /\
  exists x y, 0 <= x < mw b /\ 0 <= y < mh b /\ ~ (-10 <= x < -10 + 5) /\
    mask_bit b x y = false /\ mask_bit (with_data b m) x y = true.
Proof. exact fill_left. Qed.
Print Assumptions C38_fill_refuted.
Theorem C38_fill_overflow_refuted : exists b, bm_wf b /\ fill b 2147483647 0 1 1 true = UB.
Proof. exact fill_overflow. Qed.
Print Assumptions C38_fill_overflow_refuted.
Theorem C38_fill_partial : forall b rx ry rw rh v, bm_wf b -> in_i32 rx -> in_i32 ry ->
  0 <= rx + rw <= INT_MAX -> 0 <= ry + rh <= INT_MAX ->
  exists m, fill b rx ry rw rh v = Ok m /\
    bits_after b m (fun x y => if in_roi rx ry rw rh (mw b) (mh b) x y then v else mask_bit b x y).
Proof. exact fill_ok. Qed.
Print Assumptions C38_fill_partial.
Example C38_example : bm_wf ex_b /\ exists m, fill ex_b 7 (-4) 30 6 false = Ok m /\
  pixels (with_data ex_b m) = [[1;0;1;0;1;0;1;0;0;0;0]; [1;1;1;1;1;1;1;0;0;0;0]; [0;0;0;0;0;0;0;0;0;0;0]].
Proof. exact (conj ex_b_wf ex_b_fill). Qed.

(** C39 *)
Theorem C39_get : forall b x y, bm_wf b -> 0 <= x < mw b -> 0 <= y < mh b -> get_pixel b x y = Ok (mask_bit b x y).
Proof. exact get_pixel_ok. Qed.
Print Assumptions C39_get.
Theorem C39_set : forall b x y v, bm_wf b -> 0 <= x < mw b -> 0 <= y < mh b ->
  exists m, set_pixel b x y v = Ok m /\
    bits_after b m (fun x' y' => if (x' =? x) && (y' =? y) then v else mask_bit b x' y').
Proof. exact set_pixel_ok. Qed.
Print Assumptions C39_set.
Theorem C39_set_all : forall b v, bm_wf b ->
  exists m, set_all b v = Ok m /\
    bits_after b m (fun x y => if (x <? (mw b + 7) / 8 * 8) && (y <? mh b) then v else mask_bit b x y).
Proof. exact set_all_ok. Qed.
Print Assumptions C39_set_all.
Theorem C39_out_of_range : forall b x y v, bm_wf b -> mw b <= x \/ mh b <= y ->
  get_pixel b x y = Throw /\ set_pixel b x y v = Throw.
Proof. exact (fun b x y v H O => conj (get_pixel_throw b x y H O) (set_pixel_throw b x y v H O)). Qed.
Print Assumptions C39_out_of_range.
Example C39_example : bm_wf ex_b /\ get_pixel ex_b 9 0 = Ok true /\ get_pixel ex_b 11 0 = Throw /\
  exists m, set_pixel ex_b 9 0 false = Ok m /\ pixels (with_data ex_b m) = [[1;0;1;0;1;0;1;0;0;0;0]; [1;1;1;1;1;1;1;1;1;1;1]; [0;0;0;0;0;0;0;0;0;0;0]].
Proof.
  exact (conj ex_b_wf (conj eq_refl (conj eq_refl (ex_intro _ _ (conj eq_refl eq_refl))))).
Qed.

(** C40.  From radius 2 on, bitmaps of 32 or more columns are decimated wrongly; a width of 16k+1 makes the code write
    behind the destination. *)
Theorem C40_value_refuted : exists b d, bm_wf b /\ decimate 2 b (fun _ => 0) = Ok d /\
  exists x y, 0 <= x < mw d /\ 0 <= y < mh d /\ mask_bit d x y = true /\ ~ neighbourhood b 2 x y.
Proof. exact decimate_wrong. Qed.
Print Assumptions C40_value_refuted.
Theorem C40_overrun_refuted : exists b, bm_wf b /\ forall r, 0 <= r <= 7 -> decimate r b (fun _ => 0) = UB.
Proof. exact decimate_overrun. Qed.
Print Assumptions C40_overrun_refuted.
Theorem C40_safe_partial : forall b r junk, bm_wf b -> 0 <= r <= 7 -> byte_mem junk -> mw b mod 16 <> 1 ->
  exists d, decimate r b junk = Ok d /\ mw d = mw b / 2 /\ mh d = mh b / 2.
Proof. exact decimate_safe. Qed.
Print Assumptions C40_safe_partial.
Theorem C40_value_partial : forall b r junk, bm_wf b -> 0 <= r <= 7 -> byte_mem junk -> r <= 1 \/ mw b < 32 -> mw b mod 16 <> 1 ->
  exists d, decimate r b junk = Ok d /\ mw d = mw b / 2 /\ mh d = mh b / 2 /\
    forall x y, 0 <= x < mw d -> 0 <= y < mh d -> (mask_bit d x y = true <-> neighbourhood b r x y).
Proof. exact decimate_ok. Qed.
Print Assumptions C40_value_partial.
Theorem C40_bad_radius : forall b r junk, bm_wf b -> r < 0 \/ 7 < r -> decimate r b junk = Throw.
Proof. exact decimate_bad_radius. Qed.
Print Assumptions C40_bad_radius.
Example C40_example : bm_wf ex_dec20 /\ neighbourhood ex_dec20 1 2 0 /\ ~ neighbourhood ex_dec20 1 4 0 /\
  exists d, decimate 1 ex_dec20 (fun _ => 0) = Ok d /\ pixels d = [[1;1;1;1;0;1;1;1;1;1]; [1;1;1;1;0;1;1;1;1;1]].
Proof. exact (conj ex_dec20_wf (conj (proj1 ex_dec20_nb) (conj (proj2 ex_dec20_nb) ex_dec20_ok))). Qed.

(** C41.  The pointer to the data is not advanced by the payload, the index is not counted, and the sum
    offset + size wraps. *)
Theorem C41_two_chunks_refuted :
  (exists cs, Forall chunk_ok cs /\ (length cs = 2)%nat /\ Forall (fun c => snd c <> []) cs /\
     enumerate_chunks true (container cs) all_of = Throw) /\
  (exists cs l, Forall chunk_ok cs /\ enumerate_chunks true (container cs) all_of = Ok l /\
     map (fun c => ck_guid (snd c)) l <> map fst cs).
Proof. exact (conj two_chunks_rejected two_chunks_wrong). Qed.
Print Assumptions C41_two_chunks_refuted.
Theorem C41_index_refuted : exists cs l, Forall chunk_ok cs /\ enumerate_chunks true (container cs) all_of = Ok l /\
  l <> expected 0 0 cs /\ map snd l = map snd (expected 0 0 cs).
Proof. exact index_not_counted. Qed.
Print Assumptions C41_index_refuted.
Theorem C41_hostile_refuted : Forall is_byte ex_hostile /\ enumerate_chunks true ex_hostile all_of = UB.
Proof. exact hostile_size. Qed.
Print Assumptions C41_hostile_refuted.
Theorem C41_terminates : forall has d f, enumerate_chunks has d f <> OutOfFuel.
Proof. exact enumerate_terminates. Qed.
Print Assumptions C41_terminates.
(** missing: attachments containing a four-byte value near 2^32 *)
Theorem C41_inside_partial : forall has d f, Forall is_byte d -> sizes_small d ->
  match enumerate_chunks has d f with
  | UB => False
  | Ok l => Forall (inside d) l
  | _ => True
  end.
Proof. exact enumerate_safe. Qed.
Print Assumptions C41_inside_partial.
(** missing: a payload in any chunk but the last; the index *)
Theorem C41_exact_partial : forall f (empties : list (bytes * bytes)) (last : bytes * bytes) tail,
  let d := container (empties ++ [last]) ++ tail in
  Forall chunk_ok (empties ++ [last]) -> Forall (fun c : bytes * bytes => snd c = []) empties -> snd last <> [] ->
  len tail < 21 -> len d + 41 < 4294967296 ->
  enumerate_chunks true d f = Ok (deliver f [] (without_index (expected 0 0 (empties ++ [last])))).
Proof. exact enumerate_exact. Qed.
Print Assumptions C41_exact_partial.
Example C41_example : sizes_small (container [(g1, [5; 6])]) /\
  enumerate_chunks true (container [(g1, [5; 6])]) all_of = Ok [(0, mkChunk g1 20 2)] /\
  enumerate_chunks true (container [(g1, []); (g2, [7; 8; 9])]) all_of = Ok [(0, mkChunk g1 20 0); (0, mkChunk g2 40 3)].
Proof. exact (conj ex_small (conj eq_refl eq_refl)). Qed.

(** C61.  Without a mask, or with a mask chunk too short for its header, the attempt to get it has undefined behaviour;
    a width near 2^32 is accepted without any pixel. *)
Theorem C61_no_mask_refuted : get_mask true (container [(g1, [5])]) = UB.
Proof. exact no_mask. Qed.
Print Assumptions C61_no_mask_refuted.
Theorem C61_short_mask_refuted : exists p, (length p < 12)%nat /\ Forall is_byte p /\ get_mask true (container [(GUID_MASK, p)]) = UB.
Proof. exact short_mask. Qed.
Print Assumptions C61_short_mask_refuted.
Theorem C61_wide_mask_refuted : exists d b, Forall is_byte d /\ create_mask true d = Ok b /\ mw b = 4294967295 /\ get_pixel b 100 0 = UB.
Proof. exact wide_mask. Qed.
Print Assumptions C61_wide_mask_refuted.
(** missing: chunks with a payload before the mask *)
Theorem C61_mask_partial : forall (empties : list (bytes * bytes)) w h stride data tail,
  let d := container (empties ++ [(GUID_MASK, enc_mask w h stride data)]) ++ tail in
  Forall chunk_ok empties -> Forall (fun c : bytes * bytes => snd c = [] /\ fst c <> GUID_MASK) empties ->
  Forall is_byte data -> len tail < 21 -> len d + 41 < 4294967296 ->
  0 < w <= UINT_MAX - 7 -> 0 < h <= UINT_MAX -> in_u32 stride -> (w + 7) / 8 <= stride ->
  (h - 1) * stride + (w + 7) / 8 <= len data ->
  exists b, create_mask true d = Ok b /\ mw b = w /\ mh b = h /\ mstride b = stride /\
    forall x y, 0 <= x < w -> 0 <= y < h ->
      0 <= y * stride + x / 8 < Z.min (len data) (msize b) /\
      mask_bit b x y = Z.testbit (nth (Z.to_nat (y * stride + x / 8)) data 0) (7 - x mod 8).
Proof. exact create_mask_exact. Qed.
Print Assumptions C61_mask_partial.
Example C61_example : exists b, create_mask true ex_mask = Ok b /\
  pixels b = [[1;0;1;0;1;0;1;0;0;1;0]; [1;1;1;1;1;1;1;1;1;1;1]; [0;0;0;0;0;0;0;0;0;0;0]].
Proof. exact ex_mask_ok. Qed.
