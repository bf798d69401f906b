(** C98-C100: what the C API hands out. *)
From Verif Require Import Base RectModel CodecModel CodesModel WriterModel WriterSpec StatModel ReaderModel AddModel AddSpec AddProofs AddExamples CapiModel CapiSpec CapiProofs.
Open Scope Z_scope.

(** C98: coordinates: the structure means the coordinate, whatever dimensions it has; there and back nothing is lost. *)
Theorem C98_coordinates : forall c, length c = 9%nat ->
  (forall i, (i < 9)%nat -> interop_at (to_interop c) i = nth i c None) /\ from_interop (to_interop c) = c /\
  length (ic_value (to_interop c)) = 9%nat /\ (forall i, (9 <= i)%nat -> Z.testbit (ic_valid (to_interop c)) (Z.of_nat i) = false).
Proof.
  exact (fun c L => conj (fun i H => to_interop_at c i (eq_ind_r (fun n => (i < n)%nat) H L)) (conj (coord_there_back c L) (to_interop_shape c L))).
Qed.
Print Assumptions C98_coordinates.
Example C98_coordinates_meets : to_interop [None; Some 7; Some (-5); None; None; None; None; None; Some 3] = mkIC 262 [7; -5; 3; 0; 0; 0; 0; 0; 0].
Proof. reflexivity. Qed.
(** ... also starting from a structure, even with superfluous values and bits *)
Theorem C98_coordinates_back : forall ic i, (i < 9)%nat -> interop_at (to_interop (from_interop ic)) i = interop_at ic i.
Proof. exact coord_back_there. Qed.
Print Assumptions C98_coordinates_back.
Example C98_coordinates_back_meets : interop_at (mkIC 6 [7; 5; 99]) 2 = Some 5 /\ to_interop (from_interop (mkIC (6 + 2 ^ 12) [7; 5; 99])) = mkIC 6 [7; 5; 0; 0; 0; 0; 0; 0; 0].
Proof. split; reflexivity. Qed.

(** C98: bounds *)
Theorem C98_bounds : forall b, length b = 9%nat ->
  (forall i, (i < 9)%nat -> bounds_at (bounds_interop b) i = nth i b None) /\
  length (ib_start (bounds_interop b)) = 9%nat /\ length (ib_size (bounds_interop b)) = 9%nat /\
  (forall i, (9 <= i)%nat -> Z.testbit (ib_valid (bounds_interop b)) (Z.of_nat i) = false).
Proof. exact (fun b L => conj (fun i H => bounds_interop_at b i (eq_ind_r (fun n => (i < n)%nat) H L)) (bounds_interop_shape b L)). Qed.
Print Assumptions C98_bounds.
Example C98_bounds_meets : bounds_interop [Some (0, 5); Some (2, 6); None; None; Some (-1, 4); None; None; None; None] =
  mkIB 19 [0; 2; -1; 0; 0; 0; 0; 0; 0] [5; 6; 4; 0; 0; 0; 0; 0; 0].
Proof. reflexivity. Qed.

(** C98: statistics: everything is handed out; of the scenes as many as there is room for, in order, and their number is told *)
Theorem C98_statistics : forall avail s, length (st_dims s) = 9%nat -> Z.of_nat (length (st_scenes s)) <= INT_MAX ->
  let '(i, n) := stats_ex avail s in
  is_count i = st_count s /\ is_minm i = st_minm s /\ is_maxm i = st_maxm s /\ is_box i = st_box s /\ is_box0 i = st_box0 s /\
  (forall d, (d < 9)%nat -> bounds_at (is_dims i) d = nth d (st_dims s) None) /\
  (forall k, (k < length (is_scenes i))%nat -> nth_error (is_scenes i) k = nth_error (st_scenes s) k) /\
  Z.of_nat (length (is_scenes i)) = Z.min (match avail with Some a => Z.max 0 a | None => 0 end) (Z.of_nat (length (st_scenes s))) /\
  n = match avail with Some _ => Some (Z.of_nat (length (st_scenes s))) | None => None end.
Proof. exact stats_ex_ok. Qed.
Print Assumptions C98_statistics.
Example C98_statistics_meets : is_scenes (fst (stats_ex (Some 1) ex_stats)) = [(0, (mkRect 0 0 4 4, mkRect 0 0 3 3))] /\ snd (stats_ex (Some 1) ex_stats) = Some 2.
Proof. split; reflexivity. Qed.
(** asking for the number first and then for all scenes *)
Theorem C98_all_scenes : forall s, length (st_dims s) = 9%nat -> Z.of_nat (length (st_scenes s)) <= INT_MAX ->
  exists n, snd (stats_ex (Some 0) s) = Some n /\ is_scenes (fst (stats_ex (Some n) s)) = st_scenes s.
Proof. exact stats_two_calls. Qed.
Print Assumptions C98_all_scenes.
Example C98_all_scenes_meets : length (st_dims ex_stats) = 9%nat /\ length (st_scenes ex_stats) = 2%nat.
Proof. split; reflexivity. Qed.

(** C98: a sub-block which shows what was given when it was added with the C API (C97) is described so by the C API *)
Theorem C98_description : forall a ob, recorded a ob -> pixel_type_from_int (ia_pt a) <> PixInvalid ->
  in_i32 (ia_pw a) -> in_i32 (ia_ph a) -> in_i32 (ia_m a) -> told a (info_interop (rinfo_of (ob_entry ob))).
Proof. exact info_told. Qed.
Print Assumptions C98_description.
Example C98_description_meets : recorded (ex_call 0 8 ex_pic) (expected (ex_call_done ex_raw)) /\
  info_interop (rinfo_of (ob_entry (expected (ex_call_done ex_raw)))) = mkII 0 0 (mkIC 6 [7; 5; 0; 0; 0; 0; 0; 0; 0]) 10 (-20) 4 4 2 2 3.
Proof. split; [exact (capi_described (ex_call 0 8 ex_pic) (ex_call_done ex_raw) eq_refl ltac:(discriminate))|reflexivity]. Qed.

(** C99: a text copied into a buffer: cut in front of a character, as late as possible; terminated; within the buffer; the caller is told
    whether something is missing *)
Theorem C99_text : forall s size, 0 < size -> exists k, longest_cut s (Z.to_nat (size - 1)) k /\
  fst (copy_truncate s size) = firstn k s ++ [0] /\ (snd (copy_truncate s size) = false <-> k = length s) /\
  Z.of_nat (length (fst (copy_truncate s size))) <= size.
Proof. exact copy_truncate_ok. Qed.
Print Assumptions C99_text.
Example C99_text_meets : copy_truncate [65; 195; 164; 66] 3 = ([65; 0], true) /\ copy_truncate [65; 195; 164; 66] 4 = ([65; 195; 164; 0], true) /\
  copy_truncate [65; 195; 164; 66] 5 = ([65; 195; 164; 66; 0], false).
Proof. repeat split; reflexivity. Qed.
(** the name of an attachment: in the array, and in full if it does not fit *)
Theorem C99_name : forall name junk, length junk = 255%nat -> exists k w, longest_cut name 254 k /\ w = firstn k name ++ [0] /\
  let '(field, over, full) := name_interop name junk in
  starts_with w junk field /\ (over = false <-> k = length name) /\ full = (if over then Some (name ++ [0]) else None).
Proof. exact name_interop_ok. Qed.
Print Assumptions C99_name.
Example C99_name_meets : length (repeat 7 255) = 255%nat /\ snd (fst (name_interop (repeat 65 254) (repeat 7 255))) = false /\
  snd (name_interop (repeat 65 255) (repeat 7 255)) = Some (repeat 65 255 ++ [0]).
Proof. repeat split; vm_compute; reflexivity. Qed.

(** C99: data: never more than the size given is written, the data in order, the true size is reported *)
Theorem C99_data : forall data size d, 0 <= size <= Z.of_nat (length d) ->
  exists d', get_raw data size (Some d) = Ok (Z.of_nat (length data), Some d') /\ starts_with (firstn (Z.to_nat size) data) d d'.
Proof. exact get_raw_ok. Qed.
Print Assumptions C99_data.
Example C99_data_meets : get_raw [1; 2; 3] 2 (Some [9; 9; 9; 9]) = Ok (3, Some [1; 2; 9; 9]) /\ get_raw [1; 2; 3] 4 (Some [9; 9; 9; 9]) = Ok (3, Some [1; 2; 3; 9]).
Proof. split; reflexivity. Qed.
(** asking for the size first and then for the data gives all of it *)
Theorem C99_data_two_calls : forall data junk, exists n, get_raw data junk None = Ok (n, None) /\
  forall d, Z.of_nat (length d) = n -> get_raw data n (Some d) = Ok (n, Some data).
Proof. exact get_raw_two_calls. Qed.
Print Assumptions C99_data_two_calls.
Example C99_data_two_calls_meets : get_raw [1; 2; 3] 77 None = Ok (3, None) /\ get_raw [1; 2; 3] 3 (Some [9; 9; 9]) = Ok (3, Some [1; 2; 3]).
Proof. split; reflexivity. Qed.
(** the metadata: all of it, terminated *)
Theorem C99_metadata : forall xml, xml <> [] -> exists m, metadata_xml xml = Ok (m, Z.of_nat (length xml)) /\
  firstn (length xml) m = xml /\ last m 1 = 0 /\ (length xml <= length m <= S (length xml))%nat /\ (length m = length xml <-> last xml 1 = 0).
Proof. exact metadata_xml_ok. Qed.
Print Assumptions C99_metadata.
Example C99_metadata_meets : metadata_xml [60; 62] = Ok ([60; 62; 0], 2) /\ metadata_xml [60; 0] = Ok ([60; 0], 2).
Proof. split; reflexivity. Qed.
(** the dimensions: all of them and a terminator, or nothing if they do not fit *)
Theorem C99_dimensions : forall dims count dest, count = Z.of_nat (length dest) ->
  (Z.of_nat (length dims) < count -> exists d, available_dims dims count dest = Ok d /\ starts_with (dims ++ [0]) dest d) /\
  (count <= Z.of_nat (length dims) -> available_dims dims count dest = Throw).
Proof. exact available_dims_ok. Qed.
Print Assumptions C99_dimensions.
Example C99_dimensions_meets : available_dims [2; 3] 4 [9; 9; 9; 9] = Ok [2; 3; 0; 9] /\ available_dims [2; 3] 2 [9; 9] = Throw.
Proof. split; reflexivity. Qed.

(** C100: copying a bitmap: exactly the pixels of every row, nothing else is written *)
Theorem C100_copied : forall b w h pt stride d bpp, w = bm_w b -> h = bm_h b -> pt = pixel_enum (bm_pt b) -> bytes_per_pel (bm_pt b) = Ok bpp ->
  0 <= w -> 0 <= h -> w * bpp <= stride ->
  exists d', bitmap_copy_to b w h pt stride d = Ok d' /\
    (forall y x, 0 <= y < h -> 0 <= x < w * bpp -> d' (y * stride + x) = bm_mem b (y * bm_stride b + x)) /\
    (forall a, ~ (exists y x, 0 <= y < h /\ 0 <= x < w * bpp /\ a = y * stride + x) -> d' a = d a).
Proof. exact bitmap_copy_ok. Qed.
Print Assumptions C100_copied.
Example C100_copied_meets : match bitmap_copy_to ex_bm 2 2 3 7 (fun _ => 99) with Ok d => map d [0; 5; 6; 7; 12; 13] | _ => [] end = [0; 5; 99; 8; 13; 99].
Proof. reflexivity. Qed.
(** refused if extent, pixel type or stride do not fit *)
Theorem C100_refused : forall b w h pt stride d bpp, bytes_per_pel (bm_pt b) = Ok bpp ->
  w <> bm_w b \/ h <> bm_h b \/ pt <> pixel_enum (bm_pt b) \/ stride < w * bpp -> bitmap_copy_to b w h pt stride d = Throw.
Proof. exact bitmap_copy_refuses. Qed.
Print Assumptions C100_refused.
Example C100_refused_meets : bytes_per_pel (bm_pt ex_bm) = Ok 3 /\ 5 < 2 * 3 /\ pixel_enum (bm_pt ex_bm) <> 0.
Proof. split; [reflexivity|]. split; [lia|discriminate]. Qed.
(** C100: after any history, Unlock goes through if and only if the bitmap is locked, Release if and only if it is not *)
Theorem C100_locking : forall pre o post, let ans := snd (brun (Some 0) pre) in ~ released pre ans ->
  0 <= held pre ans /\
  nth_error (snd (brun (Some 0) (pre ++ o :: post))) (length pre) =
  Some (match o with
        | BLock | BCopy => BOk
        | BUnlock => if 0 <? held pre ans then BOk else BViolated
        | BRelease => if held pre ans =? 0 then BOk else BViolated
        end).
Proof. exact lock_history. Qed.
Print Assumptions C100_locking.
Example C100_locking_meets : snd (brun (Some 0) [BUnlock; BLock; BLock; BUnlock; BRelease; BUnlock; BRelease]) = [BViolated; BOk; BOk; BOk; BViolated; BOk; BOk].
Proof. reflexivity. Qed.
