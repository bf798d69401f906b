(** C27-C31, C36, C37: coordinates. *)
From Verif Require Import Base RectModel TextModel CoordModel CoordSpec CoordProofs OrderProofs CoordExamples.

(** C27 *)
Theorem C27_antisymmetric : forall a b, compare b a = - compare a b.
Proof. exact (compare_from_antisym dims). Qed.
Print Assumptions C27_antisymmetric.
Theorem C27_transitive : forall a b c, compare a b <= 0 -> compare b c <= 0 -> compare a c <= 0.
Proof. exact (compare_from_trans dims). Qed.
Print Assumptions C27_transitive.
Theorem C27_equal : forall a b, table9 a -> table9 b -> (compare a b = 0 <-> a = b).
Proof. exact compare_zero. Qed.
Print Assumptions C27_equal.

Example C27_example : compare (tset (cz 1 5) 2 0) (cz 1 5) = 1 /\ compare (cz 1 (-1)) (cz 2 7) = 1 /\
  compare (tset (cz 1 5) 3 2) (tset (cz 1 5) 3 4) = -1.
Proof. exact ex_compare. Qed.

(** C28, partial: on every set of sub-blocks whose zooms are pairwise identical or clearly different and whose positions
    are ordinary the order is defined and a strict weak order ... *)
Theorem C28_order_partial : forall pos P, separated P ->
  (forall a b, P a -> P b -> exists r, sb_less pos a b = Ok r) /\
  strict_weak_order P (fun a b => match sb_less pos a b with Ok r => r | _ => false end).
Proof. exact directory_order_swo. Qed.
Print Assumptions C28_order_partial.

(** ... and two sub-blocks tie only if they agree in zoom, coordinate, M-index and file position. *)
Theorem C28_ties_partial : forall P a b, separated P -> P a -> P b -> table9 (en_coord a) -> table9 (en_coord b) ->
  sb_less true a b = Ok false -> sb_less true b a = Ok false ->
  en_zoom a = en_zoom b /\ en_coord a = en_coord b /\ (en_m a = en_m b) /\ en_pos a = en_pos b.
Proof. exact directory_order_ties. Qed.
Print Assumptions C28_ties_partial.

Example C28_example : separated ex_set /\
  sb_less true (ex_entry 0 INT_MIN 20000 7) (ex_entry 0 3 10000 9) = Ok true /\
  sb_less true (ex_entry 0 3 10000 9) (ex_entry 0 INT_MIN 10000 7) = Ok true.
Proof. exact ex_separated. Qed.

(** C28, refuted: a circle of three sub-blocks, and an overflow. *)
Theorem C28_refuted : ~ strict_weak_order (fun _ => True) (fun a b => match sb_less false a b with Ok r => r | _ => false end).
Proof. exact directory_order_refuted. Qed.
Print Assumptions C28_refuted.
Theorem C28_circle : 
  sb_less false (ex_entry 2 0 20000 0) (ex_entry 0 0 19998 0) = Ok true /\
  sb_less false (ex_entry 0 0 19998 0) (ex_entry 1 0 19999 0) = Ok true /\
  sb_less false (ex_entry 1 0 19999 0) (ex_entry 2 0 20000 0) = Ok true.
Proof. exact directory_order_cycle. Qed.
Print Assumptions C28_circle.
Theorem C28_overflow_refuted :
  sb_less false (SbEntry (cz 2 0) INT_MIN INT_MAX 0 10 10 10 10 0) (SbEntry (cz 2 0) INT_MIN (-1) 0 10 10 10 10 0) = UB.
Proof. exact directory_order_overflow. Qed.
Print Assumptions C28_overflow_refuted.

(** C29, partial: if no zoom is NaN and no sub-block of layer 0 has the zoom of one of another layer. *)
Theorem C29_order_partial : forall P, layered P -> strict_weak_order P zoom_less.
Proof. exact drawing_order_swo. Qed.
Print Assumptions C29_order_partial.

Example C29_example : layered ex_layers /\ zoom_less (dr 60 20 30 10 0) (dr 30 10 30 10 1) = true.
Proof. exact ex_layered. Qed.

Theorem C29_refuted : ~ strict_weak_order (fun _ => True) zoom_less.
Proof. exact drawing_order_refuted. Qed.
Print Assumptions C29_refuted.

(** C30: there is one list of all coordinates in the box, without repetition, and for every functor the calls made are
    those along this list, numbered from 0, up to the first false. *)
Theorem C30_enumeration_partial : forall b, box_ok b -> valid_dims b <> [] ->
  exists L, NoDup L /\ (forall c, In c L <-> in_box b c) /\
    forall f fuel, (length L <= fuel)%nat -> enum_all_coordinates fuel b f = Ok (until_false f 0 L).
Proof. exact enum_all_exact. Qed.
Print Assumptions C30_enumeration_partial.
Theorem C30_no_dimension : forall fuel b f, table9 b -> (forall d, In d dims -> tget b d = None) ->
  enum_all_coordinates fuel b f = Ok ([], true).
Proof. exact enum_none. Qed.
Print Assumptions C30_no_dimension.

Example C30_example : box_ok ex_box /\ valid_dims ex_box = [2; 3] /\
  enum_all_coordinates 6 ex_box (fun _ _ => true) =
    Ok (map (fun x => (fst x, tset (cz 2 (fst (snd x))) 3 (snd (snd x))))
         [(0, (-1, 5)); (1, (0, 5)); (2, (-1, 6)); (3, (0, 6)); (4, (-1, 7)); (5, (0, 7))], true) /\
  enum_all_coordinates 6 ex_box (fun k _ => k <? 2) =
    Ok (map (fun x => (fst x, tset (cz 2 (fst (snd x))) 3 (snd (snd x))))
         [(0, (-1, 5)); (1, (0, 5)); (2, (-1, 6))], false).
Proof. exact ex_box_ok. Qed.

(** C30, refuted outside of these bounds: an empty interval is visited once, an interval up to the largest int overflows. *)
Theorem C30_empty_interval_refuted : enum_all_coordinates 5 (tset empty_table 2 (7, 0)) (fun _ _ => true) = Ok ([(0, cz 2 7)], true).
Proof. exact enum_empty_interval. Qed.
Print Assumptions C30_empty_interval_refuted.
Theorem C30_overflow_refuted : enum_all_coordinates 5 (tset empty_table 2 (2147483647, 1)) (fun _ _ => true) = UB.
Proof. exact enum_overflow. Qed.
Print Assumptions C30_overflow_refuted.

(** C31: the calls are those for the selected entries, in directory order with their index, up to the first false;
    what "selected" means is said by the next four. *)
Theorem C31_calls : forall plane roi only0 f l k,
  enum_subset plane roi only0 f k l = calls f (filter (fun x => selected plane roi only0 (snd x)) (indexed k l)).
Proof. exact enum_subset_exact. Qed.
Print Assumptions C31_calls.
Theorem C31_plane : forall p c, compare_coordinate p c = true <-> in_plane p c.
Proof. exact compare_coordinate_spec. Qed.
Print Assumptions C31_plane.
Theorem C31_roi : forall a b, do_intersect a b = true <-> share_point a b.
Proof. exact do_intersect_spec. Qed.
Print Assumptions C31_roi.
Theorem C31_layer0 : forall i, 0 <= rw (sb_rect i) <= INT_MAX -> 0 <= rh (sb_rect i) <= INT_MAX ->
  (on_layer0 i = true <-> sb_pw i = rw (sb_rect i) /\ sb_ph i = rh (sb_rect i)).
Proof. exact on_layer0_spec. Qed.
Print Assumptions C31_layer0.

Theorem C31_selected : forall plane roi only0 i, 0 <= rw (sb_rect i) <= INT_MAX -> 0 <= rh (sb_rect i) <= INT_MAX ->
  (selected plane roi only0 i = true <->
   (only0 = true -> sb_pw i = rw (sb_rect i) /\ sb_ph i = rh (sb_rect i))
   /\ (forall p, plane = Some p -> in_plane p (sb_coord i)) /\ (forall r, roi = Some r -> share_point r (sb_rect i))).
Proof. exact selected_spec. Qed.
Print Assumptions C31_selected.

Example C31_example : map fst (enum_subset (Some (cz 2 0)) (Some (mkRect 5 5 5 5)) true (fun _ _ => true) 0 ex_dir) = [0; 4] /\
  map fst (enum_subset (Some (cz 2 0)) None false (fun k _ => k <? 2) 0 ex_dir) = [0; 2] /\
  rvalid (mkRect 5 5 5 5) = true.
Proof. exact ex_subset. Qed.

(** C36, for bounds whose end fits into an int. *)
Theorem C36_plane_validation_partial : forall b c, bounds_wf b ->
  (check_plane b c = Ok tt \/ check_plane b c = Throw) /\
  (check_plane b c = Ok tt <->
     tget c 5 = None /\
     forall d, In d dims -> d <> 5 ->
       match tget b d, tget c d with
       | Some (st, sz), Some v => st <= v < st + sz
       | Some (_, sz), None => sz <= 1
       | None, Some _ => False
       | None, None => True
       end).
Proof. exact check_plane_spec. Qed.
Print Assumptions C36_plane_validation_partial.

Example C36_example : bounds_wf ex_doc /\
  check_plane ex_doc (cz 2 1) = Ok tt /\ check_plane ex_doc (tset (cz 2 1) 3 2) = Ok tt /\
  check_plane ex_doc (cz 2 3) = Throw /\ check_plane ex_doc (cz 3 2) = Throw /\
  check_plane ex_doc (tset (cz 2 1) 1 0) = Throw /\ check_plane ex_doc (tset (cz 2 1) 5 0) = Throw.
Proof. exact ex_check_plane. Qed.

(** C36, refuted at the end of the int range: the coordinate is in range, the check overflows. *)
Theorem C36_overflow_refuted : check_plane (tset empty_table 2 (2147483647, 1)) (cz 2 2147483647) = UB.
Proof. exact check_plane_overflow. Qed.
Print Assumptions C36_overflow_refuted.

(** C37, for bounds whose end fits into an int. *)
Theorem C37_writer_validation_partial : forall b mrange c m, bounds_wf b -> table9 c ->
  (exists r, check_coordinate (Some b) mrange c m = Ok r) /\
  (check_coordinate (Some b) mrange c m = Ok CkOk <->
     in_box b c /\ (forall lo hi, mrange = Some (lo, hi) -> exists v, m = Some v /\ lo <= v <= hi)).
Proof. exact check_coordinate_spec. Qed.
Print Assumptions C37_writer_validation_partial.

Example C37_example : bounds_wf ex_doc /\
  check_coordinate (Some ex_doc) (Some (0, 9)) (tset (tset (cz 2 1) 3 2) 5 3) (Some 9) = Ok CkOk /\
  check_coordinate (Some ex_doc) (Some (0, 9)) (tset (tset (cz 2 1) 3 2) 5 3) (Some 10) = Ok CkOutOfBounds /\
  check_coordinate (Some ex_doc) None (tset (cz 2 1) 3 2) None = Ok CkInsufficient /\
  check_coordinate (Some ex_doc) None (tset (tset (tset (cz 2 1) 3 2) 5 3) 7 0) None = Ok CkUnexpected.
Proof. exact ex_check_coordinate. Qed.

(** C37, refuted at the end of the int range. *)
Theorem C37_overflow_refuted : check_coordinate (Some (tset empty_table 2 (2147483647, 1))) None (cz 2 2147483647) None = UB.
Proof. exact check_coordinate_overflow. Qed.
Print Assumptions C37_overflow_refuted.
