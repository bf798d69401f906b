(** Properties: paths and nodes of the metadata XML, values of nodes. *)
From Coq Require Import String.
From Verif Require Import Base TextModel XmlModel XmlSpec XmlProofs XmlValues XmlPaths XmlNumbers.
Open Scope Z_scope.

(** Full statement (C86): a path leads to the first node with the names, attributes and indices it states; GetOrCreate returns
    that node and adds nothing but missing nodes of the path; the value written last to a node is the value read, until it is
    written again; a call which reports an error changes nothing. *)

(** a node with a CDATA section: the value is written, but cannot be read *)
Theorem C86_cdata_refuted :
  let t := Elem (txt "R") [] [Elem (txt "A") [] [CData (txt "x")]] in
  exists t', write (txt "A") (txt "new") t = Ok t' /\ read (txt "A") t' = Ok None.
Proof. exact (ex_intro _ _ (conj eq_refl eq_refl)). Qed.
Print Assumptions C86_cdata_refuted.

(** a text with a comment inside, which is dropped when parsing: the second part stays *)
Theorem C86_comment_refuted :
  let t := Elem (txt "R") [] [Elem (txt "A") [] [Text (txt "x"); Text (txt "y")]] in
  write (txt "A") (txt "new") t = Ok (Elem (txt "R") [] [Elem (txt "A") [] [Text (txt "new"); Text (txt "y")]]) /\
  exists t', write (txt "A") [] t = Ok t' /\ read (txt "A") t' = Ok (Some (txt "y")).
Proof. exact (conj eq_refl (ex_intro _ _ (conj eq_refl eq_refl))). Qed.
Print Assumptions C86_comment_refuted.

(** a call with an invalid path, or a path with an index, creates nodes before it throws *)
Theorem C86_invalid_path_refuted :
  let t := Elem (txt "R") [] [] in
  get_or_create (txt "A/B[0]/C") t = (Elem (txt "R") [] [Elem (txt "A") [] []], Throw).
Proof. exact eq_refl. Qed.
Print Assumptions C86_invalid_path_refuted.

(** Paths lead where they should *)
Theorem C86_lookup : forall sts n, sts <> [] -> Forall good_step sts ->
  exists o, get_child_node (path_text sts) n = Ok o /\ forall h, o = Some h <-> leads sts n h.
Proof. exact lookup_iff. Qed.
Print Assumptions C86_lookup.
Example C86_lookup_case :
  let d v := Elem (txt "Distance") [(txt "Id", [v])] [Elem (txt "Value") [] [Text [v]]] in
  let t := Elem (txt "ImageDocument") [] [Elem (txt "Items") [] [d 88; d 89; d 90]] in
  let sts := [(txt "Items", Any); (txt "Distance", With [(txt "Id", txt "Y")]); (txt "Value", Nth 0)] in
  path_text sts = txt "Items/Distance[Id=Y]/Value[0]" /\ Forall good_step sts /\ get_child_node (path_text sts) t = Ok (Some [0; 1; 0]%nat).
Proof.
  repeat split; try (repeat constructor); try (vm_compute; discriminate); try (intros c; cbn; intuition lia).
  all: try (intros [E|[]]; congruence).
  all: try (destruct H as [H|[]]; injection H as <- <-).
  - discriminate.
  - intros c; cbn; intuition lia.
  - intros c; cbn; intuition lia.
Qed.

(** GetOrCreate: the node is then found by the same path, only nodes on the way to it are new, existing nodes are used *)
Theorem C86_create : forall p t t' h, get_or_create p t = (t', Ok h) ->
  get_child_node p t' = Ok (Some h) /\ only_adds t t' h /\ get_or_create p t' = (t', Ok h) /\
  (get_child_node p t <> Ok None -> t' = t).
Proof. exact create_all. Qed.
Print Assumptions C86_create.
Theorem C86_create_succeeds : forall sts nm ats kids, sts <> [] -> Forall good_step sts -> Forall not_index sts ->
  exists t' h, get_or_create (path_text sts) (Elem nm ats kids) = (t', Ok h) /\ leads sts t' h.
Proof. exact create_total. Qed.
Print Assumptions C86_create_succeeds.
Example C86_create_case :
  get_or_create (txt "Items/Distance[Id=Z;Unit=um]") (Elem (txt "R") [] [Elem (txt "Items") [] [Text (txt "t")]]) =
  (Elem (txt "R") [] [Elem (txt "Items") [] [Text (txt "t"); Elem (txt "Distance") [(txt "Id", txt "Z"); (txt "Unit", txt "um")] []]],
   Ok [0; 1]%nat).
Proof. reflexivity. Qed.

(** The value written last.  Missing: documents with CDATA sections or comments inside of texts (see above) *)
Theorem C86_last_write_partial : forall ws1 p v ws2 t t', tidy t -> writes (ws1 ++ (p, v) :: ws2) t = Ok t' ->
  (forall q u, In (q, u) ws2 -> get_child_node q t' <> get_child_node p t') -> read p t' = Ok (Some v).
Proof. exact last_write. Qed.
Print Assumptions C86_last_write_partial.
Example C86_last_write_case :
  let ws2 := [(txt "A/C", txt "2"); (txt "A/B[Id=x]", txt "3")] in
  exists t', writes ([(txt "A/B", txt "0")] ++ (txt "A/B", txt "1") :: ws2) (Elem (txt "R") [] []) = Ok t' /\
  read (txt "A/B") t' = Ok (Some (txt "1")) /\ read (txt "A/B[Id=x]") t' = Ok (Some (txt "3")).
Proof. exact (ex_intro _ _ (conj eq_refl (conj eq_refl eq_refl))). Qed.

(** Attributes *)
Theorem C86_attribute : forall k v n n', set_attribute k v n = Ok n' ->
  kids_of n' = kids_of n /\ try_get_attribute k n' = Some v /\ forall k', k' <> k -> try_get_attribute k' n' = try_get_attribute k' n.
Proof. exact set_attribute_get. Qed.
Print Assumptions C86_attribute.
Example C86_attribute_case : exists n', set_attribute (txt "Id") (txt "2") (Elem (txt "A") [(txt "Id", txt "1"); (txt "N", txt "x")] []) = Ok n' /\
  try_get_attribute (txt "N") n' = Some (txt "x").
Proof. exact (ex_intro _ _ (conj eq_refl eq_refl)). Qed.

(** RemoveChild removes the first child of the name, and nothing else *)
Theorem C86_remove : forall name nm ats kids, exists r, remove_child name (Elem nm ats kids) = Ok r /\
  ((snd r = true /\ exists a c b, kids = a ++ c :: b /\ has name [] c /\ (forall x, In x a -> ~ has name [] x) /\ fst r = Elem nm ats (a ++ b)) \/
   (snd r = false /\ fst r = Elem nm ats kids /\ forall x, In x kids -> ~ has name [] x)).
Proof. exact remove_child_spec. Qed.
Print Assumptions C86_remove.
Example C86_remove_case : remove_child (txt "B") (Elem (txt "A") [] [Text []; Elem (txt "B") [] []; Elem (txt "B") [] [Text []]]) =
  Ok (Elem (txt "A") [] [Text []; Elem (txt "B") [] [Text []]], true).
Proof. reflexivity. Qed.

(** RemoveAttribute removes the first attribute of the name, and nothing else *)
Theorem C86_remove_attribute : forall k nm ats kids, exists r, remove_attribute k (Elem nm ats kids) = Ok r /\
  ((snd r = true /\ exists a v b, ats = a ++ (k, v) :: b /\ (forall v', ~ In (k, v') a) /\ fst r = Elem nm (a ++ b) kids) \/
   (snd r = false /\ fst r = Elem nm ats kids /\ forall v, ~ In (k, v) ats)).
Proof. exact remove_attribute_spec. Qed.
Print Assumptions C86_remove_attribute.
Example C86_remove_attribute_case : remove_attribute (txt "Id") (Elem (txt "A") [(txt "N", []); (txt "Id", txt "1")] [Text []]) =
  Ok (Elem (txt "A") [(txt "N", [])] [Text []], true).
Proof. reflexivity. Qed.

(** RemoveChildren leaves no value and no child, RemoveAttributes no attribute; each leaves the others alone *)
Theorem C86_clear : forall n n', is_elem n = true ->
  (remove_children n = Ok n' -> try_get_value n' = None /\ (forall p t, get_child_node p n' = Ok (Some t) -> t = []) /\
    forall k, try_get_attribute k n' = try_get_attribute k n) /\
  (remove_attributes n = Ok n' -> (forall k, try_get_attribute k n' = None) /\ try_get_value n' = try_get_value n /\ kids_of n' = kids_of n).
Proof. exact clear_spec. Qed.
Print Assumptions C86_clear.
Example C86_clear_case : exists n', remove_children (Elem (txt "A") [(txt "Id", txt "1")] [Elem (txt "B") [] []]) = Ok n' /\
  try_get_attribute (txt "Id") n' = Some (txt "1") /\ get_child_node (txt "B") n' = Ok None.
Proof. exact (ex_intro _ _ (conj eq_refl (conj eq_refl eq_refl))). Qed.

(** Full statement (C87): a number or truth value written to a node is read back; reading a text as a number gives the number it
    denotes, and failure if it denotes none in the range of the type (white space around it is allowed). *)

(** white space after the number: the call does not return *)
Theorem C87_white_space_refuted : forall fuel n a c b neg m, try_get_value n = Some (a ++ c :: b) -> spells_number a neg m -> is_space c = true ->
  in_i32 (if neg then - m else m) -> as_int32 fuel n = OutOfFuel /\ as_int64 fuel n = OutOfFuel.
Proof. exact white_space_hangs. Qed.
Print Assumptions C87_white_space_refuted.
Example C87_white_space_case : try_get_value (Elem (txt "SizeC") [] [Text (txt "2 ")]) = Some (txt "2" ++ 32 :: []) /\
  spells_number (txt "2") false 2 /\ as_int32 1000 (Elem (txt "SizeC") [] [Text (txt "2 ")]) = OutOfFuel.
Proof.
  split; [reflexivity|]. split; [|vm_compute; reflexivity]. exists [], [], (txt "2").
  split; [reflexivity|]. split; [intros c []|]. split; [left; split; reflexivity|]. split; [discriminate|].
  split; [intros c [<-|[]]; reflexivity|reflexivity].
Qed.

(** a negative number is read as an unsigned one *)
Theorem C87_negative_refuted : as_uint64 0 (Elem (txt "A") [] [Text (txt "-1")]) = Ok (Some (2 ^ 64 - 1)) /\
  as_uint32 0 (Elem (txt "A") [] [Text (txt "-18446744073709551615")]) = Ok (Some 1).
Proof. exact (conj eq_refl eq_refl). Qed.
Print Assumptions C87_negative_refuted.

(** an empty text is read as a floating point number *)
Theorem C87_empty_double_refuted : forall (F : Type) (wcstod : str -> F * nat) fuel, snd (wcstod []) = 0%nat ->
  as_double wcstod fuel (Elem (txt "A") [] [Text []]) = Ok (Some (fst (wcstod []))).
Proof. exact empty_double. Qed.
Print Assumptions C87_empty_double_refuted.
Example C87_empty_double_case : as_double (fun _ => (0, 0%nat)) 0 (Elem (txt "A") [] [Text []]) = Ok (Some 0).
Proof. reflexivity. Qed.

(** a character beyond 255 after the number: isspace is called with it *)
Theorem C87_wide_refuted : as_int32 0 (Elem (txt "A") [] [Text (txt "12" ++ [8364])]) = UB.
Proof. exact eq_refl. Qed.
Print Assumptions C87_wide_refuted.

(** What is read otherwise *)
Theorem C87_signed_partial : forall lo hi fuel n s, try_get_value n = Some s -> calm_text s ->
  exists o, try_convert fuel (conv_signed lo hi) n = Ok o /\
    forall v, o = Some v <-> exists neg m, spells_number s neg m /\ v = (if neg then - m else m) /\ lo <= v <= hi.
Proof. exact signed_read. Qed.
Print Assumptions C87_signed_partial.
Example C87_signed_case : as_int32 0 (Elem (txt "A") [] [Text (txt "  -12")]) = Ok (Some (-12)) /\
  as_int32 0 (Elem (txt "A") [] [Text (txt "12x")]) = Ok None /\ as_int32 0 (Elem (txt "A") [] [Text (txt "2147483648")]) = Ok None.
Proof. exact (conj eq_refl (conj eq_refl eq_refl)). Qed.
(** Missing besides: negative numbers are not rejected but taken modulo 2^64 *)
Theorem C87_unsigned_partial : forall hi fuel n s, hi < 2 ^ 64 -> try_get_value n = Some s -> calm_text s ->
  exists o, try_convert fuel (conv_unsigned hi) n = Ok o /\
    forall v, o = Some v <-> exists neg m, spells_number s neg m /\ m < 2 ^ 64 /\ v = (if neg then - m mod 2 ^ 64 else m) /\ v <= hi.
Proof. exact unsigned_read. Qed.
Print Assumptions C87_unsigned_partial.
Example C87_unsigned_case : as_uint32 0 (Elem (txt "A") [] [Text (txt "+4294967295")]) = Ok (Some 4294967295).
Proof. reflexivity. Qed.

(** Values written are read back *)
Theorem C87_numbers_partial : forall fuel v n n', tidy_kids (kids_of n) -> set_number v n = Ok n' ->
  (in_i32 v -> as_int32 fuel n' = Ok (Some v)) /\ (- 2 ^ 63 <= v < 2 ^ 63 -> as_int64 fuel n' = Ok (Some v)) /\
  (in_u32 v -> as_uint32 fuel n' = Ok (Some v)) /\ (0 <= v < 2 ^ 64 -> as_uint64 fuel n' = Ok (Some v)).
Proof. exact numbers_round_trip. Qed.
Print Assumptions C87_numbers_partial.
Example C87_numbers_case : exists n', set_number (- 2 ^ 63) (Elem (txt "A") [] [Text (txt "old")]) = Ok n' /\ as_int64 0 n' = Ok (Some (- 2 ^ 63)).
Proof. exact (ex_intro _ _ (conj eq_refl eq_refl)). Qed.
Theorem C87_bool_partial : forall b n n', tidy_kids (kids_of n) -> set_bool b n = Ok n' -> as_bool n' = Some b.
Proof. exact bool_round_trip. Qed.
Print Assumptions C87_bool_partial.
Example C87_bool_case : as_bool (Elem (txt "A") [] [Text (txt " TruE ")]) = Some true /\ as_bool (Elem (txt "A") [] [Text (txt "2")]) = None.
Proof. exact (conj eq_refl eq_refl). Qed.

(** The texts read as truth values *)
Theorem C87_truth : forall n b, as_bool n = Some b <-> exists s, try_get_value n = Some s /\ truth_text s b.
Proof. exact as_bool_iff. Qed.
Print Assumptions C87_truth.
Example C87_truth_case : truth_text (txt " TruE ") true /\ as_bool (Elem (txt "A") [] [Text (txt " nO")]) = Some false.
Proof.
  split; [|reflexivity]. exists [32], (txt "TruE"), [32], (txt "true"). split; [reflexivity|]. split; [intros c H; cbn in H; lia|]. split; [right; left; reflexivity|].
  change (Forall2 same_letter [116; 114; 117; 101] [84; 114; 117; 69]). repeat (apply Forall2_cons; [unfold same_letter; lia|]). apply Forall2_nil.
Qed.
