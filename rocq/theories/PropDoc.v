(** C90: information about a document and its scaling in the metadata. *)
From Coq Require Import String QArith Qabs Floats.SpecFloat.
From Verif Require Import Base TextModel XmlModel XmlSpec PugiModel PugiSpec PugiTree FloatProofs ScaleNum NumModel NumSpec DocModel DocSpec DocTree DocInt DocProofs DocScale SubMetaSpec DocSaid.
Open Scope Z_scope.

(** Full statement: name, title, user, description, comment, keywords, date, rating and scaling written to the metadata of a
    document are what is read after it has been saved and loaded; what is not written stays as it was. *)

(** false: a text of blanks is read as an empty one, a carriage return as a line feed *)
Theorem C90_general_refuted : exists g doc' d', proper_info g /\ on_root (write_general g) [Elem ROOT [] []] = Ok doc' /\
  load (builder_get_xml true doc') = Ok d' /\ g_name g = Some (txt " ") /\ g_name (get_general d') = Some [] /\
  g_title g = Some [97; 13; 98] /\ g_title (get_general d') = Some [97; 10; 98].
Proof.
  exists (mkG (Some (txt " ")) (Some [97; 13; 98]) None None None None None None). do 2 eexists.
  split; [|split; [vm_compute; reflexivity|split; [vm_compute; reflexivity|repeat split; vm_compute; reflexivity]]].
  split; [|discriminate]. cbn [texts In g_name g_title g_user g_description g_comment g_keywords g_date]. intros s H.
  repeat (destruct H as [H|H]; [try discriminate; injection H as <-; apply Forall_forall; intros c I; cbn in I; lia|]). destruct H.
Qed.
Print Assumptions C90_general_refuted.

(** every text is read as stored: without carriage returns, empty if it is blank; the rating is the same; fields not written are as
    before.  This is exact, the difference to the full statement is [stored] *)
Theorem C90_general_partial : forall ind g doc doc', buildable doc -> proper_info g -> on_root (write_general g) doc = Ok doc' ->
  exists d d', load (builder_get_xml ind doc) = Ok d /\ load (builder_get_xml ind doc') = Ok d' /\ get_general d' = over g (get_general d) /\ buildable doc'.
Proof. exact general_read. Qed.
Print Assumptions C90_general_partial.
(** texts which are not blank and have no carriage return are read unchanged *)
Theorem C90_general_plain : forall ind g doc doc', buildable doc -> proper_info g -> plain_info g -> on_root (write_general g) doc = Ok doc' ->
  exists d d', load (builder_get_xml ind doc) = Ok d /\ load (builder_get_xml ind doc') = Ok d' /\ get_general d' = replaced g (get_general d).
Proof. exact general_exact. Qed.
Print Assumptions C90_general_plain.
(** in every document, however it was made, a field is the first text of its element, also one in a CDATA section; without the element it is not
    valid *)
Theorem C90_said : forall d name get, In (name, get) text_fields ->
  (forall c s, goes_to (field_names name) d c -> says c s -> get (get_general d) = Some s) /\
  ((forall c, ~ goes_to (field_names name) d c) -> get (get_general d) = None).
Proof. exact general_said. Qed.
Print Assumptions C90_said.
Example C90_said_meets : goes_to (field_names "Name") said_doc (Elem (txt "Name") [] [Elem (txt "b") [] [Text (txt "no")]; CData (txt "<cells>"); Text (txt "more")]) /\
  says (Elem (txt "Name") [] [Elem (txt "b") [] [Text (txt "no")]; CData (txt "<cells>"); Text (txt "more")]) (txt "<cells>") /\
  g_name (get_general said_doc) = Some (txt "<cells>") /\ g_comment (get_general said_doc) = None.
Proof. exact said_meets. Qed.
Definition about : ginfo := mkG (Some (txt "cells & <more>")) None (Some []) (Some (txt " a b ")) None None (Some (txt "2021-02-03T04:05:06Z")) (Some (-2147483648)).
Example C90_general_meets : buildable [Elem ROOT [] []] /\ proper_info about /\ plain_info about.
Proof.
  split; [exact fresh_buildable|]. split; [split|].
  - unfold about, texts. cbn [In g_name g_title g_user g_description g_comment g_keywords g_date]. intros s H.
    repeat (destruct H as [H|H]; [try discriminate; injection H as <-; apply Forall_forall; intros c I; cbn in I; lia|]). destruct H.
  - intros r [= <-]. unfold in_i32, INT_MIN, INT_MAX. lia.
  - unfold about, texts. cbn [In g_name g_title g_user g_description g_comment g_keywords g_date]. intros s H.
    repeat (destruct H as [H|H]; [first [discriminate H|injection H as <-; split; [first [now left|right; reflexivity]|intros I; cbn in I; lia]]|]). destruct H.
Qed.
Example C90_general_example : exists doc1 doc2 d, on_root (write_general (mkG (Some (txt "x")) (Some (txt "y")) None None None None None (Some 3))) [Elem ROOT [] []] = Ok doc1 /\
  on_root (write_general about) doc1 = Ok doc2 /\ load (builder_get_xml true doc2) = Ok d /\
  get_general d = mkG (Some (txt "cells & <more>")) (Some (txt "y")) (Some []) (Some (txt " a b ")) None None (Some (txt "2021-02-03T04:05:06Z")) (Some (-2147483648)).
Proof. do 3 eexists. split; [vm_compute; reflexivity|]. split; [vm_compute; reflexivity|]. split; [vm_compute; reflexivity|]. vm_compute; reflexivity. Qed.
(** writing goes through unless a field which is there has elements below it *)
Theorem C90_general_writes : forall g doc, Forall is_element doc -> (exists r, find (matches ROOT []) doc = Some r) ->
  (forall name c, In name (map fst (general_fields g)) -> get_node [txt "Metadata"; txt "Information"; txt "Document"; txt name] doc = Some c ->
    forall k, In k (kids_of c) -> ~ is_element k) ->
  exists doc', on_root (write_general g) doc = Ok doc'.
Proof. exact general_total. Qed.
Print Assumptions C90_general_writes.
Example C90_general_writes_refused :
  on_root (write_general about) [Elem ROOT [] [Elem (txt "Metadata") [] [Elem (txt "Information") [] [Elem (txt "Document") [] [Elem (txt "Name") [] [Elem (txt "x") [] []]]]]]] = Throw.
Proof. vm_compute. reflexivity. Qed.

(** the rating is read from any text: white space, a sign, decimal digits or hexadecimal ones after 0x; what follows is ignored,
    the value is the closest int; 0 without a digit *)
Theorem C90_decimal : forall w sg neg ds vs r, (forall c, In c w -> ws c = true) -> signed sg neg -> Forall2 (figure_of 10) ds vs -> ds <> [] ->
  ~ begins (fun c => exists v, figure_of 10 c v) r -> ~ (ds = [48] /\ begins (fun c => c = 120 \/ c = 88) r) ->
  to_int (w ++ sg ++ ds ++ r) = clamp (if neg then - positional 10 vs else positional 10 vs).
Proof. exact read_decimal_int. Qed.
Print Assumptions C90_decimal.
Theorem C90_hexadecimal : forall w sg neg x hs vs r, (forall c, In c w -> ws c = true) -> signed sg neg -> x = 120 \/ x = 88 -> Forall2 (figure_of 16) hs vs ->
  ~ begins (fun c => exists v, figure_of 16 c v) r -> to_int (w ++ sg ++ [48; x] ++ hs ++ r) = clamp (if neg then - positional 16 vs else positional 16 vs).
Proof. exact read_hex_int. Qed.
Print Assumptions C90_hexadecimal.
Theorem C90_no_number : forall s, ~ has_number s -> to_int s = 0.
Proof. exact read_no_int. Qed.
Print Assumptions C90_no_number.
Example C90_decimal_meets : to_int (txt " 00012abc") = 12 /\ to_int (txt "-99999999999") = -2147483648 /\ to_int (txt "4294967296") = 2147483647 /\
  to_int (txt "-0xFFg") = -255 /\ to_int (txt "x1") = 0 /\ to_int (txt "2.9") = 2.
Proof. vm_compute. repeat split. Qed.

(** scaling: false, a length is written with fifteen digits *)
Theorem C90_scaling_refuted : exists x doc' d', fin64 x /\ on_root (write_scaling true [(x, txt "um"); (S754_nan, []); (S754_nan, [])]) [Elem ROOT [] []] = Ok doc' /\
  load (builder_get_xml false doc') = Ok d' /\ exists y, get_scaling d' = [(y, txt "um"); (S754_nan, []); (S754_nan, [])] /\ ~ (sfQ x == sfQ y)%Q.
Proof.
  exists (S754_finite false 6004799503160661 (-54)). do 2 eexists. split; [vm_compute; repeat split; discriminate|]. split; [vm_compute; reflexivity|]. split; [vm_compute; reflexivity|].
  eexists. split; [vm_compute; reflexivity|]. vm_compute. discriminate.
Qed.
Print Assumptions C90_scaling_refuted.
(** per axis ([scale_kept]): a length which is not a finite number is not written, zero is kept, others are read within one part in
    10^14; the unit is stored, or as before if none is given or units are not written.  Missing: lengths outside 10^-307 .. 10^307 *)
Theorem C90_scaling_partial : forall ind with_units s doc doc', buildable doc -> length s = 3%nat -> Forall (fun p => chars (snd p)) s ->
  on_root (write_scaling with_units s) doc = Ok doc' ->
  exists d d', load (builder_get_xml ind doc) = Ok d /\ load (builder_get_xml ind doc') = Ok d' /\
    length (get_scaling d) = 3%nat /\ length (get_scaling d') = 3%nat /\
    forall i old new written, nth_error s i = Some written -> nth_error (get_scaling d) i = Some old -> nth_error (get_scaling d') i = Some new ->
      scale_kept with_units old written new.
Proof. exact scaling_read. Qed.
Print Assumptions C90_scaling_partial.
Example C90_scaling_example : exists doc1 doc2 d,
  on_root (write_scaling true [(fst (strtod (txt "6.5e-7")), txt "um"); (S754_nan, txt "m"); (S754_zero true, [])]) [Elem ROOT [] []] = Ok doc1 /\
  on_root (write_scaling false [(S754_infinity false, txt "x"); (fst (strtod (txt "1e-6")), []); (S754_nan, txt "y")]) doc1 = Ok doc2 /\
  load (builder_get_xml true doc2) = Ok d /\
  get_scaling d = [(fst (strtod (txt "6.5e-7")), txt "um"); (fst (strtod (txt "1e-6")), txt "m"); (S754_zero true, [])].
Proof. do 3 eexists. split; [vm_compute; reflexivity|]. split; [vm_compute; reflexivity|]. split; [vm_compute; reflexivity|]. vm_compute; reflexivity. Qed.
