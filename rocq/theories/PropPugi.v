(** C88: metadata saved as XML text and loaded again. *)
From Coq Require Import String.
From Verif Require Import Base TextModel XmlModel XmlSpec PugiModel PugiSpec PugiProofs PugiTree PugiRound PugiBuild.
Open Scope Z_scope.

Definition sample : xml :=
  Elem (txt "ImageDocument") []
    [Elem (txt "Metadata") [(txt "Id", txt "a<b'""& ")] [Elem (txt "Name") [] [Text (txt " x & y > z")]; Elem (txt "Empty") [] []];
     Elem (txt "Channels") [] [Elem (txt "Channel") [(txt "Id", txt "1")] [CData (txt "]]"); Text (txt "µ"); CData (txt "<raw>")]]].

(** what is saved - with or without indentation, with a declaration - is what is loaded, for documents of proper names
    whose texts are not blank, have no carriage returns and do not follow each other, and whose sections have no "]]>" *)
Theorem C88_saved_partial : forall ind doc, doc <> [] -> Forall is_element doc -> Forall named doc -> Forall durable doc ->
  load (builder_get_xml ind doc) = Ok doc /\ load (metadata_get_xml doc) = Ok doc.
Proof. exact saved_is_loaded. Qed.
Print Assumptions C88_saved_partial.
Example C88_saved_meets : named sample /\ durable sample.
Proof.
  assert (C : forall s, ~ has_close s <-> match pieces s with [_] => True | _ => False end) by exact close_pieces.
  unfold sample. split.
  - cbn [named]. repeat match goal with |- _ /\ _ => split | |- Forall _ _ => constructor | |- True => exact I end;
      repeat split; try (apply Forall_forall; intros c H; cbn in H; unfold name_char, letter; lia); cbn; unfold letter; lia.
  - cbn [durable apart]. repeat match goal with |- _ /\ _ => split | |- True => exact I | |- ~ has_close _ => apply C; exact I end;
      try reflexivity; cbn; lia.
Qed.
Example C88_saved_example :
  load (builder_get_xml true [sample]) = Ok [sample] /\ load (builder_get_xml false [sample]) = Ok [sample] /\ load (metadata_get_xml [sample]) = Ok [sample].
Proof. repeat split; vm_compute; reflexivity. Qed.

(** what is lost otherwise: exactly what [settle] says *)
Theorem C88_settled : forall ind doc, doc <> [] -> Forall is_element doc -> Forall named doc ->
  load (builder_get_xml ind doc) = Ok (map settle doc) /\ load (metadata_get_xml doc) = Ok (map settle doc).
Proof. intros ind doc D E N. split; [now apply builder_round|now apply metadata_round]. Qed.
Print Assumptions C88_settled.

(** once saved and loaded a document no longer changes *)
Theorem C88_twice : forall ind ind' doc, doc <> [] -> Forall is_element doc -> Forall named doc ->
  exists doc', load (builder_get_xml ind doc) = Ok doc' /\ load (builder_get_xml ind' doc') = Ok doc' /\ load (metadata_get_xml doc') = Ok doc'.
Proof. exact saved_twice. Qed.
Print Assumptions C88_twice.

(** values written through paths of proper names into a new builder are there when its text has been given to another one *)
Theorem C88_values : forall root es1 e es2 ind t', proper_name root -> Forall good_entry (es1 ++ e :: es2) ->
  writes (map as_write (es1 ++ e :: es2)) (Elem root [] []) = Ok t' ->
  (forall e', In e' es2 -> get_child_node (path_text (fst e')) t' <> get_child_node (path_text (fst e)) t') ->
  builder_load root (builder_get_xml ind [t']) = Ok ([t'], O) /\ read (path_text (fst e)) t' = Ok (Some (snd e)).
Proof. exact values_saved. Qed.
Print Assumptions C88_values.

Definition entries : list entry :=
  [([(txt "Metadata", Any); (txt "Channel", With [(txt "Id", txt "a b")]); (txt "Name", Any)], txt " DAPI ");
   ([(txt "Metadata", Any); (txt "Title", Any)], txt "1 < 2 & 3");
   ([(txt "Metadata", Any); (txt "Title", Any)], txt "x")].
Example C88_values_meets : Forall good_entry entries.
Proof.
  assert (N : forall s, forallb (fun c => (97 <=? c) && (c <=? 122) || (65 <=? c) && (c <=? 90)) s = true -> s <> [] -> proper_name s /\ plain [47; 91; 93; 44; 59; 61] s).
  { intros s H E. rewrite forallb_forall in H. split; [split; [|split]|].
    - apply Forall_forall. intros c I. specialize (H c I). lia.
    - apply Forall_forall. intros c I. specialize (H c I). unfold name_char, letter. lia.
    - destruct s as [|c s]; [easy|]. specialize (H c (or_introl eq_refl)). unfold letter. lia.
    - intros c I J. specialize (H c I). cbn in J. lia. }
  assert (A : forall s, forallb (fun c => (97 <=? c) && (c <=? 122) || (65 <=? c) && (c <=? 90)) s = true -> s <> [] -> good_step (s, Any) /\ proper_step (s, Any)).
  { intros s H E. destruct (N s H E) as (P & Q). split; [|now split]. split; [exact E|]. split; [|exact I]. intros c I J. apply (Q c I). cbn in *. tauto. }
  assert (V : forall s, forallb (fun c => (32 <=? c) && (c <? 128)) s = true -> blank s = false -> chars s /\ blank s = false /\ ~ In 13 s).
  { intros s H B. rewrite forallb_forall in H. split; [|split; [exact B|]].
    - apply Forall_forall. intros c I. specialize (H c I). lia.
    - intros I. specialize (H 13 I). lia. }
  assert (W : good_step (txt "Channel", With [(txt "Id", txt "a b")]) /\ proper_step (txt "Channel", With [(txt "Id", txt "a b")])).
  { destruct (N (txt "Channel") eq_refl ltac:(discriminate)) as (P & Q). destruct (N (txt "Id") eq_refl ltac:(discriminate)) as (P' & Q'). split.
    - split; [discriminate|]. split; [intros c I J; apply (Q c I); cbn in *; tauto|]. cbn [snd]. split; [discriminate|].
      split; [constructor; [intros []|constructor]|]. intros k v [[= <- <-]|[]]. split; [discriminate|]. split; [exact Q'|].
      intros c I J. cbn in I, J. lia.
    - split; [exact P|]. constructor; [|constructor]. split; [exact P'|]. apply (V (txt "a b") eq_refl eq_refl). }
  unfold entries. repeat match goal with |- Forall good_entry _ => constructor | |- good_entry _ => split; cbn [fst snd]; [discriminate|] end.
  all: try (split; [|split; [|apply V; reflexivity]]).
  all: repeat (constructor; [first [apply W|apply A; [reflexivity|discriminate]]|]); constructor.
Qed.
Example C88_values_example : exists t', writes (map as_write entries) (Elem (txt "ImageDocument") [] []) = Ok t' /\
  builder_load (txt "ImageDocument") (builder_get_xml true [t']) = Ok ([t'], O) /\
  read (txt "Metadata/Channel[Id=a b]/Name") t' = Ok (Some (txt " DAPI ")) /\ read (txt "Metadata/Title") t' = Ok (Some (txt "x")).
Proof. eexists. repeat split; vm_compute; reflexivity. Qed.

(** a document which has been loaded can be saved and loaded *)
Theorem C88_loaded : forall bytes ind d, Forall (fun b => 0 <= b < 256) bytes -> load bytes = Ok d -> Forall is_element d -> Forall values_in d ->
  exists d', load (builder_get_xml ind d) = Ok d' /\ load (metadata_get_xml d) = Ok d' /\ d' = map settle d.
Proof. exact loaded_is_saved. Qed.
Print Assumptions C88_loaded.

(** loading any bytes ends: with a document, or with an error *)
Theorem C88_total : forall bytes, load bytes = Throw \/ exists d, load bytes = Ok d.
Proof. exact load_total. Qed.
Print Assumptions C88_total.

(** the statement for all documents is false: *)
(** a blank value is not there any more *)
Theorem C88_blank_refuted : exists p v t, write p v (Elem (txt "ImageDocument") [] []) = Ok t /\ read p t = Ok (Some v) /\
  forall ind, exists t', load (builder_get_xml ind [t]) = Ok [t'] /\ read p t' = Ok None.
Proof.
  exists (txt "Metadata/Separator"), (txt " "). eexists. split; [vm_compute; reflexivity|]. split; [vm_compute; reflexivity|].
  intros [|]; eexists; split; vm_compute; reflexivity.
Qed.
Print Assumptions C88_blank_refuted.
(** the carriage return of a line end is dropped or replaced *)
Theorem C88_return_refuted : exists p v t, write p v (Elem (txt "ImageDocument") [] []) = Ok t /\
  forall ind, exists t', load (builder_get_xml ind [t]) = Ok [t'] /\ read p t' = Ok (Some [97; 10; 98; 10]).
Proof.
  exists (txt "Metadata/Note"), [97; 13; 10; 98; 13]. eexists. split; [vm_compute; reflexivity|].
  intros [|]; eexists; split; vm_compute; reflexivity.
Qed.
Print Assumptions C88_return_refuted.
(** a path whose names are none of XML is accepted; the text saved cannot be loaded *)
Theorem C88_names_refuted : exists p v t, write p v (Elem (txt "ImageDocument") [] []) = Ok t /\
  (forall ind, load (builder_get_xml ind [t]) = Throw) /\ load (metadata_get_xml [t]) = Throw.
Proof.
  exists (txt "Metadata/1st value"), (txt "v"). eexists. split; [vm_compute; reflexivity|]. split; [intros [|]|]; vm_compute; reflexivity.
Qed.
Print Assumptions C88_names_refuted.
(** a document which has been loaded loses text when it is saved: references to blanks, sections, and texts side by side *)
Theorem C88_reload_refuted : exists b1 b2 d1 d2, load b1 = Ok d1 /\ load b2 = Ok d2 /\
  (forall ind, exists d', load (builder_get_xml ind d1) = Ok d' /\ d' <> d1) /\
  (forall ind, exists d', load (builder_get_xml ind d2) = Ok d' /\ d' <> d2).
Proof.
  exists (txt "<a><b>&#32;</b></a>"), (txt "<a>x<!-- -->y</a>"). eexists. eexists. split; [vm_compute; reflexivity|]. split; [vm_compute; reflexivity|].
  split; intros [|]; eexists; (split; [vm_compute; reflexivity|discriminate]).
Qed.
Print Assumptions C88_reload_refuted.
(** a section of character data with the sequence which ends one comes back as two, whose first is taken for the value *)
Theorem C88_section_refuted : exists t t', (forall ind, load (builder_get_xml ind [t]) = Ok [t']) /\
  child_value (kids_of t) = txt "a]]>b" /\ child_value (kids_of t') = txt "a]]".
Proof.
  exists (Elem (txt "v") [] [CData (txt "a]]>b")]). eexists. split; [intros [|]; vm_compute; reflexivity|]. split; vm_compute; reflexivity.
Qed.
Print Assumptions C88_section_refuted.
