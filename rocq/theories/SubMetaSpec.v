(** What the metadata of a sub-block say. *)
From Coq Require Import String.
From Verif Require Import Base CodecModel TextModel XmlModel XmlSpec PugiModel PugiSpec.
Open Scope Z_scope.

(** the first element of the name among the children *)
Definition the_first (name : str) (kids : list xml) (c : xml) : Prop :=
  exists a b, kids = a ++ c :: b /\ has name [] c /\ forall c', In c' a -> ~ has name [] c'.
(** following names from the document *)
Inductive goes_to : list str -> list xml -> xml -> Prop :=
| goes_one k kids c : the_first k kids c -> goes_to [k] kids c
| goes_on k ks kids c n : the_first k kids n -> goes_to ks (kids_of n) c -> goes_to (k :: ks) kids c.
(** the text of an element: the text it begins with *)
Definition has_text (c : xml) (v : str) : Prop := v <> [] /\ exists nm ats r, c = Elem nm ats (Text v :: r).
Definition no_text (c : xml) : Prop := forall v r, kids_of c <> Text v :: r.
(** what is found by following the names: [found v] for the text [v], nothing if there is no such element or no text *)
Definition text_at (names : list str) (d : list xml) (o : option str) : Prop :=
  (forall c v, goes_to names d c -> has_text c v -> o = Some v) /\
  (forall c, goes_to names d c -> no_text c -> o = None) /\
  ((forall c, ~ goes_to names d c) -> o = None).

(** the tags with their values as a document *)
Definition tags_document (tags : list (str * str)) : xml :=
  Elem (txt "METADATA") [] [Elem (txt "Tags") [] (map (fun t => Elem (fst t) [] [Text (snd t)]) tags)].
(** the value of a tag among those given: the last one counts *)
Definition last_given (tags : list (str * str)) (k v : str) : Prop :=
  exists t1 t2, tags = t1 ++ (k, v) :: t2 /\ forall t, In t t2 -> fst t <> k.
(** the names and values to be written *)
Definition tag_plain (t : str) : Prop := t <> [] /\ plain [47; 91; 93] t.
Definition tag_ok (t : str * str) : Prop := proper_name (fst t) /\ chars (snd t) /\ blank (snd t) = false /\ ~ In 13 (snd t).
(** a document which says that the attachment consists of chunks *)
Definition container_document (rest : list xml) : xml :=
  Elem (txt "METADATA") [] (Elem (txt "AttachmentSchema") [] [Elem (txt "DataFormat") [] [Text (txt "CHUNKCONTAINER")]] :: rest).
