(** What is said about asking and reading in the middle of an editing session: everything is as the document would be now. *)
From Verif Require Import Base CodecModel WriterModel WriterSpec EditModel EditSpec ReaderModel ReaderSpec.
Open Scope Z_scope.

(** what is told of an attachment: identifier, type with one byte more, the characters of its name; there must be an end of the name *)
Definition told9 (b : byte) (a : attinfo) : ainfo := (at_guid a, at_type a ++ [b], cstring (at_name a)).
Definition name_ends (a : attinfo) : Prop := In 0 (at_name a).
(** attachments of a type and a name, where given *)
Definition selected (t n : option bytes) (a : attinfo) : bool :=
  match t with None => true | Some t => is_string t (at_type a) end && match n with None => true | Some n => is_string n (at_name a) end.
(** a list walked through until the callback stops *)
Definition walked {A} (go : Z -> A -> bool) (l : list (Z * A)) : list (Z * A) := until (fun x => go (fst x) (snd x)) l.

(** the sub-blocks *)
Definition sub_told (v : observed) : rinfo := rinfo_of (ob_entry v).
Definition sub_read (v : observed) : rinfo * (bytes * bytes * bytes) := (rinfo_of (ob_info v), (ob_data v, ob_att v, ob_meta v)).
Definition found {A B} (f : A -> B) (k : Z) (l : list (Z * A)) : option B := option_map (fun x => f (snd x)) (lookup k l).
Definition with_told {A B} (f : A -> B) (l : list (Z * A)) : list (Z * B) := map (fun x => (fst x, f (snd x))) l.
(** a session on a document, or on next to nothing *)
Definition started_on (strict : bool) (f : file) (d : doc) : Prop :=
  (exists h, document strict f h d /\ reopened d = d) \/ (0 <= f_size f < 544 /\ (strict = false \/ 0 < f_size f) /\ d = no_doc).
