(** What is expected of metadata saved as XML text and loaded again. *)
From Coq Require Import String.
From Verif Require Import Base TextModel XmlModel XmlSpec.
Open Scope Z_scope.

(** characters: no NUL, at most 21 bits (all of Unicode) *)
Definition chars (s : str) : Prop := Forall (fun c => 1 <= c < 2 ^ 21) s.
(** names as in XML: letters, underscore, colon, anything beyond ASCII; then also digits, hyphen, full stop *)
Definition letter (c : Z) : Prop := 97 <= c <= 122 \/ 65 <= c <= 90 \/ c = 95 \/ c = 58 \/ 127 < c.
Definition name_char (c : Z) : Prop := letter c \/ 48 <= c <= 57 \/ c = 45 \/ c = 46.
Definition proper_name (s : str) : Prop := chars s /\ Forall name_char s /\ match s with c :: _ => letter c | [] => False end.
(** white space: tab, line feed, carriage return, space *)
Definition ws (c : Z) : bool := existsb (Z.eqb c) [9; 10; 13; 32].
Definition blank (s : str) : bool := forallb ws s.
(** the end of a CDATA section inside of a text *)
Definition has_close (s : str) : Prop := exists a b, s = a ++ [93; 93; 62] ++ b.

(** documents which can be saved: proper names of elements and attributes, no NUL *)
Definition attr_named (a : str * str) : Prop := proper_name (fst a) /\ chars (snd a).
Fixpoint named (n : xml) : Prop :=
  match n with
  | Elem nm ats ks => proper_name nm /\ Forall attr_named ats /\
                      (fix all ks := match ks with [] => True | k :: ks' => named k /\ all ks' end) ks
  | Text s | CData s => chars s
  end.

(** texts which survive: not only white space, no carriage return, no two texts side by side *)
Fixpoint apart (ks : list xml) : Prop :=
  match ks with
  | Text _ :: (Text _ :: _) => False
  | _ :: ks' => apart ks'
  | [] => True
  end.
Fixpoint durable (n : xml) : Prop :=
  match n with
  | Elem _ _ ks => apart ks /\ (fix all ks := match ks with [] => True | k :: ks' => durable k /\ all ks' end) ks
  | Text s => blank s = false /\ ~ In 13 s
  | CData s => ~ has_close s /\ ~ In 13 s
  end.

(** * What becomes of any document *)

(** a carriage return, with a line feed if there is one, becomes a line feed *)
Fixpoint line_ends (s : str) : str :=
  match s with
  | [] => []
  | c :: r => if c =? 13 then match r with
                              | d :: r' => if d =? 10 then 10 :: line_ends r' else 10 :: line_ends r
                              | [] => [10]
                              end
              else c :: line_ends r
  end.
(** a text is cut so that no piece contains the end of a CDATA section *)
Fixpoint pieces (s : str) : list str :=
  match s with
  | [] => [[]]
  | a :: s1 =>
    match s1 with
    | b :: ((c :: _) as s2) =>
      if (a =? 93) && (b =? 93) && (c =? 62) then [93; 93] :: pieces s2
      else match pieces s1 with p :: ps => (a :: p) :: ps | [] => [[a]] end
    | _ => match pieces s1 with p :: ps => (a :: p) :: ps | [] => [[a]] end
    end
  end.
Definition kept (t : str) : list xml := if blank t then [] else [Text (line_ends t)].
(** neighbouring texts are joined, blank ones are dropped *)
Fixpoint settle (n : xml) : xml :=
  match n with
  | Elem nm ats ks =>
    Elem nm ats ((fix go (t : str) (ks : list xml) : list xml :=
                    match ks with
                    | [] => kept t
                    | Text s :: ks' => go (t ++ s) ks'
                    | CData s :: ks' => kept t ++ map (fun p => CData (line_ends p)) (pieces s) ++ go [] ks'
                    | k :: ks' => kept t ++ settle k :: go [] ks'
                    end) [] ks)
  | _ => n
  end.

(** * Values written by a builder: paths of proper names, values which are not blank and have no carriage return *)
Definition proper_step (st : step) : Prop :=
  proper_name (fst st) /\ match snd st with With ats => Forall attr_named ats | _ => True end.
Definition entry := (list step * str)%type.
Definition good_entry (e : entry) : Prop :=
  fst e <> [] /\ Forall good_step (fst e) /\ Forall proper_step (fst e) /\
  chars (snd e) /\ blank (snd e) = false /\ ~ In 13 (snd e).
Definition as_write (e : entry) : str * str := (path_text (fst e), snd e).

(** * Documents which have been loaded: the characters of all values *)
Fixpoint values_in (n : xml) : Prop :=
  match n with
  | Elem _ ats ks => Forall (fun a => chars (snd a)) ats /\
                     (fix all ks := match ks with [] => True | k :: ks' => values_in k /\ all ks' end) ks
  | Text s | CData s => chars s
  end.
