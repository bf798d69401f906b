(** What is expected of paths, nodes and values of the metadata XML. *)
From Coq Require Import String.
From Verif Require Import Base TextModel XmlModel.
Open Scope Z_scope.

(** * Paths: steps separated by slashes, a step being a name, a name with an index, or a name with attributes *)
Inductive sel := Any | Nth (i : Z) | With (ats : list (str * str)).
Definition step := (str * sel)%type.

Fixpoint join (sep : Z) (l : list str) : str :=
  match l with [] => [] | [s] => s | s :: l' => s ++ sep :: join sep l' end.
Definition step_text (st : step) : str :=
  fst st ++ match snd st with
            | Any => []
            | Nth i => [91] ++ dec i ++ [93]
            | With ats => [91] ++ join 44 (map (fun '(k, v) => k ++ [61] ++ v) ats) ++ [93]
            end.
Definition path_text (sts : list step) : str := join 47 (map step_text sts).

(** characters with a meaning: slash, brackets, comma, semicolon, equals *)
Definition plain (special : list Z) (s : str) : Prop := forall c, In c s -> ~ In c special.
Definition good_step (st : step) : Prop :=
  fst st <> [] /\ plain [47; 91; 93] (fst st) /\
  match snd st with
  | Any => True
  | Nth i => 0 <= i <= UINT_MAX
  | With ats => ats <> [] /\ NoDup (map fst ats) /\
                (forall k v, In (k, v) ats -> k <> [] /\ plain [47; 91; 93; 44; 59; 61] k /\ plain [47; 91; 93; 44; 59] v)
  end.

(** a child element of the name and with (at least) the attributes *)
Definition has (name : str) (ats : list (str * str)) (n : xml) : Prop :=
  exists at_ kids, n = Elem name at_ kids /\ forall k v, In (k, v) ats -> attr_of at_ k = Some v.
(** position [i] is the first one / the one preceded by exactly [m] such children *)
Definition first_such (p : xml -> Prop) (kids : list xml) (i : nat) : Prop :=
  (exists c, nth_error kids i = Some c /\ p c) /\ forall j c, (j < i)%nat -> nth_error kids j = Some c -> ~ p c.
Inductive nth_such (p : xml -> Prop) : list xml -> Z -> nat -> Prop :=
| such_here c l : p c -> nth_such p (c :: l) 0 0
| such_skip c l m i : ~ p c -> nth_such p l m i -> nth_such p (c :: l) m (S i)
| such_count c l m i : p c -> nth_such p l m i -> nth_such p (c :: l) (m + 1) (S i).
Definition selects (st : step) (kids : list xml) (i : nat) : Prop :=
  match snd st with
  | Any => first_such (has (fst st) []) kids i
  | Nth m => nth_such (has (fst st) []) kids m i
  | With ats => first_such (has (fst st) ats) kids i
  end.
Inductive leads : list step -> xml -> list nat -> Prop :=
| leads_here n : leads [] n []
| leads_down st sts n i c h : selects st (kids_of n) i -> nth_error (kids_of n) i = Some c -> leads sts c h ->
    leads (st :: sts) n (i :: h).

(** * Documents: what is at the positions *)
Inductive label := LElem (name : str) (attrs : list (str * str)) | LText (s : str) | LCData (s : str).
Definition label_of (n : xml) : label :=
  match n with Elem nm ats _ => LElem nm ats | Text s => LText s | CData s => LCData s end.
Definition label_at (h : list nat) (n : xml) : option label := option_map label_of (node_at h n).
Definition value_at (h : list nat) (n : xml) : option str :=
  match node_at h n with Some c => try_get_value c | None => None end.
Definition prefix (a b : list nat) : Prop := exists r, b = a ++ r.

(** the only difference: new elements on the way to [h] *)
Definition only_adds (t t' : xml) (h : list nat) : Prop :=
  (forall k l, label_at k t = Some l -> label_at k t' = Some l) /\
  (forall k, label_at k t = None -> label_at k t' <> None -> prefix k h).

(** no text cut into pieces by CDATA sections or (dropped) comments *)
Definition tidy_kids (kids : list xml) : Prop :=
  (forall s, ~ In (CData s) kids) /\ (length (filter is_text kids) <= 1)%nat.
Definition tidy (t : xml) : Prop := forall h n, node_at h t = Some n -> tidy_kids (kids_of n).

(** writing a list of values *)
Fixpoint writes (ws : list (str * str)) (t : xml) : res xml :=
  match ws with [] => Ok t | (p, v) :: ws' => let* t1 := write p v t in writes ws' t1 end.

(** * Numbers: white space, sign, digits *)
Definition spells_number (s : str) (neg : bool) (m : Z) : Prop :=
  exists w sg ds, s = w ++ sg ++ ds /\ (forall c, In c w -> is_space c = true) /\
    ((sg = [] /\ neg = false) \/ (sg = [43] /\ neg = false) \/ (sg = [45] /\ neg = true)) /\
    ds <> [] /\ (forall c, In c ds -> is_digit c = true) /\ m = dval ds.

(** * Truth values *)
(** the same letter, capital or not *)
Definition same_letter (c d : Z) : Prop := c = d \/ (97 <= c <= 122 /\ d = c - 32) \/ (97 <= d <= 122 /\ c = d - 32).
Definition truth_words (b : bool) : list str := if b then [txt "yes"; txt "true"; txt "1"] else [txt "no"; txt "false"; txt "0"].
(** one of the words, in any mixture of capitals and small letters, between spaces and tabulators *)
Definition truth_text (s : str) (b : bool) : Prop :=
  exists a w z word, s = a ++ w ++ z /\ (forall c, In c (a ++ z) -> c = 32 \/ c = 9) /\ In word (truth_words b) /\ Forall2 same_letter word w.
