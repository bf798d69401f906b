(** What is said about choosing and extracting. *)
From Coq Require Import String Floats.SpecFloat.
From Verif Require Import Base CodecModel TextModel GuidSpec JsonModel WriterModel EditSpec.
Open Scope Z_scope.

(** an object says something of a key: its last member of that name *)
Definition says (l : list (str * jv)) (key : str) (v : jv) : Prop :=
  exists l1 k l2, l = l1 ++ (k, v) :: l2 /\ until_nul k key /\ forall k' v', In (k', v') l2 -> ~ until_nul k' key.
(** members may be texts, truth values and numbers written with a fraction or an exponent (or larger than 64 bits) *)
Definition allowed (num : str -> spec_float) (v : jv) : Prop :=
  match v with
  | VStr _ | VBool _ => True
  | VNum t => finite (num t) = true
  | VInt z => (z < - 2 ^ 63 \/ 2 ^ 64 <= z) /\ finite (num (dec z)) = true
  | _ => False
  end.
(** the number is the integer k *)
Definition whole (x : spec_float) (k : Z) : Prop :=
  match x with
  | S754_zero _ => k = 0
  | S754_finite s m e => (if s then - k else k) * 2 ^ (Z.max 0 (- e)) = Zpos m * 2 ^ (Z.max 0 e)
  | _ => False
  end.
(** the name and the index asked for *)
Definition asks_for (num : str -> spec_float) (l : list (str * jv)) (n : option bytes) (i : option Z) : Prop :=
  match n with
  | Some t => exists s, says l (txt "name") (VStr s) /\ until_nul s t
  | None => forall s, ~ says l (txt "name") (VStr s)
  end /\
  match i with
  | Some k => exists t, says l (txt "index") (VNum t) /\ whole (num t) k
  | None => forall v, says l (txt "index") v -> match v with VNum _ | VInt _ => False | _ => True end
  end.
(** the attachments with their numbers; those with the name and the number *)
Definition numbered {A} (l : list A) : list (Z * A) := combine (map Z.of_nat (seq 0 (List.length l))) l.
Definition name_of (a : attinfo) : bytes := cstring (firstn 79 (at_name a)).
Definition wanted (n : option bytes) (i : option Z) (x : Z * attinfo) : bool :=
  match n with Some t => eqbytes t (name_of (snd x)) | None => true end && match i with Some k => k =? fst x | None => true end.
(** the name of the file: output, underscore, name and underscore if there is a name, number, dot, type or XXX *)
Definition path_for (w : bytes -> str) (out : str) (x : Z * attinfo) : str :=
  out ++ [95] ++ (match name_of (snd x) with [] => [] | t => w t ++ [95] end) ++ dec (fst x) ++ [46] ++ (match cstring (at_type (snd x)) with [] => txt "XXX" | t => w t end).
(** names and types are texts which can be converted *)
Definition convertible (wide : bytes -> option str) (w : bytes -> str) (a : attinfo) : Prop :=
  forall t, t = name_of a \/ t = cstring (at_type a) -> wide t = Some (w t) /\ ~ In 0 (w t).
