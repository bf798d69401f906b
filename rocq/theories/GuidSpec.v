(** What is expected of parameters given as text. *)
From Coq Require Import String.
From Verif Require Import Base CodecModel TextModel DocSpec GuidModel.
Open Scope Z_scope.

Definition blanks (s : str) : Prop := forall c, In c s -> c = 32 \/ c = 9.
(** two hexadecimal digits for a byte, most significant first, upper or lower case *)
Definition hex2 (h : str) (b : Z) : Prop := exists c d x y, h = [c; d] /\ figure_of 16 c x /\ figure_of 16 d y /\ b = 16 * x + y.
Definition hexes (s : str) (bs : bytes) : Prop := exists hs, s = concat hs /\ Forall2 hex2 hs bs.
(** the usual text of a GUID, 8-4-4-4-12: the first three numbers are stored with the lowest byte first *)
Definition guid_core (s : str) (g : bytes) : Prop :=
  exists t1 t2 t3 t4 t5 a b c d e, s = t1 ++ [45] ++ t2 ++ [45] ++ t3 ++ [45] ++ t4 ++ [45] ++ t5 /\ g = rev a ++ rev b ++ rev c ++ d ++ e /\
    hexes t1 a /\ hexes t2 b /\ hexes t3 c /\ hexes t4 d /\ hexes t5 e /\
    length a = 4%nat /\ length b = 2%nat /\ length c = 2%nat /\ length d = 2%nat /\ length e = 6%nat.
(** blanks around it, perhaps braces *)
Definition guid_text (s : str) (g : bytes) : Prop :=
  exists w1 w2 core, blanks w1 /\ blanks w2 /\ guid_core core g /\ (s = w1 ++ core ++ w2 \/ s = w1 ++ [123] ++ core ++ [125] ++ w2).

(** the value of a member: the first with the name *)
Definition has (d : jdoc) (k : string) (v : json) : Prop :=
  exists l pre post, d = Some l /\ l = pre ++ (txt k, v) :: post /\ ~ In (txt k) (map fst pre).
(** the text up to a NUL *)
Definition until_nul (s t : str) : Prop := ~ In 0 t /\ (s = t \/ exists r, s = t ++ 0 :: r).
(** a GUID which can be used has been given *)
Definition guid_given (d : jdoc) (g : bytes) : Prop :=
  exists s t, has d "file_guid" (JStr s) /\ until_nul s t /\ guid_text t g /\ g <> repeat 0 16.
Definition number_given (d : jdoc) (k : string) (lo hi n : Z) : Prop := has d k (JInt n) /\ lo <= n < hi.

(** a value of the type of a property *)
Definition fits (ty : ptype) (v : json) (x : pvalue) : Prop :=
  match ty, v, x with
  | PString, JStr s, PVString t => until_nul s t
  | PBool, JBool b, PVBool b' => b = b'
  | PInt, JInt z, PVInt z' => z = z' /\ - 2 ^ 31 <= z < 2 ^ 31
  | _, _, _ => False
  end.
(** the table has an entry *)
Definition listed (t : ptable) (k : str) (i : Z) (ty : ptype) : Prop := exists n, until_nul k n /\ In (n, i, ty) t.
Definition table_ok (t : ptable) : Prop := NoDup (map (fun e => fst (fst e)) t) /\ NoDup (map (fun e => snd (fst e)) t).
