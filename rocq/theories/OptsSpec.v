(** What compression options mean as text. *)
From Coq Require Import String.
From Verif Require Import Base CodesModel TextModel XmlModel OptsModel.
Open Scope Z_scope.

Definition space_char (c : Z) : Prop := c = 32 \/ 9 <= c <= 13.
Definition blank (s : str) : Prop := Forall space_char s.
Definition alnum_char (c : Z) : Prop := 48 <= c <= 57 \/ 65 <= c <= 90 \/ 97 <= c <= 122.
(** names consist of letters and digits, values may have a point and signs as well *)
Definition name (s : str) : Prop := Forall alnum_char s.
Definition value (s : str) : Prop := Forall (fun c => alnum_char c \/ c = 46 \/ c = 43 \/ c = 45) s.
(** "key = value" with white space around *)
Definition spelled (kv : str * str) (s : str) : Prop :=
  name (fst kv) /\ value (snd kv) /\
  exists a b c d, blank a /\ blank b /\ blank c /\ blank d /\ s = a ++ fst kv ++ b ++ [61] ++ c ++ snd kv ++ d.
(** "method : key = value ; ... ; key = value", where the last semicolon may be the end *)
Definition options_text (s method : str) (items : list (str * str)) : Prop :=
  name method /\ method <> [] /\
  exists a b parts tail front, blank a /\ blank b /\ Forall2 spelled front parts /\
    s = a ++ method ++ b ++ [58] ++ concat (map (fun p => p ++ [59]) parts) ++ tail /\
    (blank tail /\ items = front \/ exists kv, spelled kv tail /\ items = front ++ [kv]).

(** equal but for the case of letters *)
Definition same_letter (x y : Z) : Prop := x = y \/ (65 <= x <= 90 /\ y = x + 32) \/ (65 <= y <= 90 /\ x = y + 32).
Definition same_word (a b : str) : Prop := Forall2 same_letter a b.
Definition mode_word (m : compression) : str :=
  match m with
  | UnCompressed => txt "uncompressed" | Jpg => txt "jpg" | JpgXr => txt "jpgxr" | Zstd0 => txt "zstd0" | Zstd1 => txt "zstd1"
  | CompInvalid => []
  end.
(** an optional sign and digits, in the range of int *)
Definition int_text (v : str) (n : Z) : Prop :=
  exists sg ds, v = sg ++ ds /\ ds <> [] /\ Forall (fun c => 48 <= c <= 57) ds /\
    (sg = [45] /\ n = - dval ds \/ (sg = [] \/ sg = [43]) /\ n = dval ds) /\ - 2 ^ 31 <= n < 2 ^ 31.
Definition level_key (k : str) : Prop := same_word k (txt "ExplicitLevel").
Definition pack_item (kv : str * str) : Prop := same_word (fst kv) (txt "PreProcess") /\ same_word (snd kv) (txt "HiLoByteUnpack").
(** the last level counts; all levels must be numbers *)
Definition levels_ok (items : list (str * str)) : Prop := forall kv, In kv items -> level_key (fst kv) -> exists n, int_text (snd kv) n.
Definition level_of (items : list (str * str)) (l : option Z) : Prop :=
  match l with
  | None => forall kv, In kv items -> ~ level_key (fst kv)
  | Some n => exists before kv after, items = before ++ kv :: after /\ level_key (fst kv) /\ int_text (snd kv) n /\
                forall kv', In kv' after -> ~ level_key (fst kv')
  end.
Definition meaning (s : str) (m : compression) (level : option Z) (pack : bool) : Prop :=
  exists method items, options_text s method items /\ m <> CompInvalid /\ same_word method (mode_word m) /\
    levels_ok items /\ level_of items level /\ (pack = true <-> exists kv, In kv items /\ pack_item kv).
(** the usual way to write options *)
Definition option_items (l : option Z) (pack : bool) : list (str * str) :=
  (match l with Some n => [(txt "ExplicitLevel", dec n)] | None => [] end) ++ (if pack then [(txt "PreProcess", txt "HiLoByteUnpack")] else []).
Fixpoint join (l : list (str * str)) : str :=
  match l with
  | [] => []
  | [(k, v)] => k ++ [61] ++ v
  | (k, v) :: r => k ++ [61] ++ v ++ [59] ++ join r
  end.
Definition option_line (m : compression) (l : option Z) (pack : bool) : str := mode_word m ++ [58] ++ join (option_items l pack).
