(** What the text formats are supposed to mean, stated without the parsers. *)
From Verif Require Import Base TextModel.

(** ** Coordinates: a sequence of  dimension-letter, number  pairs with
    separators (blank, tab, comma, semicolon) before and after every pair and
    blanks/tabs around an optional sign. *)
Record item := Item {
  i_lead : str;            (* separators *)
  i_letter : Z;            (* dimension letter *)
  i_blank : str;           (* blanks and tabs *)
  i_sign : option (Z * str);  (* sign, and the blanks after it *)
  i_digits : str;
  i_trail : str            (* separators *)
}.

Definition item_text (it : item) : str :=
  i_lead it ++ i_letter it :: i_blank it
    ++ (match i_sign it with Some (c, w) => c :: w | None => [] end)
    ++ i_digits it ++ i_trail it.

Definition item_dim (it : item) : Z :=
  match char_dim (i_letter it) with Some d => d | None => 0 end.

Definition item_negative (it : item) : bool :=
  match i_sign it with Some (45, _) => true | _ => false end.
Definition item_value (it : item) : Z :=
  if item_negative it then - dval (i_digits it) else dval (i_digits it).

Record item_ok (it : item) : Prop := {
  ok_lead : Forall (fun c => is_sep c = true) (i_lead it);
  ok_letter : char_dim (i_letter it) <> None;
  ok_blank : Forall (fun c => is_blank c = true) (i_blank it);
  ok_sign : match i_sign it with
            | Some (c, w) => (c = 45 \/ c = 43) /\ Forall (fun c => is_blank c = true) w
            | None => True
            end;
  ok_digits : i_digits it <> [] /\ Forall (fun c => is_digit c = true) (i_digits it);
  ok_trail : Forall (fun c => is_sep c = true) (i_trail it);
  ok_value : in_i32 (item_value it)
}.

(** [s] spells the coordinate [c]: it is a sequence of pairs with pairwise
    different dimensions, and [c] has exactly these dimensions and values. *)
Definition spells (s : str) (l : list item) (c : coord) : Prop :=
  s = flat_map item_text l /\
  Forall item_ok l /\
  NoDup (map item_dim l) /\
  List.length c = 9%nat /\
  (forall d v, In d dims ->
     (tget c d = Some v <-> exists it, In it l /\ item_dim it = d /\ item_value it = v)).

(** The implementation limit of the parser: at most 11 characters for minus
    sign, one leading zero (if there are any) and the remaining digits. *)
Fixpoint drop_zeros (s : str) : str :=
  match s with
  | 48 :: r => drop_zeros r
  | _ => s
  end.
Definition item_short (it : item) : Prop :=
  (List.length (drop_zeros (i_digits it))
   + (match i_digits it with 48%Z :: _ => 1 | _ => 0 end)
   + (if item_negative it then 1 else 0) <= 11)%nat.

(** A coordinate as the API can hold it: nine dimensions, int values. *)
Definition coord_ok (c : coord) : Prop :=
  List.length c = 9%nat /\ forall d v, In d dims -> tget c d = Some v -> in_i32 v.

(** Bounds with at least one dimension and no empty interval. *)
Definition bounds_ok (b : bounds) : Prop :=
  List.length b = 9%nat /\
  (exists d, In d dims /\ tget b d <> None) /\
  forall d st sz, In d dims -> tget b d = Some (st, sz) -> in_i32 st /\ in_i32 sz /\ sz <> 0.

(** ** Index sets: a comma separated list of numbers and ranges. *)
Inductive bnd := Num (n : Z) | Inf | PlusInf | MinusInf.
Definition bnd_text (b : bnd) : str :=
  match b with
  | Num n => dec n
  | Inf => INF
  | PlusInf => 43 :: INF
  | MinusInf => 45 :: INF
  end.
Definition bnd_value (b : bnd) : Z :=
  match b with Num n => n | Inf | PlusInf => INT_MAX | MinusInf => INT_MIN end.
Definition bnd_ok (b : bnd) : Prop := match b with Num n => in_i32 n | _ => True end.

Inductive entry := Single (b : bnd) | Range (lo hi : bnd).
Definition entry_text (e : entry) : str :=
  match e with
  | Single b => bnd_text b
  | Range lo hi => bnd_text lo ++ 45 :: bnd_text hi
  end.
Definition entry_ok (e : entry) : Prop :=
  match e with
  | Single b => bnd_ok b
  | Range lo hi => bnd_ok lo /\ bnd_ok hi /\ bnd_value lo <= bnd_value hi
  end.
Definition entry_has (e : entry) (i : Z) : Prop :=
  match e with
  | Single b => i = bnd_value b
  | Range lo hi => bnd_value lo <= i <= bnd_value hi
  end.
(** entries with blanks around them, separated by commas *)
Fixpoint listing (l : list (str * entry * str)) : str :=
  match l with
  | [] => []
  | [(w, e, w')] => w ++ entry_text e ++ w'
  | (w, e, w') :: l' => w ++ entry_text e ++ w' ++ 44 :: listing l'
  end.
Definition listing_ok (l : list (str * entry * str)) : Prop :=
  Forall (fun x => Forall (fun c => is_blank c = true) (fst (fst x)) /\
                   Forall (fun c => is_blank c = true) (snd x) /\
                   entry_ok (snd (fst x))) l.

(** ** Property bags *)
Definition esc (s : str) : str :=
  flat_map (fun c => if (c =? SEMI) || (c =? EQU) then [BSL; c] else [c]) s.
Fixpoint bag_text (l : list (str * str)) : str :=
  match l with
  | [] => []
  | [(k, v)] => esc k ++ EQU :: esc v
  | (k, v) :: l' => esc k ++ EQU :: esc v ++ SEMI :: bag_text l'
  end.
Definition ends_in_backslash (s : str) : Prop := exists s', s = s' ++ [BSL].

(** ** Bounds: a sequence of  dimension-letter start ':' size  triples, each
    followed by optional white space. *)
Record bitem := BItem {
  b_letter : Z;
  b_sign1 : option Z; b_digits1 : str;
  b_sign2 : option Z; b_digits2 : str;
  b_space : str
}.
Definition sign_text (o : option Z) : str := match o with Some c => [c] | None => [] end.
Definition signed (o : option Z) (ds : str) : Z :=
  match o with Some 45 => - dval ds | _ => dval ds end.
Definition bitem_text (it : bitem) : str :=
  b_letter it :: sign_text (b_sign1 it) ++ b_digits1 it
    ++ 58 :: sign_text (b_sign2 it) ++ b_digits2 it ++ b_space it.
Definition bitem_dim (it : bitem) : Z :=
  match char_dim (b_letter it) with Some d => d | None => 0 end.
Definition bitem_value (it : bitem) : Z * Z :=
  (signed (b_sign1 it) (b_digits1 it), signed (b_sign2 it) (b_digits2 it)).
Definition sign_ok (o : option Z) : Prop := match o with Some c => c = 45 \/ c = 43 | None => True end.
Record bitem_ok (it : bitem) : Prop := {
  bok_letter : char_dim (b_letter it) <> None;
  bok_signs : sign_ok (b_sign1 it) /\ sign_ok (b_sign2 it);
  bok_digits1 : b_digits1 it <> [] /\ Forall (fun c => is_digit c = true) (b_digits1 it);
  bok_digits2 : b_digits2 it <> [] /\ Forall (fun c => is_digit c = true) (b_digits2 it);
  bok_space : Forall (fun c => is_space c = true) (b_space it);
  bok_start : in_i32 (fst (bitem_value it));
  bok_size : in_i32 (snd (bitem_value it)) /\ snd (bitem_value it) <> 0
}.
Definition spells_bounds (s : str) (l : list bitem) (b : bounds) : Prop :=
  s = flat_map bitem_text l /\ l <> [] /\
  Forall bitem_ok l /\
  NoDup (map bitem_dim l) /\
  List.length b = 9%nat /\
  (forall d v, In d dims ->
     (tget b d = Some v <-> exists it, In it l /\ bitem_dim it = d /\ bitem_value it = v)).

(** ** Colours: '#', two alpha digits and two digits for each of red, green, blue.
    [color_of] is the meaning of a text without surrounding blanks. *)
Definition hexpair (a b : Z) : Z := 16 * hex_value a + hex_value b.
Definition color_of (t : str) : option (Z * Z * Z) :=
  match t with
  | 35 :: a1 :: a0 :: r1 :: r0 :: g1 :: g0 :: b1 :: b0 :: more =>
      if forallb is_xdigit ([a1; a0; r1; r0; g1; g0; b1; b0] ++ more)
      then Some (hexpair r1 r0, hexpair g1 g0, hexpair b1 b0)
      else None
  | _ => None
  end.
Definition narrow (s : str) : Prop := Forall (fun c => 0 <= c <= 255) s.
Definition no_outer_blank (t : str) : Prop :=
  match t with
  | [] => True
  | c :: _ => is_blank c = false /\ is_blank (last t 0) = false
  end.
