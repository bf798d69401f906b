(** What is expected of coordinate operations, stated on its own. *)
From Verif Require Import Base RectModel TextModel CoordModel.

Definition table9 {A} (t : table A) : Prop := length t = 9%nat.

(** the coordinate has exactly the dimensions of the bounds, all values inside *)
Definition in_box (b : bounds) (c : coord) : Prop :=
  table9 c /\
  forall d, In d dims ->
    match tget b d, tget c d with
    | Some (st, sz), Some v => st <= v < st + sz
    | None, None => True
    | _, _ => False
    end.

(** bounds as the API can hold them, without empty interval and without signed
    overflow at the upper end *)
Definition box_ok (b : bounds) : Prop :=
  table9 b /\
  forall d st sz, In d dims -> tget b d = Some (st, sz) -> 1 <= sz /\ in_i32 st /\ in_i32 (st + sz).

(** call [f] for the elements of [l] (numbered from [k]) until it returns false *)
Fixpoint until_false {A} (f : Z -> A -> bool) (k : Z) (l : list A) : list (Z * A) * bool :=
  match l with
  | [] => ([], true)
  | c :: l' => if f k c then let (cs, r) := until_false f (k + 1) l' in ((k, c) :: cs, r)
               else ([(k, c)], false)
  end.

(** strict weak order on a set of elements *)
Definition strict_weak_order {A} (P : A -> Prop) (lt : A -> A -> bool) : Prop :=
  (forall a, P a -> lt a a = false) /\
  (forall a b c, P a -> P b -> P c -> lt a b = true -> lt b c = true -> lt a c = true) /\
  (forall a b c, P a -> P b -> P c ->
     lt a b = false -> lt b a = false -> lt b c = false -> lt c b = false ->
     lt a c = false /\ lt c a = false).

(** two rectangles have a common point *)
Definition share_point (a b : rect) : Prop :=
  exists x y, rx a <= x < rx a + rw a /\ ry a <= y < ry a + rh a /\
              rx b <= x < rx b + rw b /\ ry b <= y < ry b + rh b.

(** every dimension given in the plane has the same value in the coordinate *)
Definition in_plane (p c : coord) : Prop :=
  forall d v, In d dims -> tget p d = Some v -> tget c d = Some v.
