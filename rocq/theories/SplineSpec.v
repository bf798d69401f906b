(** What a natural cubic spline is. *)
From Coq Require Import QArith List.
From Verif Require Import Base SplineModel.
Import ListNotations.
Open Scope Q_scope.

(** what is expected of the solver: A x = b *)
Fixpoint dot (a b : list Q) : Q := match a, b with x :: a', y :: b' => x * y + dot a' b' | _, _ => 0 end.
Definition solves (A : list (list Q)) (b x : list Q) : Prop := length x = length b /\ Forall2 (fun r v => dot r x == v) A b.

(** the polynomial of a piece, its slope and its curvature; [t] is the distance from the beginning of the piece *)
Definition poly (c : coeffs) (t : Q) : Q := ca c * t * t * t + cb c * t * t + cc c * t + cd c.
Definition slope (c : coeffs) (t : Q) : Q := 3 * ca c * t * t + 2 * cb c * t + cc c.
Definition bend (c : coeffs) (t : Q) : Q := 6 * ca c * t + 2 * cb c.

(** the pieces [cs] belong to the points [l]: every piece begins and ends in its points, and continues into the next with
    the same slope and the same curvature; there is no curvature at the end *)
Fixpoint smooth (l : list point) (cs : list coeffs) : Prop :=
  match l, cs with
  | p0 :: ((p1 :: _) as l'), c :: cs' =>
    let h := fst p1 - fst p0 in
    poly c 0 == snd p0 /\ poly c h == snd p1 /\
    match cs' with
    | [] => bend c h == 0
    | c' :: _ => slope c h == slope c' 0 /\ bend c h == bend c' 0
    end /\ smooth l' cs'
  | [_], [] => True
  | _, _ => False
  end.
Definition natural_spline (l : list point) (cs : list coeffs) : Prop :=
  smooth l cs /\ match cs with c :: _ => bend c 0 == 0 | [] => False end.
(** the points lie in this order, at least 1/1000 apart *)
Fixpoint apart (l : list point) : Prop :=
  match l with
  | p0 :: ((p1 :: _) as l') => 1 # 1000 <= fst p1 - fst p0 /\ apart l'
  | _ => True
  end.
(** the points lie in this order *)
Fixpoint increasing (l : list point) : Prop :=
  match l with
  | p0 :: ((p1 :: _) as l') => fst p0 < fst p1 /\ increasing l'
  | _ => True
  end.
Definition same_coeffs (a b : coeffs) : Prop := ca a == ca b /\ cb a == cb b /\ cc a == cc b /\ cd a == cd b.
(** the solver finds a solution of every system which has one *)
Definition solver_ok (solve : list (list Q) -> list Q -> list Q) : Prop := forall A b, (exists x, solves A b x) -> solves A b (solve A b).
