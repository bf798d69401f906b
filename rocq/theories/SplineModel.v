(** Splines through control points (Src/libCZI/splines.cpp, libCZI_Utilities.cpp l.176-195 and l.358-392).
    Simplifications: exact rational arithmetic instead of double; Eigen's solver is a parameter [solve matrix rhs]. *)
From Coq Require Import QArith Qabs.
From Verif Require Import Base.
Open Scope Q_scope.

Definition point : Type := Q * Q.
Record coeffs := mkCoeffs { ca : Q; cb : Q; cc : Q; cd : Q }.
Definition Qltb (a b : Q) : bool := negb (Qle_bool b a).

(** splines.cpp l.63-71 *)
Definition at_least (d : Q) : Q := if Qltb (Qabs d) (1 # 1000) then 1 # 1000 else d.
(** splines.cpp l.41-74: diagonal entry, secondary diagonal entry and right hand side of every row; [dx2], [dy2] are the
    variables of the loop, [l] are the points from i + 1 *)
Fixpoint rows (dx2 dy2 : Q) (l : list point) : list (Q * Q * Q) :=
  match l with
  | p0 :: ((p1 :: _) as l') =>
    let dx1 := dx2 in
    let dx2 := fst p1 - fst p0 in
    let dy1 := dy2 in
    let dy2 := snd p1 - snd p0 in
    (2 * (dx1 + dx2), dx2, 3 * (dy2 / at_least dx2 - dy1 / at_least dx1)) :: rows (at_least dx2) dy2 l'
  | _ => []
  end.
Definition row_d (r : Q * Q * Q) : Q := fst (fst r).
Definition row_o (r : Q * Q * Q) : Q := snd (fst r).
Definition row_r (r : Q * Q * Q) : Q := snd r.
Definition row0 : Q * Q * Q := (0, 0, 0).
(** element (i, j) of the matrix, l.53-61 *)
Definition entry (s : list (Q * Q * Q)) (i j : nat) : Q :=
  if (i =? j)%nat then row_d (nth i s row0)
  else if (j =? S i)%nat then row_o (nth i s row0)
  else if (i =? S j)%nat then row_o (nth j s row0) else 0.
Definition matrix (s : list (Q * Q * Q)) : list (list Q) :=
  map (fun i => map (entry s i) (seq 0 (length s))) (seq 0 (length s)).

(** l.78-105; [xi] is x_i, [sol] the rest of the solution, [l] the points from i *)
Fixpoint resolve (xi : Q) (sol : list Q) (l : list point) : list coeffs :=
  match l with
  | p0 :: ((p1 :: _) as l') =>
    let '(x', sol') := match sol with x :: s => (x, s) | [] => (0, []) end in
    let dx1 := fst p1 - fst p0 in
    let dy1 := snd p1 - snd p0 in
    let '(a, c) := if Qltb (Qabs dx1) (1 # 10000000) then (0, 0)
                   else ((x' - xi) / (3 * dx1), dy1 / dx1 - dx1 * (x' + 2 * xi) / 3) in
    mkCoeffs a xi c (snd p0) :: resolve x' sol' l'
  | _ => []
  end.
(** CSplines::GetSplineCoefficients, l.13-108 *)
Definition spline_coefficients (solve : list (list Q) -> list Q -> list Q) (pts : list point) : res (list coeffs) :=
  match pts with
  | p0 :: ((p1 :: _) as l) =>
    let s := rows (fst p1 - fst p0) (snd p1 - snd p0) l in
    Ok (resolve 0 (firstn (length s) (solve (matrix s) (map row_r s))) pts)
  | _ => Throw
  end.
(** Utils::CalcSplineDataFromPoints, libCZI_Utilities.cpp l.358-392: the points (0,0) and (1,1) are added *)
Definition with_ends (pts : list point) : list point := (0, 0) :: pts ++ [(1, 1)].
Definition spline_data (solve : list (list Q) -> list Q -> list Q) (pts : list point) : res (list (Q * coeffs)) :=
  let* cs := spline_coefficients solve (with_ends pts) in
  Ok (combine (0 :: map fst pts) cs).

(** CSplines::CalculateSplineValue, splines.cpp l.110-124 *)
Definition value_of (x : Q) (c : coeffs) : Q :=
  fst (fold_left (fun st co => let '(y, p) := st in (y + p * co, p * x)) [cd c; cc c; cb c; ca c] (0, 1)).
(** CalcSplineValue, libCZI_Utilities.cpp l.176-195 *)
Fixpoint index_of (x : Q) (i index : nat) (l : list (Q * coeffs)) : nat :=
  match l with
  | [] => index
  | s :: l' => index_of x (S i) (if Qltb (fst s) x then i else index) l'
  end.
Definition curve (l : list (Q * coeffs)) (x : Q) : res Q :=
  if Qltb x 0 || Qltb 1 x then Throw else
  match nth_error l (index_of x 0 0 l) with
  | Some s => Ok (value_of (x - fst s) (snd s))
  | None => Throw
  end.
