(** Property: curves through control points. *)
From Coq Require Import QArith List.
From Verif Require Import Base SplineModel SplineSpec SplineProofs SplineExamples.
Import ListNotations.
Open Scope Q_scope.

(** Full statement (C84): the pieces computed from control points in increasing order of x form the natural cubic spline
    through (0,0), the control points and (1,1), and the curve follows it. *)

(** A point less than 1/1000 from its neighbour: the slope jumps, whatever the solver *)
Theorem C84_close_points_refuted : forall solve, solver_ok solve ->
  increasing (with_ends [(1 # 2000, 1 # 2)]) /\
  exists a b, spline_data solve [(1 # 2000, 1 # 2)] = Ok [(0, a); (1 # 2000, b)] /\ ~ slope a (1 # 2000) == slope b 0.
Proof. exact (fun solve H => conj (conj eq_refl (conj eq_refl I)) (close_kink solve H)). Qed.
Print Assumptions C84_close_points_refuted.

(** A point less than 1/10000000 from its neighbour: the curve does not pass through it *)
Theorem C84_very_close_points_refuted : forall solve,
  increasing (with_ends [(1 # 100000000, 1 # 2)]) /\
  exists l v, spline_data solve [(1 # 100000000, 1 # 2)] = Ok l /\ curve l (1 # 100000000) = Ok v /\ v == 0.
Proof. exact (fun solve => conj (conj eq_refl (conj eq_refl I)) (very_close_missed solve)). Qed.
Print Assumptions C84_very_close_points_refuted.

(** Points at least 1/1000 apart (and from the ends). Missing: the rounding of double arithmetic, the solver itself. *)
Theorem C84_natural_spline_partial : forall solve pts, solver_ok solve -> apart (with_ends pts) ->
  exists l, spline_data solve pts = Ok l /\ map fst l = 0 :: map fst pts /\ natural_spline (with_ends pts) (map snd l) /\
    (forall k p0 p1 s, nth_error (with_ends pts) k = Some p0 -> nth_error (with_ends pts) (S k) = Some p1 -> nth_error l k = Some s ->
      forall x, fst p0 <= x <= fst p1 -> exists v, curve l x = Ok v /\ v == poly (snd s) (x - fst p0)) /\
    (forall p, In p (with_ends pts) -> exists v, curve l (fst p) = Ok v /\ v == snd p).
Proof. exact spline_data_ok. Qed.
Print Assumptions C84_natural_spline_partial.

(** There is no other natural spline through the same points *)
Theorem C84_unique : forall l cs cs', apart l -> natural_spline l cs -> natural_spline l cs' -> Forall2 same_coeffs cs cs'.
Proof. exact natural_unique. Qed.
Print Assumptions C84_unique.

Example C84_solver_case : solver_ok elimination.
Proof. exact elimination_ok. Qed.
Example C84_case : apart (with_ends [(1 # 4, 1 # 2); (1 # 2, 3 # 4)]).
Proof. exact two_points_apart. Qed.
Example C84_values_case : forall x y, In (x, y) [(1 # 4, 1 # 2); (1 # 2, 3 # 4); (0, 0); (1, 1); (1 # 8, 401 # 1472)] ->
  exists l v, spline_data elimination [(1 # 4, 1 # 2); (1 # 2, 3 # 4)] = Ok l /\ curve l x = Ok v /\ v == y.
Proof. exact two_points_values. Qed.
