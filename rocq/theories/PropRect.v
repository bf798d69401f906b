(** C14: the rectangle coverage calculator is exact and terminates. *)
From Verif Require Import Base RectModel RectProofs.

(** For every list [rs] of rectangles added to an empty calculator and every query [q]: adding
    terminates (some recursion depth suffices, and then every larger one gives the same result), the
    reported area is the number of lattice points of [q] lying in at least one added rectangle, and
    "completely covered" is reported iff every lattice point of [q] is covered. *)
Theorem C14_coverage_exact : forall rs q,
  rvalid q = true ->
  exists fuel sp, (forall f, (fuel <= f)%nat -> add_rects f [] rs = Ok sp) /\
    calc_area sp q = count (fun p => existsb (fun r => pt_in r p) rs) (lattice q) /\
    (is_completely_covered sp q = true <->
       forall x y, pt_in q (x, y) = true -> exists r, In r rs /\ pt_in r (x, y) = true).
Proof. exact coverage_exact_lemma. Qed.
Print Assumptions C14_coverage_exact.

(** Non-trivial instance: two overlapping rectangles and a cross, partially covering the query. *)
Example C14_example :
  exists sp, add_rects 10 [] [mkRect 0 0 4 4; mkRect 2 2 4 4; mkRect (-1) 1 9 1] = Ok sp /\
             length sp = 5%nat /\
             calc_area sp (mkRect 1 1 5 5) = 23 /\
             is_completely_covered sp (mkRect 1 1 5 5) = false /\
             is_completely_covered sp (mkRect 2 2 2 2) = true.
Proof. eexists. repeat split; vm_compute; reflexivity. Qed.
