(** C89: floating point numbers in the metadata XML. *)
From Coq Require Import String QArith Qabs Floats.SpecFloat.
From Verif Require Import Base TextModel XmlModel XmlSpec FloatProofs SFloatProofs ScaleNum NumModel NumSpec NumProofs NumText NumRound NumNode.
Open Scope Z_scope.

(** Full statement: a floating point number written to a node is read back as the same number. *)

(** false: only fifteen digits are written *)
Theorem C89_digits_refuted : exists x n n' y, fin64 x /\ set_double x n = Ok n' /\ try_get_value n' = Some (txt "9.00719925474099e+15") /\
  as_double strtod 0 n' = Ok (Some y) /\ (sfQ x - sfQ y == 1)%Q.
Proof.
  exists (S754_finite false 9007199254740991 0), (Elem (txt "A") [] []), (Elem (txt "A") [] [Text (txt "9.00719925474099e+15")]), (S754_finite false 9007199254740990 0).
  vm_compute. repeat split.
Qed.
Print Assumptions C89_digits_refuted.
(** even 1/3 and the number of metres of a pixel are changed *)
Example C89_third : let x := S754_finite false 6004799503160661 (-54) in
  dbl_text x = txt "0.333333333333333" /\ fst (strtod (dbl_text x)) = S754_finite false 6004799503160655 (-54).
Proof. vm_compute. split; reflexivity. Qed.

(** what is read back differs by less than one part in 10^14, and writing it again changes nothing any more.
    Missing: numbers outside of 10^-307 .. 10^307 *)
Theorem C89_accuracy_partial : forall fuel x n n', fin64 x -> moderate (sfQ x) -> tidy_kids (kids_of n) -> set_double x n = Ok n' ->
  exists y n2, as_double strtod fuel n' = Ok (Some y) /\ fin64 y /\ (Qabs (sfQ y - sfQ x) <= Qabs (sfQ x) * ten (-14))%Q /\
    set_double y n' = Ok n2 /\ try_get_value n2 = try_get_value n'.
Proof. exact node_write_read. Qed.
Print Assumptions C89_accuracy_partial.
Example C89_accuracy_meets : let x := S754_finite true 9007199254740991 (-1000) in fin64 x /\ moderate (sfQ x) /\
  set_double x (Elem (txt "A") [] []) = Ok (Elem (txt "A") [] [Text (txt "-8.40609136905907e-286")]).
Proof. vm_compute. repeat split; try discriminate; reflexivity. Qed.
Theorem C89_zero : forall fuel s n n', tidy_kids (kids_of n) -> set_double (S754_zero s) n = Ok n' -> as_double strtod fuel n' = Ok (Some (S754_zero s)).
Proof. exact node_zero. Qed.
Print Assumptions C89_zero.
Example C89_zero_case : set_double (S754_zero true) (Elem (txt "A") [] []) = Ok (Elem (txt "A") [] [Text (txt "-0")]).
Proof. reflexivity. Qed.

(** a decimal text is read as the closest number (up to one part in 2^52); numbers read from texts of up to fifteen digits are
    written and read back unchanged.  Missing: numbers outside of 10^-307 .. 10^307 *)
Theorem C89_decimal_partial : forall fuel (neg : bool) t M K n, decimal t M K -> try_get_value n = Some ((if neg then [45] else []) ++ t) ->
  exists x, as_double strtod fuel n = Ok (Some x) /\
    (0 < M -> (ten (-307) <= inject_Z M * ten K <= ten 307)%Q ->
      let v := (if neg then - (inject_Z M * ten K) else inject_Z M * ten K)%Q in
      fin64 x /\ (Qabs (sfQ x - v) <= Qabs v * b2 (-52))%Q /\
      (M < 10 ^ 15 -> forall n1 n2, tidy_kids (kids_of n1) -> set_double x n1 = Ok n2 -> as_double strtod fuel n2 = Ok (Some x))).
Proof. exact node_decimal. Qed.
Print Assumptions C89_decimal_partial.
Example C89_decimal_meets : decimal (txt "6.5000E-7") 65000 (-11) /\ (ten (-307) <= inject_Z 65000 * ten (-11) <= ten 307)%Q /\
  dbl_text (fst (strtod (txt "6.5000E-7"))) = txt "6.5e-07".
Proof.
  split; [|split; [vm_compute; split; discriminate|vm_compute; reflexivity]].
  change (txt "6.5000E-7") with (txt "6" ++ [46] ++ txt "5000" ++ txt "E-7"). eapply fraction with (e := -7); try reflexivity; try discriminate.
  - apply Forall_forall. intros c H. cbn in H. lia.
  - apply Forall_forall. intros c H. cbn in H. lia.
  - change (txt "E-7") with (69 :: 45 :: txt "7"). apply neg_exponent; [now right| |discriminate|reflexivity]. apply Forall_forall. intros c H. cbn in H. lia.
Qed.

(** twenty digits, as written for the points of gradation curves, are enough to get the same number back *)
Theorem C89_twenty_digits : forall x, fin64 x -> (sfQ x == 0)%Q \/ moderate (sfQ x) -> strtod (print_e 20 x) = (x, length (print_e 20 x)).
Proof. exact exact_write_read. Qed.
Print Assumptions C89_twenty_digits.
Example C89_twenty_digits_case : let x := S754_finite false 6004799503160661 (-54) in moderate (sfQ x) /\ print_e 20 x = txt "3.3333333333333331483e-01".
Proof. vm_compute. repeat split; discriminate. Qed.
