(** Decimal numbers as text: what a text stands for, independently of how it is read. *)
From Coq Require Import QArith.
From Verif Require Import Base TextModel FloatProofs.
Open Scope Z_scope.

(** a sequence of decimal digits *)
Definition digits (s : str) : Prop := Forall (fun c => 48 <= c <= 57) s.
(** an exponent: nothing, or the letter, perhaps a sign, digits *)
Inductive exponent : str -> Z -> Prop :=
| no_exponent : exponent [] 0
| some_exponent c sg ds e : c = 101 \/ c = 69 -> sg = [] \/ sg = [43] -> digits ds -> ds <> [] -> e = dval ds -> exponent (c :: sg ++ ds) e
| neg_exponent c ds e : c = 101 \/ c = 69 -> digits ds -> ds <> [] -> e = - dval ds -> exponent (c :: 45 :: ds) e.
(** digits, perhaps a point and more digits, an exponent; the value is M * 10^K *)
Inductive decimal : str -> Z -> Z -> Prop :=
| whole ip ex e M K : digits ip -> ip <> [] -> exponent ex e -> M = dval ip -> K = e -> decimal (ip ++ ex) M K
| fraction ip fp ex e M K : digits ip -> digits fp -> ip ++ fp <> [] -> exponent ex e -> M = dval (ip ++ fp) -> K = e - Z.of_nat (length fp) ->
    decimal (ip ++ [46] ++ fp ++ ex) M K.
Definition ten (e : Z) : Q := Qpower 10 e.
(** |x| is between 10^-307 and 10^307 *)
Definition moderate (x : Q) : Prop := (ten (-307) <= Qabs.Qabs x /\ Qabs.Qabs x <= ten 307)%Q.
