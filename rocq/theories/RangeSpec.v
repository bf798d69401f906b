(** Texts for ranges of numbers, independently of how they are read. *)
From Coq Require Import QArith Qabs Floats.SpecFloat.
From Verif Require Import Base TextModel FloatProofs SFloatProofs ScaleNum NumSpec.
Open Scope Z_scope.

(** one number, at least / at most a number, between two numbers *)
Inductive shape (V : Type) := Only (v : V) | From (v : V) | Upto (v : V) | Between (v w : V).
Arguments Only {V}. Arguments From {V}. Arguments Upto {V}. Arguments Between {V}.
(** the texts; [first] are the numbers a text may begin with *)
Inductive range_text {V} (first num : str -> V -> Prop) : str -> shape V -> Prop :=
| only_text a v : first a v -> range_text first num a (Only v)
| from_text a v : first a v -> range_text first num (a ++ [45]) (From v)
| upto_text b w : num b w -> range_text first num (45 :: b) (Upto w)
| between_text a b v w : first a v -> num b w -> range_text first num (a ++ 45 :: b) (Between v w).

(** natural numbers below 2^64 *)
Definition natural (a : str) (v : Z) : Prop :=
  exists p ds, (p = [] \/ p = [43]) /\ a = p ++ ds /\ digits ds /\ ds <> [] /\ v = dval ds /\ v < 2 ^ 64.
(** ... or with a minus: counted from 2^64 downwards *)
Definition wrapped (b : str) (w : Z) : Prop :=
  natural b w \/ exists ds, b = 45 :: ds /\ digits ds /\ ds <> [] /\ dval ds < 2 ^ 64 /\ w = (- dval ds) mod 2 ^ 64.
(** decimal numbers *)
Definition positive (a : str) (v : Q) : Prop :=
  exists p t M K, (p = [] \/ p = [43]) /\ a = p ++ t /\ decimal t M K /\ (v == inject_Z M * ten K)%Q.
Definition real (b : str) (w : Q) : Prop :=
  positive b w \/ exists t M K, b = 45 :: t /\ decimal t M K /\ (w == - (inject_Z M * ten K))%Q.
(** a double is as close to the number as doubles are; [usual]: zero, or between 10^-307 and 10^307 *)
Definition nearest (x : spec_float) (v : Q) : Prop :=
  ((v == 0)%Q -> exists s, x = S754_zero s) /\ (moderate v -> fin64 x /\ (Qabs (sfQ x - v) <= Qabs v * b2 (-52))%Q).
Definition usual (v : Q) : Prop := (v == 0)%Q \/ moderate v.
Definition each {V} (P : V -> Prop) (h : shape V) : Prop :=
  match h with Only v | From v | Upto v => P v | Between v w => P v /\ P w end.
Definition no_space (s : str) : Prop := Forall (fun c => ~ (9 <= c <= 13 \/ c = 32)) s.

(** what is reported for a range of natural numbers: single or not, the start, the end *)
Definition reported_natural (h : shape Z) : bool * Z * Z :=
  match h with Only v => (true, v, 0) | From v => (false, v, 2 ^ 64 - 1) | Upto w => (false, 0, w) | Between v w => (false, v, w) end.
(** ... of decimal numbers; without a start it begins at 2^-1022 (the smallest positive normal number), without an end it ends
    at the largest number *)
Definition reported_real (single : bool) (start fin : spec_float) (h : shape Q) : Prop :=
  match h with
  | Only v => single = true /\ nearest start v
  | From v => single = false /\ nearest start v /\ fin = S754_finite false (2 ^ 53 - 1) 971
  | Upto w => single = false /\ (sfQ start == b2 (-1022))%Q /\ nearest fin w
  | Between v w => single = false /\ nearest start v /\ nearest fin w
  end.
(** the text without white space *)
Inductive squeezed : str -> str -> Prop :=
| sq_nil : squeezed [] []
| sq_space c s t : 9 <= c <= 13 \/ c = 32 -> squeezed s t -> squeezed (c :: s) t
| sq_char c s t : ~ (9 <= c <= 13 \/ c = 32) -> squeezed s t -> squeezed (c :: s) (c :: t).
(** numbers with white space between them, perhaps some at the end *)
Definition white (w : str) : Prop := Forall (fun c => 9 <= c <= 13 \/ c = 32) w.
Inductive list_text {V} (num : str -> V -> Prop) : str -> list V -> Prop :=
| last_number a v : num a v -> list_text num a [v]
| last_white a w v : num a v -> w <> [] -> white w -> list_text num (a ++ w) [v]
| more_numbers a w s v l : num a v -> w <> [] -> white w -> list_text num s l -> list_text num (a ++ w ++ s) (v :: l).
(** integers of 32 bits *)
Definition integer (a : str) (v : Z) : Prop :=
  exists p ds, (p = [] \/ p = [43] \/ p = [45]) /\ a = p ++ ds /\ digits ds /\ ds <> [] /\
    v = (if list_eq_dec Z.eq_dec p [45] then - dval ds else dval ds) /\ - 2 ^ 31 <= v < 2 ^ 31.
