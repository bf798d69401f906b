(** Floating point numbers as text in the metadata XML: writing (CNodeWrapper::SetValueDbl, CziMetadataBuilder.cpp l.197-204,
    and the lists of l.783-846: an output stream with precision numeric_limits<double>::digits10 = 15) and reading
    (pugixml get_value_double l.4672-4679, std::stod: wcstod).
    The library functions are modelled by what the C standard and IEEE 754 ask of them (Annex F): in the "C" locale, the
    digits written are those of the value rounded to nearest even, the number read is the value of the text rounded to
    nearest even.  Hexadecimal numbers, "inf" and "nan" are not modelled (read as no number). *)
From Coq Require Import String QArith Floats.SpecFloat.
From Verif Require Import Base TextModel XmlModel ScaleModel.
Open Scope Z_scope.

(** * Writing: %.Pg *)

(** n / d to the nearest integer, halves to even *)
Definition rhe (n d : Z) : Z :=
  let q := n / d in
  match 2 * (n mod d) ?= d with Lt => q | Gt => q + 1 | Eq => if Z.even q then q else q + 1 end.
Definition ndigits (n : Z) : Z := Z.of_nat (length (dec_digits (S (Z.to_nat (Z.log2 n))) n)).
(** numerator and denominator of n / d * 10^k *)
Definition scaled (n d k : Z) : Z * Z := if 0 <=? k then (n * 10 ^ k, d) else (n, d * 10 ^ (- k)).
(** the decimal exponent: 10^X <= n / d < 10^(X+1) *)
Definition exponent10 (n d : Z) : Z :=
  let e := ndigits n - ndigits d in
  let '(a, b) := scaled n d (- e) in if b <=? a then e else e - 1.
(** P digits (as an integer), and the exponent of the first one *)
Definition sig_digits (P n d : Z) : Z * Z :=
  let X := exponent10 n d in
  let '(a, b) := scaled n d (P - 1 - X) in
  let D := rhe a b in
  if D =? 10 ^ P then (10 ^ (P - 1), X + 1) else (D, X).
(** without the zeros at the end *)
Fixpoint strip0 (s : str) : str :=
  match s with
  | [] => []
  | c :: r => match strip0 r with [] => if c =? 48 then [] else [c] | t => c :: t end
  end.
Definition with_point (a b : str) : str := match b with [] => a | _ => a ++ [46] ++ b end.
Definition exp_text (X : Z) : str :=
  [101; if X <? 0 then 45 else 43] ++ (if Z.abs X <? 10 then [48] else []) ++ dec (Z.abs X).
Definition g_text (P : Z) (DX : Z * Z) : str :=
  let '(D, X) := DX in
  let ds := dec D in
  if (X <? -4) || (P <=? X) then with_point (firstn 1 ds) (strip0 (skipn 1 ds)) ++ exp_text X
  else if X <? 0 then [48; 46] ++ repeat 48 (Z.to_nat (- X - 1)) ++ strip0 ds
  else with_point (firstn (Z.to_nat (X + 1)) ds) (strip0 (skipn (Z.to_nat (X + 1)) ds)).
Definition print_g (P : Z) (x : spec_float) : str :=
  match x with
  | S754_zero s => (if s then [45] else []) ++ [48]
  | S754_finite s _ _ =>
    match frac (SFabs x) with Some (n, d) => (if s then [45] else []) ++ g_text P (sig_digits P n d) | None => [] end
  | S754_infinity s => (if s then [45] else []) ++ txt "inf"
  | S754_nan => txt "nan"
  end.
(** with [std::scientific] (CziMetadataBuilder.cpp l.985-996): one digit, the point, P - 1 digits, the exponent *)
Definition print_e (P : Z) (x : spec_float) : str :=
  match x with
  | S754_finite s _ _ =>
    match frac (SFabs x) with
    | Some (n, d) => let '(D, X) := sig_digits P n d in
                     (if s then [45] else []) ++ with_point (firstn 1 (dec D)) (skipn 1 (dec D)) ++ exp_text X
    | None => []
    end
  | S754_zero s => (if s then [45] else []) ++ with_point [48] (repeat 48 (Z.to_nat (P - 1))) ++ exp_text 0
  | S754_infinity s => (if s then [45] else []) ++ txt "inf"
  | S754_nan => txt "nan"
  end.
(** digits10 of double *)
Definition dbl_text : spec_float -> str := print_g 15.
(** SetValueDbl, CziMetadataBuilder.cpp l.197-204 *)
Definition set_double (x : spec_float) : xml -> res xml := set_value (dbl_text x).

(** * Reading: wcstod *)

(** n / d (positive) to binary64 *)
Definition round_ratio (n d : Z) : spec_float :=
  let k := Z.log2 n - Z.log2 d in
  let e := Z.min (fexp 53 1024 k) (k - 2) in
  let '(a, b) := if 0 <=? e then (n, d * 2 ^ e) else (n * 2 ^ (- e), d) in
  binary_round_aux 53 1024 false (a / b) e (new_location b (a mod b)).
(** ±m * 10^e *)
Definition of_decimal (neg : bool) (m e : Z) : spec_float :=
  if m =? 0 then S754_zero neg
  else let q := Qred (inject_Z m * Qpower 10 e) in
       let r := round_ratio (Qnum q) (Zpos (Qden q)) in if neg then SFopp r else r.

Definition take_sign (s : str) : bool * str :=
  match s with c :: r => if c =? 45 then (true, r) else if c =? 43 then (false, r) else (false, s) | [] => (false, []) end.
Definition take_fraction (s : str) : str * str :=
  match s with c :: r => if c =? 46 then span is_digit r else ([], s) | [] => ([], []) end.
Definition take_exponent (s : str) : Z * str :=
  match s with
  | c :: r =>
    if (c =? 101) || (c =? 69) then
      let '(neg, r1) := take_sign r in
      let '(ds, r2) := span is_digit r1 in
      match ds with [] => (0, s) | _ => (if neg then - dval ds else dval ds, r2) end
    else (0, s)
  | [] => (0, [])
  end.
(** the number and how many characters it took, none if there is no number *)
Definition strtod (s : str) : spec_float * nat :=
  let '(neg, s2) := take_sign (snd (span is_space s)) in
  let '(ip, s3) := span is_digit s2 in
  let '(fp, s4) := take_fraction s3 in
  match ip ++ fp with
  | [] => (S754_zero false, O)
  | ds => let '(ex, s5) := take_exponent s4 in
          (of_decimal neg (dval ds) (ex - Z.of_nat (length fp)), (length s - length s5)%nat)
  end.
