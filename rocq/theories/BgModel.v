(** Background colour and zoom on the command line of CZICmd.  Texts are narrow, without NUL.  strtof reads decimal numbers (rounded once, to binary32,
    nearest even), "inf", "infinity" and "nan" in letters of either case; hexadecimal numbers and nan(...) are not modelled.  isspace is that of the "C" locale, for
    bytes from 128 on it is false (formally undefined where char is signed). *)
From Coq Require Import String QArith Floats.SpecFloat.
From Verif Require Import Base TextModel XmlModel NumModel ArgsModel.
Open Scope Z_scope.

(** n / d (positive) to binary32, and whether ERANGE is reported: overflow, or a result below the normal numbers which is not exact *)
Definition round32 (n d : Z) : spec_float * bool :=
  let k := Z.log2 n - Z.log2 d in
  let e := Z.min (fexp 24 128 k) (k - 2) in
  let '(a, b) := if 0 <=? e then (n, d * 2 ^ e) else (n * 2 ^ (- e), d) in
  let r := binary_round_aux 24 128 false (a / b) e (new_location b (a mod b)) in
  (r, match r with S754_infinity _ => true | S754_finite _ m _ => (Z.pos m <? 2 ^ 23) && negb ((n * 2 ^ 149) mod d =? 0) | _ => true end).
Definition of_decimal32 (neg : bool) (m e : Z) : spec_float * bool :=
  if m =? 0 then (S754_zero neg, false)
  else let q := Qred (inject_Z m * Qpower 10 e) in
       let '(r, er) := round32 (Qnum q) (Zpos (Qden q)) in ((if neg then SFopp r else r), er).
Fixpoint prefix_i (w s : str) : bool :=
  match w, s with [], _ => true | a :: w', b :: s' => (a =? lower b) && prefix_i w' s' | _, [] => false end.
(** strtof: the number, how many characters it took (none: no number), ERANGE *)
Definition strtof (s : str) : spec_float * nat * bool :=
  let '(neg, s2) := take_sign (snd (span is_space s)) in
  let took (n : nat) := (length s - length s2 + n)%nat in
  if prefix_i (txt "infinity") s2 then (S754_infinity neg, took 8%nat, false)
  else if prefix_i (txt "inf") s2 then (S754_infinity neg, took 3%nat, false)
  else if prefix_i (txt "nan") s2 then (S754_nan, took 3%nat, false)
  else
    let '(ip, s3) := span is_digit s2 in
    let '(fp, s4) := take_fraction s3 in
    match ip ++ fp with
    | [] => (S754_zero false, O, false)
    | ds => let '(ex, s5) := take_exponent s4 in
            let '(x, er) := of_decimal32 neg (dval ds) (ex - Z.of_nat (length fp)) in (x, (length s - length s5)%nat, er)
    end.
(** skipWhiteSpaceAndOneOfThese, CZICmd/utils.cpp l.337-357, with ";,|" *)
Definition is_delim (c : Z) : bool := (c =? 59) || (c =? 44) || (c =? 124).
Fixpoint skip_one (skipped : bool) (s : str) : str :=
  match s with
  | [] => []
  | c :: s' => if is_space c then skip_one skipped s' else if negb skipped && is_delim c then skip_one true s' else s
  end.
Definition is_nan (x : spec_float) : bool := match x with S754_nan => true | _ => false end.
Record colour := mkC { c_r : spec_float; c_g : spec_float; c_b : spec_float }.
(** TryParseParseBackgroundColor, cmdlineoptions.cpp l.1511-1558: the number at the beginning (0 if there is none) and what is behind it and the separator *)
Definition value (s : str) : spec_float := fst (fst (strtof s)).
Definition after (s : str) : str := skip_one false (skipn (snd (fst (strtof s))) s).
Definition background (s : str) : option colour :=
  let grey x := mkC x x x in
  match after s with
  | [] => Some (grey (value s))
  | s1 =>
    match after s1 with
    | [] => None
    | s2 => match after s2 with
            | [] => Some (if is_nan (value s1) && is_nan (value s2) then grey (value s) else mkC (value s) (value s1) (value s2))
            | _ => None
            end
    end
  end.
(** TryParseZoom, l.1591-1607: std::stof - no number and ERANGE are exceptions, what follows the number is not looked at *)
Definition zoom_of (s : str) : option spec_float := let '(x, n, er) := strtof s in match n with O => None | _ => if er then None else Some x end.
(** -z (l.881-885; an empty text leaves 1) and the test of l.1037-1047 for the commands which scale: [GetZoom() <= 0] *)
Definition one32 : spec_float := S754_finite false 8388608 (-23).
Definition zoom_used (s : str) : option spec_float :=
  match (match s with [] => Some one32 | _ => zoom_of s end) with
  | None => None
  | Some x => if SFleb x (S754_zero false) then None else Some x
  end.
