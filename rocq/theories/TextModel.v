(** Model of the text formats: coordinates, bounds, index sets, colours and
    property bags.  A string is the list of its character codes (signed [char]
    values for narrow strings, code points for wide strings), without the
    terminating NUL.  Integer formatting by [std::stringstream] is modelled for
    the classic locale. *)
From Coq Require Import Ascii String.
From Verif Require Import Base.
Open Scope Z_scope.

Definition str := list Z.

(** Readable literals for examples. *)
Fixpoint txt (s : string) : str :=
  match s with
  | EmptyString => []
  | String a s' => Z.of_N (N_of_ascii a) :: txt s'
  end.

(** ** Dimensions: the enumeration Z=1 .. B=9 (libCZI_DimCoordinate.h). *)
Definition dims : list Z := [1; 2; 3; 4; 5; 6; 7; 8; 9].

(** Utils::DimensionToChar, libCZI_Utilities.cpp l.112-127 *)
Definition dim_char (d : Z) : Z :=
  match d with
  | 1 => 90 (* Z *) | 2 => 67 (* C *) | 3 => 84 (* T *) | 4 => 82 (* R *)
  | 5 => 83 (* S *) | 6 => 73 (* I *) | 7 => 72 (* H *) | 8 => 86 (* V *)
  | 9 => 66 (* B *) | _ => 63 (* ? *)
  end.

(** Utils::CharToDimension, libCZI_Utilities.cpp l.129-155 ([None] = invalid) *)
Definition char_dim (c : Z) : option Z :=
  match c with
  | 90 | 122 => Some 1 | 67 | 99 => Some 2 | 84 | 116 => Some 3
  | 82 | 114 => Some 4 | 83 | 115 => Some 5 | 73 | 105 => Some 6
  | 72 | 104 => Some 7 | 86 | 118 => Some 8 | 66 | 98 => Some 9
  | _ => None
  end.

(** CDimCoordinate (libCZI_DimCoordinate.h): a valid-bit and a value for each
    of the nine dimensions; CDimBounds the same with start and size.  Both are
    a list of nine optional entries here (an invalid dimension has no value
    that could be observed). *)
Definition table (A : Type) := list (option A).
Definition empty_table {A} : table A := repeat None 9.
Definition tget {A} (t : table A) (d : Z) : option A := nth (Z.to_nat (d - 1)) t None.
Definition tset {A} (t : table A) (d : Z) (v : A) : table A :=
  firstn (Z.to_nat (d - 1)) t ++ Some v :: skipn (S (Z.to_nat (d - 1))) t.
Definition coord := table Z.
Definition bounds := table (Z * Z).

(** ** Decimal numbers *)

(** [ostream << int], classic locale: no sign for non-negative numbers, no
    leading zeros.  [fuel] bounds the number of digits (20 suffices for 64 bit). *)
Fixpoint dec_digits (fuel : nat) (n : Z) : str :=
  match fuel with
  | O => []
  | S f => if n <? 10 then [48 + n] else dec_digits f (n / 10) ++ [48 + n mod 10]
  end.
Definition dec (v : Z) : str :=
  if v <? 0 then 45 :: dec_digits 20 (- v) else dec_digits 20 v.

Definition is_digit (c : Z) : bool := (48 <=? c) && (c <=? 57).

(** isdigit(int): its argument must be representable as unsigned char or be
    EOF (-1); [char] is signed on the platforms considered. *)
Definition c_isdigit (c : Z) : res bool := if c <? -1 then UB else Ok (is_digit c).

(** value of a sequence of decimal digits *)
Definition dval (s : str) : Z := fold_left (fun a c => 10 * a + (c - 48)) s 0.

(** longest prefix of characters satisfying [p], and the rest *)
Fixpoint span (p : Z -> bool) (s : str) : str * str :=
  match s with
  | [] => ([], [])
  | c :: s' => if p c then let '(a, b) := span p s' in (c :: a, b) else ([], s)
  end.

(** strtoll / wcstol with base 10 on a string without leading white space:
    optional sign, then the longest run of digits; 0 if there is none.  (The
    saturation at the limits of long long is not modelled: all callers reject
    everything outside of the range of int.) *)
Definition strtol (s : str) : Z :=
  match s with
  | 45 :: r => - dval (fst (span is_digit r))
  | 43 :: r => dval (fst (span is_digit r))
  | r => dval (fst (span is_digit r))
  end.

(** TryParseInt, DimCoordinate.cpp l.237-252 *)
Definition try_parse_int (s : str) : option Z :=
  let v := strtol s in if in_i32b v then Some v else None.

(** ** Coordinates *)

(** Utils::DimCoordinateToString, libCZI_Utilities.cpp l.478-491 *)
Definition coord_to_string (c : coord) : str :=
  flat_map (fun d => match tget c d with
                     | Some v => dim_char d :: dec v
                     | None => []
                     end) dims.

Definition is_blank (c : Z) : bool := (c =? 9) || (c =? 32).
Definition is_sep (c : Z) : bool := (c =? 9) || (c =? 32) || (c =? 44) || (c =? 59).

(** The 12-byte array [number] of Int_ParseCoordinate (DimCoordinate.cpp
    l.105-106): storing at an index beyond it is undefined behaviour. *)
Definition push (num : str) (c : Z) : res str :=
  if (List.length num <? 12)%nat then Ok (num ++ [c]) else UB.

(** Digit loop, DimCoordinate.cpp l.158-201.  [z0]: a leading zero was seen
    (noOfZeroLeadingDigits > 0), [nz]: nonZeroLeadingDigitFound; [n] characters
    were accepted before.  Result: [inr n] = return false with charsParsedOk=n;
    [inl (num, hasDigit, rest)] = loop left at the first non-digit. *)
Fixpoint digit_loop (s num : str) (z0 nz : bool) (n : Z) : res ((str * bool * str) + Z) :=
  match s with
  | [] => Ok (inl (num, z0 || nz, []))
  | c :: s' =>
      let* d := c_isdigit c in
      if d then
        if (c =? 48) && negb nz then
          let* num' := (if z0 then Ok num else push num c) in
          digit_loop s' num' true nz (n + 1)
        else if (11 <=? List.length num)%nat then Ok (inr n)
        else
          let* num' := push num c in
          digit_loop s' num' z0 true (n + 1)
      else Ok (inl (num, z0 || nz, s))
  end.

Definition len (s : str) : Z := Z.of_nat (List.length s).

(** optional sign and the blanks after it, DimCoordinate.cpp l.135-156: only a
    minus sign is stored *)
Definition sign_part (s : str) : str * str :=
  match s with
  | 45 :: r => ([45], snd (span is_blank r))
  | 43 :: r => ([], snd (span is_blank r))
  | _ => ([], s)
  end.

(** Int_ParseCoordinate, DimCoordinate.cpp l.101-235.
    [inl (dim, value, rest)] = true; [inr n] = false with charsParsedOk = n. *)
Definition int_parse_coordinate (s : str) : res ((Z * Z * str) + Z) :=
  let '(w0, s0) := span is_sep s in
  match s0 with
  | [] => Ok (inr (len w0))
  | dc :: s1 =>
    match char_dim dc with
    | None => Ok (inr (len w0))
    | Some d =>
      let '(w1, s2) := span is_blank s1 in
      let '(num, s3) := sign_part s2 in
      let* r := digit_loop s3 num false false (len s - len s3) in
      match r with
      | inr n => Ok (inr n)
      | inl (num', hd, s4) =>
        let '(w, s5) := span is_sep s4 in
        let* _ := push num' 0 in
        if negb hd then Ok (inr (len s - len s5))
        else match try_parse_int num' with
             | None => Ok (inr (len s - len s5))
             | Some v => Ok (inl (d, v, s5))
             end
      end
    end
  end.

Inductive perr := SyntaxError (pos : Z) | DuplicateDimension (pos : Z).

(** ParseCoordinate, DimCoordinate.cpp l.16-42; [until] = parsedUntil.  Every
    iteration consumes at least one character, hence fuel = length suffices. *)
Fixpoint parse_coordinate_loop (fuel : nat) (s : str) (t : coord) (until : Z)
  : res (coord + perr) :=
  match s with
  | [] => Ok (inl t)
  | _ =>
    match fuel with
    | O => OutOfFuel
    | S f =>
      let* r := int_parse_coordinate s in
      match r with
      | inr n => Ok (inr (SyntaxError (until + n)))
      | inl (d, v, rest) =>
        match tget t d with
        | Some _ => Ok (inr (DuplicateDimension until))
        | None => parse_coordinate_loop f rest (tset t d v) (until + (len s - len rest))
        end
      end
    end
  end.
Definition parse_coordinate (s : str) : res (coord + perr) :=
  parse_coordinate_loop (List.length s) s empty_table 0.

(** ** Bounds *)

(** Utils::DimBoundsToString, libCZI_Utilities.cpp l.514-527 *)
Definition bounds_to_string (b : bounds) : str :=
  flat_map (fun d => match tget b d with
                     | Some (st, sz) => dim_char d :: dec st ++ 58 :: dec sz
                     | None => []
                     end) dims.

Definition is_letter (c : Z) : bool :=
  ((65 <=? c) && (c <=? 90)) || ((97 <=? c) && (c <=? 122)).
Definition is_space (c : Z) : bool := ((9 <=? c) && (c <=? 13)) || (c =? 32).

(** [\+|-]?[0-9]+ : note that the character class contains '|'.  Greedy
    matching without backtracking is exact here because a character class never
    overlaps with what may follow it. *)
Definition rx_sign (s : str) : str * str :=
  match s with
  | 43 :: r => ([43], r)
  | 124 :: r => ([124], r)
  | 45 :: r => ([45], r)
  | _ => ([], s)
  end.
Definition rx_number (s : str) : option (str * str) :=
  let '(sg, s1) := rx_sign s in
  match span is_digit s1 with
  | ([], _) => None
  | (ds, s2) => Some (sg ++ ds, s2)
  end.

(** bounds_regex of ParseBounds (DimCoordinate.cpp l.47) at the beginning of [s]:
    letter, start, size, and what follows the match. *)
Definition rx_match (s : str) : option (Z * str * str * str) :=
  match s with
  | c :: s1 =>
    if is_letter c then
      match rx_number s1 with
      | Some (st, 58 :: s2) =>
        match rx_number s2 with
        | Some (sz, s3) => Some (c, st, sz, snd (span is_space s3))
        | None => None
        end
      | _ => None
      end
    else None
  | [] => None
  end.

(** leftmost match (std::regex_iterator) *)
Fixpoint rx_search (s : str) : option (Z * str * str * str) :=
  match rx_match s with
  | Some m => Some m
  | None => match s with [] => None | _ :: s' => rx_search s' end
  end.

(** ParseBounds, DimCoordinate.cpp l.44-98 ([Throw] = LibCZIStringParseException);
    [nosuf] = lastMatchHasNoSuffix. *)
Fixpoint parse_bounds_loop (fuel : nat) (s : str) (b : bounds) (nosuf : bool) : res bounds :=
  match fuel with
  | O => OutOfFuel
  | S f =>
    match rx_search s with
    | None => if nosuf then Ok b else Throw
    | Some (c, st, sz, rest) =>
      match char_dim c with
      | None => Throw
      | Some d =>
        match try_parse_int st with
        | None => Throw
        | Some vst =>
          match try_parse_int sz with
          | None => Throw
          | Some vsz =>
            if vsz =? 0 then Throw
            else match tget b d with
                 | Some _ => Throw
                 | None => parse_bounds_loop f rest (tset b d (vst, vsz))
                             (nosuf || match rest with [] => true | _ => false end)
                 end
          end
        end
      end
    end
  end.
Definition parse_bounds (s : str) : res bounds :=
  parse_bounds_loop (S (List.length s)) s empty_table false.

(** ** Index sets *)

(** Utilities::Split, utilities.h l.24-46: empty tokens are dropped. *)
Fixpoint split_at (sep : Z) (s cur : str) : list str :=
  match s with
  | [] => match cur with [] => [] | _ => [cur] end
  | c :: s' =>
    if c =? sep then match cur with [] => split_at sep s' [] | _ => cur :: split_at sep s' [] end
    else split_at sep s' (cur ++ [c])
  end.
Definition split (sep : Z) (s : str) : list str := split_at sep s [].

(** Utilities::Trim with the default white space " \t", utilities.cpp l.55-73 *)
Definition trim (s : str) : str :=
  rev (snd (span is_blank (rev (snd (span is_blank s))))).

Definition INF : str := [105; 110; 102].

(** iswspace / iswdigit: ASCII range only (wide white space is not modelled). *)

(** One number of CIndexSet::ParsePart (IndexSet.cpp l.62-92 and l.111-140, the
    same code twice): the number text and the rest of the string. *)
Definition part_number (s : str) : option (str * str) :=
  match s with
  | [] => None
  | c :: s1 =>
    if (c =? 45) || (c =? 43) then
      let s2 := snd (span is_space s1) in
      match s2 with
      | 105 :: 110 :: 102 :: s3 => Some (c :: INF, s3)
      | _ => let '(ds, s3) := span is_digit s2 in Some (c :: ds, s3)
      end
    else if is_digit c then let '(ds, s3) := span is_digit s1 in Some (c :: ds, s3)
    else match s with
         | 105 :: 110 :: 102 :: s3 => Some (INF, s3)
         | _ => None
         end
  end.

Definition str_eqb (a b : str) : bool :=
  if list_eq_dec Z.eq_dec a b then true else false.

(** CIndexSet::ValueFromNumString, IndexSet.cpp l.151-184.  On LP64 a value
    saturated by wcstol is outside of the int range, thus rejected whether or
    not errno is consulted. *)
Definition num_value (s : str) : res Z :=
  if str_eqb s (45 :: INF) then Ok INT_MIN
  else if str_eqb s (43 :: INF) || str_eqb s INF then Ok INT_MAX
  else let v := strtol s in if in_i32b v then Ok v else Throw.

(** CIndexSet::ParsePart, IndexSet.cpp l.54-149 *)
Definition parse_part (s : str) : res (Z * Z) :=
  match part_number s with
  | None => Throw
  | Some (n1, r) =>
    match snd (span is_space r) with
    | [] => let* v := num_value n1 in Ok (v, v)
    | 45 :: r2 =>
      match part_number r2 with
      | Some (n2, []) => let* v1 := num_value n1 in let* v2 := num_value n2 in Ok (v1, v2)
      | _ => Throw
      end
    | _ => Throw
    end
  end.

(** CIndexSet::ParseString, IndexSet.cpp l.30-45 *)
Fixpoint parse_parts (ps : list str) : res (list (Z * Z)) :=
  match ps with
  | [] => Ok []
  | p :: ps' =>
    let* (a, b) := parse_part (trim p) in
    if b <? a then Throw
    else let* r := parse_parts ps' in Ok ((a, b) :: r)
  end.
Definition parse_index_set (s : str) : res (list (Z * Z)) := parse_parts (split 44 s).

(** CIndexSet::IsContained, IndexSet.cpp l.16-28 *)
Definition is_contained (l : list (Z * Z)) (i : Z) : bool :=
  existsb (fun '(a, b) => (a <=? i) && (i <=? b)) l.

(** ** Colours *)

(** Utilities::NibbleToHexChar, utilities.cpp l.49-53 *)
Definition nibble_char (n : Z) : Z :=
  nth (Z.to_nat (Z.land n 15))
    [48; 49; 50; 51; 52; 53; 54; 55; 56; 57; 65; 66; 67; 68; 69; 70] 0.
(** Utilities::HexCharToInt, utilities.cpp l.24-47 *)
Definition hex_value (c : Z) : Z :=
  if (48 <=? c) && (c <=? 57) then c - 48
  else if (65 <=? c) && (c <=? 70) then c - 55
  else if (97 <=? c) && (c <=? 102) then c - 87
  else 255.

(** Utilities::Rgb8ColorToString, utilities.cpp l.213-226 *)
Definition color_to_string (c : Z * Z * Z) : str :=
  let '(r, g, b) := c in
  [35; 70; 70; nibble_char (Z.shiftr r 4); nibble_char r;
   nibble_char (Z.shiftr g 4); nibble_char g;
   nibble_char (Z.shiftr b 4); nibble_char b].

Definition is_xdigit (c : Z) : bool :=
  ((48 <=? c) && (c <=? 57)) || ((65 <=? c) && (c <=? 70)) || ((97 <=? c) && (c <=? 102)).
(** isxdigit(int) applied to a wchar_t: the argument must be representable as
    unsigned char (or EOF). *)
Definition c_isxdigit (c : Z) : res bool :=
  if (c <? -1) || (255 <? c) then UB else Ok (is_xdigit c).

(** loop of TryGetRgb8ColorFromString (utilities.cpp l.235-253) from index [i]
    to [stop]; [acc] is the array of nibbles at the indices 1..8. *)
Fixpoint color_loop (n : nat) (s : str) (i : nat) (acc : list Z) : res (option (list Z)) :=
  match n with
  | O => Ok (Some acc)
  | S n' =>
    if (List.length s <? i)%nat then UB  (* operator[] beyond the terminator *)
    else
      let c := nth i s 0 in
      let* x := c_isxdigit c in
      if x then color_loop n' s (S i) (if (i <=? 8)%nat then acc ++ [hex_value c] else acc)
      else Ok None
  end.

(** Utilities::TryGetRgb8ColorFromString, utilities.cpp l.228-260 *)
Definition parse_color (s0 : str) : res (option (Z * Z * Z)) :=
  let s := trim s0 in
  if (1 <? List.length s)%nat && (nth 0 s 0 =? 35) then
    let* r := color_loop (Nat.max 9 (List.length s) - 1) s 1 [] in
    match r with
    | None => Ok None
    | Some a =>
      let ch i := Z.lor (u8 (Z.shiftl (nth i a 0) 4)) (nth (S i) a 0) in
      Ok (Some (ch 2%nat, ch 4%nat, ch 6%nat))
    end
  else Ok None.

(** ** Property bags *)

(** std::map<wstring, wstring>: the stores in the order they are made; a later
    store of the same key replaces the earlier one. *)
Fixpoint lookup (m : list (str * str)) (k : str) : option str :=
  match m with
  | [] => None
  | (k', v) :: m' => match lookup m' k with
                     | Some w => Some w
                     | None => if str_eqb k' k then Some v else None
                     end
  end.

Definition BSL : Z := 92.
Definition SEMI : Z := 59.
Definition EQU : Z := 61.

(** Utilities::TokenizeAzureUriString, utilities.cpp l.378-492.  State: the
    current key and value, inValue, foundEquals, the map. *)
Fixpoint tokenize_loop (s key value : str) (inv feq : bool) (m : list (str * str))
  : res (list (str * str)) :=
  match s with
  | [] =>
    if negb feq then Throw
    else
      let* m' := match key with
                 | [] => Ok m
                 | _ => if (match value with [] => true | _ => false end) && inv then Throw
                        else Ok (m ++ [(key, value)])
                 end in
      match m' with [] => Throw | _ => Ok m' end
  | c :: s' =>
    match s' with
    | nx :: s'' =>
      if c =? BSL then
        if nx =? SEMI then
          if inv then tokenize_loop s'' key (value ++ [SEMI]) inv feq m
          else tokenize_loop s'' (key ++ [SEMI]) value inv feq m
        else if nx =? EQU then
          if inv then tokenize_loop s'' key (value ++ [EQU]) inv feq m
          else tokenize_loop s'' (key ++ [EQU]) value inv feq m
        else
          if inv then tokenize_loop s' key (value ++ [c]) inv feq m
          else tokenize_loop s' (key ++ [c]) value inv feq m
      else if (c =? EQU) && negb inv then tokenize_loop s' key value true true m
      else if (c =? SEMI) && inv then
        match key with
        | [] => Throw
        | _ => tokenize_loop s' [] [] false false (m ++ [(key, value)])
        end
      else if inv then tokenize_loop s' key (value ++ [c]) inv feq m
      else tokenize_loop s' (key ++ [c]) value inv feq m
    | [] =>
      if (c =? EQU) && negb inv then tokenize_loop s' key value true true m
      else if (c =? SEMI) && inv then
        match key with
        | [] => Throw
        | _ => tokenize_loop s' [] [] false false (m ++ [(key, value)])
        end
      else if inv then tokenize_loop s' key (value ++ [c]) inv feq m
      else tokenize_loop s' (key ++ [c]) value inv feq m
    end
  end.
Definition tokenize (s : str) : res (list (str * str)) := tokenize_loop s [] [] false false [].
