(** Compression options given as text: Utils::ParseCompressionOptions (Src/libCZI/libCZI_Utilities.cpp l.24-106, l.698-737) and what
    the zstd compressors make of the parameters (Src/libCZI/zstdCompress.cpp l.75-92, l.244-254).
    std::regex is modelled as a backtracking matcher (ECMAScript: greedy, leftmost alternative first, an iteration which consumes
    nothing is refused) for the operators which occur; [^] and [$] are redundant for regex_match. Simplification: the stack depth of
    std::regex is not limited. *)
From Coq Require Import String.
From Verif Require Import Base CodesModel TextModel XmlModel.
Open Scope Z_scope.

(** ** regular expressions *)
Inductive re :=
| One (p : Z -> bool)            (* a class of characters *)
| Many (p : Z -> bool)           (* class* *)
| Seq (a b : re)
| Maybe (r : re)                 (* (?:r)? *)
| Rep (r : re)                   (* (?:r)* *)
| Group (r : re).                (* (r) *)

Section Match.
  Context {A : Type}.
  (** what follows: the remaining text and the captures *)
  Definition cont := str -> list str -> option A.
  Definition orelse (a b : option A) : option A := match a with Some _ => a | None => b end.
  Fixpoint many (p : Z -> bool) (s : str) (k : str -> option A) : option A :=
    match s with
    | c :: s' => if p c then orelse (many p s' k) (k s) else k s
    | [] => k []
    end.
  Fixpoint rep (n : nat) (m : str -> list str -> cont -> option A) (s : str) (cs : list str) (k : cont) : option A :=
    match n with
    | O => k s cs
    | S n' => orelse (m s cs (fun s' cs' => if (List.length s' <? List.length s)%nat then rep n' m s' cs' k else None)) (k s cs)
    end.
  Fixpoint rmatch (r : re) (s : str) (cs : list str) (k : cont) : option A :=
    match r with
    | One p => match s with c :: s' => if p c then k s' cs else None | [] => None end
    | Many p => many p s (fun s' => k s' cs)
    | Seq a b => rmatch a s cs (fun s' cs' => rmatch b s' cs' k)
    | Maybe a => orelse (rmatch a s cs k) (k s cs)
    | Rep a => rep (List.length s) (rmatch a) s cs k
    | Group a => rmatch a s cs (fun s' cs' => k s' (cs' ++ [firstn (List.length s - List.length s') s]))
    end.
End Match.
(** std::regex_match: the captures *)
Definition regex_match (r : re) (s : str) : option (list str) :=
  rmatch r s [] (fun s' cs => match s' with [] => Some cs | _ => None end).

(** [a-zA-Z0-9] and [a-zA-Z0-9.+-] *)
Definition is_alnum (c : Z) : bool := is_letter c || is_digit c.
Definition is_val (c : Z) : bool := is_alnum c || (c =? 46) || (c =? 43) || (c =? 45).
Definition sp : re := Many is_space.
Definition ch (x : Z) : re := One (fun c => c =? x).
(** l.700 *)
Definition re_item_body (tail : re) : re := Seq sp (Seq (Many is_alnum) (Seq sp (Seq (ch 61) (Seq sp (Seq (Many is_val) tail))))).
Definition re_last : re := Seq sp (Seq (Many is_alnum) (Seq sp (Seq (ch 61) (Seq sp (Many is_val))))).
Definition re_options : re :=
  Seq sp (Seq (Group (Seq (One is_alnum) (Many is_alnum))) (Seq sp (Seq (ch 58) (Seq sp
    (Seq (Group (Seq (Rep (re_item_body (Seq sp (ch 59)))) (Maybe re_last))) sp))))).
(** l.53 *)
Definition re_pair : re :=
  Seq sp (Seq (Group (Many is_alnum)) (Seq sp (Seq (ch 61) (Seq sp (Seq (Group (Many is_val)) sp))))).

(** ** ParseCompressionOptions *)
(** Utils::CompressionModeToInformalString, l.457-477 *)
Definition informal (m : compression) : str :=
  match m with
  | UnCompressed => txt "uncompressed" | Jpg => txt "jpg" | JpgXr => txt "jpgxr" | Zstd0 => txt "zstd0" | Zstd1 => txt "zstd1"
  | CompInvalid => txt "invalid"
  end.
(** _tryParseCompressionMode, l.24-49 *)
Definition try_mode (s : str) : option compression :=
  find (fun m => icase (informal m) s) [UnCompressed; Jpg; JpgXr; Zstd0; Zstd1].
(** getline(stream, part, ';') until it fails: no part after a final separator *)
Fixpoint parts_from (cur s : str) : list str :=
  match s with
  | [] => match cur with [] => [] | _ => [cur] end
  | c :: s' => if c =? 59 then cur :: parts_from [] s' else parts_from (cur ++ [c]) s'
  end.
Definition getline_parts (s : str) : list str := parts_from [] s.
(** std::stoi (base 10): the value and the characters left; None: invalid_argument or out_of_range *)
Definition skip_sign (s : str) : bool * str :=
  match s with c :: r => if c =? 45 then (true, r) else if c =? 43 then (false, r) else (false, s) | [] => (false, s) end.
Definition stoi (s : str) : option (Z * str) :=
  let '(neg, r) := skip_sign (snd (span is_space s)) in
  let '(ds, rest) := span is_digit r in
  match ds with
  | [] => None
  | _ => let v := if neg then - dval ds else dval ds in if in_i32b v then Some (v, rest) else None
  end.
(** the parameters: ZSTD_RAWCOMPRESSIONLEVEL and ZSTD_PREPROCESS_DOLOHIBYTEPACKING of the map *)
Record params := mkP { p_level : option Z; p_pack : bool }.
(** one pair, l.61-100; None: return false *)
Definition put_pair (p : params) (key value : str) : option params :=
  if icase key (txt "ExplicitLevel") then
    match stoi value with
    | Some (v, []) => Some (mkP (Some v) (p_pack p))
    | _ => None
    end
  else if icase key (txt "PreProcess") then
    if icase value (txt "HiLoByteUnpack") then Some (mkP (p_level p) true) else Some p
  else Some p.
(** _tryParseCompressionOptions, l.51-106 *)
Fixpoint put_parts (p : params) (l : list str) : option params :=
  match l with
  | [] => Some p
  | s :: r =>
      match regex_match re_pair s with
      | Some (key :: value :: _) => match put_pair p key value with Some p' => put_parts p' r | None => None end
      | _ => put_parts p r
      end
  end.
(** l.698-737 *)
Definition parse_options (s : str) : res (compression * params) :=
  match regex_match re_options s with
  | Some [m; ps] =>
      match try_mode m with
      | None => Throw
      | Some c => match put_parts (mkP None false) (getline_parts ps) with None => Throw | Some p => Ok (c, p) end
      end
  | _ => Throw
  end.

(** ** the compressors *)
(** zstdCompress.cpp l.75-92: the level handed to zstd; [lo], [hi]: ZSTD_minCLevel, ZSTD_maxCLevel *)
Definition used_level (lo hi : Z) (p : params) : Z :=
  match p_level p with None => 0 | Some v => if v <? lo then lo else if hi <? v then hi else v end.
