(** JSON texts: as they are read when parameters are given to the C API, and as they are made of the information about a document
    (Src/libCZIAPI/src/parameterhelpers.cpp l.77-84, l.207-320, l.650-857; libCZIApi.cpp l.331-353, l.1229-1379).
    The reader and the writer of rapidjson, which is not part of the repository, are modelled as documented, with their default flags:
    bytes above 127 are neither checked nor changed; a number which is not finite ends the writing.  Simplifications: numbers beyond the
    range of double are accepted; numbers with fraction or exponent stay texts; the depth of nesting is not limited; wide characters are
    those of Unicode. *)
From Coq Require Import String Floats.SpecFloat.
From Verif Require Import Base CodecModel TextModel PugiModel XmlModel DateModel StatModel DocModel GuidModel.
Open Scope Z_scope.

(** ** Values *)
Inductive jv := VNull | VBool (b : bool) | VInt (z : Z) | VNum (s : str) | VStr (s : str) | VArr (l : list jv) | VObj (l : list (str * jv)).

(** ** Reading, rapidjson::Document::Parse *)
Definition is_ws (c : Z) : bool := (c =? 32) || (c =? 9) || (c =? 10) || (c =? 13).
Definition skip_ws (s : str) : str := snd (span is_ws s).
Fixpoint strip (w s : str) : option str :=
  match w, s with
  | [], _ => Some s
  | a :: w', b :: s' => if a =? b then strip w' s' else None
  | _, [] => None
  end.
(** numbers *)
Definition fraction (s : str) : option (str * str) :=
  match s with
  | c :: r => if c =? 46 then let '(d, r') := span is_digit r in match d with [] => None | _ => Some (46 :: d, r') end else Some ([], s)
  | [] => Some ([], [])
  end.
Definition sign_of (s : str) : str * str :=
  match s with c :: r => if (c =? 43) || (c =? 45) then ([c], r) else ([], s) | [] => ([], []) end.
Definition exponent (s : str) : option (str * str) :=
  match s with
  | c :: r => if (c =? 101) || (c =? 69) then
                let '(sg, r1) := sign_of r in
                let '(d, r2) := span is_digit r1 in match d with [] => None | _ => Some (c :: sg ++ d, r2) end
              else Some ([], s)
  | [] => Some ([], [])
  end.
Definition minus_of (s : str) : str * str := match s with c :: r => if c =? 45 then ([45], r) else ([], s) | [] => ([], []) end.
Definition whole_part (s : str) : option (str * str) :=
  match s with c :: r => if c =? 48 then Some ([48], r) else if is_digit c then Some (span is_digit s) else None | [] => None end.
Definition number_value (sg ip fp ep : str) : jv :=
  match fp ++ ep with
  | [] => VInt (match sg with [] => dval ip | _ => - dval ip end)
  | _ => VNum (sg ++ ip ++ fp ++ ep)
  end.
Definition number (s : str) : option (jv * str) :=
  let '(sg, r) := minus_of s in
  match whole_part r with
  | None => None
  | Some (ip, r1) =>
    match fraction r1 with
    | None => None
    | Some (fp, r2) => match exponent r2 with None => None | Some (ep, r3) => Some (number_value sg ip fp ep, r3) end
    end
  end.
(** strings, behind the opening quotation mark *)
Definition hex_digit (c : Z) : option Z := let x := hex_char_to_int c in if x =? 255 then None else Some x.
Definition hex4 (s : str) : option (Z * str) :=
  match s with
  | a :: b :: c :: d :: r =>
    match hex_digit a, hex_digit b, hex_digit c, hex_digit d with
    | Some a, Some b, Some c, Some d => Some (((a * 16 + b) * 16 + c) * 16 + d, r)
    | _, _, _, _ => None
    end
  | _ => None
  end.
Definition simple_escape (e : Z) : option Z :=
  if e =? 34 then Some 34 else if e =? 92 then Some 92 else if e =? 47 then Some 47 else if e =? 98 then Some 8
  else if e =? 102 then Some 12 else if e =? 110 then Some 10 else if e =? 114 then Some 13 else if e =? 116 then Some 9 else None.
Definition pair_code (h l : Z) : Z := 65536 + (h - 55296) * 1024 + (l - 56320).
Definition escape (s : str) : option (str * str) :=
  match s with
  | [] => None
  | e :: r =>
    if e =? 117 then
      match hex4 r with
      | None => None
      | Some (u, r1) =>
        if (55296 <=? u) && (u <=? 56319) then
          match strip [92; 117] r1 with
          | None => None
          | Some r2 => match hex4 r2 with
                       | Some (l, r3) => if (56320 <=? l) && (l <=? 57343) then Some (utf8_char (pair_code u l), r3) else None
                       | None => None
                       end
          end
        else if (56320 <=? u) && (u <=? 57343) then None
        else Some (utf8_char u, r1)
      end
    else match simple_escape e with Some x => Some ([x], r) | None => None end
  end.
Fixpoint jstring (n : nat) (s : str) : option (str * str) :=
  match n with
  | O => None
  | S n =>
    match s with
    | [] => None
    | c :: r =>
      if c =? 34 then Some ([], r)
      else if c =? 92 then
        match escape r with
        | None => None
        | Some (t, r1) => match jstring n r1 with Some (u, r2) => Some (t ++ u, r2) | None => None end
        end
      else if c <? 32 then None
      else match jstring n r with Some (u, r2) => Some (c :: u, r2) | None => None end
    end
  end.
(** values, members of objects, elements of arrays; [n] is at least the length of the text *)
Fixpoint value (n : nat) (s : str) {struct n} : option (jv * str) :=
  match n with
  | O => None
  | S n =>
    match s with
    | [] => None
    | c :: r =>
      if c =? 123 then
        match strip [125] (skip_ws r) with
        | Some r1 => Some (VObj [], r1)
        | None => match members n (skip_ws r) with Some (l, r1) => Some (VObj l, r1) | None => None end
        end
      else if c =? 91 then
        match strip [93] (skip_ws r) with
        | Some r1 => Some (VArr [], r1)
        | None => match elements n (skip_ws r) with Some (l, r1) => Some (VArr l, r1) | None => None end
        end
      else if c =? 34 then match jstring (S n) r with Some (t, r1) => Some (VStr t, r1) | None => None end
      else match strip (txt "null") s with
           | Some r1 => Some (VNull, r1)
           | None => match strip (txt "true") s with
                     | Some r1 => Some (VBool true, r1)
                     | None => match strip (txt "false") s with Some r1 => Some (VBool false, r1) | None => number s end
                     end
           end
    end
  end
with members (n : nat) (s : str) {struct n} : option (list (str * jv) * str) :=
  match n with
  | O => None
  | S n =>
    match strip [34] s with
    | None => None
    | Some r =>
      match jstring (S n) r with
      | None => None
      | Some (k, r1) =>
        match strip [58] (skip_ws r1) with
        | None => None
        | Some r2 =>
          match value n (skip_ws r2) with
          | None => None
          | Some (v, r3) =>
            match skip_ws r3 with
            | [] => None
            | c :: r4 =>
              if c =? 125 then Some ([(k, v)], r4)
              else if c =? 44 then match members n (skip_ws r4) with Some (l, r5) => Some ((k, v) :: l, r5) | None => None end
              else None
            end
          end
        end
      end
    end
  end
with elements (n : nat) (s : str) {struct n} : option (list jv * str) :=
  match n with
  | O => None
  | S n =>
    match value n s with
    | None => None
    | Some (v, r3) =>
      match skip_ws r3 with
      | [] => None
      | c :: r4 =>
        if c =? 93 then Some ([v], r4)
        else if c =? 44 then match elements n (skip_ws r4) with Some (l, r5) => Some (v :: l, r5) | None => None end
        else None
      end
    end
  end.
(** Parse(s.c_str()): None is HasParseError *)
Definition json_read (text : str) : option jv :=
  let s := c_text text in
  match value (2 * List.length s + 2) (skip_ws s) with
  | Some (v, r) => match skip_ws r with [] => Some v | _ => None end
  | None => None
  end.
(** the document as its users see it (GuidModel); IsObject *)
Definition seen_value (v : jv) : json := match v with VBool b => JBool b | VInt z => JInt z | VStr s => JStr s | _ => JOther end.
Definition json_doc (text : str) : jdoc :=
  match json_read text with Some (VObj l) => Some (map (fun e => (fst e, seen_value (snd e))) l) | _ => None end.

(** ** Writing *)
Inductive jd := DInt (z : Z) | DDbl (x : spec_float) | DStr (s : str) | DArr (l : list jd) | DObj (l : list (str * jd)).
(** Writer::WriteString *)
Definition hex_upper (x : Z) : Z := if x <? 10 then 48 + x else 55 + x.
Definition write_char (c : Z) : str :=
  if c =? 34 then [92; 34] else if c =? 92 then [92; 92]
  else if c <? 32 then
    if c =? 8 then [92; 98] else if c =? 12 then [92; 102] else if c =? 10 then [92; 110] else if c =? 13 then [92; 114] else if c =? 9 then [92; 116]
    else [92; 117; 48; 48; hex_upper (c / 16); hex_upper (c mod 16)]
  else [c].
Definition write_string (s : str) : str := [34] ++ flat_map write_char s ++ [34].
Definition finite (x : spec_float) : bool := match x with S754_nan | S754_infinity _ => false | _ => true end.

(** GenericValue::Accept: the text so far, and whether it was completed; elements and members with [f] for the values *)
Definition write_elems (f : jd -> str * bool) : bool -> list jd -> str * bool :=
  fix elems (first : bool) (l : list jd) : str * bool :=
    match l with
    | [] => ([93], true)
    | d :: l' =>
      let '(t, ok) := f d in
      let p := (if first then [] else [44]) ++ t in
      if ok then let '(u, ok') := elems false l' in (p ++ u, ok') else (p, false)
    end.
Definition write_membs (f : jd -> str * bool) : bool -> list (str * jd) -> str * bool :=
  fix membs (first : bool) (l : list (str * jd)) : str * bool :=
    match l with
    | [] => ([125], true)
    | (k, d) :: l' =>
      let '(t, ok) := f d in
      let p := (if first then [] else [44]) ++ write_string k ++ [58] ++ t in
      if ok then let '(u, ok') := membs false l' in (p ++ u, ok') else (p, false)
    end.
Section Writer.
  (** the text rapidjson makes of a finite number *)
  Variable dtoa : spec_float -> str.
  Fixpoint jwrite (d : jd) : str * bool :=
    match d with
    | DInt z => (dec z, true)
    | DDbl x => if finite x then (dtoa x, true) else ([], false)
    | DStr s => (write_string s, true)
    | DArr l => let '(t, ok) := write_elems jwrite true l in (91 :: t, ok)
    | DObj l => let '(t, ok) := write_membs jwrite true l in (123 :: t, ok)
    end.
  (** ConvertToJsonString, parameterhelpers.cpp l.77-84: what Accept returns is not looked at *)
  Definition json_string (d : jd) : str := fst (jwrite d).
End Writer.

(** ** Information about a document *)
Definition given (key : string) (o : option jd) : list (str * jd) := match o with Some d => [(txt key, d)] | None => [] end.
Definition text_value (s : str) : jd := DStr (utf8_encode s).
(** FormatGeneralDocumentInfoAsJson, l.650-690 *)
Definition general_json (g : ginfo) : jd :=
  DObj (given "name" (option_map text_value (g_name g)) ++ given "title" (option_map text_value (g_title g)) ++
        given "user_name" (option_map text_value (g_user g)) ++ given "description" (option_map text_value (g_description g)) ++
        given "comment" (option_map text_value (g_comment g)) ++ given "keywords" (option_map text_value (g_keywords g)) ++
        given "creation_date_time" (option_map text_value (g_date g)) ++ given "rating" (option_map DInt (g_rating g))).
Definition positions_json (list_key : string) (p : positions) : list (str * jd) :=
  match p with
  | PosNone => []
  | PosInterval x i => given "interval_definition" (Some (DArr [DDbl x; DDbl i]))
  | PosList l => given list_key (Some (DArr (map DDbl l)))
  end.
Definition word_json (ws : list string) (v : Z) : jd := DStr (txt (nth (Z.to_nat v) ws ""%string)).
(** FormatZDimensionInfoAsJson, l.702-817 *)
Definition z_json (z : zinfo) : jd :=
  DObj (given "reference_position" (option_map DDbl (z_start z)) ++ positions_json "position_list" (z_pos z) ++
        given "xyz_handedness" (option_map (word_json ["left_handed"; "right_handed"; "undefined"]%string) (z_hand z)) ++
        given "z_axis_direction" (option_map (word_json ["from_specimen_to_objective"; "from_objective_to_specimen"; "undefined"]%string) (z_axis z)) ++
        given "z_drive_mode" (option_map (word_json ["continuous"; "step"]%string) (z_mode z)) ++
        given "z_drive_speed" (option_map DDbl (z_speed z))).
(** FormatTDimensionInfoAsJson, l.825-864 *)
Definition t_json (t : tinfo) : res jd :=
  let* start := match t_start t with Some d => let* s := to_xml d in Ok (Some (DStr s)) | None => Ok None end in
  Ok (DObj (given "start_time" start ++ positions_json "offset_list" (t_pos t))).
(** ConvertLibCZIPyramidStatisticsToJson, l.207-257 *)
Definition layer_json (s : pls) : jd :=
  let '((f, l), n) := s in
  DObj [(txt "layerInfo", DObj [(txt "minificationFactor", DInt f); (txt "pyramidLayerNo", DInt l)]); (txt "count", DInt n)].
Definition pyramid_json (p : pyr) : jd :=
  DObj [(txt "scenePyramidStatistics", DObj (map (fun e => (dec (fst e), DArr (map layer_json (snd e)))) p))].

(** ** Functions of the C API, libCZIApi.cpp, with valid handles and pointers: what the pointer is set to (None: it is left) *)
Inductive code := COk | CInvalidArgument | CUnspecified.
Definition answer : Type := (code * option str)%type.
Section Api.
  Variable dtoa : spec_float -> str.
  (** libCZI_CziDocumentInfoGetGeneralDocumentInfo, l.1229-1253 *)
  Definition api_general (doc : list xml) : answer := (COk, Some (json_string dtoa (general_json (get_general doc)))).
  (** libCZI_ReaderGetPyramidStatistics, l.331-353 *)
  Definition api_pyramid (u : updater) : answer := (COk, Some (json_string dtoa (pyramid_json (fst (get_pyr u))))).
  (** libCZI_CziDocumentInfoGetDimensionInfo, l.1314-1379, for other dimensions than C *)
  Definition api_dimension (d : Z) (doc : list xml) : res answer :=
    if d =? 1 then
      match get_zinfo doc with
      | Ok (Some z) => Ok (COk, Some (json_string dtoa (z_json z)))
      | Ok None => Ok (CInvalidArgument, None)
      | Throw => Ok (CUnspecified, None)
      | UB => UB | OutOfFuel => OutOfFuel
      end
    else if d =? 3 then
      match get_tinfo doc with
      | Ok (Some t) => match t_json t with
                       | Ok j => Ok (COk, Some (json_string dtoa j))
                       | Throw => Ok (CUnspecified, None)
                       | UB => UB | OutOfFuel => OutOfFuel
                       end
      | Ok None => Ok (CInvalidArgument, None)
      | Throw => Ok (CUnspecified, None)
      | UB => UB | OutOfFuel => OutOfFuel
      end
    else Ok (COk, None).
End Api.
