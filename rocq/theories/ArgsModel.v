(** Arguments of the command-line tool given as text (Src/CZICmd/cmdlineoptions.cpp, Src/CZICmd/utils.cpp): sizes, tile layouts,
    regions, pixel types with an alpha value, pyramid layers, lists of levels, the size of the cache.
    std::regex as in OptsModel; an alternative a|b within an expression is written as two expressions tried one after the other
    (the texts which match and what the groups capture are the same, since no text matches in two ways); a group around other groups
    whose text is not used is left out.  Texts contain no NUL.  std::stoull and std::stoi are only modelled for what can reach them. *)
From Coq Require Import String SpecFloat.
From Verif Require Import Base CodesModel TextModel XmlModel NumModel CoordModel StatModel ScaleModel CreateModel OptsModel.
Open Scope Z_scope.

Definition num : re := Seq (One is_digit) (Many is_digit).
(** std::stoull of digits: out_of_range is not caught by the callers *)
Definition stoull (s : str) : res Z := if dval s <? 2 ^ 64 then Ok (dval s) else Throw.
(** l.1808-1813 and alike: None: return false *)
Definition positive_u32 (s : str) : res (option Z) :=
  let* v := stoull s in if (v =? 0) || (2 ^ 32 - 1 <? v) then Ok None else Ok (Some v).

(** TryParseCreateSize, l.1799-1834 *)
Definition is_times (c : Z) : bool := (c =? 42) || (c =? 120) || (c =? 88).
Definition re_size : re := Seq (Group num) (Seq sp (Seq (One is_times) (Seq sp (Group num)))).
Definition parse_size (s : str) : res (option (Z * Z)) :=
  match regex_match re_size s with
  | Some [a; b] =>
      let* w := positive_u32 a in
      match w with
      | None => Ok None
      | Some w => let* h := positive_u32 b in match h with None => Ok None | Some h => Ok (Some (w, h)) end
      end
  | _ => Ok None
  end.

(** TryParseCreateTileInfo, l.1836-1920: rows, columns, overlap *)
Definition is_minor (c : Z) : bool := (c =? 44) || (c =? 59) || (c =? 45).
Definition re_tiles : re :=
  Seq (Group num) (Seq sp (Seq (One is_times) (Seq sp (Seq (Group num) (Seq sp
    (Seq (Maybe (Seq (One is_minor) (Seq sp (Seq (Group num) (Seq sp (ch 37)))))) sp)))))).
Definition parse_tiles (s : str) : res (option tile_info) :=
  match regex_match re_tiles s with
  | Some (a :: b :: more) =>
      let* r := positive_u32 a in
      match r with
      | None => Ok None
      | Some r =>
          let* c := positive_u32 b in
          match c with
          | None => Ok None
          | Some c =>
              match more with
              | [] => Ok (Some (mkTiles r c (overlap_of None)))
              | [p] => let* p := positive_u32 p in
                       match p with None => Ok None | Some p => Ok (Some (mkTiles r c (overlap_of (Some p)))) end
              | _ => Ok None
              end
          end
      end
  | _ => Ok None
  end.

(** TryParseInt32, l.2164-2191 *)
Definition parse_int (s : str) : option Z := match stoi (TextModel.trim s) with Some (v, []) => Some v | _ => None end.

(** TryParseRect, l.2193-2267; true: absolute *)
Definition is_sign (c : Z) : bool := (c =? 43) || (c =? 124) || (c =? 45).
Definition snum : re := Group (Seq (Maybe (One is_sign)) num).
Definition pnum : re := Group (Seq (Maybe (ch 43)) num).
Definition word (w : str) (r : re) : re := fold_right (fun c r => Seq (ch c) r) r w.
Definition re_rect (mode : str) : re :=
  word mode (Seq (ch 40) (Seq snum (Seq (ch 44) (Seq snum (Seq (ch 44) (Seq pnum (Seq (ch 44) (Seq pnum (ch 41))))))))).
Record region := mkRegion { g_abs : bool; g_x : Z; g_y : Z; g_w : Z; g_h : Z }.
Definition region_of (absolute : bool) (cs : list str) : option region :=
  match cs with
  | [a; b; c; d] =>
      match parse_int a with
      | None => None
      | Some x =>
          match parse_int b with
          | None => None
          | Some y =>
              match parse_int c with
              | None => None
              | Some w =>
                  if w <=? 0 then None else
                  match parse_int d with
                  | None => None
                  | Some h => if h <=? 0 then None else Some (mkRegion absolute x y w h)
                  end
              end
          end
      end
  | _ => None
  end.
Definition parse_rect (s : str) : option region :=
  match regex_match (re_rect (txt "abs")) s with
  | Some cs => region_of true cs
  | None => match regex_match (re_rect (txt "rel")) s with Some cs => region_of false cs | None => None end
  end.

(** HexCharToInt and ConvertHexStringToInteger, utils.cpp l.146-205; the uint32_t cannot overflow *)
Definition hex_char (c : Z) : option Z :=
  if is_digit c then Some (c - 48) else if (65 <=? c) && (c <=? 70) then Some (c - 55) else if (97 <=? c) && (c <=? 102) then Some (c - 87) else None.
Fixpoint hex_loop (v cnt : Z) (s : str) : option Z :=
  match s with
  | [] => Some v
  | c :: r =>
      match hex_char c with
      | None => None
      | Some x => if 0 <? v then if 7 <? cnt + 1 then None else hex_loop (v * 16 + x) (cnt + 1) r else hex_loop (v * 16 + x) cnt r
      end
  end.
Definition hex_integer (s : str) : option Z := match s with [] => None | _ => hex_loop 0 0 s end.

(** TryParseChannelCompositionFormat(WithAlphaValue), l.1692-1779: the pixel type and the alpha value, None in its place if it is not
    set.  regex_constants::icase: letters in either case *)
Definition lower (c : Z) : Z := if (65 <=? c) && (c <=? 90) then c + 32 else c.
Definition chi (x : Z) : re := One (fun c => lower c =? x).
Definition wordi (w : str) (r : re) : re := fold_right (fun c r => Seq (chi c) r) r w.
Definition is_hex_or_bar (c : Z) : bool := is_digit c || (c =? 124) || ((97 <=? lower c) && (lower c <=? 102)).
Definition re_alpha (value : re) : re := wordi (txt "bgra32") (Seq (ch 40) (Seq (Group value) (ch 41))).
Definition re_hex : re := Seq (ch 48) (Seq (chi 120) (Seq (One is_hex_or_bar) (Many is_hex_or_bar))).
Definition parse_alpha_value (t : str) : res (option Z) :=
  let dec := match stoi t with None => Throw | Some (i, _) => if (i <? 0) || (255 <? i) then Ok None else Ok (Some i) end in
  match t with
  | c0 :: c1 :: _ :: _ =>
      (* l.1752: the second comparison with 'X' looks at the first character *)
      if (c0 =? 48) && ((c1 =? 120) || (c0 =? 88)) then
        match hex_integer (skipn 2 t) with None => Ok None | Some v => if 255 <? v then Ok None else Ok (Some v) end
      else dec
  | _ => dec
  end.
Definition parse_format (s : str) : res (option (pixel_type * option Z)) :=
  let arg := TextModel.trim s in
  if icase arg (txt "bgr24") then Ok (Some (CodesModel.Bgr24, None))
  else if icase arg (txt "bgra32") then Ok (Some (CodesModel.Bgra32, Some 255))
  else
    match orelse (regex_match (re_alpha num) arg) (regex_match (re_alpha re_hex) arg) with
    | Some [t] => let* a := parse_alpha_value t in match a with None => Ok None | Some a => Ok (Some (CodesModel.Bgra32, Some a)) end
    | _ => Ok None
    end.

(** TryParsePyramidInfo, l.1560-1589: minification factor and layer *)
Definition is_bar (c : Z) : bool := (c =? 59) || (c =? 44) || (c =? 124).
Definition parse_pyramid (s : str) : option (Z * Z) :=
  let '(a, r) := span (fun c => negb (is_bar c)) s in
  match r with
  | [] => None
  | _ :: b => match parse_int a with
              | None => None
              | Some f => match parse_int b with None => None | Some l => Some (f, l) end
              end
  end.

(** TryParseVerbosityLevel and TryParseInfoLevel, l.1358-1493 *)
Definition verbosities : list (str * Z) :=
  [(txt "All", 2 ^ 32 - 1); (txt "Errors", 3); (txt "Errors1", 1); (txt "Errors2", 2); (txt "Warnings", 12); (txt "Warnings1", 4);
   (txt "Warnings2", 8); (txt "Infos", 48); (txt "Infos1", 16); (txt "Infos2", 32)].
Definition info_levels : list (str * Z) :=
  [(txt "Statistics", 1); (txt "RawXML", 2); (txt "DisplaySettings", 4); (txt "DisplaySettingsJson", 8); (txt "AllSubBlocks", 16);
   (txt "Attachments", 32); (txt "AllAttachments", 64); (txt "PyramidStatistics", 128); (txt "GeneralInfo", 256); (txt "ScalingInfo", 512);
   (txt "All", 1023)].
Definition flag_of (table : list (str * Z)) (tk : str) : option Z :=
  match TextModel.trim tk with
  | [] => Some 0
  | w => match find (fun e => icase (fst e) w) table with Some e => Some (snd e) | None => None end
  end.
Definition is_comma (c : Z) : bool := (c =? 44) || (c =? 59).
(** the loop of l.1379-1416: [fuel] is the length of the text, which every turn but the last shortens *)
Fixpoint flags_loop (fuel : nat) (table : list (str * Z)) (levels : Z) (s : str) : option Z :=
  match fuel with
  | O => Some levels
  | S fuel' =>
      let '(tk, rest) := span (fun c => negb (is_comma c)) s in
      match tk with
      | [] => Some levels
      | _ => match flag_of table tk with
             | None => None
             | Some f => match rest with [] => Some (Z.lor levels f) | _ :: r => flags_loop fuel' table (Z.lor levels f) r end
             end
      end
  end.
Definition parse_flags (table : list (str * Z)) (s : str) : option Z := flags_loop (List.length s) table 0 s.

(** TryParseSubBlockCacheSize, l.2354-2437; regex_search with ^ and $ as regex_match (the text is one line).
    std::stod: overflow is out_of_range, caught; numbers below the normal range (for which some libraries report out_of_range as well)
    are accepted here *)
Definition re_bytes (number : re) : re :=
  Seq sp (Seq (Group (Seq (Maybe (ch 43)) number)) (Seq sp
    (Seq (Group (Seq (One (fun c => (lower c =? 107) || (lower c =? 109) || (lower c =? 103) || (lower c =? 116))) (Maybe (chi 105))))
      (Seq (Maybe (chi 98)) sp)))).
Definition re_number1 : re := Seq num (Maybe (Seq (ch 46) (Many is_digit))).
Definition re_number2 : re := Seq (ch 46) num.
Definition stod (s : str) : option spec_float :=
  let '(x, n) := strtod s in
  match n, x with
  | O, _ => None
  | _, S754_infinity _ => None
  | _, _ => Some x
  end.
Definition unit_factor (u : str) : option Z :=
  if icase u (txt "k") then Some 1000 else if icase u (txt "ki") then Some 1024
  else if icase u (txt "m") then Some (1000 * 1000) else if icase u (txt "mi") then Some (1024 * 1024)
  else if icase u (txt "g") then Some (1000 * 1000 * 1000) else if icase u (txt "gi") then Some (1024 * 1024 * 1024)
  else if icase u (txt "t") then Some (1000 * 1000 * 1000 * 1000) else if icase u (txt "ti") then Some (1024 * 1024 * 1024 * 1024)
  else None.
Definition parse_bytes (s : str) : res (option Z) :=
  match orelse (regex_match (re_bytes re_number1) s) (regex_match (re_bytes re_number2) s) with
  | Some [n; u] =>
      match stod n with
      | None => Ok None
      | Some x =>
          match unit_factor u with
          | None => Ok None
          | Some f => let* r := lround (f64_mul x (f64_of_Z f)) in Ok (Some (r mod 2 ^ 64))
          end
      end
  | _ => Ok None
  end.
