(** XML as text: the printer and the parser of the vendored pugixml (pugixml.cpp, compiled with PUGIXML_WCHAR_MODE and a
    wchar_t of 32 bits), as used by GetXml of the metadata builder and of the metadata (CziMetadataBuilder.cpp l.467-481,
    CziMetadata.cpp l.33-43) and by their constructors (CziMetadataBuilder.cpp l.447-463, CziMetadata.cpp l.13-25).
    Options: parse_default = parse_cdata | parse_escapes | parse_wconv_attribute | parse_eol; format_no_declaration with
    format_raw or format_indent, and format_default = format_indent.
    A text is a list of code points; the end of the list is the terminating NUL.  Input is UTF-8 and is converted to a
    NUL-terminated buffer, therefore the last character replaced by the parser (endch, l.3584-3587) is that NUL.  The parser
    changes the buffer in place, writing only behind its position; here the converted strings are built instead.
    Simplifications: document type declarations are refused (l.3144-3166 skip them), after an error there is no document (in
    the code the part read so far stays, the callers do not use it), allocation does not fail. *)
From Coq Require Import String.
From Verif Require Import Base TextModel XmlModel.
Open Scope Z_scope.

(** * Classes of characters *)

(** chartype_table, l.1884-1916 *)
Definition ct_space (c : Z) : bool := (c =? 9) || (c =? 10) || (c =? 13) || (c =? 32).
Definition ct_start (c : Z) : bool :=
  (127 <? c) || ((97 <=? c) && (c <=? 122)) || ((65 <=? c) && (c <=? 90)) || (c =? 95) || (c =? 58).
Definition ct_symbol (c : Z) : bool := ct_start c || is_digit c || (c =? 45) || (c =? 46).
(** chartypex_table, l.1918-1946 *)
Definition special_pcdata (c : Z) : bool :=
  ((c <? 32) && negb ((c =? 9) || (c =? 10) || (c =? 13))) || (c =? 38) || (c =? 60) || (c =? 62).
Definition special_attr (c : Z) : bool := (c <? 32) || (c =? 34) || (c =? 38) || (c =? 39) || (c =? 60).

(** * Printer *)

(** text_output_escaped, l.3982-4031 *)
Definition esc (special : Z -> bool) (c : Z) : str :=
  if special c then
    if c =? 38 then txt "&amp;"
    else if c =? 60 then txt "&lt;"
    else if c =? 62 then txt "&gt;"
    else if c =? 34 then txt "&quot;"
    else if c =? 39 then [39]
    else [38; 35; c / 10 + 48; c mod 10 + 48; 59]
  else [c].
Definition escaped (special : Z -> bool) (s : str) : str := flat_map (esc special) s.

(** text_output_cdata, l.4041-4062: a section is closed and a new one opened within the sequence ending a section *)
Definition cdata_open : str := [60; 33; 91; 67; 68; 65; 84; 65; 91].
Definition cdata_close : str := [93; 93; 62].
Fixpoint cdata_body (s : str) : str :=
  match s with
  | [] => []
  | a :: s1 =>
    match s1 with
    | b :: ((c :: _) as s2) =>
      if (a =? 93) && (b =? 93) && (c =? 62) then [93; 93] ++ cdata_close ++ cdata_open ++ cdata_body s2
      else a :: cdata_body s1
    | _ => a :: cdata_body s1
    end
  end.
Definition cdata_out (s : str) : str := cdata_open ++ cdata_body s ++ cdata_close.

(** node_output_attributes, l.4145-4173 *)
Definition attr_out (a : str * str) : str := [32] ++ fst a ++ [61; 34] ++ escaped special_attr (snd a) ++ [34].
Definition attrs_out (ats : list (str * str)) : str := flat_map attr_out ats.

(** format_raw, or the string used for an indentation *)
Inductive layout := Raw | Indented (ind : str).
(** the state indent_flags: a line break, an indentation *)
Definition iflags := (bool * bool)%type.
Definition both : iflags := (true, true).
(** l.4311-4315, l.4368-4372 *)
Definition lead (l : layout) (depth : nat) (fl : iflags) : str :=
  match l with
  | Raw => []
  | Indented ind => (if fst fl then [10] else []) ++ (if snd fl then concat (repeat ind depth) else [])
  end.

(** node_output, l.4290-4385, node_output_start, node_output_end, l.4175-4243: the text, and the flags afterwards *)
Fixpoint out (l : layout) (n : xml) (depth : nat) (fl : iflags) {struct n} : str * iflags :=
  match n with
  | Text s => (escaped special_pcdata s, (false, false))
  | CData s => (cdata_out s, (false, false))
  | Elem nm ats kids =>
    let head := lead l depth fl ++ [60] ++ nm ++ attrs_out ats in
    match kids with
    | [] => (head ++ match l with Raw => [47; 62] | Indented _ => [32; 47; 62] end, both)
    | _ :: _ =>
      let '(b, f) := (fix outs (ks : list xml) (fl : iflags) : str * iflags :=
                        match ks with
                        | [] => ([], fl)
                        | k :: ks' => let '(a, f1) := out l k (S depth) fl in
                                      let '(b, f2) := outs ks' f1 in (a ++ b, f2)
                        end) kids both in
      (head ++ [62] ++ b ++ lead l depth f ++ [60; 47] ++ nm ++ [62], both)
    end
  end.
Fixpoint outs (l : layout) (ks : list xml) (depth : nat) (fl : iflags) : str * iflags :=
  match ks with
  | [] => ([], fl)
  | k :: ks' => let '(a, f1) := out l k depth fl in let '(b, f2) := outs l ks' depth f1 in (a ++ b, f2)
  end.
(** xml_document::save, l.7775-7801, for a document, given by its top-level nodes *)
Definition declaration : str := txt "<?xml version=""1.0""?>".
Definition print (l : layout) (decl : bool) (doc : list xml) : str :=
  (if decl then declaration ++ match l with Raw => [] | Indented _ => [10] end else []) ++
  (let '(b, f) := outs l doc 0 (false, true) in b ++ match l with Raw => [] | Indented _ => if fst f then [10] else [] end).

(** * Parser *)

Fixpoint starts (p s : str) : option str :=
  match p, s with
  | [], _ => Some s
  | a :: p', b :: s' => if a =? b then starts p' s' else None
  | _ :: _, [] => None
  end.
Definition next_is (c : Z) (s : str) : bool := match s with d :: _ => d =? c | [] => false end.
Definition is_hex (c : Z) : bool := is_digit c || ((97 <=? c) && (c <=? 102)) || ((65 <=? c) && (c <=? 70)).
Definition hex_digit (c : Z) : Z := if is_digit c then c - 48 else if 97 <=? c then c - 87 else c - 55.
Definition hex_val (s : str) : Z := fold_left (fun a c => 16 * a + hex_digit c) s 0.

(** strconv_escape, l.2500-2642, after an ampersand: the character and the number of characters consumed.  A reference which
    is none is left as it is: the code continues behind the characters compared so far, none of which is special, here one
    continues behind the ampersand *)
Definition escape (s : str) : Z * nat :=
  match starts [35; 120] s with
  | Some r => let '(ds, r') := span is_hex r in
              match ds with [] => (38, O) | _ => if next_is 59 r' then (hex_val ds mod 2 ^ 32, (length ds + 3)%nat) else (38, O) end
  | None =>
    match starts [35] s with
    | Some r => let '(ds, r') := span is_digit r in
                match ds with [] => (38, O) | _ => if next_is 59 r' then (dval ds mod 2 ^ 32, (length ds + 2)%nat) else (38, O) end
    | None =>
      if starts (txt "amp;") s then (38, 4%nat)
      else if starts (txt "apos;") s then (39, 5%nat)
      else if starts (txt "gt;") s then (62, 3%nat)
      else if starts (txt "lt;") s then (60, 3%nat)
      else if starts (txt "quot;") s then (34, 5%nat)
      else (38, O)
    end
  end.

(** strconv_pcdata_impl without trimming, with line ends and escapes, l.2715-2768: the text and what follows, which is empty or
    starts with '<' (the code steps over it and continues at LOC_TAG) *)
Fixpoint pcdata (skip : nat) (s : str) : str * str :=
  match s with
  | [] => ([], [])
  | c :: r =>
    match skip with
    | S k => pcdata k r
    | O =>
      if c =? 60 then ([], s)
      else if c =? 13 then let '(t, rest) := pcdata (if next_is 10 r then 1 else 0) r in (10 :: t, rest)
      else if c =? 38 then let '(d, k) := escape r in let '(t, rest) := pcdata k r in (d :: t, rest)
      else let '(t, rest) := pcdata O r in (c :: t, rest)
    end
  end.
(** strconv_attribute_impl::parse_wconv, l.2836-2872: up to the quote *)
Fixpoint attr_value (q : Z) (skip : nat) (s : str) : option (str * str) :=
  match s with
  | [] => None
  | c :: r =>
    match skip with
    | S k => attr_value q k r
    | O =>
      if c =? q then Some ([], r)
      else if ct_space c
      then option_map (fun '(t, rest) => (32 :: t, rest)) (attr_value q (if (c =? 13) && next_is 10 r then 1 else 0) r)
      else if c =? 38
      then let '(d, k) := escape r in option_map (fun '(t, rest) => (d :: t, rest)) (attr_value q k r)
      else option_map (fun '(t, rest) => (c :: t, rest)) (attr_value q O r)
    end
  end.
(** strconv_cdata, l.2685-2713: up to the end of the section *)
Fixpoint cdata_value (skip : nat) (s : str) : option (str * str) :=
  match s with
  | [] => None
  | c :: r =>
    match skip with
    | S k => cdata_value k r
    | O =>
      if c =? 13 then option_map (fun '(t, rest) => (10 :: t, rest)) (cdata_value (if next_is 10 r then 1 else 0) r)
      else match starts cdata_close s with
           | Some rest => Some ([], rest)
           | None => option_map (fun '(t, rest) => (c :: t, rest)) (cdata_value O r)
           end
    end
  end.
(** PUGI_IMPL_SCANFOR of a sequence: what follows it *)
Fixpoint scan_for (p s : str) : option str :=
  match starts p s with
  | Some r => Some r
  | None => match s with [] => None | _ :: s' => scan_for p s' end
  end.
(** a string in the buffer ends at a NUL (from a reference &#0;) *)
Fixpoint c_str (s : str) : str := match s with [] => [] | c :: s' => if c =? 0 then [] else c :: c_str s' end.

(** LOC_ATTRIBUTES, l.3333-3410: the attributes, whether the element is closed, and what follows the tag *)
Fixpoint parse_attrs (fuel : nat) (s : str) : res (list (str * str) * bool * str) :=
  match fuel with
  | O => OutOfFuel
  | S f =>
    match snd (span ct_space s) with
    | [] => Throw
    | (c :: r) as s1 =>
      if ct_start c then
        let '(name, s2) := span ct_symbol s1 in
        match starts [61] (snd (span ct_space s2)) with
        | Some s3 =>
          match snd (span ct_space s3) with
          | q :: s4 =>
            if (q =? 34) || (q =? 39) then
              match attr_value q O s4 with
              | Some (v, s5) =>
                if match s5 with d :: _ => ct_start d | [] => false end then Throw
                else let* x := parse_attrs f s5 in
                     let '(ats, closed, rest) := x in Ok ((name, c_str v) :: ats, closed, rest)
              | None => Throw
              end
            else Throw
          | [] => Throw
          end
        | None => Throw
        end
      else if c =? 47 then match starts [62] r with Some r' => Ok ([], true, r') | None => Throw end
      else if c =? 62 then Ok ([], false, r)
      else Throw
    end
  end.

(** the cursor: its children so far (last first), and for each open element its name, its attributes and the children of its
    parent so far *)
Definition stack := list (str * list (str * str) * list xml).
Definition pos := (str * list xml * stack)%type.

(** parse_tree l.3318-3430: a start tag, at its name *)
Definition start_tag (s : str) (cur : list xml) (stk : stack) : res pos :=
  let '(name, s1) := span ct_symbol s in
  match s1 with
  | [] => Throw
  | ch :: r =>
    if ch =? 62 then Ok (r, [], (name, [], cur) :: stk)
    else if ct_space ch then
      let* x := parse_attrs (S (length r)) r in
      let '(ats, closed, rest) := x in
      Ok (if closed then (rest, Elem name ats [] :: cur, stk) else (rest, [], (name, ats, cur) :: stk))
    else if ch =? 47 then match starts [62] r with Some r' => Ok (r', Elem name [] [] :: cur, stk) | None => Throw end
    else Throw
  end.
(** l.3431-3467: an end tag, at its name *)
Definition end_tag (s : str) (cur : list xml) (stk : stack) : res pos :=
  match stk with
  | [] => Throw
  | (name, ats, par) :: stk' =>
    let '(nm, s1) := span ct_symbol s in
    if str_eqb nm name then
      match starts [62] (snd (span ct_space s1)) with
      | Some r => Ok (r, Elem name ats (rev cur) :: par, stk')
      | None => Throw
      end
    else Throw
  end.
(** parse_question l.3193-3274 and parse_exclamation l.3093-3191: declarations, processing instructions and comments are
    dropped *)
Definition question (s : str) : option str :=
  match s with
  | c :: _ => if ct_start c then scan_for [63; 62] (snd (span ct_symbol s)) else None
  | [] => None
  end.
Definition exclamation (s : str) (cur : list xml) (stk : stack) : res pos :=
  match starts [45; 45] s with
  | Some r => match scan_for [45; 45; 62] r with Some rest => Ok (rest, cur, stk) | None => Throw end
  | None =>
    match starts (txt "[CDATA[") s with
    | Some r => match cdata_value O r with Some (t, rest) => Ok (rest, CData (c_str t) :: cur, stk) | None => Throw end
    | None => Throw
    end
  end.
(** one turn of the loop of parse_tree, l.3310-3560 *)
Definition turn (s : str) (cur : list xml) (stk : stack) : res pos :=
  match starts [60] s with
  | Some r =>
    match r with
    | c :: r' =>
      if ct_start c then start_tag r cur stk
      else if c =? 47 then end_tag r' cur stk
      else if c =? 63 then match question r' with Some rest => Ok (rest, cur, stk) | None => Throw end
      else if c =? 33 then exclamation r' cur stk
      else Throw
    | [] => Throw
    end
  | None =>
    let s1 := snd (span ct_space s) in
    match s1 with
    | [] => Ok ([], cur, stk)
    | c :: _ =>
      if c =? 60 then Ok (s1, cur, stk)
      else match stk with
           | [] => Ok (snd (span (fun c => negb (c =? 60)) s), cur, stk)
           | _ => let '(t, rest) := pcdata O s in Ok (rest, Text (c_str t) :: cur, stk)
           end
    end
  end.
Fixpoint parse_tree (fuel : nat) (s : str) (cur : list xml) (stk : stack) : res (list xml) :=
  match s with
  | [] => match stk with [] => Ok (rev cur) | _ => Throw end
  | _ => match fuel with
         | O => OutOfFuel
         | S f => let* p := turn s cur stk in let '(s', cur', stk') := p in parse_tree f s' cur' stk'
         end
  end.
(** parse, l.3577-3638, parse_skip_bom; something behind a NUL is not read *)
Definition parse (s : str) : res (list xml) :=
  let s0 := c_str s in
  let s1 := match s0 with c :: r => if c =? 65279 then r else s0 | [] => [] end in
  let* doc := parse_tree (S (length s1)) s1 [] [] in
  if existsb is_elem doc then Ok doc else Throw.

(** * UTF-8 *)

(** utf8_writer, l.1525-1568 *)
Definition utf8_char (c : Z) : list Z :=
  if c <? 128 then [c]
  else if c <? 2048 then [192 + c / 64; 128 + c mod 64]
  else if c <? 65536 then [224 + c / 4096; 128 + (c / 64) mod 64; 128 + c mod 64]
  else [240 + c / 262144; 128 + (c / 4096) mod 64; 128 + (c / 64) mod 64; 128 + c mod 64].
Definition utf8_encode (s : str) : list Z := flat_map utf8_char s.
(** utf8_decoder, l.1675-1740: bytes which are no sequence are dropped *)
Definition cont (b : Z) : bool := (128 <=? b) && (b <? 192).
Definition utf8_step (l : list Z) : option Z * nat :=
  match l with
  | [] => (None, O)
  | a :: r =>
    if a <? 128 then (Some a, 1%nat)
    else match r with
    | b :: r1 =>
      if (192 <=? a) && (a <? 224) && cont b then (Some ((a - 192) * 64 + (b - 128)), 2%nat)
      else match r1 with
      | c :: r2 =>
        if (224 <=? a) && (a <? 240) && cont b && cont c
        then (Some ((a - 224) * 4096 + (b - 128) * 64 + (c - 128)), 3%nat)
        else match r2 with
        | d :: _ =>
          if (240 <=? a) && (a <? 248) && cont b && cont c && cont d
          then (Some ((a - 240) * 262144 + (b - 128) * 4096 + (c - 128) * 64 + (d - 128)), 4%nat)
          else (None, 1%nat)
        | [] => (None, 1%nat)
        end
      | [] => (None, 1%nat)
      end
    | [] => (None, 1%nat)
    end
  end.
Fixpoint utf8_go (skip : nat) (l : list Z) : str :=
  match l with
  | [] => []
  | _ :: r =>
    match skip with
    | S k => utf8_go k r
    | O => match utf8_step l with
           | (Some c, k) => c :: utf8_go (pred k) r
           | (None, k) => utf8_go (pred k) r
           end
    end
  end.
Definition utf8_decode (l : list Z) : str := utf8_go O l.

(** * The calls *)

(** GetXml of a builder: the bytes *)
Definition builder_get_xml (with_indent : bool) (doc : list xml) : list Z :=
  utf8_encode (print (if with_indent then Indented [32; 32] else Raw) false doc).
(** GetXml of the metadata of a document *)
Definition metadata_get_xml (doc : list xml) : list Z := utf8_encode (print (Indented [32]) true doc).
(** constructors from a text: an exception resp. IsXmlValid() = false if it is not well-formed *)
Definition load (bytes : list Z) : res (list xml) := parse (utf8_decode bytes).
(** CreateMetadataBuilderFromXml: the root of that name *)
Definition builder_load (root : str) (bytes : list Z) : res (list xml * nat) :=
  let* doc := load bytes in
  match find_index (matches root []) doc with Some i => Ok (doc, i) | None => Throw end.
