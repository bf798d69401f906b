(** Parameters given to the C API as text: GUIDs and JSON documents (Src/libCZIAPI/src/parameterhelpers.cpp).
    The JSON parser (rapidjson, not part of the repository) is outside: a text which is no JSON object is [None], otherwise it
    is the list of the members in their order. *)
From Coq Require Import String.
From Verif Require Import Base CodecModel TextModel WriterModel.
Open Scope Z_scope.

(** ** GUIDs as text *)

(** HexCharToInt (parameterhelpers.cpp l.17-40); 255 is "not a digit" *)
Definition hex_char_to_int (c : Z) : Z :=
  if (48 <=? c) && (c <=? 57) then c - 48 else if (65 <=? c) && (c <=? 70) then c - 55 else if (97 <=? c) && (c <=? 102) then c - 87 else 255.
(** the loop of ConvertHexStringToInteger (l.50-67): value so far, count of digits after the first which is not zero *)
Fixpoint hex_loop (s : str) (v cnt : Z) : option Z :=
  match s with
  | [] => Some v
  | c :: s' =>
      let x := hex_char_to_int c in
      if x =? 255 then None
      else let cnt' := if 0 <? v then cnt + 1 else cnt in
           if 7 <? cnt' then None else hex_loop s' ((v * 16 + x) mod 2 ^ 32) cnt'
  end.
(** ConvertHexStringToInteger (l.42-75) *)
Definition convert_hex (s : str) : option Z := match s with [] => None | _ => hex_loop s 0 0 end.

(** trim (l.548-560) with the default white space, blank and tab (parameterhelpers.h l.68) *)
Definition is_blank (c : Z) : bool := (c =? 32) || (c =? 9).
Fixpoint drop_blanks (s : str) : str := match s with c :: s' => if is_blank c then drop_blanks s' else s | [] => [] end.
Definition trim (s : str) : str := rev (drop_blanks (rev (drop_blanks s))).
(** the braces (l.470-473) *)
Definition unbrace (s : str) : str :=
  if (nth 0 s 0 =? 123) && (nth (length s - 1) s 0 =? 125) then firstn (length s - 2) (skipn 1 s) else s.
(** the regular expression (l.475): 8, 4, 4, 4 and 12 hexadecimal digits with a minus between them, 36 characters *)
Definition hex_class (c : Z) : bool := ((48 <=? c) && (c <=? 57)) || ((65 <=? c) && (c <=? 70)) || ((97 <=? c) && (c <=? 102)).
Definition dash_at (i : nat) : bool := existsb (Nat.eqb i) [8; 13; 18; 23]%nat.
Definition guid_regex (s : str) : bool :=
  (length s =? 36)%nat && forallb (fun i => if dash_at i then nth i s 0 =? 45 else hex_class (nth i s 0)) (seq 0 36).
Definition cut (s : str) (i n : nat) : str := firstn n (skipn i s).
Fixpoint all_some {A} (l : list (option A)) : option (list A) :=
  match l with [] => Some [] | Some a :: l' => match all_some l' with Some r => Some (a :: r) | None => None end | None :: _ => None end.
(** TryParseGuid (l.462-546); a GUID is represented by its sixteen bytes in memory: Data1, Data2 and Data3 with the lowest byte first
    (the processor is little endian), then Data4 *)
Definition data4_positions : list nat := [19; 21; 24; 26; 28; 30; 32; 34]%nat.
Definition try_parse_guid (text : str) : option bytes :=
  let t := trim text in
  if (length t <? 2)%nat then None
  else let s := unbrace t in
       if guid_regex s
       then match convert_hex (cut s 0 8), convert_hex (cut s 9 4), convert_hex (cut s 14 4), all_some (map (fun p => convert_hex (cut s p 2)) data4_positions) with
            | Some d1, Some d2, Some d3, Some d4 => Some (le 4 d1 ++ le 2 (d2 mod 2 ^ 16) ++ le 2 (d3 mod 2 ^ 16) ++ map (fun v => v mod 2 ^ 8) d4)
            | _, _, _, _ => None
            end
       else None.

(** ** JSON documents *)

(** values: numbers without fraction and exponent are integers; everything which is not asked for is [JOther] *)
Inductive json := JBool (b : bool) | JInt (z : Z) | JStr (s : str) | JOther.
Definition jdoc := option (list (str * json)).
(** HasMember and operator[] find the first member with the name *)
Fixpoint member (k : str) (l : list (str * json)) : option json :=
  match l with [] => None | (k', v) :: l' => if str_eqb k' k then Some v else member k l' end.
(** GetString gives a C string: it ends with the first NUL *)
Fixpoint c_text (s : str) : str := match s with [] => [] | c :: s' => if c =? 0 then [] else c :: c_text s' end.
(** IsBool/GetBool, IsInt/GetInt, IsUint/GetUint, IsString/GetString *)
Definition as_jbool (v : option json) : option bool := match v with Some (JBool b) => Some b | _ => None end.
Definition as_jint (v : option json) : option Z := match v with Some (JInt z) => if (- 2 ^ 31 <=? z) && (z <? 2 ^ 31) then Some z else None | _ => None end.
Definition as_juint (v : option json) : option Z := match v with Some (JInt z) => if (0 <=? z) && (z <? 2 ^ 32) then Some z else None | _ => None end.
Definition as_jstr (v : option json) : option str := match v with Some (JStr s) => Some (c_text s) | _ => None end.

(** TryParseCZIWriterOptions (l.351-377): Some b if something was found *)
Definition parse_writer_options (d : jdoc) : option bool :=
  match d with None => None | Some l => as_jbool (member (txt "allow_duplicate_subblocks") l) end.
(** libCZI_CreateWriter (libCZIApi.cpp l.1594-1598): whether duplicates are allowed; the default is false (libCZI_Write.h, CZIWriterOptions) *)
Definition duplicates_allowed (d : jdoc) : bool := match parse_writer_options d with Some b => b | None => false end.

(** what ICziWriterInfo answers (libCZI_Write.h l.99-150); no bounds of dimensions can be given here *)
Record params := mkParams { pr_guid : bytes; pr_ratt : option Z; pr_rdir : option Z; pr_rmeta : option Z; pr_m : option (Z * Z) }.
Definition null_guid : bytes := repeat 0 16.
(** SetMIndexBounds (libCZI_Write.h l.640-653) *)
Definition set_m (lo hi : Z) : option (Z * Z) := if hi <? lo then None else Some (lo, hi).
(** TryParseCZIWriterInfo (parameterhelpers.cpp l.379-459) *)
Definition parse_writer_info (d : jdoc) : option params :=
  match d with
  | None => None
  | Some l =>
      let g := match as_jstr (member (txt "file_guid") l) with Some t => try_parse_guid t | None => None end in
      let ra := as_juint (member (txt "reserved_size_attachments_directory") l) in
      let rd := as_juint (member (txt "reserved_size_subblock_directory") l) in
      let rm := as_juint (member (txt "reserved_size_metadata_segment") l) in
      let m := match as_jint (member (txt "minimum_m_index") l), as_jint (member (txt "maximum_m_index") l) with
               | Some lo, Some hi => Some (set_m lo hi) | _, _ => None end in
      let found := match g, ra, rd, rm, m with None, None, None, None, None => false | _, _, _, _, _ => true end in
      if found then Some (mkParams (match g with Some b => b | None => null_guid end) ra rd rm (match m with Some o => o | None => None end))
      else None
  end.
(** libCZI_WriterCreate (libCZIApi.cpp l.1675-1686) and CCziWriter::Create (CziWriter.cpp l.915-932): without information or with a
    null GUID a new GUID is made ([fresh]), all else is kept *)
Definition is_null (g : bytes) : bool := forallb (fun b => b =? 0) g.
Definition in_force (fresh : bytes) (d : jdoc) : params :=
  match parse_writer_info d with
  | None => mkParams fresh None None None None
  | Some p => if is_null (pr_guid p) then mkParams fresh (pr_ratt p) (pr_rdir p) (pr_rmeta p) (pr_m p) else p
  end.
Definition winfo_of (p : params) : winfo := mkWInfo (pr_guid p) (pr_rmeta p) (pr_rdir p) (pr_ratt p).

(** ConvertSingleChannelScalingTileAccessorOptionsInteropToLibCZI (l.615-630): the option "mask_aware", false if not given (Clear) *)
Definition mask_aware (d : jdoc) : bool :=
  match d with None => false | Some l => match as_jbool (member (txt "mask_aware") l) with Some b => b | None => false end end.

(** ** Property bags of streams *)
Inductive ptype := PString | PBool | PInt.
Inductive pvalue := PVString (s : str) | PVBool (b : bool) | PVInt (z : Z).
(** an entry of the table of properties (streamsFactory.cpp l.133-152): name, identification, type *)
Definition ptable := list (str * Z * ptype).
Fixpoint find_prop (k : str) (t : ptable) : option (Z * ptype) :=
  match t with [] => None | (n, i, ty) :: t' => if str_eqb k n then Some (i, ty) else find_prop k t' end.
Definition typed_value (ty : ptype) (v : json) : option pvalue :=
  match ty with
  | PString => option_map PVString (as_jstr (Some v))
  | PBool => option_map PVBool (as_jbool (Some v))
  | PInt => option_map PVInt (as_jint (Some v))
  end.
(** std::map::insert keeps what is there *)
Definition bag_insert (i : Z) (v : pvalue) (b : list (Z * pvalue)) : list (Z * pvalue) :=
  if existsb (fun e => fst e =? i) b then b else b ++ [(i, v)].
(** TryParseInputStreamCreationPropertyBag (parameterhelpers.cpp l.124-205); the loop over the members *)
Fixpoint parse_bag (t : ptable) (l : list (str * json)) (b : list (Z * pvalue)) : option (list (Z * pvalue)) :=
  match l with
  | [] => Some b
  | (k, v) :: l' =>
      match find_prop (c_text k) t with
      | None => None
      | Some (i, ty) => match typed_value ty v with None => None | Some x => parse_bag t l' (bag_insert i x b) end
      end
  end.
Definition property_bag (t : ptable) (d : jdoc) : option (list (Z * pvalue)) := match d with None => None | Some l => parse_bag t l [] end.
