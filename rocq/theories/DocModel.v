(** Information about a document in its metadata XML: what is written by MetadataUtils (CziMetadataBuilder.cpp l.725-922) and
    CMetadataPrepareHelper (l.486-601), and what is read by CCziMetadataDocumentInfo (CziMetadataDocumentInfo.cpp).
    A document is the list of its top-level nodes as in PugiModel, the root node of a builder is the first of the name
    "ImageDocument".  Simplifications: those of XmlModel and NumModel; where glibc reports ERANGE for the smallest numbers only
    if they are inexact it is taken to be reported always. *)
From Coq Require Import String Floats.SpecFloat.
From Verif Require Import Base RectModel TextModel CodesModel DateModel XmlModel PugiModel NumModel.
Open Scope Z_scope.

(** * Reading nodes *)
(** pugi child (pugixml.cpp): the first child element of the name *)
Definition child (name : str) (n : xml) : option xml := find (matches name []) (kids_of n).
(** GetNodeRelativeFromNode, CziMetadataDocumentInfo.cpp l.528-538, the path given as list of names *)
Fixpoint descend (names : list str) (n : xml) : option xml :=
  match names with
  | [] => Some n
  | k :: ks => match child k n with Some c => descend ks c | None => None end
  end.
Definition ROOT : str := txt "ImageDocument".
(** GetNode, l.523-526 *)
Definition get_node (names : list str) (doc : list xml) : option xml :=
  match find (matches ROOT []) doc with Some r => descend names r | None => None end.

(** the root node of a builder, CziMetadataBuilder.cpp l.440-466: the first top-level element of the name *)
Definition on_root (f : xml -> res xml) (doc : list xml) : res (list xml) :=
  match find_index (matches ROOT []) doc with
  | Some i => let* r := f (nth i doc dummy) in Ok (upd doc i r)
  | None => Throw
  end.

(** xml_text::_data and as_string, pugixml.cpp l.6925-6985: the first text or CDATA section *)
Definition is_data (n : xml) : bool := negb (is_elem n).
Definition text (n : xml) : str :=
  match find is_data (kids_of n) with Some (Text s) => s | Some (CData s) => s | _ => [] end.

(** string_to_integer<unsigned int> and get_value_int, pugixml.cpp l.4576-4661 *)
Definition hex_lead (s : str) : option str :=
  match s with a :: b :: r => if (a =? 48) && ((b =? 88) || (b =? 120)) then Some r else None | _ => None end.
Definition skip0 (s : str) : str := snd (span (fun c => c =? 48) s).
Definition to_int (s : str) : Z :=
  let s1 := snd (span ct_space s) in
  let negative := next_is 45 s1 in
  let s2 := if next_is 43 s1 || next_is 45 s1 then skipn 1 s1 else s1 in
  let '(overflow, result) :=
    match hex_lead s2 with
    | Some r => let ds := fst (span is_hex (skip0 r)) in ((8 <? length ds)%nat, u32 (hex_val ds))
    | None =>
      let ds := fst (span is_digit (skip0 s2)) in
      let r := u32 (dval ds) in
      ((10 <=? length ds)%nat &&
       negb ((length ds =? 10)%nat && ((hd 0 ds <? 52) || ((hd 0 ds =? 52) && (2 ^ 31 <=? r)))), r)
    end in
  if negative then (if overflow || (2 ^ 31 <? result) then INT_MIN else s32 (u32 (- result)))
  else if overflow || (INT_MAX <? result) then INT_MAX else result.
(** as_int, l.6987-6993 (default 0) and as_double, l.7003-7009, get_value_double (default 0) *)
Definition as_int (n : xml) : Z := to_int (text n).
Definition as_dbl (n : xml) : spec_float := fst (strtod (text n)).

(** * General information *)
(** GeneralDocumentInfo, libCZI_Metadata.h: text fields and the rating, each valid or not *)
Record ginfo := mkG {
  g_name : option str; g_title : option str; g_user : option str; g_description : option str; g_comment : option str;
  g_keywords : option str; g_date : option str; g_rating : option Z }.
(** WriteGeneralDocumentInfo, CziMetadataBuilder.cpp l.862-886 *)
Definition set_field (name : string) (o : option str) (t : xml) : res xml :=
  match o with Some s => write (txt "Metadata/Information/Document/" ++ txt name) s t | None => Ok t end.
Definition write_general (g : ginfo) (t : xml) : res xml :=
  let* t := set_field "Name" (g_name g) t in
  let* t := set_field "Title" (g_title g) t in
  let* t := set_field "UserName" (g_user g) t in
  let* t := set_field "Description" (g_description g) t in
  let* t := set_field "Comment" (g_comment g) t in
  let* t := set_field "Keywords" (g_keywords g) t in
  let* t := set_field "CreationDate" (g_date g) t in
  set_field "Rating" (option_map dec (g_rating g)) t.
(** GetGeneralDocumentInfo, CziMetadataDocumentInfo.cpp l.24-88 *)
Definition ginfo0 : ginfo := mkG None None None None None None None None.
Definition get_general (doc : list xml) : ginfo :=
  match get_node [txt "Metadata"; txt "Information"; txt "Document"] doc with
  | Some np =>
    let field (name : string) := option_map text (descend [txt name] np) in
    mkG (field "Name"%string) (field "Title"%string) (field "UserName"%string) (field "Description"%string) (field "Comment"%string)
        (field "Keywords"%string) (field "CreationDate"%string) (option_map as_int (descend [txt "Rating"] np))
  | None => ginfo0
  end.

(** * Scaling *)
(** ScalingInfoEx, libCZI_Metadata.h l.222-307: for X, Y, Z the length of a pixel (not a number if unknown) and a unit *)
Definition scaling := list (spec_float * str).
Definition axes : list Z := [88; 89; 90].
Definition valid_scale (x : spec_float) : bool :=
  match x with S754_nan => false | S754_infinity _ => false | _ => true end.
(** WriteScalingInfo l.888-899, WriteScalingInfoEx l.901-922 *)
Definition distance (d : Z) (what : string) : str := txt "Metadata/Scaling/Items/Distance[Id=" ++ [d] ++ txt "]/" ++ txt what.
Fixpoint write_scales (with_units : bool) (l : list (Z * (spec_float * str))) (t : xml) : res xml :=
  match l with
  | [] => Ok t
  | (d, (x, u)) :: l' =>
    let* t := (if valid_scale x then write (distance d "Value") (dbl_text x) t else Ok t) in
    let* t := (if with_units then match u with [] => Ok t | _ => write (distance d "DefaultUnitFormat") u t end else Ok t) in
    write_scales with_units l' t
  end.
Definition write_scaling (with_units : bool) (s : scaling) : xml -> res xml := write_scales with_units (combine axes s).
(** select_node with Items/Distance[@Id='d']/name: the first of all such nodes in document order *)
Fixpoint select (steps : list (str * list (str * str))) (n : xml) : list xml :=
  match steps with
  | [] => [n]
  | (k, ats) :: steps' => flat_map (select steps') (filter (matches k ats) (kids_of n))
  end.
Definition distance_steps (d : Z) (what : string) : list (str * list (str * str)) :=
  [(txt "Items", []); (txt "Distance", [(txt "Id", [d])]); (txt what, [])].
(** GetScalingInfoEx, CziMetadataDocumentInfo.cpp l.90-132; GetScalingInfo, l.134-166, reads the lengths only *)
Definition get_scaling (doc : list xml) : scaling :=
  match get_node [txt "Metadata"; txt "Scaling"] doc with
  | Some np => map (fun d => (match select (distance_steps d "Value") np with n :: _ => as_dbl n | [] => S754_nan end,
                              match select (distance_steps d "DefaultUnitFormat") np with n :: _ => text n | [] => [] end)) axes
  | None => map (fun _ => (S754_nan, [])) axes
  end.

(** * Sizes of dimensions *)
Definition image : str := txt "Metadata/Information/Image/".
Definition IMAGE : list str := [txt "Metadata"; txt "Information"; txt "Image"].
(** WriteImageSizeInformation, WriteMIndexSizeInformation, WriteDimensionSize, CziMetadataBuilder.cpp l.725-744 *)
Definition write_size (c : Z) (size : Z) : xml -> res xml := write (image ++ txt "Size" ++ [c]) (dec size).
(** WriteFillWithSubBlockStatistics, l.746-762: width, height, the valid bounds per dimension, smallest and largest M index *)
Fixpoint write_sizes (l : list (Z * Z)) (t : xml) : res xml :=
  match l with [] => Ok t | (c, size) :: l' => let* t := write_size c size t in write_sizes l' t end.
Fixpoint valid_bounds (ds : list Z) (b : bounds) : list (Z * (Z * Z)) :=
  match ds with [] => [] | d :: ds' => match tget b d with Some i => (d, i) :: valid_bounds ds' b | None => valid_bounds ds' b end end.
Definition write_statistics (w h : Z) (b : bounds) (m : option (Z * Z)) (t : xml) : res xml :=
  let* t := write_sizes [(88, w); (89, h)] t in
  let* t := write_sizes (map (fun '(d, i) => (dim_char d, snd i)) (valid_bounds dims b)) t in
  match m with
  | Some (lo, hi) => if (INT_MAX <? hi - lo + 1) then UB else write_size 77 (hi - lo + 1) t
  | None => Ok t
  end.
(** CCziDimensionInfo: start, size and whether they were stated.  ParseDimensionInfo, CziMetadataDocumentInfo.cpp l.471-521 *)
Record dinfo := mkD { d_start : Z; d_size : Z; d_start_stated : bool; d_size_stated : bool }.
Definition dim_info (d : Z) (doc : list xml) : option dinfo :=
  match get_node IMAGE doc with
  | Some np =>
    match descend [txt "Start" ++ [dim_char d]] np, descend [txt "Size" ++ [dim_char d]] np with
    | None, None => None
    | a, b => Some (mkD (match a with Some n => as_int n | None => 0 end) (match b with Some n => as_int n | None => 1 end)
                        (match a with Some _ => true | None => false end) (match b with Some _ => true | None => false end))
    end
  | None => None
  end.
(** EnumDimensions (a std::map, by index) and GetDimensionInfo, l.168-205 *)
Definition enum_dimensions (doc : list xml) : list Z :=
  filter (fun d => match dim_info d doc with Some _ => true | None => false end) dims.
(** CCziDimensionInfo::GetInterval, CziDimensionInfo.cpp l.14-25: start and end *)
Definition get_interval (i : dinfo) : res (Z * Z) := if in_i32b (d_size i + d_start i) then Ok (d_start i, d_size i + d_start i) else UB.

(** * Positions in Z and T *)
(** std::stod: [None] is invalid_argument (caught), [Throw] out_of_range (not caught) *)
Definition tiny (s : str) (x : spec_float) : bool :=
  match x with
  | S754_zero _ => existsb (fun c => (49 <=? c) && (c <=? 57)) (fst (span (fun c => negb ((c =? 69) || (c =? 101))) s))
  | S754_finite _ m _ => Z.pos m <? 2 ^ 52
  | _ => false
  end.
Definition stod (s : str) : res (option (spec_float * str)) :=
  let '(x, k) := strtod s in
  match k with
  | O => Ok None
  | _ => if tiny (firstn k s) x || match x with S754_infinity _ => true | _ => false end then Throw else Ok (Some (x, skipn k s))
  end.
(** l.274-304, l.330-361, l.414-445: the number must be followed by nothing or a white space *)
Definition whole (s : str) : res (option spec_float) :=
  let* o := stod s in
  match o with
  | None => Ok None
  | Some (x, []) => Ok (Some x)
  | Some (x, c :: _) => let* b := c_isspace c in Ok (if (b : bool) then Some x else None)
  end.
(** Utilities::Split, utilities.h l.24-46: empty tokens are left out *)
Definition nonempty (s : str) : bool := match s with [] => false | _ => true end.
Definition split_tokens (sep : Z) (s : str) : list str := filter nonempty (tokens (fun c => c =? sep) s).
Fixpoint number_list (l : list str) : res (list spec_float) :=
  match l with
  | [] => Ok []
  | s :: l' => let* o := whole s in
               match o with Some x => let* r := number_list l' in Ok (x :: r) | None => Ok [] end
  end.
Inductive positions := PosNone | PosInterval (start increment : spec_float) | PosList (l : list spec_float).
Definition zero64 : spec_float := S754_zero false.
(** l.306-365, l.390-449 *)
Definition get_positions (n : xml) : res positions :=
  match descend [txt "Positions"; txt "Interval"] n with
  | Some i =>
    let value (name : string) := match descend [txt name] i with Some c => as_dbl c | None => zero64 end in
    Ok (PosInterval (value "Start"%string) (value "Increment"%string))
  | None =>
    match descend [txt "Positions"; txt "List"; txt "Offsets"] n with
    | Some o => let* l := number_list (split_tokens 32 (text o)) in Ok (PosList l)
    | None => Ok PosNone
    end
  end.
(** the word a text is, if it is one of a list: its place *)
Fixpoint word_of (s : str) (ws : list (string * Z)) : option Z :=
  match ws with [] => None | (w, v) :: ws' => if str_eqb s (txt w) then Some v else word_of s ws' end.
Record zinfo := mkZ {
  z_start : option spec_float; z_hand : option Z; z_axis : option Z; z_mode : option Z; z_speed : option spec_float; z_pos : positions }.
(** GetDimensionZInfo, l.207-368; the drive mode is taken from the node ZAxisDirection *)
Definition get_zinfo (doc : list xml) : res (option zinfo) :=
  match get_node (IMAGE ++ [txt "Dimensions"; txt "Z"]) doc with
  | None => Ok None
  | Some n =>
    let node (name : string) := descend [txt name] n in
    let word o ws := match o with Some c => word_of (trim (text c)) ws | None => None end in
    let axis := node "ZAxisDirection"%string in
    let mode := match node "ZDriveMode"%string with
                | Some _ => word_of (trim (match axis with Some c => text c | None => [] end)) [("Continuous"%string, 0); ("Step"%string, 1)]
                | None => None
                end in
    let* speed := match node "ZDriveSpeed"%string with
                  | Some c => match trim (text c) with [] => Ok None | s => whole s end
                  | None => Ok None
                  end in
    let* pos := get_positions n in
    Ok (Some (mkZ (option_map as_dbl (node "StartPosition"%string))
                  (word (node "XYZHandedness"%string) [("LeftHanded"%string, 0); ("RightHanded"%string, 1); ("Undefined"%string, 2)])
                  (word axis [("FromSpecimenToObjective"%string, 0); ("FromObjectiveToSpecimen"%string, 1); ("Undefined"%string, 2)])
                  mode speed pos))
  end.
Record tinfo := mkT { t_start : option datetime; t_pos : positions }.
(** GetDimensionTInfo, l.370-452 *)
Definition get_tinfo (doc : list xml) : res (option tinfo) :=
  match get_node (IMAGE ++ [txt "Dimensions"; txt "T"]) doc with
  | None => Ok None
  | Some n =>
    let* start := match descend [txt "StartTime"] n with Some c => try_parse (text c) | None => Ok None end in
    let* pos := get_positions n in
    Ok (Some (mkT start pos))
  end.
(** WriteDimInfoT_Interval, WriteDimInfoT_List, WriteDimInfoZ_Interval, WriteDimInfoZ_List, CziMetadataBuilder.cpp l.764-860;
    a list of offsets is what the function given delivers up to the first which is not a finite number *)
Definition dimensions : str := txt "Metadata/Information/Dimensions/".
Definition write_dbl (p : string) (x : spec_float) (t : xml) : res xml :=
  if valid_scale x then write (dimensions ++ txt p) (dbl_text x) t else Ok t.
Definition write_time (o : option datetime) (t : xml) : res xml :=
  match o with Some d => let* s := to_xml d in write (dimensions ++ txt "T/StartTime") s t | None => Ok t end.
Fixpoint offsets_text (l : list spec_float) : str :=
  match l with [] => [] | [x] => dbl_text x | x :: l' => dbl_text x ++ [32] ++ offsets_text l' end.
Definition write_t_interval (start : option datetime) (x inc : spec_float) (t : xml) : res xml :=
  let* t := write_time start t in
  let* t := write_dbl "T/Positions/Interval/Start" x t in write_dbl "T/Positions/Interval/Increment" inc t.
Definition write_t_list (start : option datetime) (l : option (list spec_float)) (t : xml) : res xml :=
  let* t := write_time start t in
  match l with Some l => write (dimensions ++ txt "T/Positions/List/Offsets") (offsets_text l) t | None => Ok t end.
Definition write_z_interval (pos x inc : spec_float) (t : xml) : res xml :=
  let* t := write_dbl "Z/StartPosition" pos t in
  let* t := write_dbl "Z/Positions/Interval/Start" x t in write_dbl "Z/Positions/Interval/Increment" inc t.
Definition write_z_list (pos : spec_float) (l : option (list spec_float)) (t : xml) : res xml :=
  let* t := write_dbl "T/StartTime" pos t in
  match l with Some l => write (dimensions ++ txt "Z/Positions/List/Offsets") (offsets_text l) t | None => Ok t end.

(** * Channels *)
(** TryConvertToXmlMetadataPixelTypeString, CziMetadataBuilder.cpp l.565-601 *)
Definition pixel_word (p : pixel_type) : option str :=
  match p with
  | Gray8 => Some (txt "Gray8") | Gray16 => Some (txt "Gray16") | Gray32Float => Some (txt "Gray32Float") | Bgr24 => Some (txt "Bgr24")
  | Bgr48 => Some (txt "Bgr48") | Bgr96Float => Some (txt "Bgr96Float") | Bgra32 => Some (txt "Bgra32")
  | Gray64ComplexFloat => Some (txt "Gray64ComplexFloat") | Bgr192ComplexFloat => Some (txt "Bgr192ComplexFloat") | _ => None
  end.
(** StringToPixelType, CziMetadataDocumentInfo2.cpp l.1627-1645 *)
Definition word_pixel (s : str) : option pixel_type :=
  match find (fun e => str_eqb s (txt (fst e)))
    [("Gray8"%string, Gray8); ("Gray16"%string, Gray16); ("Gray32Float"%string, Gray32Float); ("Bgr24"%string, Bgr24); ("Bgr48"%string, Bgr48);
     ("Bgr96Float"%string, Bgr96Float); ("Bgra32"%string, Bgra32); ("Gray64ComplexFloat"%string, Gray64ComplexFloat);
     ("Bgr192ComplexFloat"%string, Bgr192ComplexFloat); ("Gray32"%string, Gray32); ("Gray64Float"%string, Gray64Float)]
  with Some e => Some (snd e) | None => None end.
(** FillImagePixelType, CziMetadataBuilder.cpp l.555-563 *)
Definition fill_image_pixel_type (p : pixel_type) (t : xml) : res xml :=
  match pixel_word p with Some w => write (image ++ txt "PixelType") w t | None => Ok t end.
(** FillDimensionChannel, l.486-553: the node of a channel is found or created, a node PixelType is appended to it *)
Definition channel_path (id : str) (name : option str) : str :=
  image ++ txt "Dimensions/Channels/Channel[Id=" ++ id ++ match name with Some s => txt ",Name=" ++ s | None => [] end ++ txt "]".
Definition append_value (name v : str) (n : xml) : res xml :=
  match n with Elem nm ats kids => Ok (Elem nm ats (kids ++ [Elem name [] [Text v]])) | _ => UB end.
Definition fill_channel (id : str) (name : option str) (p : option pixel_type) (t : xml) : res xml :=
  match get_or_create (channel_path id name) t with
  | (t', Ok h) => match p with
                  | Some p => match pixel_word p with Some w => change_at h (append_value (txt "PixelType") w) t' | None => Ok t' end
                  | None => Ok t'
                  end
  | (_, Throw) => Throw
  | (_, UB) => UB
  | (_, OutOfFuel) => OutOfFuel
  end.
Fixpoint fill_channels (chs : list Z) (names : Z -> str * option str) (types : list (Z * Z)) (t : xml) : res xml :=
  match chs with
  | [] => Ok t
  | c :: chs' =>
    let '(id, name) := names c in
    let* t := fill_channel id name (match find (fun e => fst e =? c) types with Some e => Some (pixel_type_from_int (snd e)) | None => None end) t in
    fill_channels chs' names types t
  end.
(** the first valid pixel type of the channels *)
Fixpoint first_type (chs : list Z) (types : list (Z * Z)) : pixel_type :=
  match chs with
  | [] => PixInvalid
  | c :: chs' => match find (fun e => fst e =? c) types with
                 | Some e => match pixel_type_from_int (snd e) with PixInvalid => first_type chs' types | p => p end
                 | None => first_type chs' types
                 end
  end.
Definition fill_dimension_channel (b : bounds) (types : list (Z * Z)) (no_channel : option Z) (names : Z -> str * option str) (t : xml) : res xml :=
  match tget b 2 with
  | Some (start, size) =>
    if negb (in_i32b (start + size)) then UB else
    let chs := map (fun k => start + Z.of_nat k) (seq 0 (Z.to_nat size)) in
    let* t := fill_channels chs names types t in fill_image_pixel_type (first_type chs types) t
  | None => match no_channel with Some p => fill_image_pixel_type (pixel_type_from_int p) t | None => Ok t end
  end.
(** CCziWriter::DefaultGenerateChannelIdAndName, CziWriter.cpp l.1060-1065 *)
Definition default_names (c : Z) : str * option str := (txt "Channel:" ++ dec c, None).
(** CCziWriter::GetPreparedMetadata, l.1007-1019 *)
Definition prepared_metadata (w h : Z) (b : bounds) (m : option (Z * Z)) (types : list (Z * Z)) (no_channel : option Z)
  (names : Z -> str * option str) : res xml :=
  let* t := write_statistics w h b m (Elem ROOT [] []) in fill_dimension_channel b types no_channel names t.
(** CDimensionsChannelsInfo::TryParse and ParseInformation, CziMetadataDocumentInfo2.cpp l.945-963; of a channel only Id, Name and
    PixelType (l.119-135, l.468-477) *)
Record chinfo := mkCh { c_id : option str; c_name : option str; c_pixel : option pixel_type }.
Definition channel_info (n : xml) : chinfo :=
  mkCh (try_get_attribute (txt "Id") n) (try_get_attribute (txt "Name") n)
       (match descend [txt "PixelType"] n with Some c => word_pixel (text c) | None => None end).
Definition get_channels (doc : list xml) : option (list chinfo) :=
  match get_node (IMAGE ++ [txt "Dimensions"; txt "Channels"]) doc with
  | Some n => Some (map channel_info (filter (matches (txt "Channel") []) (kids_of n)))
  | None => None
  end.
