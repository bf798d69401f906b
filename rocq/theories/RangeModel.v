(** Ranges and lists of numbers in the description of channels (CziMetadataDocumentInfo2.cpp): exposure times, wavelengths,
    and the lists of the Airyscan settings.  iswspace is modelled for the "C" locale; strings have no NUL inside
    (they come from pugixml).  Hexadecimal numbers, "inf" and "nan" are not modelled (as in NumModel). *)
From Coq Require Import String Floats.SpecFloat.
From Verif Require Import Base TextModel XmlModel NumModel DocModel.
Open Scope Z_scope.

(** RangeOrSingleValue, libCZI_Metadata2.h l.103-115 *)
Record range (A : Type) := mkR { r_single : bool; r_start : A; r_end : A }.
Arguments mkR {A}. Arguments r_single {A}. Arguments r_start {A}. Arguments r_end {A}.

(** TryParseRangeOrSingleValue, l.778-850 (double) and l.852-924 (uint64_t).  [num] is std::stod or std::stoull: the number
    and the rest of the text, nothing if it throws (invalid_argument and out_of_range are caught, l.841-848, l.915-922) *)
Definition parse_range {A} (num : str -> option (A * str)) (lo hi none : A) (s : str) : option (range A) :=
  match s with
  | c :: t =>
    if c =? 45 then
      match num t with Some (x, []) => Some (mkR false lo x) | _ => None end
    else
      match num s with
      | Some (x, d :: t2) =>
        if d =? 45 then
          match t2 with
          | [] => Some (mkR false x hi)
          | _ => match num t2 with Some (y, []) => Some (mkR false x y) | _ => None end
          end
        else None
      | Some (x, []) => Some (mkR true x none)
      | None => None
      end
  | [] => match num s with Some (x, []) => Some (mkR true x none) | _ => None end
  end.
(** std::stoull with base 10; std::stod with out_of_range caught *)
Definition stoull : str -> option (Z * str) := conv_unsigned (2 ^ 64 - 1).
Definition stod_caught (s : str) : option (spec_float * str) := match stod s with Ok o => o | _ => None end.
(** numeric_limits<double>::min, max and quiet_NaN *)
Definition DBL_MIN : spec_float := S754_finite false 4503599627370496 (-1074).
Definition DBL_MAX : spec_float := S754_finite false 9007199254740991 971.
Definition range_u64 : str -> option (range Z) := parse_range stoull 0 (2 ^ 64 - 1) 0.
Definition range_dbl : str -> option (range spec_float) := parse_range stod_caught DBL_MIN DBL_MAX S754_nan.
(** Utilities::RemoveSpaces, utilities.h l.48-51 *)
Definition remove_spaces (s : str) : str := filter (fun c => negb (is_space c)) s.

(** ExposureTime of a channel, l.618-631 *)
Definition exposure_time (n : xml) : option (range Z) :=
  match descend [txt "ExposureTime"] n with
  | Some c => match remove_spaces (text c) with [] => None | s => range_u64 s end
  | None => None
  end.
(** TryParseSpectrumCharacteristic, l.710-776 *)
Inductive spectrum := Peak (x : spec_float) | Bands (l : list (range spec_float)).
Fixpoint all_ranges (l : list str) : option (list (range spec_float)) :=
  match l with
  | [] => Some []
  | s :: l' => match range_dbl s with
               | Some r => match all_ranges l' with Some rs => Some (r :: rs) | None => None end
               | None => None
               end
  end.
Definition get_spectrum (n : xml) : option spectrum :=
  match descend [txt "SinglePeak"] n with
  | Some c => Some (Peak (as_dbl c))
  | None =>
    match descend [txt "Ranges"] n with
    | Some c =>
      match split_tokens 44 (text c) with
      | [] => None
      | parts => match all_ranges (map remove_spaces parts) with Some l => Some (Bands l) | None => None end
      end
    | None => None
    end
  end.
(** IlluminationWavelength and DetectionWavelength of a channel, l.518-536 *)
Definition wavelength (name : string) (n : xml) : option spectrum :=
  match descend [txt name] n with Some c => get_spectrum c | None => None end.

(** ParseDoubleXmlArray and ParseInt32XmlArray, l.1802-1873: the numbers up to the first thing which is none; every pass of
    the loop takes at least one character *)
Fixpoint skip_white (s : str) : res str :=
  match s with
  | [] => Ok []
  | c :: s' => let* b := c_isspace c in if (b : bool) then skip_white s' else Ok s
  end.
Fixpoint parse_array {A} (num : str -> option (A * str)) (fuel : nat) (s : str) : res (list A) :=
  match s with
  | [] => Ok []
  | _ =>
    match fuel with
    | O => OutOfFuel
    | S f =>
      match num s with
      | None => Ok []
      | Some (x, []) => Ok [x]
      | Some (x, c :: t) =>
        let* b := c_isspace c in
        if (b : bool) then let* t2 := skip_white t in let* l := parse_array num f t2 in Ok (x :: l) else Ok []
      end
    end
  end.
Definition stoi : str -> option (Z * str) := conv_signed INT_MIN INT_MAX.
Definition double_array (s : str) : res (list spec_float) := parse_array stod_caught (length s) s.
Definition int_array (s : str) : res (list Z) := parse_array stoi (length s) s.
(** FastAiryScanSettings, l.1484-1513: the two lines and the mapping of fibres *)
Definition line_of (name : string) (n : xml) : res (option (spec_float * spec_float)) :=
  match descend [txt name] n with
  | Some c => let* l := double_array (text c) in Ok (match l with x :: y :: _ => Some (x, y) | _ => None end)
  | None => Ok None
  end.
Definition fibre_mapping (n : xml) : res (option (list Z)) :=
  match descend [txt "FiberMapping"] n with Some c => let* l := int_array (text c) in Ok (Some l) | None => Ok None end.
