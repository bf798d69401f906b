(** Display settings and custom values in the metadata XML: MetadataUtils::WriteDisplaySettings and SetOrAddCustomKeyValuePair
    (CziMetadataBuilder.cpp l.924-1170), CDisplaySettingsOnPod::CreateFromXml (CziDisplaySettings.cpp l.15-70, l.270-405).
    The settings of a channel are what IChannelDisplaySetting reports (l.165-256): a colour only if there is tinting, gamma and control
    points only in their mode.  Simplifications: those of DocModel; the overload with a function changing the additional
    information is not modelled (only the one looking up pixel types); the nodes of the channels are filled before
    they are appended (the document after an exception is not modelled). *)
From Coq Require Import String Floats.SpecFloat.
From Verif Require Import Base TextModel CodesModel XmlModel NumModel DocModel.
Open Scope Z_scope.

(** SetValueFlt, CziMetadataBuilder.cpp l.206-213: digits10 of float *)
Definition flt_text : spec_float -> str := print_g 6.
(** conversion of a double to float: to nearest even *)
Definition to_f32 (x : spec_float) : spec_float :=
  match x with S754_finite s m e => binary_round 24 128 s m e | _ => x end.
(** as_float, pugixml.cpp l.4677-4684, l.7011-7017, and as_bool, l.4686-4693, l.7019-7025 *)
Definition as_float (n : xml) : spec_float := to_f32 (fst (strtod (text n))).
Definition as_truth (n : xml) : bool :=
  match text n with c :: _ => (c =? 49) || (c =? 116) || (c =? 84) || (c =? 121) || (c =? 89) | [] => false end.

(** * Display settings *)
Inductive curve := Linear | Gamma (g : spec_float) | Spline (pts : list (spec_float * spec_float)).
Record setting := mkS {
  s_enabled : bool; s_weight : spec_float; s_tint : option (Z * Z * Z); s_black : spec_float; s_white : spec_float; s_curve : curve }.
(** a std::map of the channels *)
Definition settings := list (Z * setting).
Definition setting_of (ds : settings) (c : Z) : option setting :=
  match find (fun e => fst e =? c) ds with Some e => Some (snd e) | None => None end.

(** CziMetadataBuilder.cpp l.985-996: twenty digits *)
Fixpoint points_text (l : list (spec_float * spec_float)) : str :=
  match l with
  | [] => []
  | [(x, y)] => print_e 20 x ++ [44] ++ print_e 20 y
  | (x, y) :: l' => print_e 20 x ++ [44] ++ print_e 20 y ++ [32] ++ points_text l'
  end.
(** WriteChannelDisplaySettings, l.942-1003; the pixel type as text, empty if there is none *)
Definition write_channel (s : setting) (pixel : str) (n : xml) : res xml :=
  let* n := write (txt "IsSelected") (if s_enabled s then txt "true" else txt "false") n in
  let* n := match s_tint s with
            | Some c => let* n := write (txt "Color") (color_to_string c) n in write (txt "ColorMode") (txt "Color") n
            | None => let* n := write (txt "ColorMode") (txt "None") n in
                      match pixel with [] => Ok n | _ => write (txt "PixelType") pixel n end
            end in
  let* n := write (txt "Low") (flt_text (s_black s)) n in
  let* n := write (txt "High") (flt_text (s_white s)) n in
  match s_curve s with
  | Linear => Ok n
  | Gamma g => write (txt "Gamma") (flt_text g) n
  | Spline pts => let* n := write (txt "Points") (points_text pts) n in write (txt "Mode") (txt "spline") n
  end.
(** TryRetrieveIdAndNameAttributeFromChannels, l.1005-1029: empty if there is no such attribute *)
Definition dim_channel (c : Z) (t : xml) : res (option xml) :=
  let* o := get_child_node (image ++ txt "Dimensions/Channels/Channel[" ++ dec c ++ txt "]") t in
  Ok (match o with Some h => node_at h t | None => None end).
Definition id_and_name (c : Z) (t : xml) : res (str * str) :=
  let* o := dim_channel c t in
  let at_ k := match o with Some n => match try_get_attribute (txt k) n with Some v => v | None => [] end | None => [] end in
  Ok (at_ "Id"%string, at_ "Name"%string).
(** the node of a channel, l.1058-1104 *)
Definition attribute_if (k : string) (v : str) (n : xml) : res xml := match v with [] => Ok n | _ => set_attribute (txt k) v n end.
Definition type_text (types : list (Z * pixel_type)) (c : Z) : str :=
  match find (fun e => fst e =? c) types with
  | Some e => match pixel_word (snd e) with Some w => w | None => [] end
  | None => []
  end.
Definition display_channel (ds : settings) (types : list (Z * pixel_type)) (c : Z) (t : xml) : res xml :=
  let n := Elem (txt "Channel") [] [] in
  match setting_of ds c with
  | None => Ok n
  | Some s => let* idn := id_and_name c t in
              let* n := attribute_if "Id" (fst idn) n in
              let* n := attribute_if "Name" (snd idn) n in
              write_channel s (type_text types c) n
  end.
(** RemoveChild("Channel") until there is none, l.1052-1054 *)
Definition remove_channels (n : xml) : res xml :=
  match n with Elem nm ats kids => Ok (Elem nm ats (filter (fun k => negb (matches (txt "Channel") [] k)) kids)) | _ => UB end.
Definition append_node (c : xml) (n : xml) : res xml :=
  match n with Elem nm ats kids => Ok (Elem nm ats (kids ++ [c])) | _ => UB end.
Fixpoint display_channels (h : list nat) (ds : settings) (types : list (Z * pixel_type)) (cs : list Z) (t : xml) : res xml :=
  match cs with
  | [] => Ok t
  | c :: cs' => let* n := display_channel ds types c t in
                let* t := change_at h (append_node n) t in
                display_channels h ds types cs' t
  end.
(** WriteDisplaySettings, l.1047-1105 *)
Definition upto (count : Z) : list Z := map Z.of_nat (seq 0 (Z.to_nat count)).
Definition write_display_count (ds : settings) (types : list (Z * pixel_type)) (count : Z) (t : xml) : res xml :=
  match get_or_create (txt "Metadata/DisplaySetting/Channels") t with
  | (t', Ok h) => let* t1 := change_at h remove_channels t' in display_channels h ds types (upto count) t1
  | (_, Throw) => Throw
  | (_, UB) => UB
  | (_, OutOfFuel) => OutOfFuel
  end.
(** l.924-940: as many channels as the largest number asks for; at least one *)
Definition channel_count (ds : settings) : Z := 1 + fold_left (fun m e => if m <? fst e then fst e else m) ds 0.
Definition write_display (ds : settings) (types : list (Z * pixel_type)) : xml -> res xml :=
  write_display_count ds types (channel_count ds).

(** ParseSplinePoints, CziDisplaySettings.cpp l.18-69: [None] is invalid_argument (caught), [Throw] out_of_range (not caught) *)
Fixpoint skip_spaces (s : str) : res str :=
  match s with
  | [] => Ok []
  | c :: s' => let* b := c_isspace c in if (b : bool) then skip_spaces s' else Ok s
  end.
Fixpoint parse_points (fuel : nat) (s : str) : res (option (list (spec_float * spec_float))) :=
  match s with
  | [] => Ok (Some [])
  | _ =>
    match fuel with
    | O => OutOfFuel
    | S f =>
      let* ox := stod s in
      match ox with
      | None => Ok None
      | Some (x, s1) =>
        let* s2 := skip_spaces s1 in
        match s2 with
        | [] => Ok None
        | c :: s3 =>
          if c =? 44 then
            let* oy := stod s3 in
            match oy with
            | None => Ok None
            | Some (y, s4) =>
              let* s5 := skip_spaces s4 in
              let* r := parse_points f s5 in
              Ok (match r with Some l => Some ((x, y) :: l) | None => None end)
            end
          else Ok None
        end
      end
    end
  end.
Definition zero32 : spec_float := S754_zero false.
Definition one32 : spec_float := S754_finite false 8388608 (-23).
(** CreateFromXml, l.279-390 *)
Definition get_setting (n : xml) : res setting :=
  let node (k : string) := child (txt k) n in
  let value (k : string) (d : spec_float) := match node k with Some c => as_float c | None => d end in
  let tinting := match node "ColorMode"%string with Some c => negb (icase (trim (text c)) (txt "none")) | None => true end in
  let* color := match node "Color"%string with
                | Some c => let* o := parse_color (text c) in Ok (match o with Some rgb => rgb | None => (255, 255, 255) end)
                | None => Ok (255, 255, 255)
                end in
  let gamma := match node "Gamma"%string with Some c => Gamma (as_float c) | None => Linear end in
  let* crv := match node "Mode"%string with
              | Some c =>
                if icase (trim (text c)) (txt "spline") then
                  match node "Points"%string with
                  | Some p => let* o := parse_points (length (text p)) (text p) in
                              Ok (match o with Some (q :: l) => Spline (q :: l) | _ => gamma end)
                  | None => Ok gamma
                  end
                else Ok gamma
              | None => Ok gamma
              end in
  Ok (mkS (match node "IsSelected"%string with Some c => as_truth c | None => true end) (value "Weight"%string one32)
          (if tinting then Some color else None) (value "Low"%string zero32) (value "High"%string one32) crv).
Fixpoint get_settings (ns : list xml) : res (list setting) :=
  match ns with
  | [] => Ok []
  | n :: ns' => let* s := get_setting n in let* r := get_settings ns' in Ok (s :: r)
  end.
(** CCziMetadataDocumentInfo::GetDisplaySettings, CziMetadataDocumentInfo.cpp l.459-469; the channels are numbered in their order *)
Definition get_display (doc : list xml) : res (option (list setting)) :=
  match get_node [txt "Metadata"; txt "DisplaySetting"; txt "Channels"] doc with
  | Some n => let* l := get_settings (filter (matches (txt "Channel") []) (kids_of n)) in Ok (Some l)
  | None => Ok None
  end.

(** * Custom values *)
(** the regular expression of CziMetadataBuilder.cpp l.1110 *)
Definition is_letter (c : Z) : bool := (65 <=? c) && (c <=? 90) || (97 <=? c) && (c <=? 122).
Definition word_start (c : Z) : bool := is_letter c || (c =? 95).
Definition word_char (c : Z) : bool := word_start c || is_digit c.
Definition is_one (a : Z) (c : Z) : bool := (c =? a) || (c =? a - 32).
Definition valid_key (s : str) : bool :=
  match s with
  | [] => false
  | [a] => word_start a
  | [a; b] => word_start a && word_char b
  | a :: b :: c :: r =>
    (word_start a && negb (is_one 120 a) && word_char b && word_char c && forallb word_char r)
    || (word_start a && (word_char b && negb (is_one 109 b)) && word_char c && forallb word_char r)
    || (word_start a && word_char b && (word_char c && negb (is_one 108 c)) && forallb word_char r)
  end.
Inductive custom := CString (s : str) | CBool (b : bool) | CInt (i : Z) | CDouble (x : spec_float) | CFloat (x : spec_float).
Definition custom_text (v : custom) : str :=
  match v with
  | CString s => s | CBool b => if b then txt "true" else txt "false" | CInt i => dec i | CDouble x => dbl_text x | CFloat x => flt_text x
  end.
Definition custom_type (v : custom) : str :=
  match v with
  | CString _ => txt "String" | CBool _ => txt "Boolean" | CInt _ => txt "Int32" | CDouble _ => txt "Double" | CFloat _ => txt "Float"
  end.
Definition custom_path (key : str) : str := txt "Metadata/Information/CustomAttributes/KeyValue/" ++ key.
(** SetOrAddCustomKeyValuePair, l.1107-1170 *)
Definition set_custom (key : str) (v : custom) (t : xml) : res xml :=
  if valid_key key then
    match get_or_create (custom_path key) t with
    | (t', Ok h) => let* t1 := change_at h (set_value (custom_text v)) t' in change_at h (set_attribute (txt "Type") (custom_type v)) t1
    | (_, Throw) => Throw
    | (_, UB) => UB
    | (_, OutOfFuel) => OutOfFuel
    end
  else Throw.
