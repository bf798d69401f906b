(** Information about the channels of a document, and the JSON text made of it (CziMetadataDocumentInfo2.cpp l.119-135, l.448-640, l.945-963,
    l.1524-1645; Src/libCZIAPI/src/parameterhelpers.cpp l.88-95, l.871-1455; libCZIApi.cpp l.1362-1375).
    Not modelled: the settings of detectors, light sources and so on (l.645-700), which are read but not part of the text.
    Enumerators are represented by their position. *)
From Coq Require Import String Floats.SpecFloat.
From Verif Require Import Base CodecModel CodesModel TextModel PugiModel XmlModel NumModel DocModel RangeModel GuidModel JsonModel.
Open Scope Z_scope.

(** ** Words for enumerators, CziMetadataDocumentInfo2.cpp l.1524-1625 *)
Definition channel_types : list (string * Z) :=
  [("Heightmap", 0); ("PalHR", 1); ("PalWidefield", 2); ("SimHR", 3); ("SimWidefield", 4); ("SimDWF", 5); ("AiryScanSum", 6); ("AiryScanRawSr", 7);
   ("AiryScanRaw", 8); ("AiryScanSr", 9); ("AiryScanVp", 10); ("AiryScanMb", 11); ("AiryScanRingSheppardSum", 12); ("OnlineUnmixing", 13); ("Unspecified", 14)]%string.
Definition acquisition_modes : list (string * Z) :=
  [("WideField", 0); ("LaserScanningConfocalMicroscopy", 1); ("SpinningDiskConfocal", 2); ("SlitScanConfocal", 3); ("MultiPhotonMicroscopy", 4);
   ("StructuredIllumination", 5); ("SingleMoleculeImaging", 6); ("TotalInternalReflection", 7); ("FluorescenceLifetime", 8); ("SpectralImaging", 9);
   ("FluorescenceCorrelationSpectroscopy", 10); ("NearFieldScanningOpticalMicroscopy", 11); ("SecondHarmonicGenerationImaging", 12); ("PALM", 13);
   ("STORM", 14); ("STED", 15); ("TIRF", 16); ("FSM", 17); ("LCM", 18); ("SPIM", 19); ("SEM", 20); ("FIB", 21); ("FIB-SEM", 22);
   ("ApertureCorrelation", 23); ("Other", 24)]%string.
Definition illumination_types : list (string * Z) :=
  [("Transmitted", 0); ("Epifluorescence", 1); ("Oblique", 2); ("NonLinear", 3); ("Other", 4)]%string.
Definition contrast_methods : list (string * Z) :=
  [("Brightfield", 0); ("Phase", 1); ("DIC", 2); ("HoffmanModulation", 3); ("ObliqueIllumination", 4); ("PolarizedLight", 5); ("Darkfield", 6);
   ("Fluorescence", 7); ("MultiPhotonFluorescence", 8); ("Other", 9)]%string.
Definition pinhole_geometries : list (string * Z) := [("Circular", 0); ("Rectangular", 1); ("Other", 2)]%string.

(** ** CDimensionChannelInfo *)
Record chan := mkChan {
  k_id : option str; k_name : option str; k_type : option Z; k_unit : option str; k_pixel : option pixel_type; k_bits : option Z;
  k_mode : option Z; k_illumination : option Z; k_contrast : option Z; k_light : option spectrum; k_detect : option spectrum;
  k_excitation : option spec_float; k_emission : option spec_float; k_na : option spec_float; k_dye : option str; k_dye_db : option str;
  k_pinhole : option spec_float; k_airy : option spec_float; k_geometry : option Z; k_fluor : option str; k_nd : option spec_float;
  k_pockel : option Z; k_color : option (Z * Z * Z); k_exposure : option (range Z); k_depth : option spec_float; k_section : option spec_float;
  k_reflector : option str; k_condenser : option str; k_na_condenser : option spec_float }.
(** ParseInformation, l.448-703, with the attributes (l.119-135); SetIfPresentAndValid, l.14-36 *)
Definition read_channel (n : xml) : res chan :=
  let node (name : string) := descend [txt name] n in
  let words (name : string) ws := match node name with Some c => word_of (text c) ws | None => None end in
  let wide (name : string) := option_map text (node name) in
  let double (name : string) := option_map as_dbl (node name) in
  let int (name : string) := option_map as_int (node name) in
  let* color := match node "Color"%string with Some c => parse_color (text c) | None => Ok None end in
  Ok (mkChan (try_get_attribute (txt "Id") n) (try_get_attribute (txt "Name") n)
        (words "ChannelType"%string channel_types) (wide "ChannelUnit"%string)
        (match node "PixelType"%string with Some c => word_pixel (text c) | None => None end) (int "ComponentBitCount"%string)
        (words "AcquisitionMode"%string acquisition_modes) (words "IlluminationType"%string illumination_types)
        (words "ContrastMethod"%string contrast_methods)
        (wavelength "IlluminationWavelength" n) (wavelength "DetectionWavelength" n)
        (double "ExcitationWavelength"%string) (double "EmissionWavelength"%string) (double "EffectiveNA"%string)
        (wide "DyeId"%string) (wide "DyeDatabaseId"%string) (double "PinholeSize"%string) (double "PinholeSizeAiry"%string)
        (words "PinholeGeometry"%string pinhole_geometries) (wide "Fluor"%string) (double "NDFilter"%string) (int "PockelCellSetting"%string)
        color (exposure_time n) (double "DepthOfFocus"%string) (double "SectionThickness"%string)
        (wide "Reflector"%string) (wide "CondenserContrast"%string) (double "NACondenser"%string)).
(** CDimensionsChannelsInfo::TryParse and ParseInformation, l.945-963 *)
Fixpoint read_channels (l : list xml) : res (list chan) :=
  match l with [] => Ok [] | n :: l' => let* c := read_channel n in let* cs := read_channels l' in Ok (c :: cs) end.
Definition channel_nodes (doc : list xml) : option (list xml) :=
  match get_node (IMAGE ++ [txt "Dimensions"; txt "Channels"]) doc with
  | Some n => Some (filter (matches (txt "Channel") []) (kids_of n))
  | None => None
  end.

(** ** JSON, parameterhelpers.cpp *)
(** a switch with a word for every enumerator *)
Definition type_names : list string :=
  ["Heightmap"; "PalHR"; "PalWidefield"; "SimHR"; "SimWidefield"; "SimDWF"; "AiryScanSum"; "AiryScanRawSr"; "AiryScanRaw"; "AiryScanSr"; "AiryScanVp";
   "AiryScanMb"; "AiryScanRingSheppardSum"; "OnlineUnmixing"; "Unspecified"]%string.
Definition mode_names : list string :=
  ["WideField"; "LaserScanningConfocalMicroscopy"; "SpinningDiskConfocal"; "SlitScanConfocal"; "MultiPhotonMicroscopy"; "StructuredIllumination";
   "SingleMoleculeImaging"; "TotalInternalReflection"; "FluorescenceLifetime"; "SpectralImaging"; "FluorescenceCorrelationSpectroscopy";
   "NearFieldScanningOpticalMicroscopy"; "SecondHarmonicGenerationImaging"; "PALM"; "STORM"; "STED"; "TIRF"; "FSM"; "LCM"; "SPIM"; "SEM"; "FIB";
   "FIB_SEM"; "ApertureCorrelation"; "Other"]%string.
Definition illumination_names : list string := ["Transmitted"; "Epifluorescence"; "Oblique"; "NonLinear"; "Other"]%string.
Definition contrast_names : list string :=
  ["Brightfield"; "Phase"; "DIC"; "HoffmanModulation"; "ObliqueIllumination"; "PolarizedLight"; "Darkfield"; "Fluorescence"; "MultiPhotonFluorescence"; "Other"]%string.
Definition geometry_names : list string := ["Circular"; "Rectangular"; "Other"]%string.
Definition pixel_name (p : pixel_type) : option jd :=
  let w (x : string) := Some (DStr (txt x)) in
  match p with
  | Gray8 => w "Gray8"%string | Gray16 => w "Gray16"%string | Gray32Float => w "Gray32Float"%string | Bgr24 => w "Bgr24"%string
  | Bgr48 => w "Bgr48"%string | Bgr96Float => w "Bgr96Float"%string | Bgra32 => w "Bgra32"%string
  | Gray64ComplexFloat => w "Gray64ComplexFloat"%string | Bgr192ComplexFloat => w "Bgr192ComplexFloat"%string | Gray32 => w "Gray32"%string
  | Gray64Float => w "Gray64Float"%string | PixInvalid => None
  end.
(** ConvertColorToHexString, l.88-95 *)
Definition hex_lower (x : Z) : Z := if x <? 10 then 48 + x else 87 + x.
Definition hex2 (x : Z) : str := [hex_lower (x / 16); hex_lower (x mod 16)].
Definition hash_text (c : Z * Z * Z) : str := let '(r, g, b) := c in 35 :: hex2 r ++ hex2 g ++ hex2 b.
(** a range or a single value in an output stream (l.1354-1365, l.1436-1447); [show] is operator<< *)
Definition range_string {A} (show : A -> str) (r : range A) : str := if r_single r then show (r_start r) else show (r_start r) ++ [45] ++ show (r_end r).
(** operator<< of a double: six digits *)
Definition stream_dbl : spec_float -> str := print_g 6.
Fixpoint ranges_string (first : bool) (l : list (range spec_float)) : str :=
  match l with [] => [] | r :: l' => (if first then [] else [44]) ++ range_string stream_dbl r ++ ranges_string false l' end.
(** FormatSpectrumCharacteristicsAsJson, l.1420-1455 *)
Definition spectrum_json (s : spectrum) : jd :=
  match s with
  | Peak x => DObj [(txt "type", DStr (txt "SinglePeak")); (txt "single_peak", DDbl x)]
  | Bands l => DObj [(txt "type", DStr (txt "Ranges")); (txt "ranges", DStr (ranges_string true l))]
  end.
(** FormatIDimensionChannelInfoAsJson, l.898-1418; "condensor_contrast" is filled with what TryGetReflector gives (l.1396-1403) *)
Definition channel_json (c : chan) : jd :=
  DObj (given "attribute_id" (option_map text_value (k_id c)) ++ given "attribute_name" (option_map text_value (k_name c)) ++
        given "channel_type" (option_map (word_json type_names) (k_type c)) ++ given "channel_unit" (option_map text_value (k_unit c)) ++
        given "pixel_type" (match k_pixel c with Some p => pixel_name p | None => None end) ++ given "component_bit_count" (option_map DInt (k_bits c)) ++
        given "acquisition_mode" (option_map (word_json mode_names) (k_mode c)) ++
        given "illumination_type" (option_map (word_json illumination_names) (k_illumination c)) ++
        given "contrast_method" (option_map (word_json contrast_names) (k_contrast c)) ++
        given "illumination_wavelength" (option_map spectrum_json (k_light c)) ++ given "detection_wavelength" (option_map spectrum_json (k_detect c)) ++
        given "excitation_wavelength" (option_map DDbl (k_excitation c)) ++ given "emission_wavelength" (option_map DDbl (k_emission c)) ++
        given "effective_na" (option_map DDbl (k_na c)) ++ given "dye_id" (option_map text_value (k_dye c)) ++
        given "dye_database_id" (option_map text_value (k_dye_db c)) ++ given "pinhole_size" (option_map DDbl (k_pinhole c)) ++
        given "pinhole_size_airy" (option_map DDbl (k_airy c)) ++ given "pinhole_geometry" (option_map (word_json geometry_names) (k_geometry c)) ++
        given "fluor" (option_map text_value (k_fluor c)) ++ given "nd_filter" (option_map DDbl (k_nd c)) ++
        given "pocket_cell_setting" (option_map DInt (k_pockel c)) ++ given "color" (option_map (fun x => DStr (hash_text x)) (k_color c)) ++
        given "exposure_time" (option_map (fun r => DStr (range_string dec r)) (k_exposure c)) ++
        given "depth_of_focus" (option_map DDbl (k_depth c)) ++ given "section_thickness" (option_map DDbl (k_section c)) ++
        given "reflector" (option_map text_value (k_reflector c)) ++ given "condensor_contrast" (option_map text_value (k_reflector c)) ++
        given "na_condensor" (option_map DDbl (k_na_condenser c))).
(** FormatCDimensionInfoAsJson, l.876-896 *)
Fixpoint channels_from (i : Z) (l : list chan) : list (str * jd) :=
  match l with [] => [] | c :: l' => (dec i, channel_json c) :: channels_from (i + 1) l' end.
Definition channels_json (l : list chan) : jd := DObj (channels_from 0 l).
(** libCZI_CziDocumentInfoGetDimensionInfo, libCZIApi.cpp l.1362-1375, for the dimension C (2) *)
Definition api_channels (dtoa : spec_float -> str) (doc : list xml) : res answer :=
  match channel_nodes doc with
  | Some ns => let* cs := read_channels ns in Ok (COk, Some (json_string dtoa (channels_json cs)))
  | None => Ok (CInvalidArgument, None)
  end.
