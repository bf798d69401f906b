(** What the JSON text about the channels of a document has to say. *)
From Coq Require Import String QArith Qabs Floats.SpecFloat.
From Verif Require Import Base CodecModel TextModel TextSpec PugiModel PugiSpec XmlModel FloatProofs SFloatProofs ScaleNum NumModel NumSpec DocModel DocSpec RangeModel JsonModel JsonSpec.
Open Scope Z_scope.

(** a member of the object of a channel: which part of the XML node it speaks of, and how *)
Inductive part :=
| PAttribute (name : string)                        (* the text of an attribute *)
| PText (name : string)                             (* the text of an element *)
| PWord (name : string) (words : list (string * string)) (* a word of the element, and the word for it *)
| PNumber (name : string)                           (* a floating point number *)
| PInteger (name : string)                          (* an integer *)
| PColour (name : string)                           (* a colour *)
| PExposure                                         (* the exposure time *)
| PSpectrum (name : string).                        (* a wavelength *)
Definition same (l : list string) : list (string * string) := map (fun w => (w, w)) l.
Definition members_of_channel : list (string * part) :=
  [("attribute_id", PAttribute "Id"); ("attribute_name", PAttribute "Name");
   ("channel_type", PWord "ChannelType" (same ["Heightmap"; "PalHR"; "PalWidefield"; "SimHR"; "SimWidefield"; "SimDWF"; "AiryScanSum"; "AiryScanRawSr";
      "AiryScanRaw"; "AiryScanSr"; "AiryScanVp"; "AiryScanMb"; "AiryScanRingSheppardSum"; "OnlineUnmixing"; "Unspecified"]));
   ("channel_unit", PText "ChannelUnit");
   ("pixel_type", PWord "PixelType" (same ["Gray8"; "Gray16"; "Gray32Float"; "Bgr24"; "Bgr48"; "Bgr96Float"; "Bgra32"; "Gray64ComplexFloat";
      "Bgr192ComplexFloat"; "Gray32"; "Gray64Float"]));
   ("component_bit_count", PInteger "ComponentBitCount");
   ("acquisition_mode", PWord "AcquisitionMode" (("FIB-SEM", "FIB_SEM") :: same ["WideField"; "LaserScanningConfocalMicroscopy"; "SpinningDiskConfocal";
      "SlitScanConfocal"; "MultiPhotonMicroscopy"; "StructuredIllumination"; "SingleMoleculeImaging"; "TotalInternalReflection"; "FluorescenceLifetime";
      "SpectralImaging"; "FluorescenceCorrelationSpectroscopy"; "NearFieldScanningOpticalMicroscopy"; "SecondHarmonicGenerationImaging"; "PALM"; "STORM";
      "STED"; "TIRF"; "FSM"; "LCM"; "SPIM"; "SEM"; "FIB"; "ApertureCorrelation"; "Other"]));
   ("illumination_type", PWord "IlluminationType" (same ["Transmitted"; "Epifluorescence"; "Oblique"; "NonLinear"; "Other"]));
   ("contrast_method", PWord "ContrastMethod" (same ["Brightfield"; "Phase"; "DIC"; "HoffmanModulation"; "ObliqueIllumination"; "PolarizedLight";
      "Darkfield"; "Fluorescence"; "MultiPhotonFluorescence"; "Other"]));
   ("illumination_wavelength", PSpectrum "IlluminationWavelength"); ("detection_wavelength", PSpectrum "DetectionWavelength");
   ("excitation_wavelength", PNumber "ExcitationWavelength"); ("emission_wavelength", PNumber "EmissionWavelength");
   ("effective_na", PNumber "EffectiveNA"); ("dye_id", PText "DyeId"); ("dye_database_id", PText "DyeDatabaseId");
   ("pinhole_size", PNumber "PinholeSize"); ("pinhole_size_airy", PNumber "PinholeSizeAiry");
   ("pinhole_geometry", PWord "PinholeGeometry" (same ["Circular"; "Rectangular"; "Other"])); ("fluor", PText "Fluor"); ("nd_filter", PNumber "NDFilter");
   ("pocket_cell_setting", PInteger "PockelCellSetting"); ("color", PColour "Color"); ("exposure_time", PExposure);
   ("depth_of_focus", PNumber "DepthOfFocus"); ("section_thickness", PNumber "SectionThickness"); ("reflector", PText "Reflector");
   ("condensor_contrast", PText "CondenserContrast"); ("na_condensor", PNumber "NACondenser")]%string.

(** colours: the text, perhaps with blanks around it, is "#AARRGGBB" (TextSpec); told as "#rrggbb" *)
Definition blank_text (w : str) : Prop := Forall (fun c => is_blank c = true) w.
Definition colour_text (s : str) (rgb : Z * Z * Z) : Prop :=
  exists w t w', s = w ++ t ++ w' /\ blank_text w /\ blank_text w' /\ no_outer_blank t /\ color_of t = Some rgb.
Definition lower_hex (x : Z) : Z := nth (Z.to_nat x) (txt "0123456789abcdef") 0.
Definition colour_told (rgb : Z * Z * Z) : str :=
  let '(r, g, b) := rgb in txt "#" ++ flat_map (fun x => [lower_hex (x / 16); lower_hex (x mod 16)]) [r; g; b].
(** ranges of natural numbers *)
Definition natural_range (r : range Z) : str := if r_single r then dec (r_start r) else dec (r_start r) ++ txt "-" ++ dec (r_end r).
(** a number with six digits: read as a number which differs by less than one part in 10^5 *)
Definition six_digits (x : spec_float) (s : str) : Prop := exists y, strtod s = (y, List.length s) /\
  ((exists neg, x = S754_zero neg /\ y = x) \/ (fin64 y /\ (Qabs (sfQ y - sfQ x) <= Qabs (sfQ x) * ten (-5))%Q)).
Definition band_text (r : range spec_float) (s : str) : Prop :=
  if r_single r then six_digits (r_start r) s else exists a b, s = a ++ txt "-" ++ b /\ six_digits (r_start r) a /\ six_digits (r_end r) b.
Fixpoint with_commas (l : list str) : str := match l with [] => [] | [s] => s | s :: l' => s ++ txt "," ++ with_commas l' end.
Definition spectrum_says (s : spectrum) (k : str) (x : jv) : Prop :=
  match s with
  | Peak p => (k = txt "type" /\ x = VStr (txt "SinglePeak")) \/ (k = txt "single_peak" /\ number_as p x)
  | Bands l => (k = txt "type" /\ x = VStr (txt "Ranges")) \/ (k = txt "ranges" /\ exists ps, Forall2 band_text l ps /\ x = VStr (with_commas ps))
  end.
Definition element (name : string) (n c : xml) : Prop := descend [txt name] n = Some c.
Inductive part_says (n : xml) : part -> jv -> Prop :=
| says_attribute name s : try_get_attribute (txt name) n = Some s -> part_says n (PAttribute name) (VStr (utf8_encode s))
| says_text name c : element name n c -> part_says n (PText name) (VStr (utf8_encode (text c)))
| says_word name words c w w' : element name n c -> text c = txt w -> In (w, w') words -> part_says n (PWord name words) (VStr (txt w'))
| says_number name c x : element name n c -> number_as (as_dbl c) x -> part_says n (PNumber name) x
| says_integer name c : element name n c -> part_says n (PInteger name) (VInt (as_int c))
| says_colour name c rgb : element name n c -> colour_text (text c) rgb -> part_says n (PColour name) (VStr (colour_told rgb))
| says_exposure r : exposure_time n = Some r -> part_says n PExposure (VStr (natural_range r))
| says_spectrum name s x : wavelength name n = Some s -> object_saying x (spectrum_says s) -> part_says n (PSpectrum name) x.
Definition table_says (table : list (string * part)) (n : xml) (k : str) (x : jv) : Prop :=
  exists name p, In (name, p) table /\ k = txt name /\ part_says n p x.
Definition channel_says : xml -> str -> jv -> Prop := table_says members_of_channel.
(** what is told: of the contrast of the condenser, the reflector *)
Definition members_told : list (string * part) :=
  map (fun e => if String.eqb (fst e) "condensor_contrast" then (fst e, PText "Reflector") else e) members_of_channel.
(** the texts of a channel, the numbers, the bounds of bands *)
Definition told_text (p : part) (n : xml) (s : str) : Prop :=
  match p with
  | PAttribute name => try_get_attribute (txt name) n = Some s
  | PText name => exists c, element name n c /\ s = text c
  | _ => False
  end.
Definition told_number (p : part) (n : xml) (x : spec_float) : Prop :=
  match p with
  | PNumber name => exists c, element name n c /\ x = as_dbl c
  | PSpectrum name => wavelength name n = Some (Peak x)
  | _ => False
  end.
Definition told_bound (p : part) (n : xml) (x : spec_float) : Prop :=
  match p with
  | PSpectrum name => exists l r, wavelength name n = Some (Bands l) /\ In r l /\ (x = r_start r \/ (r_single r = false /\ x = r_end r))
  | _ => False
  end.
(** the texts are characters, the colour is of single bytes, finite numbers get a proper text, bounds are not too large or too small
    (except where a band has no bound) *)
Record channel_fine (dtoa : spec_float -> str) (n : xml) : Prop := {
  fine_texts : forall name p s, In (name, p) members_of_channel -> told_text p n s -> chars s;
  fine_colour : forall c, element "Color" n c -> narrow (text c);
  fine_numbers : forall name p x, In (name, p) members_of_channel -> told_number p n x -> writes dtoa x;
  fine_bounds : forall name p x, In (name, p) members_of_channel -> told_bound p n x -> ordinary x \/ x = DBL_MIN \/ x = DBL_MAX }.
Definition channel_finite (n : xml) : Prop := forall name p x, In (name, p) members_of_channel -> told_number p n x -> finite x = true.
(** the object about all channels: the index and what is said *)
Definition channels_say (says : xml -> str -> jv -> Prop) (ns : list xml) (k : str) (x : jv) : Prop :=
  exists i n, nth_error ns i = Some n /\ k = dec (Z.of_nat i) /\ object_saying x (says n).
