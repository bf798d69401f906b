(** What JSON texts mean (RFC 8259), and what the JSON texts handed out by the C API have to say. *)
From Coq Require Import String Floats.SpecFloat.
From Verif Require Import Base CodecModel TextModel PugiModel DateModel StatModel NumModel DocModel GuidSpec JsonModel.
Open Scope Z_scope.

Definition white (w : str) : Prop := Forall (fun c => c = 32 \/ c = 9 \/ c = 10 \/ c = 13) w.
Definition figures (t : str) : Prop := Forall (fun c => 48 <= c <= 57) t.
(** numbers: no zeros in front; a fraction and an exponent have digits *)
Definition whole_text (t : str) : Prop := t = [48] \/ exists c r, t = c :: r /\ 49 <= c <= 57 /\ figures r.
Definition fraction_text (t : str) : Prop := t = [] \/ exists d, t = 46 :: d /\ d <> [] /\ figures d.
Definition exponent_text (t : str) : Prop :=
  t = [] \/ exists e sg d, t = e :: sg ++ d /\ (e = 101 \/ e = 69) /\ (sg = [] \/ sg = [43] \/ sg = [45]) /\ d <> [] /\ figures d.
(** strings: pieces of the text and what they stand for *)
Inductive hexfig : Z -> Z -> Prop :=
| HexDigit x : 0 <= x <= 9 -> hexfig (48 + x) x
| HexUpper x : 10 <= x <= 15 -> hexfig (55 + x) x
| HexLower x : 10 <= x <= 15 -> hexfig (87 + x) x.
Inductive unit_text : str -> Z -> Prop :=
| UnitText a b c d x y z w : hexfig a x -> hexfig b y -> hexfig c z -> hexfig d w -> unit_text [92; 117; a; b; c; d] (4096 * x + 256 * y + 16 * z + w).
Definition escapes : list (Z * Z) := [(34, 34); (92, 92); (47, 47); (98, 8); (102, 12); (110, 10); (114, 13); (116, 9)].
Inductive piece : str -> str -> Prop :=
| PPlain c : 32 <= c -> c <> 34 -> c <> 92 -> piece [c] [c]
| PEscape e x : In (e, x) escapes -> piece [92; e] [x]
| PUnit t u : unit_text t u -> u < 55296 \/ 57344 <= u -> piece t (utf8_char u)
| PPair t h t' l : unit_text t h -> unit_text t' l -> 55296 <= h < 56320 -> 56320 <= l < 57344 ->
    piece (t ++ t') (utf8_char (65536 + 1024 * (h - 55296) + (l - 56320))).
Inductive string_text : str -> str -> Prop :=
| STEnd : string_text [] []
| STPiece p s t u : piece p s -> string_text t u -> string_text (p ++ t) (s ++ u).
Definition signed (neg : bool) (z : Z) : Z := if neg then - z else z.
Definition sign_text (neg : bool) : str := if neg then [45] else [].
(** values *)
Inductive json_value : jv -> str -> Prop :=
| JVNull : json_value VNull (txt "null")
| JVTrue : json_value (VBool true) (txt "true")
| JVFalse : json_value (VBool false) (txt "false")
| JVInt neg t : whole_text t -> json_value (VInt (signed neg (dval t))) (sign_text neg ++ t)
| JVNum neg t f e : whole_text t -> fraction_text f -> exponent_text e -> f ++ e <> [] ->
    json_value (VNum (sign_text neg ++ t ++ f ++ e)) (sign_text neg ++ t ++ f ++ e)
| JVStr t s : string_text t s -> json_value (VStr s) (34 :: t ++ [34])
| JVArr0 w : white w -> json_value (VArr []) (91 :: w ++ [93])
| JVArr l t : json_elements l t -> json_value (VArr l) (91 :: t ++ [93])
| JVObj0 w : white w -> json_value (VObj []) (123 :: w ++ [125])
| JVObj l t : json_members l t -> json_value (VObj l) (123 :: t ++ [125])
with json_elements : list jv -> str -> Prop :=
| JELast w v t w' : white w -> json_value v t -> white w' -> json_elements [v] (w ++ t ++ w')
| JEMore w v t w' l u : white w -> json_value v t -> white w' -> json_elements l u -> json_elements (v :: l) (w ++ t ++ w' ++ 44 :: u)
with json_members : list (str * jv) -> str -> Prop :=
| JMLast w k s w1 w2 v t w3 : white w -> string_text k s -> white w1 -> white w2 -> json_value v t -> white w3 ->
    json_members [(s, v)] (w ++ 34 :: k ++ 34 :: w1 ++ 58 :: w2 ++ t ++ w3)
| JMMore w k s w1 w2 v t w3 l u : white w -> string_text k s -> white w1 -> white w2 -> json_value v t -> white w3 -> json_members l u ->
    json_members ((s, v) :: l) (w ++ 34 :: k ++ 34 :: w1 ++ 58 :: w2 ++ t ++ w3 ++ 44 :: u).
Definition json_text (s : str) (v : jv) : Prop := exists w t w', s = w ++ t ++ w' /\ white w /\ json_value v t /\ white w'.

(** the text of a number with fraction or exponent *)
Definition number_text (t : str) : Prop :=
  exists neg i f e, t = sign_text neg ++ i ++ f ++ e /\ whole_text i /\ fraction_text f /\ exponent_text e /\ f ++ e <> [].
(** texts are bytes without NUL; integers are not larger than those of C++; the texts made of finite numbers are such ones *)
Definition bytes_text (s : str) : Prop := Forall (fun c => 0 < c < 256) s.
Inductive plain (dtoa : spec_float -> str) : jd -> Prop :=
| PlInt z : Z.abs z < 10 ^ 19 -> plain dtoa (DInt z)
| PlDbl x : (finite x = true -> number_text (dtoa x)) -> plain dtoa (DDbl x)
| PlStr s : bytes_text s -> plain dtoa (DStr s)
| PlArr l : Forall (plain dtoa) l -> plain dtoa (DArr l)
| PlObj l : Forall (fun e : str * jd => bytes_text (fst e) /\ plain dtoa (snd e)) l -> plain dtoa (DObj l).
(** a number somewhere which is not finite *)
Inductive has_hole : jd -> Prop :=
| HInf s : has_hole (DDbl (S754_infinity s))
| HNan : has_hole (DDbl S754_nan)
| HArr l d : In d l -> has_hole d -> has_hole (DArr l)
| HObj l k d : In (k, d) l -> has_hole d -> has_hole (DObj l).
(** the value meant *)
Fixpoint meant (dtoa : spec_float -> str) (d : jd) : jv :=
  match d with
  | DInt z => VInt z
  | DDbl x => VNum (dtoa x)
  | DStr s => VStr s
  | DArr l => VArr (map (meant dtoa) l)
  | DObj l => VObj (map (fun e => (fst e, meant dtoa (snd e))) l)
  end.

(** an object with exactly these members, each of them once *)
Definition object_saying (v : jv) (says : str -> jv -> Prop) : Prop :=
  exists l, v = VObj l /\ NoDup (map fst l) /\ (forall k x, In (k, x) l -> says k x) /\ (forall k x, says k x -> In k (map fst l)).

(** a number: its text is read as this number by strtod *)
Definition number_as (x : spec_float) (v : jv) : Prop := exists s, v = VNum s /\ number_text s /\ strtod s = (x, List.length s).
(** what is asked of the text made of a finite number *)
Definition writes (dtoa : spec_float -> str) (x : spec_float) : Prop := finite x = true -> number_as x (VNum (dtoa x)).

(** ** Information about a document *)
Definition general_texts (g : ginfo) : list (string * option str) :=
  [("name", g_name g); ("title", g_title g); ("user_name", g_user g); ("description", g_description g); ("comment", g_comment g);
   ("keywords", g_keywords g); ("creation_date_time", g_date g)]%string.
Definition general_says (g : ginfo) (k : str) (x : jv) : Prop :=
  (exists name s, In (name, Some s) (general_texts g) /\ k = txt name /\ x = VStr (utf8_encode s)) \/
  (exists r, g_rating g = Some r /\ k = txt "rating" /\ x = VInt r).

(** ** Z and T *)
Definition positions_say (list_key : string) (p : positions) (k : str) (x : jv) : Prop :=
  match p with
  | PosNone => False
  | PosInterval a i => k = txt "interval_definition" /\ exists va vi, x = VArr [va; vi] /\ number_as a va /\ number_as i vi
  | PosList l => k = txt list_key /\ exists vs, x = VArr vs /\ Forall2 number_as l vs
  end.
Definition handedness : list (Z * string) := [(0, "left_handed"); (1, "right_handed"); (2, "undefined")]%string.
Definition direction : list (Z * string) := [(0, "from_specimen_to_objective"); (1, "from_objective_to_specimen"); (2, "undefined")]%string.
Definition drive_mode : list (Z * string) := [(0, "continuous"); (1, "step")]%string.
Definition word_says (o : option Z) (table : list (Z * string)) (x : jv) : Prop := exists v w, o = Some v /\ In (v, w) table /\ x = VStr (txt w).
Definition number_says (o : option spec_float) (x : jv) : Prop := exists v, o = Some v /\ number_as v x.
Definition z_says (z : zinfo) (k : str) (x : jv) : Prop :=
  (k = txt "reference_position" /\ number_says (z_start z) x) \/ positions_say "position_list" (z_pos z) k x \/
  (k = txt "xyz_handedness" /\ word_says (z_hand z) handedness x) \/ (k = txt "z_axis_direction" /\ word_says (z_axis z) direction x) \/
  (k = txt "z_drive_mode" /\ word_says (z_mode z) drive_mode x) \/ (k = txt "z_drive_speed" /\ number_says (z_speed z) x).
Definition t_says (t : tinfo) (k : str) (x : jv) : Prop :=
  (k = txt "start_time" /\ exists d s, t_start t = Some d /\ to_xml d = Ok s /\ x = VStr s) \/ positions_say "offset_list" (t_pos t) k x.
(** the numbers *)
Definition opt_list {A} (o : option A) : list A := match o with Some a => [a] | None => [] end.
Definition position_numbers (p : positions) : list spec_float := match p with PosNone => [] | PosInterval a i => [a; i] | PosList l => l end.
Definition z_numbers (z : zinfo) : list spec_float := opt_list (z_start z) ++ position_numbers (z_pos z) ++ opt_list (z_speed z).

(** ** Pyramid statistics *)
Definition layer_said (s : pls) : jv :=
  let '((f, l), n) := s in VObj [(txt "layerInfo", VObj [(txt "minificationFactor", VInt f); (txt "pyramidLayerNo", VInt l)]); (txt "count", VInt n)].
Definition pyramid_says (p : pyr) (v : jv) : Prop :=
  exists scenes, v = VObj [(txt "scenePyramidStatistics", scenes)] /\
    object_saying scenes (fun k x => exists s ls, In (s, ls) p /\ k = dec s /\ x = VArr (map layer_said ls)).

(** ** Texts given to the C API: the first member of the name has this value *)
Definition json_has (s : str) (k : string) (v : jv) : Prop :=
  exists m pre post, json_text s (VObj m) /\ m = pre ++ (txt k, v) :: post /\ ~ In (txt k) (map fst pre).
(** a GUID which can be used; a number in range *)
Definition json_guid (s : str) (g : bytes) : Prop := exists x t, json_has s "file_guid" (VStr x) /\ until_nul x t /\ guid_text t g /\ g <> repeat 0 16.
Definition json_number (s : str) (k : string) (lo hi n : Z) : Prop := json_has s k (VInt n) /\ lo <= n < hi.
