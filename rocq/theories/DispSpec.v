(** What is expected of display settings and custom values which are written and read back. *)
From Coq Require Import String QArith Qabs Floats.SpecFloat.
From Verif Require Import Base TextModel XmlModel PugiSpec FloatProofs SFloatProofs ScaleNum NumModel NumSpec DocModel DocSpec DispModel.
Open Scope Z_scope.

Notation fin32 := (fin 24 128).
(** a number of single precision: zero, or between 10^-37 and 10^38 *)
Definition ordinary32 (x : spec_float) : Prop :=
  (exists s, x = S754_zero s) \/ fin32 x /\ (ten (-37) <= Qabs (sfQ x) /\ Qabs (sfQ x) <= ten 38)%Q.
(** the same up to six digits *)
Definition close32 (x y : spec_float) : Prop :=
  (exists s, x = S754_zero s /\ y = S754_zero s) \/ fin32 y /\ (Qabs (sfQ y - sfQ x) <= Qabs (sfQ x) * ten (-5))%Q.
Definition byte (z : Z) : Prop := 0 <= z < 256.
Definition proper_curve (c : curve) : Prop :=
  match c with
  | Linear => True
  | Gamma g => ordinary32 g
  | Spline pts => forall x y, In (x, y) pts -> ordinary x /\ ordinary y
  end.
Definition proper_setting (s : setting) : Prop :=
  (forall r g b, s_tint s = Some (r, g, b) -> byte r /\ byte g /\ byte b) /\
  ordinary32 (s_black s) /\ ordinary32 (s_white s) /\ proper_curve (s_curve s).
(** a channel without settings *)
Definition plain_setting : setting := mkS true one32 (Some (255, 255, 255)) zero32 one32 Linear.
Definition kept_curve (c r : curve) : Prop :=
  match c with
  | Linear => r = Linear
  | Gamma g => exists g', r = Gamma g' /\ close32 g g'
  | Spline [] => r = Linear
  | Spline pts => r = Spline pts
  end.
(** what is written and what is read then: the weight is lost *)
Definition kept (o : option setting) (r : setting) : Prop :=
  match o with
  | None => r = plain_setting
  | Some s => s_enabled r = s_enabled s /\ s_weight r = one32 /\ s_tint r = s_tint s /\ close32 (s_black s) (s_black r) /\
              close32 (s_white s) (s_white r) /\ kept_curve (s_curve s) (s_curve r)
  end.
(** settings of the channels 0, 1, ... *)
Definition numbered (l : list setting) : settings := combine (upto (Z.of_nat (length l))) l.

(** two lists of names which lead to different nodes *)
Definition diverge (a b : list str) : Prop := exists p x y a' b', a = p ++ x :: a' /\ b = p ++ y :: b' /\ x <> y.
(** where display settings and channels are found *)
Definition DISPLAY_NAMES : list str := [txt "Metadata"; txt "DisplaySetting"; txt "Channels"].
Definition DIM_NAMES : list str := IMAGE ++ [txt "Dimensions"; txt "Channels"].
Definition channel_nodes (names : list str) (doc : list xml) : list xml :=
  match get_node names doc with Some n => filter (matches (txt "Channel") []) (kids_of n) | None => [] end.
(** an attribute which is there and not empty *)
Definition filled_attribute (k : str) (o : option xml) : option str :=
  match o with Some n => match try_get_attribute k n with Some (c :: v) => Some (c :: v) | _ => None end | None => None end.

(** keys of custom values: letters, digits, underscore, not a digit first, not beginning with "xml" *)
Definition letter_or_bar (c : Z) : Prop := 65 <= c <= 90 \/ 97 <= c <= 122 \/ c = 95.
Definition custom_key (s : str) : Prop :=
  (exists a r, s = a :: r /\ letter_or_bar a /\ forall c, In c r -> letter_or_bar c \/ 48 <= c <= 57) /\
  ~ (exists a b c r, s = a :: b :: c :: r /\ (a = 120 \/ a = 88) /\ (b = 109 \/ b = 77) /\ (c = 108 \/ c = 76)).
Definition CUSTOM_NAMES (key : str) : list str := [txt "Metadata"; txt "Information"; txt "CustomAttributes"; txt "KeyValue"; key].
(** how the node of a custom value is read *)
Definition type_name (v : custom) : str :=
  match v with CString _ => txt "String" | CBool _ => txt "Boolean" | CInt _ => txt "Int32" | CDouble _ => txt "Double" | CFloat _ => txt "Float" end.
Definition custom_read (v : custom) (n : xml) : Prop :=
  match v with
  | CString s => text n = stored s
  | CBool b => as_truth n = b
  | CInt i => to_int (text n) = i
  | CDouble x => close x (fst (strtod (text n)))
  | CFloat x => close32 x (as_float n)
  end.
Definition proper_custom (v : custom) : Prop :=
  match v with CString s => chars s | CBool _ => True | CInt i => in_i32 i | CDouble x => ordinary x | CFloat x => ordinary32 x end.
