(** What is expected of information about a document which is written and read back. *)
From Coq Require Import String QArith Qabs Floats.SpecFloat.
From Verif Require Import Base TextModel CodesModel XmlModel XmlSpec PugiSpec PugiTree FloatProofs ScaleNum NumModel NumSpec DocModel.
Open Scope Z_scope.

(** a text as it is found after saving and loading *)
Definition stored (s : str) : str := if blank s then [] else line_ends s.
(** what has been written, otherwise what was there *)
Definition newer {A} (f : A -> A) (o o0 : option A) : option A := match o with Some a => Some (f a) | None => o0 end.
Definition over (g g0 : ginfo) : ginfo :=
  mkG (newer stored (g_name g) (g_name g0)) (newer stored (g_title g) (g_title g0)) (newer stored (g_user g) (g_user g0))
      (newer stored (g_description g) (g_description g0)) (newer stored (g_comment g) (g_comment g0))
      (newer stored (g_keywords g) (g_keywords g0)) (newer stored (g_date g) (g_date g0)) (newer (fun r => r) (g_rating g) (g_rating g0)).
Definition texts (g : ginfo) : list (option str) :=
  [g_name g; g_title g; g_user g; g_description g; g_comment g; g_keywords g; g_date g].
(** characters; an int *)
Definition proper_info (g : ginfo) : Prop :=
  (forall s, In (Some s) (texts g) -> chars s) /\ (forall r, g_rating g = Some r -> in_i32 r).
(** texts which survive *)
Definition plain_info (g : ginfo) : Prop := forall s, In (Some s) (texts g) -> (s = [] \/ blank s = false) /\ ~ In 13 s.

(** a document in a builder *)
Definition buildable (doc : list xml) : Prop := doc <> [] /\ Forall is_element doc /\ Forall named doc /\ Forall tidy doc.

(** the integer next to a number *)
Definition clamp (z : Z) : Z := Z.max INT_MIN (Z.min INT_MAX z).
(** digits of a base and the number they stand for *)
Definition figure (c : Z) : option Z :=
  if (48 <=? c) && (c <=? 57) then Some (c - 48) else if (97 <=? c) && (c <=? 102) then Some (c - 87)
  else if (65 <=? c) && (c <=? 70) then Some (c - 55) else None.
Definition figure_of (base : Z) (c v : Z) : Prop := figure c = Some v /\ v < base.
Fixpoint positional (base : Z) (vs : list Z) : Z :=
  match vs with [] => 0 | v :: vs' => v * base ^ Z.of_nat (length vs') + positional base vs' end.
(** a sign *)
Definition signed (sg : str) (neg : bool) : Prop := (sg = [] /\ neg = false) \/ (sg = [43] /\ neg = false) \/ (sg = [45] /\ neg = true).
Definition begins (P : Z -> Prop) (s : str) : Prop := match s with c :: _ => P c | [] => False end.
(** white space, perhaps a sign, a digit *)
Definition has_number (s : str) : Prop :=
  exists w sg neg r, s = w ++ sg ++ r /\ (forall c, In c w -> ws c = true) /\ signed sg neg /\ begins (fun c => exists v, figure_of 10 c v) r.

(** what was there, with what has been written *)
Definition replaced (g g0 : ginfo) : ginfo :=
  let or {A} (o o0 : option A) := newer (fun a => a) o o0 in
  mkG (or (g_name g) (g_name g0)) (or (g_title g) (g_title g0)) (or (g_user g) (g_user g0)) (or (g_description g) (g_description g0))
      (or (g_comment g) (g_comment g0)) (or (g_keywords g) (g_keywords g0)) (or (g_date g) (g_date g0)) (or (g_rating g) (g_rating g0)).
(** the length of a pixel and its unit along an axis: what was read before, what has been written, what is read then *)
Definition scale_kept (with_units : bool) (old written read : spec_float * str) : Prop :=
  (valid_scale (fst written) = false -> fst read = fst old) /\
  (forall s, fst written = S754_zero s -> fst read = S754_zero s) /\
  (fin64 (fst written) -> moderate (sfQ (fst written)) -> fin64 (fst read) /\ (Qabs (sfQ (fst read) - sfQ (fst written)) <= Qabs (sfQ (fst written)) * ten (-14))%Q) /\
  snd read = (if with_units then match snd written with [] => snd old | u => stored u end else snd old).

(** the text of a size *)
Definition size_text (c : Z) (doc : list xml) : option str := option_map text (get_node (IMAGE ++ [txt "Size" ++ [c]]) doc).
(** a dimension whose size has been written *)
Definition sized (size : Z) (old : option dinfo) : dinfo :=
  match old with Some o => mkD (d_start o) size (d_start_stated o) true | None => mkD 0 size false true end.

(** numbers whose text is read as the number, up to fifteen digits *)
Definition ordinary (x : spec_float) : Prop := (exists s, x = S754_zero s) \/ fin64 x /\ moderate (sfQ x).
Definition close (x y : spec_float) : Prop :=
  (exists s, x = S754_zero s /\ y = S754_zero s) \/ fin64 y /\ (Qabs (sfQ y - sfQ x) <= Qabs (sfQ x) * ten (-14))%Q.

(** pixel types with a word in the metadata *)
Definition kept_type (p : pixel_type) : option pixel_type := match p with Gray32 | Gray64Float | PixInvalid => None | _ => Some p end.
(** identifiers and names of channels: characters except slash, brackets, comma, semicolon; identifiers differ *)
Definition good_names (chs : list Z) (names : Z -> str * option str) : Prop :=
  (forall c, In c chs -> (plain [47; 91; 93; 44; 59] (fst (names c)) /\ chars (fst (names c))) /\
     forall s, snd (names c) = Some s -> plain [47; 91; 93; 44; 59] s /\ chars s) /\
  (forall c d, In c chs -> In d chs -> fst (names c) = fst (names d) -> c = d).
(** the channels of a range *)
Definition channels_of (start size : Z) : list Z := map (fun k => start + Z.of_nat k) (seq 0 (Z.to_nat size)).
