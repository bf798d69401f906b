(** C112: the arguments of the command-line tool, as text.  Examples: ArgsLast.v (size_example, size_refused, tiles_example,
    tiles_values, rect_example, pyramid_example, format_example, levels_example, info_example, bytes_example). *)
From Coq Require Import String QArith Qabs SpecFloat.
From Verif Require Import Base CodesModel TextModel XmlModel FloatProofs CreateModel OptsSpec ArgsModel ArgsSpec ArgsLast ArgsRect.
Open Scope Z_scope.

(** a size: accepted exactly if it is two numerals of proper size with x, X or * between; an exception only for enormous numerals *)
Theorem C112_size_partial : forall s,
  (forall w h, parse_size s = Ok (Some (w, h)) <-> exists a b, size_text s a b /\ proper a /\ proper b /\ w = dval a /\ h = dval b) /\
  (parse_size s = Throw <-> exists a b, size_text s a b /\ (enormous a \/ proper a /\ enormous b)) /\
  (parse_size s = Throw \/ exists r, parse_size s = Ok r).
Proof. exact size_statement. Qed.
Print Assumptions C112_size_partial.
(** rows, columns and overlap of tiles *)
Theorem C112_tiles_partial : forall s,
  (forall a b p, tiles_text s a b p -> proper a -> proper b -> (forall n, p = Some n -> proper n) ->
     exists i, parse_tiles s = Ok (Some i) /\ ti_rows i = dval a /\ ti_cols i = dval b /\
       (percent_of p <= 100 -> (Qabs (sfQ (ti_overlap i) - inject_Z (percent_of p) / 100) <= inject_Z (percent_of p) / 100 * (1 # 8388608))%Q)) /\
  (forall i, parse_tiles s = Ok (Some i) -> exists a b p, tiles_text s a b p /\ proper a /\ proper b /\ (forall n, p = Some n -> proper n)).
Proof. exact tiles_statement. Qed.
Print Assumptions C112_tiles_partial.
(** regions *)
Theorem C112_rect : forall s absolute x y w h, parse_rect s = Some (mkRegion absolute x y w h) <-> rect_text s absolute x y w h.
Proof. exact rect_statement. Qed.
Print Assumptions C112_rect.
(** pyramid layers *)
Theorem C112_pyramid : forall s factor layer, parse_pyramid s = Some (factor, layer) <-> pyramid_text s factor layer.
Proof. exact pyramid_accepted. Qed.
Print Assumptions C112_pyramid.
(** the pixel type of the composition with its alpha value; no capital X in the text *)
Theorem C112_format_partial : forall s, ~ In 88 s ->
  (forall p al, parse_format s = Ok (Some (p, al)) <-> format_text s p al) /\ (parse_format s = Throw <-> enormous_alpha s).
Proof. exact format_statement. Qed.
Print Assumptions C112_format_partial.
(** lists of levels in which no item but the last is empty *)
Theorem C112_levels_partial : forall s l, items s l -> no_hole l ->
  (parse_flags verbosities s = None <-> ~ Forall (known verbosity_words) l) /\
  (forall f, parse_flags verbosities s = Some f -> 0 <= f /\ forall n, 0 <= n -> (Z.testbit f n = true <-> exists i levels, In i l /\ names verbosity_words i levels /\ In n levels)) /\
  (parse_flags info_levels s = None <-> ~ Forall (known info_words) l) /\
  (forall f, parse_flags info_levels s = Some f -> 0 <= f /\ forall n, 0 <= n -> (Z.testbit f n = true <-> exists i levels, In i l /\ names info_words i levels /\ In n levels)).
Proof. exact levels_statement. Qed.
Print Assumptions C112_levels_partial.
(** the size of the cache: the bytes meant, rounded *)
Theorem C112_bytes_partial : forall s M K f, bytes_text s M K f -> (bytes_meant M K f < inject_Z (2 ^ 61))%Q ->
  exists k, parse_bytes s = Ok (Some k) /\ 0 <= k < 2 ^ 63 /\
    (Qabs (inject_Z k - bytes_meant M K f) <= (1 # 2) + bytes_meant M K f * (1 # 2 ^ 51) + (1 # 2 ^ 100))%Q.
Proof. exact bytes_statement. Qed.
Print Assumptions C112_bytes_partial.
(** whole numbers of bytes are exact; other texts are refused *)
Theorem C112_bytes_exact_partial : forall s,
  (forall M K f z, bytes_text s M K f -> M * f = z * 10 ^ K -> 0 <= z <= 2 ^ 49 -> parse_bytes s = Ok (Some z)) /\
  ((forall M K f, ~ bytes_text s M K f) -> parse_bytes s = Ok None).
Proof. exact bytes_others. Qed.
Print Assumptions C112_bytes_exact_partial.

(** enormous numerals are not refused: an exception leaves the parser *)
Theorem C112_exception_refuted : parse_size (txt "20000000000000000000x1") = Throw /\ parse_tiles (txt "1x20000000000000000000") = Throw /\ parse_format (txt "bgra32(3000000000)") = Throw.
Proof. exact exceptions. Qed.
Print Assumptions C112_exception_refuted.
(** the prefix 0X is accepted, but the value is lost: 0X7f is transparent *)
Theorem C112_hex_refuted : parse_format (txt "bgra32(0X7f)") = Ok (Some (Bgra32, Some 0)) /\ parse_format (txt "bgra32(0x7f)") = Ok (Some (Bgra32, Some 127)).
Proof. exact upper_hex. Qed.
Print Assumptions C112_hex_refuted.
(** behind an empty item nothing is looked at *)
Theorem C112_hole_refuted : exists l, items (txt "Errors,,nonsense,Infos") l /\ ~ Forall (known verbosity_words) l /\ parse_flags verbosities (txt "Errors,,nonsense,Infos") = Some 3.
Proof. exact hole. Qed.
Print Assumptions C112_hole_refuted.
(** a size beyond 2^63 bytes gives an unspecified value *)
Theorem C112_bytes_refuted : parse_bytes (txt "9300000t") = UB.
Proof. exact too_many_bytes. Qed.
Print Assumptions C112_bytes_refuted.
