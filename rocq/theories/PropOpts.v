(** C106: compression options as text. *)
From Coq Require Import String.
From Verif Require Import Base CopyModel HiLoModel HiLoProofs CodesModel TextModel XmlModel ZstdModel ZstdProofs OptsModel OptsSpec OptsProofs OptsUse OptsExamples.
Open Scope Z_scope.

(** C106: a text is accepted with exactly these options if and only if it spells them. *)
Theorem C106_meaning : forall s m p, parse_options s = Ok (m, p) <-> meaning s m (p_level p) (p_pack p).
Proof. exact parse_iff. Qed.
Print Assumptions C106_meaning.
Example C106_meaning_example :
  parse_options (txt " ZStd1 : explicitlevel = -3 ; PreProcess=HiLoByteUnpack ; foo=bar;") = Ok (Zstd1, mkP (Some (-3)) true) /\
  parse_options (txt "zstd0:ExplicitLevel=3;EXPLICITLEVEL=+7") = Ok (Zstd0, mkP (Some 7) false) /\
  parse_options (txt "uncompressed:") = Ok (UnCompressed, mkP None false) /\
  parse_options (txt "zstd1:PreProcess=None") = Ok (Zstd1, mkP None false).
Proof. exact ex_opts. Qed.
Example C106_spelled_example : meaning (txt " ZStd1 : explicitlevel = -3 ; PreProcess=HiLoByteUnpack ; foo=bar;") Zstd1 (Some (-3)) true.
Proof. exact ex_opts_meaning. Qed.

(** C106: every other text is refused with an exception. *)
Theorem C106_total : forall s, (exists m p, parse_options s = Ok (m, p)) \/ parse_options s = Throw.
Proof. exact parse_total. Qed.
Print Assumptions C106_total.
Example C106_total_example :
  parse_options (txt "zstd1") = Throw /\ parse_options (txt "zstd1:ExplicitLevel=x") = Throw /\ parse_options (txt "zstd1:ExplicitLevel=3.5") = Throw /\
  parse_options (txt "zstd1:ExplicitLevel=2147483648") = Throw /\ parse_options (txt "zstd2:ExplicitLevel=1") = Throw /\
  parse_options (txt "zstd1:ExplicitLevel=1;;") = Throw /\ parse_options (txt "zstd1:ExplicitLevel 1") = Throw.
Proof. exact ex_opts_refused. Qed.

(** C106: options written in the usual way are read back, for every method, level and preprocessing. *)
Theorem C106_written : forall m l pack, m <> CompInvalid -> (match l with Some n => - 2 ^ 31 <= n < 2 ^ 31 | None => True end) ->
  parse_options (option_line m l pack) = Ok (m, mkP l pack).
Proof. exact written_options. Qed.
Print Assumptions C106_written.
Example C106_written_example : option_line Zstd1 (Some (-22)) true = txt "zstd1:ExplicitLevel=-22;PreProcess=HiLoByteUnpack" /\
  parse_options (option_line Zstd1 (Some (-22)) true) = Ok (Zstd1, mkP (Some (-22)) true).
Proof. exact ex_opts_line. Qed.

(** C106: no accepted text changes the pixels: whatever the level and the preprocessing, what the compressor produces is
    decoded to the picture given, by a decoder which knows neither. Not for packed Bgr48 with the default decoder (see C21). *)
Theorem C106_pixels_partial : forall s c p comp sz dc lo hi any, parse_options s = Ok (c, p) -> lo <= 0 <= hi ->
  (forall l, lo <= l <= hi -> zstd_ok (at_level comp sz dc l)) ->
  forall k k' pt bpp src ssz w h stride junk d lax j1 j2 j3, impl_ok k -> impl_ok k' ->
  bytes_per_pel pt = Ok bpp -> source_ok src ssz w h stride (w * bpp) -> byte_mem src -> byte_mem j2 ->
  (c = Zstd0 -> compress0 (at_level comp sz dc (used_level lo hi p)) pt src ssz w h stride junk = Ok (Some d) ->
     exists b, decode0 (at_level comp sz dc any) lax d pt w h j1 j2 = Ok b /\ shows b (w * bpp) h (source_byte src stride (w * bpp))) /\
  (c = Zstd1 -> ~ (p_pack p = true /\ pt = Bgr48 /\ lax = true) ->
     compress1 (at_level comp sz dc (used_level lo hi p)) k (p_pack p) pt src ssz w h stride junk = Ok (Some d) ->
     exists b, decode1 (at_level comp sz dc any) k' lax d pt w h j1 j2 j3 = Ok b /\ shows b (w * bpp) h (source_byte src stride (w * bpp))).
Proof. exact options_pixels. Qed.
Print Assumptions C106_pixels_partial.
Example C106_pixels_example : used_level (-7) 22 (mkP (Some 99) true) = 22 /\ (forall l, zstd_ok (at_level (fun _ => z_compress zid) (z_size zid) (z_decompress zid) l)) /\
  exists c b, compress1 (at_level (fun _ => z_compress zid) (z_size zid) (z_decompress zid) 22) Neon true Gray16 ex_src 20 3 2 10 (fun _ => 0) = Ok (Some c) /\
  decode1 zid Scalar true c Gray16 3 2 (fun _ => 7) (fun _ => 7) (fun _ => 7) = Ok b /\ map (pixel_byte b 6) [0; 1; 5; 6; 7; 11] = [0; 1; 5; 10; 11; 15].
Proof. exact ex_opts_pixels. Qed.
