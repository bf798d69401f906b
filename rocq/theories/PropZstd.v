(** C20, C21, C22, C48: byte splitting, zstd round trips, size mismatches, numeric codes. *)
From Verif Require Import Base CopyModel HiLoModel HiLoProofs CodesModel ZstdModel ZstdProofs.

(** C20: splitting puts the low bytes in order into the first and the high bytes into the second half and touches nothing
    else, for every implementation. *)
Theorem C20_split : forall k src ssz w stride h dsz dst, impl_ok k -> byte_mem src -> room w h stride ssz -> 2 * (w * h) <= dsz ->
  exists m, hilo_unpack k src ssz w stride h dsz dst = Ok m /\
    (forall y x, 0 <= y < h -> 0 <= x < w -> m (y * w + x) = src (y * stride + 2 * x) /\ m (w * h + (y * w + x)) = src (y * stride + 2 * x + 1)) /\
    (forall a, ~ (0 <= a < 2 * (w * h)) -> m a = dst a).
Proof. exact split_ok. Qed.
Print Assumptions C20_split.

Example C20_split_example : impl_ok (Avx (repeat 9 16)) /\ byte_mem ex_src /\ room 19 2 50 100 /\
  match hilo_unpack (Avx (repeat 9 16)) ex_src 100 19 50 2 76 (fun _ => 0) with Ok m => mread m 15 6 ++ mread m 53 6 | _ => [] end =
  [30; 32; 34; 36; 50; 52; 31; 33; 35; 37; 51; 53].
Proof. exact ex_split. Qed.

(** C20: joining is inverse to splitting, whichever implementations did the two steps and whatever the two line lengths:
    every byte of every line is back in its place, the padding of the destination is untouched, nothing is accessed out of
    bounds. *)
Theorem C20_round_trip : forall k k' src ssz w stride h t0 d0 stride' dsz, impl_ok k -> impl_ok k' -> byte_mem src -> byte_mem t0 ->
  room w h stride ssz -> room w h stride' dsz ->
  exists t d, hilo_unpack k src ssz w stride h (2 * (w * h)) t0 = Ok t /\ hilo_pack k' t (2 * (w * h)) w h stride' dsz d0 = Ok d /\
    (forall y c, 0 <= y < h -> 0 <= c < 2 * w -> d (y * stride' + c) = src (y * stride + c)) /\
    (forall a, (forall y, 0 <= y < h -> ~ (y * stride' <= a < y * stride' + 2 * w)) -> d a = d0 a).
Proof. exact split_join. Qed.
Print Assumptions C20_round_trip.

(** C20: AVX2, NEON and portable code compute the same. *)
Theorem C20_same_split : forall k k' src ssz w stride h dsz dst, impl_ok k -> impl_ok k' -> byte_mem src -> room w h stride ssz -> 2 * (w * h) <= dsz ->
  exists m m', hilo_unpack k src ssz w stride h dsz dst = Ok m /\ hilo_unpack k' src ssz w stride h dsz dst = Ok m' /\ forall a, m a = m' a.
Proof. exact same_split. Qed.
Print Assumptions C20_same_split.
Theorem C20_same_join : forall k k' src ssz w h stride dsz dst, impl_ok k -> impl_ok k' -> byte_mem src -> room w h stride dsz -> 2 * (w * h) <= ssz < 2 ^ 64 ->
  exists m m', hilo_pack k src ssz w h stride dsz dst = Ok m /\ hilo_pack k' src ssz w h stride dsz dst = Ok m' /\ forall a, m a = m' a.
Proof. exact same_join. Qed.
Print Assumptions C20_same_join.

(** C21, without the default treatment of Bgr48: what was compressed is decoded to the same pixels. *)
Theorem C21_round_trip_partial : forall z k k' ask pt bpp src ssz w h stride junk c lax j1 j2 j3, zstd_ok z -> impl_ok k -> impl_ok k' ->
  bytes_per_pel pt = Ok bpp -> source_ok src ssz w h stride (w * bpp) -> byte_mem src -> byte_mem j2 ->
  ~ (ask = true /\ pt = Bgr48 /\ lax = true) ->
  compress1 z k ask pt src ssz w h stride junk = Ok (Some c) ->
  exists b, decode1 z k' lax c pt w h j1 j2 j3 = Ok b /\ shows b (w * bpp) h (source_byte src stride (w * bpp)).
Proof. exact zstd1_round_trip. Qed.
Print Assumptions C21_round_trip_partial.

Example C21_example : zstd_ok zid /\ source_ok ex_src 20 3 2 10 6 /\
  exists c b, compress1 zid Neon true Gray16 ex_src 20 3 2 10 (fun _ => 0) = Ok (Some c) /\ length c = 15%nat /\
  decode1 zid Scalar true c Gray16 3 2 (fun _ => 7) (fun _ => 7) (fun _ => 7) = Ok b /\ map (pixel_byte b 6) [0; 1; 5; 6; 7; 11] = [0; 1; 5; 10; 11; 15].
Proof. exact ex_zstd1. Qed.

(** C21, refuted for Bgr48: with packing, the decoder with its default option returns a bitmap two thirds of which is
    whatever the memory held before. *)
Theorem C21_bgr48_refuted : exists src z c, zstd_ok z /\ byte_mem src /\ source_ok src 6 1 1 6 6 /\
  compress1 z Scalar true Bgr48 src 6 1 1 6 (fun _ => 0) = Ok (Some c) /\
  forall v, is_byte v ->
  exists b, decode1 z Scalar true c Bgr48 1 1 (fun _ => v) (fun _ => 0) (fun _ => 0) = Ok b /\ pixel_byte b 6 2 = v /\ pixel_byte b 6 5 = v /\
            ~ shows b 6 1 (source_byte src 6 6).
Proof. exact bgr48_lost. Qed.
Print Assumptions C21_bgr48_refuted.

(** The same for the older format, without exception. *)
Theorem C21_zstd0_round_trip : forall z pt bpp src ssz w h stride junk c lax j1 j2, zstd_ok z -> bytes_per_pel pt = Ok bpp ->
  source_ok src ssz w h stride (w * bpp) -> compress0 z pt src ssz w h stride junk = Ok (Some c) ->
  exists b, decode0 z lax c pt w h j1 j2 = Ok b /\ shows b (w * bpp) h (source_byte src stride (w * bpp)).
Proof. exact zstd0_round_trip. Qed.
Print Assumptions C21_zstd0_round_trip.

(** C22: for data of any length the bitmap shows the data, truncated or extended by zeros. *)
Theorem C22_zstd_partial : forall z c x bpp w h junk junk2, frame z c x -> 0 < w -> 0 < h -> 0 < bpp -> w * bpp < 2 ^ 32 -> h * (w * bpp) < 2 ^ 64 ->
  exists b, decode_lax z c bpp w h junk junk2 = Ok b /\ shows b (w * bpp) h (padded x).
Proof. exact decode_lax_ok. Qed.
Print Assumptions C22_zstd_partial.
Example C22_zstd_example : frame zid [1; 2; 3; 4; 5; 6; 7] [1; 2; 3; 4; 5; 6; 7] /\ exists b,
  decode0 zid true [1; 2; 3; 4; 5; 6; 7] Bgr24 2 2 (fun _ => 9) (fun _ => 9) = Ok b /\ map (pixel_byte b 6) [0; 5; 6; 7; 11] = [1; 6; 7; 0; 0].
Proof. exact ex_short. Qed.

(** With packing, for Gray16 and unless an odd number of bytes falls short. *)
Theorem C22_zstd_packed_partial : forall z k c x w h junk junk2 junk3, frame z c x -> Forall is_byte x -> byte_mem junk2 -> impl_ok k ->
  0 < w -> 0 < h -> w * 2 + 3 < 2 ^ 32 -> h * (w * 2 + 3) < 2 ^ 64 ->
  (llen x = h * (w * 2) \/ llen x < 2 ^ 32) -> (Z.even (llen x) = true \/ h * (w * 2) < llen x) ->
  exists b, decode_packed_lax z k c 2 w h junk junk2 junk3 = Ok b /\ shows b (w * 2) h (padded (joined x)).
Proof. exact decode_packed_lax_ok. Qed.
Print Assumptions C22_zstd_packed_partial.

Theorem C22_uncompressed_partial : forall d pt bpp w h junk, bytes_per_pel pt = Ok bpp -> 0 < w -> 0 < h -> w * bpp + 3 < 2 ^ 32 -> h * (w * bpp + 3) < 2 ^ 64 ->
  exists b, create_uncompressed true d pt w h junk = Ok b /\ shows b (w * bpp) h (padded d).
Proof. exact uncompressed_ok. Qed.
Print Assumptions C22_uncompressed_partial.
Example C22_uncompressed_example : exists b, create_uncompressed true [1; 2; 3; 4; 5; 6; 7] Bgr24 2 2 (fun _ => 9) = Ok b /\
  map (pixel_byte b 6) [0; 5; 6; 7; 11] = [1; 6; 7; 0; 0].
Proof. exact ex_uncompressed. Qed.

(** Without the option a mismatch is an error (for uncompressed data: too little of it). *)
Theorem C22_strict_zstd : forall z c x bpp w h junk, frame z c x -> llen x <> u64 (h * (w * bpp)) -> decode_strict z c bpp w h junk = Throw.
Proof. exact decode_strict_mismatch. Qed.
Print Assumptions C22_strict_zstd.
Theorem C22_strict_uncompressed : forall d pt bpp w h junk, bytes_per_pel pt = Ok bpp -> 0 < w -> 0 < h -> w * bpp < 2 ^ 32 -> h * (w * bpp) < 2 ^ 64 ->
  llen d < h * (w * bpp) -> create_uncompressed false d pt w h junk = Throw.
Proof. exact uncompressed_strict. Qed.
Print Assumptions C22_strict_uncompressed.

(** C22, refuted: an odd number of bytes for Gray16, and too few bytes for Bgr48, leave pixels at whatever value the memory held. *)
Theorem C22_odd_refuted : forall v, exists b, decode1 zid Scalar true [3; 1; 1; 10; 20; 30] Gray16 2 1 (fun _ => v) (fun _ => 0) (fun _ => 0) = Ok b /\
  pixel_byte b 4 2 = v.
Proof. exact odd_short_junk. Qed.
Print Assumptions C22_odd_refuted.
Theorem C22_bgr48_refuted : forall v, exists b, decode1 zid Scalar true [3; 1; 1; 10; 20; 30; 40; 50; 60] Bgr48 2 1 (fun _ => v) (fun _ => 0) (fun _ => 0) = Ok b /\
  pixel_byte b 12 2 = v /\ pixel_byte b 12 5 = v.
Proof. exact bgr48_short_junk. Qed.
Print Assumptions C22_bgr48_refuted.

(** C22, refuted: a line of more than 2^32 bytes gets a bitmap of the size modulo 2^32 and is written beyond its end. *)
Theorem C22_wide_refuted : forall d j1 j2, 0 < llen d <= 4 -> decode0 zid true d Gray32 (2 ^ 30 + 1) 1 j1 j2 = UB.
Proof. exact wide_overflow. Qed.
Print Assumptions C22_wide_refuted.

(** The zstd1 header of a sub-block with one or two bytes of data is read beyond the data, unless it starts with 1 or 3;
    in every other case parsing stays within the data. *)
Theorem C22_header_refuted : forall b0, b0 <> 1 -> b0 <> 3 -> parse_header [b0] = UB /\ parse_header [b0; 1] = UB.
Proof. exact header_overrun. Qed.
Print Assumptions C22_header_refuted.
Theorem C22_header_partial : forall d, match d with [] => True | b0 :: d' => b0 = 1 \/ b0 = 3 \/ (2 <= length d')%nat end -> exists r, parse_header d = Ok r.
Proof. exact header_safe. Qed.
Print Assumptions C22_header_partial.
Example C22_header_example : parse_header [3; 1; 1; 40] = Ok (3, true) /\ parse_header [1; 40] = Ok (1, false) /\ parse_header [3; 2; 1; 40] = Ok (0, false).
Proof. repeat split; reflexivity. Qed.

(** C48: the code tables are exactly those of the format, for every integer. *)
Theorem C48_pixel_codes : forall i p, p <> PixInvalid -> (pixel_type_from_int i = p <-> In (i, p) pixel_codes).
Proof. exact pixel_codes_ok. Qed.
Print Assumptions C48_pixel_codes.
Theorem C48_compression_codes : forall i p, p <> CompInvalid -> (compression_from_int i = p <-> In (i, p) compression_codes).
Proof. exact compression_codes_ok. Qed.
Print Assumptions C48_compression_codes.
Theorem C48_pyramid_codes : forall i p, p <> PyrInvalid -> (pyramid_type_from_byte i = p <-> In (i, p) pyramid_codes).
Proof. exact pyramid_codes_ok. Qed.
Print Assumptions C48_pyramid_codes.
Theorem C48_round_trip :
  (forall p, p <> PixInvalid -> pixel_type_from_int (int_from_pixel_type p) = p) /\
  (forall m, m <> CompInvalid -> compression_from_int (compression_to_int m) = m) /\
  (forall p, p <> PyrInvalid -> pyramid_type_from_byte (byte_from_pyramid_type p) = p) /\
  (forall i, pixel_type_from_int i = PixInvalid \/ int_from_pixel_type (pixel_type_from_int i) = i) /\
  (forall i, compression_from_int i = CompInvalid \/ compression_to_int (compression_from_int i) = i) /\
  (pixel_type_from_int (int_from_pixel_type PixInvalid) = PixInvalid /\ compression_from_int (compression_to_int CompInvalid) = CompInvalid).
Proof. exact codes_round_trip. Qed.
Print Assumptions C48_round_trip.
