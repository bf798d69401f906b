(** C117: JPEG XR compression and decompression *)
From Verif Require Import Base RectModel CopyModel HiLoModel HiLoProofs PixelModel.
From Coq Require Import Floats.SpecFloat String.
From Verif Require Import TextModel JxrModel JxrSpec JxrNum JxrProofs JxrExamples.
Open Scope Z_scope.

(** Nothing undefined happens, whatever the bitmap, its stride, the parameter and the coding: no read outside of the bitmap or the tables. *)
Theorem C117_defined : forall k mk t b p, good_site mk -> picture t b -> param_ok p ->
  (exists d, jxr_compress k mk t b p = Ok d) \/ jxr_compress k mk t b p = Throw.
Proof. exact compress_defined. Qed.
Print Assumptions C117_defined.
Theorem C117_decode_defined : forall k mk d t w h, good_site mk -> (forall f aw ah s, k_dec k d = Some (f, aw, ah, s) -> 0 <= aw /\ 0 <= ah) ->
  (exists r, jxr_decode k mk d t w h = Ok r) \/ jxr_decode k mk d t w h = Throw.
Proof. exact decode_defined. Qed.
Print Assumptions C117_decode_defined.

(** What is said about the picture elsewhere must agree with the data. *)
Theorem C117_mismatch : forall k mk d t w h f aw ah s, k_dec k d = Some (f, aw, ah, s) ->
  (exists t', t = Some t' /\ t' <> px_of f) \/ (exists w', w = Some w' /\ w' <> aw) \/ (exists h', h = Some h' /\ h' <> ah) ->
  jxr_decode k mk d t w h = Throw.
Proof. exact decode_mismatch. Qed.
Print Assumptions C117_mismatch.

(** Every picture of a supported type and size can be compressed with every quality ... *)
Theorem C117_accepted_partial : forall k mk t f b p, good_site mk -> picture t b -> fits b -> param_ok p -> fmt_of t = Some f -> never_fails k ->
  ~ (t = Gray32F /\ exists n, asked p = Some n /\ n < 500) -> exists d, jxr_compress k mk t b p = Ok d.
Proof. exact compress_accepts. Qed.
Print Assumptions C117_accepted_partial.
(** ... but floats with less than 500 never, whatever the picture and the coding. *)
Theorem C117_float_refuted : forall k mk b n, good_site mk -> picture Gray32F b -> 0 <= n < 500 -> jxr_compress k mk Gray32F b (Some (PUint32 n)) = Throw.
Proof. exact compress_float_refused. Qed.
Print Assumptions C117_float_refuted.
Example C117_accepted_example : good_site site /\ (picture Gray32F e_f /\ fits e_f) /\ (picture Gray8 e_8 /\ fits e_8) /\ never_fails keeper.
Proof. exact (conj site_good (conj e_f_ok (conj e_8_ok keeper_fails))). Qed.

(** The coding is asked to lose nothing exactly if no quality is given or 1000 and above. *)
Theorem C117_best : forall mk t f b p, good_site mk -> picture t b -> fits b -> param_ok p -> fmt_of t = Some f -> best p ->
  jxr_compress teller mk t b p = Ok [1; 0; 0; 0; 0; 0].
Proof. exact told_best. Qed.
Print Assumptions C117_best.
Theorem C117_less : forall mk t f b n, good_site mk -> picture t b -> fits b -> 0 <= n < 1000 -> fmt_of t = Some f -> ~ (t = Gray32F /\ n < 500) ->
  exists v, jxr_compress teller mk t b (Some (PUint32 n)) = Ok v /\ List.length v = 6%nat /\ Forall (fun q => 2 <= q <= 255) v.
Proof. exact told_less. Qed.
Print Assumptions C117_less.
(** A higher quality does not quantize more coarsely, on either side of 500 and for 16 bit throughout ... *)
Theorem C117_monotone_partial : forall mk t f b n m, good_site mk -> picture t b -> fits b -> 0 <= n <= m -> m < 1000 -> fmt_of t = Some f -> ~ (t = Gray32F /\ n < 500) ->
  m < 500 \/ 500 <= n \/ t = Gray16 \/ t = Bgr48 ->
  exists v u, jxr_compress teller mk t b (Some (PUint32 n)) = Ok v /\ jxr_compress teller mk t b (Some (PUint32 m)) = Ok u /\ not_coarser u v.
Proof. exact told_mono. Qed.
Print Assumptions C117_monotone_partial.
(** ... but for 8 bit 500 quantizes every component more coarsely than 499. *)
Theorem C117_monotone_refuted : forall mk t b, good_site mk -> picture t b -> fits b -> t = Gray8 \/ t = Bgr24 ->
  exists v u, jxr_compress teller mk t b (Some (PUint32 499)) = Ok v /\ jxr_compress teller mk t b (Some (PUint32 500)) = Ok u /\ Forall2 Z.lt v u.
Proof. exact jump. Qed.
Print Assumptions C117_monotone_refuted.
Example C117_quality_example : jxr_compress teller site Gray8 e_8 (Some (PUint32 499)) = Ok [37; 37; 42; 38; 38; 43] /\
  jxr_compress teller site Gray8 e_8 (Some (PUint32 500)) = Ok [40; 56; 62; 42; 59; 66] /\
  jxr_compress teller site Gray8 e_8 (Some (PUint32 800)) = Ok [20; 36; 42; 20; 38; 44].
Proof. exact e_8_told. Qed.

(** Without a quality, or with 1000 and above, the pixels come back as they were, for every stride and content ... *)
Theorem C117_lossless_partial : forall k mk t f b p, good_site mk -> picture t b -> fits b -> param_ok p -> fmt_of t = Some f -> best p -> never_fails k -> lossless_codec k -> t <> Gray32F ->
  exists d r, jxr_compress k mk t b p = Ok d /\ jxr_decode k mk d (Some t) (Some (bw b)) (Some (bh b)) = Ok (t, r) /\ bmp_wf r /\ bbpp r = bpp_of t /\ same_pixels b r.
Proof. exact back_same. Qed.
Print Assumptions C117_lossless_partial.
Example C117_lossless_example : good_site site /\ (picture Bgr48 e_48 /\ fits e_48) /\ never_fails keeper /\ lossless_codec keeper /\
  exists d r, jxr_compress keeper site Bgr48 e_48 None = Ok d /\ nth 3 d 0 = 1541 /\ jxr_decode keeper site d (Some Bgr48) (Some 1) (Some 2) = Ok (Bgr48, r) /\
  pix r 0 0 = [1; 2; 3; 4; 5; 6] /\ pix r 0 1 = [11; 12; 13; 14; 15; 255].
Proof. exact (conj site_good (conj e_48_ok (conj keeper_fails (conj keeper_keeps e_48_back)))). Qed.
(** ... but floats are rounded to thirteen bits: 0.1 changes, the largest number becomes infinite, minus zero loses its sign. *)
Theorem C117_lossless_refuted : forall k, never_fails k -> lossless_codec k -> exists d r, jxr_compress k site Gray32F e_f (Some (PUint32 1000)) = Ok d /\
  jxr_decode k site d (Some Gray32F) (Some 4) (Some 1) = Ok (Gray32F, r) /\
  pix e_f 0 0 = [205; 204; 204; 61] /\ pix r 0 0 = [0; 204; 204; 61] /\
  pix e_f 1 0 = [255; 255; 127; 127] /\ pix r 1 0 = [0; 0; 128; 127] /\
  pix e_f 2 0 = [0; 0; 0; 128] /\ pix r 2 0 = [0; 0; 0; 0] /\ pix e_f 3 0 = [0; 0; 128; 70] /\ pix r 3 0 = [0; 0; 128; 70].
Proof. exact e_f_back. Qed.
Print Assumptions C117_lossless_refuted.
(** Exactly what becomes of them; unchanged are exactly those whose lowest ten bits are zero. *)
Theorem C117_floats : forall k mk b p, good_site mk -> picture Gray32F b -> fits b -> param_ok p -> best p -> never_fails k -> lossless_codec k ->
  exists d r, jxr_compress k mk Gray32F b p = Ok d /\ jxr_decode k mk d (Some Gray32F) (Some (bw b)) (Some (bh b)) = Ok (Gray32F, r) /\ bmp_wf r /\ bbpp r = 4 /\ short_pixels b r.
Proof. exact back_short. Qed.
Print Assumptions C117_floats.
Theorem C117_kept : forall bits, shortened bits = bits <-> bits mod 1024 = 0.
Proof. exact shortened_same. Qed.
Print Assumptions C117_kept.
Example C117_floats_example : not_tiny (unle (pix e_f 0 0)) /\ shortened (unle (pix e_f 0 0)) = 1036831744 /\ not_tiny (unle (pix e_f 3 0)) /\ shortened (unle (pix e_f 3 0)) = unle (pix e_f 3 0).
Proof. exact not_tiny_shown. Qed.

(** The exception for an error of the library tells its code ... *)
Theorem C117_error_partial : forall message code name,
  let told := txt " - ERR=" ++ code ++ match name with Some n => txt " (" ++ n ++ txt ")" | None => [] end in
  firstn (List.length told) (jxr_error_text message code name) = told.
Proof. exact error_code_told. Qed.
Print Assumptions C117_error_partial.
(** ... but in place of what failed. *)
Theorem C117_error_refuted : jxr_error_text (txt "'PKImageEncode::WritePixels' failed") (txt "-1") (Some (txt "WMP_errFail")) = txt " - ERR=-1 (WMP_errFail)xels' failed" /\
  jxr_error_text (txt "decoder::Copy failed") (txt "-1") (Some (txt "WMP_errFail")) = txt " - ERR=-1 (WMP_errFail)".
Proof. exact error_message_lost. Qed.
Print Assumptions C117_error_refuted.
