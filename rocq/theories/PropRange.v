(** C94, C95: exposure times, wavelengths and lists of numbers of channels. *)
From Coq Require Import String QArith Qabs Floats.SpecFloat.
From Verif Require Import Base TextModel XmlModel XmlSpec FloatProofs SFloatProofs ScaleNum NumModel NumSpec DocModel RangeModel RangeSpec RangeProofs RangeDbl RangeDoc.
Open Scope Z_scope.

(** Full statement of C94: an exposure time or wavelength is reported if and only if the text is a number, or a range with a start,
    an end or both, and what is reported contains exactly the numbers of the range. *)

(** exposure times: reported exactly if the text, without white space, is such a range; this is the whole behaviour *)
Theorem C94_exposure_partial : forall n c s b x y, descend [txt "ExposureTime"] n = Some c -> squeezed (text c) s ->
  (exposure_time n = Some (mkR b x y) <-> exists h, range_text natural wrapped s h /\ (b, x, y) = reported_natural h).
Proof. exact exposure_iff. Qed.
Print Assumptions C94_exposure_partial.
Example C94_exposure_meets : exposure_time (Elem (txt "Channel") [] [Elem (txt "ExposureTime") [] [Text (txt " 100 - 2500 ")]]) = Some (mkR false 100 2500) /\
  squeezed (txt " 100 - 2500 ") (txt "100-2500") /\ range_text natural wrapped (txt "100-2500") (Between 100 2500).
Proof.
  split; [reflexivity|]. split; [apply squeezed_iff; reflexivity|]. change (txt "100-2500") with (txt "100" ++ 45 :: txt "2500").
  assert (G : forall ds v, ds <> [] -> (forall c, In c ds -> 48 <= c <= 57) -> v = dval ds -> v < 2 ^ 64 -> natural ds v).
  { intros ds v N D V L. exists [], ds. split; [now left|]. split; [reflexivity|]. split; [now apply Forall_forall|]. auto. }
  constructor; [|left]; apply G; try discriminate; try reflexivity; intros c I; cbn in I; lia.
Qed.
(** false: numbers separated by white space become one number, and a negative end becomes 2^64 less something *)
Theorem C94_exposure_refuted : exists n1 n2,
  n1 = Elem (txt "Channel") [] [Elem (txt "ExposureTime") [] [Text (txt "100 200")]] /\ exposure_time n1 = Some (mkR true 100200 0) /\
  n2 = Elem (txt "Channel") [] [Elem (txt "ExposureTime") [] [Text (txt "10--1")]] /\ exposure_time n2 = Some (mkR false 10 (2 ^ 64 - 1)).
Proof. eexists _, _. split; [reflexivity|]. split; [reflexivity|]. split; [reflexivity|]. reflexivity. Qed.
Print Assumptions C94_exposure_refuted.

(** wavelengths: nothing else is reported ... *)
Theorem C94_bands_sound_partial : forall n c parts l, descend [txt "SinglePeak"] n = None -> descend [txt "Ranges"] n = Some c -> parts <> [] ->
  (forall p d, In p parts -> In d p -> d <> 44) -> text c = join 44 parts -> get_spectrum n = Some l ->
  exists rs, l = Bands rs /\ rs <> [] /\ Forall2 (fun p r => exists h, part_text p h /\ reported_real (r_single r) (r_start r) (r_end r) h) (nonblank parts) rs.
Proof. exact bands_sound. Qed.
Print Assumptions C94_bands_sound_partial.
(** ... and all ranges of zero and numbers between 10^-307 and 10^307 are *)
Theorem C94_bands_complete_partial : forall n c parts hs, descend [txt "SinglePeak"] n = None -> descend [txt "Ranges"] n = Some c -> parts <> [] ->
  (forall p d, In p parts -> In d p -> d <> 44) -> text c = join 44 parts -> nonblank parts <> [] -> Forall2 part_text (nonblank parts) hs -> Forall (each usual) hs ->
  exists rs, get_spectrum n = Some (Bands rs) /\ Forall2 (fun r h => reported_real (r_single r) (r_start r) (r_end r) h) rs hs.
Proof. exact bands_complete. Qed.
Print Assumptions C94_bands_complete_partial.
Example C94_bands_meets : let n := Elem (txt "DetectionWavelength") [] [Elem (txt "Ranges") [] [Text (txt "4.5e2-500, 520 - ")]] in
  get_spectrum n = Some (Bands [mkR false (S754_finite false 7916483719987200 (-44)) (S754_finite false 8796093022208000 (-44)); mkR false (S754_finite false 4573968371548160 (-43)) DBL_MAX]) /\
  txt "4.5e2-500, 520 - " = join 44 [txt "4.5e2-500"; txt " 520 - "] /\ part_text (txt "4.5e2-500") (Between (inject_Z 45 * ten 1)%Q (inject_Z 500 * ten 0)%Q).
Proof.
  cbv zeta. split; [vm_compute; reflexivity|]. split; [reflexivity|]. exists (txt "4.5e2-500"). split; [apply squeezed_iff; reflexivity|].
  change (txt "4.5e2-500") with ((txt "4" ++ [46] ++ txt "5" ++ txt "e2") ++ 45 :: txt "500"). constructor; [|left].
  - exists [], (txt "4" ++ [46] ++ txt "5" ++ txt "e2"), 45, 1. split; [now left|]. split; [reflexivity|]. split; [|reflexivity].
    eapply fraction with (e := 2); try reflexivity; try discriminate; try (apply Forall_forall; intros c I; cbn in I; lia).
    change (txt "e2") with (101 :: [] ++ txt "2"). apply some_exponent; [now left|now left| |discriminate|reflexivity]. apply Forall_forall. intros c I. cbn in I. lia.
  - exists [], (txt "500"), 500, 0. split; [now left|]. split; [reflexivity|]. split; [|reflexivity]. rewrite <- (app_nil_r (txt "500")).
    eapply NumSpec.whole with (e := 0); try reflexivity; try discriminate; [apply Forall_forall; intros c I; cbn in I; lia|constructor].
Qed.
Theorem C94_peak : forall n c, descend [txt "SinglePeak"] n = Some c -> exists x, get_spectrum n = Some (Peak x) /\
  forall (neg : bool) t M K v, text c = (if neg then [45] else []) ++ t -> decimal t M K -> (v == if neg then - (inject_Z M * ten K) else inject_Z M * ten K)%Q -> nearest x v.
Proof. exact peak_first. Qed.
Print Assumptions C94_peak.
Example C94_peak_case : get_spectrum (Elem (txt "D") [] [Elem (txt "Ranges") [] [Text (txt "1-2")]; Elem (txt "SinglePeak") [] [Text (txt "509.5")]]) = Some (Peak (S754_finite false 8963218789629952 (-44))).
Proof. vm_compute. reflexivity. Qed.
(** false: a range without a start begins above zero, even above its own end; and a blank after the last comma loses all ranges *)
Theorem C94_bands_refuted : exists n1 n2 n3 r1 r2,
  n1 = Elem (txt "D") [] [Elem (txt "Ranges") [] [Text (txt "-500")]] /\ get_spectrum n1 = Some (Bands [r1]) /\ r_single r1 = false /\ (0 < sfQ (r_start r1))%Q /\
  n2 = Elem (txt "D") [] [Elem (txt "Ranges") [] [Text (txt "-0")]] /\ get_spectrum n2 = Some (Bands [r2]) /\ (sfQ (r_end r2) < sfQ (r_start r2))%Q /\
  n3 = Elem (txt "D") [] [Elem (txt "Ranges") [] [Text (txt "400-500, ")]] /\ get_spectrum n3 = None.
Proof.
  eexists _, _, _, (mkR false DBL_MIN (S754_finite false 8796093022208000 (-44))), (mkR false DBL_MIN (S754_zero false)). split; [reflexivity|]. split; [vm_compute; reflexivity|]. split; [reflexivity|]. split; [vm_compute; reflexivity|].
  split; [reflexivity|]. split; [vm_compute; reflexivity|]. split; [vm_compute; reflexivity|]. split; [reflexivity|]. vm_compute. reflexivity.
Qed.
Print Assumptions C94_bands_refuted.

(** Full statement of C95: a list of numbers separated by white space is read as these numbers; reading never fails. *)
Theorem C95_integers : forall s vs, list_text integer s vs -> int_array s = Ok vs.
Proof. exact int_list_read. Qed.
Print Assumptions C95_integers.
Example C95_integers_meets : int_array (txt "3  -14 +15 ") = Ok [3; -14; 15] /\ list_text integer (txt "3" ++ txt "  " ++ txt "-14 ") [3; -14].
Proof.
  split; [reflexivity|]. apply more_numbers; [|discriminate|apply Forall_forall; intros c I; cbn in I; lia|].
  - exists [], (txt "3"). split; [now left|]. split; [reflexivity|]. split; [apply Forall_forall; intros c I; cbn in I; lia|]. split; [discriminate|]. split; [reflexivity|lia].
  - change (txt "-14 ") with (txt "-14" ++ txt " "). apply last_white; [|discriminate|apply Forall_forall; intros c I; cbn in I; lia].
    exists [45], (txt "14"). split; [auto|]. split; [reflexivity|]. split; [apply Forall_forall; intros c I; cbn in I; lia|]. split; [discriminate|]. split; [reflexivity|lia].
Qed.
(** Missing: numbers outside of 10^-307 .. 10^307 *)
Theorem C95_numbers_partial : forall s vs, list_text real s vs -> Forall usual vs -> exists xs, double_array s = Ok xs /\ Forall2 nearest xs vs.
Proof. exact double_list_read. Qed.
Print Assumptions C95_numbers_partial.
Example C95_numbers_meets : double_array (txt "-0.5 1e2") = Ok [S754_finite true 4503599627370496 (-53); S754_finite false 7036874417766400 (-46)] /\
  list_text real (txt "-0.5" ++ txt " " ++ txt "1e2") [(- (inject_Z 5 * ten (-1)))%Q; (inject_Z 1 * ten 2)%Q].
Proof.
  split; [vm_compute; reflexivity|]. apply more_numbers; [|discriminate|apply Forall_forall; intros c I; cbn in I; lia|apply last_number].
  - right. exists (txt "0" ++ [46] ++ txt "5" ++ []), 5, (-1). split; [reflexivity|]. split; [|reflexivity].
    eapply fraction with (e := 0); try reflexivity; try discriminate; try (apply Forall_forall; intros c I; cbn in I; lia). constructor.
  - left. exists [], (txt "1" ++ txt "e2"), 1, 2. split; [now left|]. split; [reflexivity|]. split; [|reflexivity].
    eapply NumSpec.whole with (e := 2); try reflexivity; try discriminate; [apply Forall_forall; intros c I; cbn in I; lia|].
    change (txt "e2") with (101 :: [] ++ txt "2"). apply some_exponent; [now left|now left| |discriminate|reflexivity]. apply Forall_forall. intros c I. cbn in I. lia.
Qed.
(** as seen in the settings of a channel *)
Theorem C95_mapping : forall n c vs, descend [txt "FiberMapping"] n = Some c -> list_text integer (text c) vs -> fibre_mapping n = Ok (Some vs).
Proof. exact mapping_read. Qed.
Print Assumptions C95_mapping.
Example C95_mapping_case : fibre_mapping (Elem (txt "FastAiryScanSettings") [] [Elem (txt "FiberMapping") [] [Text (txt "0 3 1 2")]]) = Ok (Some [0; 3; 1; 2]).
Proof. reflexivity. Qed.
Theorem C95_line_partial : forall name n c vs, descend [txt name] n = Some c -> list_text real (text c) vs -> Forall usual vs ->
  match vs with
  | v :: w :: _ => exists x y, line_of name n = Ok (Some (x, y)) /\ nearest x v /\ nearest y w
  | _ => line_of name n = Ok None
  end.
Proof. exact line_read. Qed.
Print Assumptions C95_line_partial.
Example C95_line_case : line_of "IlluminationLine" (Elem (txt "FastAiryScanSettings") [] [Elem (txt "IlluminationLine") [] [Text (txt "0 -1 7")]]) = Ok (Some (S754_zero false, S754_finite true 4503599627370496 (-52))).
Proof. vm_compute. reflexivity. Qed.
(** reading ends without an exception for every text of characters up to 255 *)
Theorem C95_total_partial : forall s, (forall c, In c s -> 0 <= c <= 255) -> (exists l, int_array s = Ok l) /\ exists l, double_array s = Ok l.
Proof. exact (fun s H => conj (int_list_total s H) (double_list_total s H)). Qed.
Print Assumptions C95_total_partial.
Example C95_total_case : int_array (txt "1 2 x 3") = Ok [1; 2] /\ int_array (txt "1 2, 3") = Ok [1] /\ int_array (txt "1 99999999999 3") = Ok [1].
Proof. repeat split; reflexivity. Qed.
(** false: a character above 255 next to a number is undefined behaviour *)
Theorem C95_total_refuted : exists s, s = txt "12" ++ [8239] ++ txt "13" /\ int_array s = UB /\ double_array s = UB.
Proof. eexists. split; [reflexivity|]. split; vm_compute; reflexivity. Qed.
Print Assumptions C95_total_refuted.
