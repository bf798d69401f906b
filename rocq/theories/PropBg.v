(** C124: background colour and zoom on the command line. *)
From Coq Require Import String QArith Qabs Floats.SpecFloat.
From Verif Require Import Base TextModel FloatProofs NumModel NumSpec BgModel BgSpec BgProofs BgRound BgExamples.
Open Scope Z_scope.

(** One number is a grey value. *)
Theorem C124_grey : forall w a x g, white w -> plain a x -> gap g -> background (w ++ a ++ g) = Some (mkC x x x).
Proof. exact one_number. Qed.
Print Assumptions C124_grey.
Example C124_grey_case : plain (txt "0.5") half32 /\ background (txt "0.5") = Some (mkC half32 half32 half32).
Proof. split; [exact half_plain|vm_compute; reflexivity]. Qed.

(** Three numbers, separated by white space or by one comma, semicolon or bar, are red, green and blue. *)
Theorem C124_three : forall w a x g b y h c z g', white w -> plain a x -> separator g -> plain b y -> separator h -> plain c z -> gap g' ->
  background (w ++ a ++ g ++ b ++ h ++ c ++ g') = Some (mkC x y z).
Proof. exact three_numbers. Qed.
Print Assumptions C124_three.
Example C124_three_case : separator (txt "; ") /\
  map background [txt "0.5"; txt "0.5;0.25,1"; txt " +5e-1 | .25 1e0 ;"; txt "0.5;0.25"; txt "0.5;0.25;1;0"; txt "red"] = colour_case.
Proof. split; [exact semicolon|exact colours]. Qed.

(** Two numbers are refused. *)
Theorem C124_two : forall w a x g b y g', white w -> plain a x -> separator g -> plain b y -> gap g' -> background (w ++ a ++ g ++ b ++ g') = None.
Proof. exact two_numbers. Qed.
Print Assumptions C124_two.
Example C124_two_case : background (txt "0.5" ++ txt "; " ++ txt "0.5") = None.
Proof. vm_compute. reflexivity. Qed.

(** Whatever is accepted is one or three numbers with separators - where, however, a number may be missing, which counts as 0, or a separator. *)
Theorem C124_colour_partial : forall s c, background s = Some c ->
  (exists p g x, s = p ++ g /\ number_or_none p x /\ gap g /\ c = mkC x x x) \/
  (exists p g q h r i x y z, s = p ++ g ++ q ++ h ++ r ++ i /\ number_or_none p x /\ number_or_none q y /\ number_or_none r z /\ gap g /\ gap h /\ gap i /\
     q ++ h ++ r ++ i <> [] /\ r ++ i <> [] /\ (c = mkC x y z \/ y = S754_nan /\ z = S754_nan /\ c = mkC x x x)).
Proof. exact background_sound. Qed.
Print Assumptions C124_colour_partial.
Example C124_colour_case : background (txt "0.5;0.25;1") = Some (mkC half32 quarter32 one32).
Proof. vm_compute. reflexivity. Qed.

(** A zoom in use is not zero or below, and the number its text begins with; without text it is 1. *)
Theorem C124_zoom_partial : forall s x, zoom_used s = Some x -> SFleb x (S754_zero false) = false /\
  (s = [] /\ x = one32 \/ exists p r, s = p ++ r /\ (decimal_number p x false \/ special_number p x)).
Proof. exact zoom_sound. Qed.
Print Assumptions C124_zoom_partial.
Example C124_zoom_case : zoom_used (txt "0.5") = Some half32 /\ zoom_used [] = Some one32.
Proof. vm_compute. split; reflexivity. Qed.

(** Positive numbers in range are taken as they are, numbers out of the range of float refused. *)
Theorem C124_zoom_taken : forall s x, decimal_number s x false -> SFltb (S754_zero false) x = true -> s <> [] /\ zoom_used s = Some x.
Proof. exact zoom_taken. Qed.
Print Assumptions C124_zoom_taken.
Example C124_zoom_taken_case : decimal_number (txt "0.5") half32 false /\ SFltb (S754_zero false) half32 = true.
Proof. split; [exact half_decimal|reflexivity]. Qed.
Theorem C124_zoom_refused_range : forall s x, decimal_number s x true -> zoom_used s = None.
Proof. exact zoom_refused. Qed.
Print Assumptions C124_zoom_refused_range.
Example C124_zoom_refused_case : decimal_number (txt "1e39") (S754_infinity false) true /\ map zoom_used [txt "0"; txt "-1"; txt "x"; txt "1e39"; txt "1e-50"; txt "0,5"] = [None; None; None; None; None; None].
Proof. split; [exact huge_decimal|exact zooms_refused]. Qed.

(** The float of a decimal number m * 10^e in range differs from it by no more than 2^-23 of it. *)
Theorem C124_value : forall m e, 0 < m -> (Qpower 2 (-126) <= inject_Z m * Qpower 10 e)%Q -> (inject_Z m * Qpower 10 e < Qpower 2 127)%Q ->
  (Qabs (sfQ (fst (of_decimal32 false m e)) - inject_Z m * Qpower 10 e) <= inject_Z m * Qpower 10 e * Qpower 2 (-23))%Q /\
  fst (of_decimal32 true m e) = SFopp (fst (of_decimal32 false m e)).
Proof. exact decimal32_value. Qed.
Print Assumptions C124_value.
Example C124_value_case : (Qpower 2 (-126) <= inject_Z 1 * Qpower 10 (-1))%Q /\ (inject_Z 1 * Qpower 10 (-1) < Qpower 2 127)%Q /\ of_decimal32 false 1 (-1) = (S754_finite false 13421773 (-27), false).
Proof. split; [vm_compute; discriminate|split; vm_compute; reflexivity]. Qed.

(** Refuted: what follows the number of a zoom is ignored, whatever it is. *)
Theorem C124_rest_refuted : (forall s x r, decimal_number s x false -> stop r -> zoom_of (s ++ r) = Some x) /\
  map zoom_used [txt "0.5 %"; txt "1/2"; txt "0.5e"; txt "1.2.3"] = [Some half32; Some one32; Some half32; Some (S754_finite false 10066330 (-23))].
Proof. exact (conj zoom_read zooms_rest). Qed.
Print Assumptions C124_rest_refuted.

(** Refuted: zooms above 1, infinity and NaN are in use. *)
Theorem C124_range_refuted : map zoom_used [txt "7"; txt "nan"; txt "infinity"; txt "-nan"] = [Some seven32; Some S754_nan; Some (S754_infinity false); Some S754_nan].
Proof. exact zooms_range. Qed.
Print Assumptions C124_range_refuted.

(** Refuted: colours without number, or with numbers missing, are accepted. *)
Theorem C124_missing_refuted : map background [txt " "; txt ";"; txt ";;0.5"; txt "0.5;;0.5"] =
  [Some (mkC zero32 zero32 zero32); Some (mkC zero32 zero32 zero32); Some (mkC zero32 zero32 half32); Some (mkC half32 zero32 half32)].
Proof. exact missing. Qed.
Print Assumptions C124_missing_refuted.

(** Refuted: separators may be missing, and the numbers need not be from 0 to 1. *)
Theorem C124_joined_refuted : map background [txt ".5.25.5"; txt "1-0.5-1"; txt "7"; txt "-7;0;0"] =
  [Some (mkC half32 quarter32 half32); Some (mkC one32 (SFopp half32) (SFopp one32)); Some (mkC seven32 seven32 seven32); Some (mkC (SFopp seven32) zero32 zero32)].
Proof. exact joined. Qed.
Print Assumptions C124_joined_refuted.

(** Refuted: three numbers of which the last two are NaN give a grey value. *)
Theorem C124_nan_refuted : background (txt "1;nan;nan") = Some (mkC one32 one32 one32) /\ background (txt "1;nan;0") = Some (mkC one32 S754_nan zero32).
Proof. exact nan_lost. Qed.
Print Assumptions C124_nan_refuted.
