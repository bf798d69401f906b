(** Property: dates and times. *)
From Coq Require Import String.
From Verif Require Import Base TextModel DateModel DateSpec DateProofs.
Open Scope Z_scope.

(** Full statement (C85): a valid date/time is written as a text of XSD dateTime, which is read back as the same date/time;
    reading accepts exactly the texts of the calendar's dates and otherwise reports failure. *)

(** an offset of -1 ... -9 hours is written with one digit, which is not accepted *)
Theorem C85_negative_offset_refuted :
  let d := mkDate 0 0 12 29 2 2020 false (-5) 0 in
  is_valid d = true /\ has_offset d = true /\ to_xml d = Ok (txt "2020-02-29T12:00:00-5:00") /\
  try_parse (txt "2020-02-29T12:00:00-5:00") = Ok None.
Proof. exact (conj eq_refl (conj eq_refl (conj eq_refl eq_refl))). Qed.
Print Assumptions C85_negative_offset_refuted.

(** so are years before 0: the zeros come before the sign *)
Theorem C85_negative_year_refuted :
  let d := mkDate 0 0 12 15 3 (-44) true INT_MIN INT_MIN in
  is_valid d = true /\ to_xml d = Ok (txt "0-44-03-15T12:00:00Z") /\ try_parse (txt "0-44-03-15T12:00:00Z") = Ok None.
Proof. exact (conj eq_refl (conj eq_refl eq_refl)). Qed.
Print Assumptions C85_negative_year_refuted.

(** leap seconds are valid and written, but not read *)
Theorem C85_leap_second_refuted :
  let d := mkDate 60 59 23 31 12 2016 true INT_MIN INT_MIN in
  is_valid d = true /\ to_xml d = Ok (txt "2016-12-31T23:59:60Z") /\ try_parse (txt "2016-12-31T23:59:60Z") = Ok None.
Proof. exact (conj eq_refl (conj eq_refl eq_refl)). Qed.
Print Assumptions C85_leap_second_refuted.

(** reading loses the sign of offsets below one hour *)
Theorem C85_small_offset_refuted :
  try_parse (txt "2020-02-29T12:00:00-00:30") = try_parse (txt "2020-02-29T12:00:00+00:30") /\
  try_parse (txt "2020-02-29T12:00:00-00:30") = Ok (Some (mkDate 0 0 12 29 2 2020 false 0 30)).
Proof. exact (conj eq_refl eq_refl). Qed.
Print Assumptions C85_small_offset_refuted.

(** a long year: an exception instead of a failure *)
Theorem C85_long_year_refuted : try_parse (txt "2147483648-01-01T00:00:00") = Throw.
Proof. exact eq_refl. Qed.
Print Assumptions C85_long_year_refuted.

(** What is written: exactly the dates of the calendar, leap seconds included *)
Theorem C85_written_iff : forall d, (exists t, to_xml d = Ok t) <-> calendar 60 d.
Proof. exact writes_iff. Qed.
Print Assumptions C85_written_iff.

(** Missing: years before 0, leap seconds, offsets of -1 to -9 hours (see above) *)
Theorem C85_round_trip_partial : forall d, calendar 59 d -> 0 <= t_year d -> (has_offset d = true -> 0 <= t_offh d \/ t_offh d <= -10) ->
  exists t, to_xml d = Ok t /\ iso t (normal d) /\ try_parse t = Ok (Some (normal d)).
Proof. exact round_trip_all. Qed.
Print Assumptions C85_round_trip_partial.
Example C85_round_trip_case : calendar 59 (mkDate 7 30 18 29 2 2024 false (-11) 30) /\
  to_xml (mkDate 7 30 18 29 2 2024 false (-11) 30) = Ok (txt "2024-02-29T18:30:07-11:30").
Proof. split; [repeat split; vm_compute; discriminate|reflexivity]. Qed.

(** Reading: exactly the texts of dates, with white space around them. ([iso] gives -00:30 the offset (0, 30), see above) *)
Theorem C85_read_iff : forall s d, try_parse s = Ok (Some d) <-> exists a t b, blank a /\ blank b /\ s = a ++ t ++ b /\ iso t d.
Proof. exact read_iff. Qed.
Print Assumptions C85_read_iff.
Example C85_read_case : try_parse (txt " 1999-12-31T23:59:59.25+01:00 ") = Ok (Some (mkDate 59 59 23 31 12 1999 false 1 0)).
Proof. reflexivity. Qed.
