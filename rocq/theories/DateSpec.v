(** Dates and times: what the texts mean (XSD dateTime, ISO 8601). *)
From Verif Require Import Base TextModel DateModel.
Open Scope Z_scope.

Definition leap (y : Z) : bool := ((y mod 4 =? 0) && negb (y mod 100 =? 0)) || (y mod 400 =? 0).
Definition month_days (y m : Z) : Z :=
  match m with 2 => if leap y then 29 else 28 | 4 | 6 | 9 | 11 => 30 | _ => 31 end.
(** a point in time of the calendar; [last] is the last second of a minute *)
Definition calendar (last : Z) (d : datetime) : Prop :=
  -9999 <= t_year d <= 9999 /\ 1 <= t_mon d <= 12 /\ 1 <= t_mday d <= month_days (t_year d) (t_mon d) /\
  0 <= t_hour d <= 23 /\ 0 <= t_min d <= 59 /\ 0 <= t_sec d <= last.

Definition two (v : Z) : str := [48 + v / 10; 48 + v mod 10].
Definition four (v : Z) : str := two (v / 100) ++ two (v mod 100).
Definition minus (neg : bool) (v : Z) : Z := if neg then - v else v.

Definition decimals (s : str) : Prop := s = [] \/ exists ds, ds <> [] /\ Forall (fun c => 48 <= c <= 57) ds /\ s = 46 :: ds.
(** the zone: nothing, Z or an offset; unspecified offsets are INT_MIN *)
Definition zone (d : datetime) (s : str) : Prop :=
  (s = [] /\ t_utc d = false /\ t_offh d = INT_MIN /\ t_offm d = INT_MIN) \/
  (s = [90] /\ t_utc d = true /\ t_offh d = INT_MIN /\ t_offm d = INT_MIN) \/
  (exists neg h m, 0 <= h <= 23 /\ 0 <= m <= 59 /\ s = [if neg : bool then 45 else 43] ++ two h ++ [58] ++ two m /\
     t_utc d = false /\ t_offh d = minus neg h /\ t_offm d = m).
(** [s] is a text for [d] *)
Definition iso (s : str) (d : datetime) : Prop :=
  exists neg y frac z, 0 <= y <= 9999 /\ t_year d = minus neg y /\ calendar 59 d /\ decimals frac /\ zone d z /\
    s = (if neg : bool then [45] else []) ++ four y ++ [45] ++ two (t_mon d) ++ [45] ++ two (t_mday d) ++ [84] ++
        two (t_hour d) ++ [58] ++ two (t_min d) ++ [58] ++ two (t_sec d) ++ frac ++ z.

Definition blank (s : str) : Prop := Forall (fun c => c = 32 \/ c = 9) s.
(** offsets which are not used are not kept *)
Definition normal (d : datetime) : datetime :=
  if has_offset d then d
  else mkDate (t_sec d) (t_min d) (t_hour d) (t_mday d) (t_mon d) (t_year d) (t_utc d) INT_MIN INT_MIN.
