(** Dates and times of the metadata: XmlDateTime (libCZI_Metadata.h l.25-96, CziMetadataBuilder.cpp l.586-705).
    Strings are lists of character codes; the classic locale. Not modelled: the limits of the implementation of
    std::regex on very long strings. *)
From Verif Require Import Base TextModel.
Open Scope Z_scope.

(** libCZI_Metadata.h l.25-40 *)
Record datetime := mkDate {
  t_sec : Z; t_min : Z; t_hour : Z; t_mday : Z; t_mon : Z; t_year : Z; t_utc : bool; t_offh : Z; t_offm : Z }.

(** HasTimeZoneOffset, libCZI_Metadata.h l.54-67 *)
Definition has_offset (d : datetime) : bool :=
  if t_utc d then false
  else negb ((t_offh d <=? -24) || (24 <=? t_offh d) || (60 <=? t_offm d) || (t_offm d <? 0)).

(** IsValid, CziMetadataBuilder.cpp l.617-628; % truncates *)
Definition is_valid (d : datetime) : bool :=
  (0 <=? t_sec d) && (t_sec d <=? 60) && (0 <=? t_min d) && (t_min d <=? 59) && (0 <=? t_hour d) && (t_hour d <=? 23) &&
  (-10000 <? t_year d) && (t_year d <? 10000) && (1 <=? t_mon d) && (t_mon d <=? 12) && (1 <=? t_mday d) &&
  (t_mday d <=? (if t_mon d =? 2 then
                   if (negb (Z.rem (t_year d) 100 =? 0) && (Z.rem (t_year d) 4 =? 0)) || (Z.rem (t_year d) 400 =? 0) then 29 else 28
                 else if (t_mon d =? 9) || (t_mon d =? 4) || (t_mon d =? 6) || (t_mon d =? 11) then 30 else 31)).

(** ss << setfill('0') << setw(n) << v: the fill characters come before the sign *)
Definition padded (n : nat) (v : Z) : str := repeat 48 (n - length (dec v)) ++ dec v.

(** ToXmlString, l.586-610 *)
Definition to_xml (d : datetime) : res str :=
  if negb (is_valid d) then Throw else
  Ok (padded 4 (t_year d) ++ [45] ++ padded 2 (t_mon d) ++ [45] ++ padded 2 (t_mday d) ++ [84] ++
      padded 2 (t_hour d) ++ [58] ++ padded 2 (t_min d) ++ [58] ++ padded 2 (t_sec d) ++
      (if t_utc d then [90]
       else if has_offset d then (if 0 <=? t_offh d then [43] else []) ++ padded 2 (t_offh d) ++ [58] ++ padded 2 (t_offm d)
       else [])).

(** the regular expression of l.639, group by group: a year of four digits, or more not beginning with 0; month; day; hour;
    minute; second; decimal places; zone *)
Definition rx_year (s : str) : option (str * str) :=
  let '(sg, r) := match s with c :: r => if c =? 45 then ([45], r) else ([], s) | [] => ([], []) end in
  let '(ds, r') := span is_digit r in
  if (length ds =? 4)%nat || ((4 <? length ds)%nat && negb (hd 48 ds =? 48)) then Some (sg ++ ds, r') else None.
Definition rx2 (p : Z -> Z -> bool) (s : str) : option (str * str) :=
  match s with a :: b :: r => if p a b then Some ([a; b], r) else None | _ => None end.
Definition rx_char (c : Z) (s : str) : option str := match s with a :: r => if a =? c then Some r else None | [] => None end.
Definition p_month (a b : Z) : bool := ((a =? 49) && (48 <=? b) && (b <=? 50)) || ((a =? 48) && (49 <=? b) && (b <=? 57)).
Definition p_day (a b : Z) : bool :=
  ((a =? 51) && ((b =? 48) || (b =? 49))) || ((a =? 48) && (49 <=? b) && (b <=? 57)) || (((a =? 49) || (a =? 50)) && is_digit b).
Definition p_hour (a b : Z) : bool := ((a =? 50) && (48 <=? b) && (b <=? 51)) || (((a =? 48) || (a =? 49)) && is_digit b).
Definition p_60 (a b : Z) : bool := (48 <=? a) && (a <=? 53) && is_digit b.
Definition rx_frac (s : str) : option str :=
  match s with
  | c :: r => if c =? 46 then let '(ds, r') := span is_digit r in match ds with [] => None | _ => Some r' end else Some s
  | [] => Some []
  end.
(** group 8, up to the end of the string *)
Definition rx_zone (s : str) : option str :=
  match s with
  | [] => Some []
  | [c] => if c =? 90 then Some s else None
  | [sg; a; b; k; c; e] => if ((sg =? 43) || (sg =? 45)) && p_hour a b && (k =? 58) && p_60 c e then Some s else None
  | _ => None
  end.
Definition obind {A B} (o : option A) (f : A -> option B) : option B := match o with Some a => f a | None => None end.
Notation "'let?' x := o 'in' k" := (obind o (fun x => k)) (at level 200, x pattern, o at level 100, k at level 200).
(** the groups year, month, day, hour, minute, second, zone *)
Definition rx_date (s : str) : option (str * str * str * str * str * str * str) :=
  let? (y, s) := rx_year s in let? s := rx_char 45 s in
  let? (mo, s) := rx2 p_month s in let? s := rx_char 45 s in
  let? (da, s) := rx2 p_day s in let? s := rx_char 84 s in
  let? (h, s) := rx2 p_hour s in let? s := rx_char 58 s in
  let? (mi, s) := rx2 p_60 s in let? s := rx_char 58 s in
  let? (se, s) := rx2 p_60 s in
  let? s := rx_frac s in
  let? z := rx_zone s in Some (y, mo, da, h, mi, se, z).

(** std::stoi *)
Definition stoi (s : str) : res Z := let v := strtol s in if in_i32b v then Ok v else Throw.

(** l.683-695 *)
Definition zone_fields (z : str) : res (bool * Z * Z) :=
  match z with
  | [] => Ok (false, INT_MIN, INT_MIN)
  | c :: _ =>
    if c =? 90 then Ok (true, INT_MIN, INT_MIN)
    else if ((c =? 43) || (c =? 45)) && (6 <=? length z)%nat then
      let* oh := stoi (firstn 3 z) in
      let* om := stoi (firstn 2 (skipn 4 z)) in Ok (false, oh, om)
    else Ok (false, INT_MIN, INT_MIN)
  end.

(** TryParse, l.636-705; [None] is the result false *)
Definition try_parse (s0 : str) : res (option datetime) :=
  match rx_date (trim s0) with
  | None => Ok None
  | Some (y, mo, da, h, mi, se, z) =>
    let* year := stoi y in
    let* mon := stoi mo in
    let* mday := stoi da in
    let* hour := stoi h in
    let* min := stoi mi in
    let* sec := stoi se in
    let* (utc, oh, om) := zone_fields z in
    let d := mkDate sec min hour mday mon year utc oh om in
    Ok (if is_valid d then Some d else None)
  end.
