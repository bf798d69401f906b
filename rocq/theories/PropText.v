(** C23-C26, C46, C47, C60: text formats. *)
From Coq Require Import String.
From Verif Require Import Base TextModel TextSpec TextProofs TextProofs2 TextProofs3 TextExamples.
Open Scope Z_scope.
Open Scope list_scope.

(** C23: the text of a coordinate is parsed to this coordinate. *)
Theorem C23_round_trip : forall c, coord_ok c -> parse_coordinate (coord_to_string c) = Ok (inl c).
Proof. exact coord_round_trip. Qed.
Print Assumptions C23_round_trip.

Example C23_example : coord_ok ex_coord /\ coord_to_string ex_coord = txt "Z-5C2147483647S0"%string.
Proof. exact ex_coord_ok. Qed.

(** C23: a string is accepted with result [c] iff it is a sequence of pairs, with pairwise different dimensions, that
    spells [c] (numbers not longer than the parser can hold). *)
Theorem C23_accepts_iff : forall s c, parse_coordinate s = Ok (inl c) <-> exists l, spells s l c /\ items_short l.
Proof. exact parse_iff. Qed.
Print Assumptions C23_accepts_iff.

(** C23: and no string spells two coordinates. *)
Theorem C23_one_meaning : forall s l l' c c', spells s l c -> items_short l -> spells s l' c' -> items_short l' -> c = c'.
Proof. exact spells_functional. Qed.
Print Assumptions C23_one_meaning.

(** What the letters stand for. *)
Theorem C23_letters : forall c d, char_dim c = Some d <->
  In d dims /\ (c = nth (Z.to_nat (d - 1)) (txt "ZCTRSIHVB"%string) 0 \/ c = nth (Z.to_nat (d - 1)) (txt "zctrsihvb"%string) 0).
Proof. exact letters_exact. Qed.
Print Assumptions C23_letters.

Example C23_parse_example : parse_coordinate (txt " C 12 ,T- 3;z+0"%string) = Ok (inl (tset (tset (tset empty_table 2 12) 3 (-3)) 1 0)) /\
  parse_coordinate (txt "C1T2C1"%string) = Ok (inr (DuplicateDimension 4)) /\
  parse_coordinate (txt "C1X2"%string) = Ok (inr (SyntaxError 2)).
Proof. exact ex_parse. Qed.

(** C24, for strings without negative character codes: success or failure, the error position inside the string, and
    what is accepted consists of pairs and separators only.  Missing: strings with negative codes, see below. *)
Theorem C24_total_partial : forall s, Forall (fun c => -1 <= c) s ->
  exists r, parse_coordinate s = Ok r /\ match r with inl _ => True | inr e => 0 <= perr_pos e <= len s end.
Proof. exact parse_total. Qed.
Print Assumptions C24_total_partial.
Theorem C24_sound : forall s c, parse_coordinate s = Ok (inl c) -> exists l, spells s l c /\ items_short l.
Proof. exact parse_sound. Qed.
Print Assumptions C24_sound.

Example C24_example : Forall (fun c => -1 <= c) (txt "C99999999999999999999"%string) /\
  exists p, parse_coordinate (txt "C99999999999999999999"%string) = Ok (inr (SyntaxError p)).
Proof. exact ex_total_hyp. Qed.

(** C24, refuted: a non-ASCII character where a digit may stand reaches isdigit with a negative argument. *)
Theorem C24_refuted : parse_coordinate (txt "C"%string ++ [-28; -1]) = UB.
Proof. exact parse_negative_char. Qed.
Print Assumptions C24_refuted.

(** C25 *)
Theorem C25_round_trip : forall b, bounds_ok b -> parse_bounds (bounds_to_string b) = Ok b.
Proof. exact bounds_round_trip. Qed.
Print Assumptions C25_round_trip.

Example C25_example : bounds_ok ex_bounds /\ bounds_to_string ex_bounds = txt "C-7:3V0:-1"%string.
Proof. exact ex_bounds_ok. Qed.

(** C26 *)
Theorem C26_contains : forall l i, listing_ok l ->
  exists set, parse_index_set (listing l) = Ok set /\
    (is_contained set i = true <-> exists e, In e (map (fun x => snd (fst x)) l) /\ entry_has e i).
Proof. exact index_set_contains. Qed.
Print Assumptions C26_contains.

Example C26_example : listing_ok ex_listing /\ listing ex_listing = txt "-inf--3, 4 ,7-inf"%string.
Proof. exact ex_listing_ok. Qed.

(** C46, partial: bags without keys or inner values ending in a backslash, last value not empty. *)
Theorem C46_round_trip_partial : forall l, l <> [] -> Forall pair_ok l ->
  (forall kv, In kv (removelast l) -> ~ ends_in_backslash (snd kv)) ->
  snd (last l ([], [])) <> [] ->
  tokenize (bag_text l) = Ok l.
Proof. exact bag_round_trip. Qed.
Print Assumptions C46_round_trip_partial.

Example C46_example : ex_bag <> [] /\ Forall pair_ok ex_bag /\
  (forall kv, In kv (removelast ex_bag) -> ~ ends_in_backslash (snd kv)) /\
  snd (last ex_bag ([], [])) <> [] /\
  bag_text ex_bag = txt "a\;b=x\=y;k=\"%string.
Proof. exact ex_bag_ok. Qed.

(** C46: with different keys the value found for a key is the one given. *)
Theorem C46_lookup : forall l k v, NoDup (map fst l) -> (lookup l k = Some v <-> In (k, v) l).
Proof. exact lookup_nodup. Qed.
Print Assumptions C46_lookup.

(** C46: no accepted string yields an empty key or nothing at all. *)
Theorem C46_keys : forall s r, tokenize s = Ok r -> Forall (fun kv : str * str => fst kv <> []) r /\ r <> [].
Proof. exact tokenize_keys. Qed.
Print Assumptions C46_keys.

(** C46, refuted: a value given for an empty key at the end is lost silently ... *)
Theorem C46_drops_refuted : tokenize (txt "a=b;=v"%string) = Ok [(txt "a"%string, txt "b"%string)].
Proof. exact bag_drops_value. Qed.
Print Assumptions C46_drops_refuted.

(** ... and no string whatsoever denotes a bag with a key that ends in a backslash. *)
Theorem C46_backslash_refuted : forall s r, tokenize s = Ok r -> Forall (fun kv : str * str => ~ ends_in_backslash (fst kv)) r.
Proof. exact bag_no_backslash_key. Qed.
Print Assumptions C46_backslash_refuted.

(** C47 *)
Theorem C47_round_trip : forall r g b, is_byte r -> is_byte g -> is_byte b ->
  parse_color (color_to_string (r, g, b)) = Ok (Some (r, g, b)).
Proof. exact color_round_trip. Qed.
Print Assumptions C47_round_trip.

(** C47, partial: the meaning of every string of characters up to 255 (surrounded by blanks).  It admits additional hexadecimal
    digits after the colour. *)
Theorem C47_meaning_partial : forall w t w', narrow t ->
  Forall (fun c => is_blank c = true) w -> Forall (fun c => is_blank c = true) w' -> no_outer_blank t ->
  parse_color (w ++ t ++ w') = Ok (color_of t).
Proof. exact parse_color_spec. Qed.
Print Assumptions C47_meaning_partial.

Example C47_example : parse_color (txt "FF112233"%string) = Ok None /\ parse_color (txt "#FF11223"%string) = Ok None /\
  parse_color (txt "#FF11223G"%string) = Ok None.
Proof. exact color_rejects. Qed.

(** C47, refuted: a malformed string that is accepted, and one for which nothing is guaranteed. *)
Theorem C47_overlong_refuted : parse_color (txt "#FF11223344"%string) = Ok (Some (17, 34, 51)).
Proof. exact color_overlong. Qed.
Print Assumptions C47_overlong_refuted.
Theorem C47_wide_refuted : parse_color (35 :: [8364]) = UB.
Proof. exact color_wide_char. Qed.
Print Assumptions C47_wide_refuted.

(** C60, partial: every well-formed bounds string is accepted with its meaning; the parser never does anything but succeed or fail. *)
Theorem C60_complete_partial : forall s l b, spells_bounds s l b -> parse_bounds s = Ok b.
Proof. exact bounds_complete. Qed.
Print Assumptions C60_complete_partial.
Theorem C60_total : forall s, (exists b, parse_bounds s = Ok b) \/ parse_bounds s = Throw.
Proof. exact parse_bounds_total. Qed.
Print Assumptions C60_total.

Example C60_example : exists l b, spells_bounds (txt "T+1:2 c0:5"%string) l b.
Proof. exact ex_bounds_spelled. Qed.

(** C60, refuted: junk is accepted. *)
Theorem C60_refuted : parse_bounds (txt "?C0:3"%string) = Ok (tset empty_table 2 (0, 3)) /\
  parse_bounds (txt "C|5:3"%string) = Ok (tset empty_table 2 (0, 3)).
Proof. exact bounds_accepts_junk. Qed.
Print Assumptions C60_refuted.
