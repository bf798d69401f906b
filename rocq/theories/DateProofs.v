(** Dates and times: proofs. *)
From Verif Require Import Base TextModel TextSpec TextProofs DateModel DateSpec.
Open Scope Z_scope.

Lemma digit_iff c : is_digit c = true <-> 48 <= c <= 57.
Proof. unfold is_digit. lia. Qed.
Lemma digits_iff s : all is_digit s <-> Forall (fun c => 48 <= c <= 57) s.
Proof. split; apply Forall_impl; intros c; apply digit_iff. Qed.

(** ** the calendar *)
Lemma leap_rem y : (negb (Z.rem y 100 =? 0) && (Z.rem y 4 =? 0)) || (Z.rem y 400 =? 0) = leap y.
Proof.
  assert (H : forall k, 0 < k -> (Z.rem y k =? 0) = (y mod k =? 0)).
  { intros k Hk. apply eq_true_iff_eq. rewrite !Z.eqb_eq, Z.rem_divide, Z.mod_divide by lia. tauto. }
  rewrite !H by lia. unfold leap. rewrite (andb_comm (negb _)). reflexivity.
Qed.
Lemma valid_iff d : is_valid d = true <-> calendar 60 d.
Proof.
  unfold is_valid, calendar. rewrite leap_rem.
  assert (M : forall l m, 1 <= m <= 12 -> (if m =? 2 then if l : bool then 29 else 28 else if (m =? 9) || (m =? 4) || (m =? 6) || (m =? 11) then 30 else 31) =
    match m with 2 => if l then 29 else 28 | 4 | 6 | 9 | 11 => 30 | _ => 31 end).
  { intros l m H. assert (C : m = 1 \/ m = 2 \/ m = 3 \/ m = 4 \/ m = 5 \/ m = 6 \/ m = 7 \/ m = 8 \/ m = 9 \/ m = 10 \/ m = 11 \/ m = 12) by lia.
    repeat (destruct C as [->|C]; [reflexivity|]). subst. reflexivity. }
  specialize (M (leap (t_year d)) (t_mon d)). unfold month_days. split.
  - rewrite !andb_true_iff, !Z.leb_le, !Z.ltb_lt. intros H. rewrite M in H by lia. lia.
  - intros H. rewrite M by lia. rewrite !andb_true_iff, !Z.leb_le, !Z.ltb_lt. lia.
Qed.

(** ** two and four digits *)
Lemma two_of a b : is_digit a = true -> is_digit b = true -> [a; b] = two (10 * (a - 48) + (b - 48)).
Proof. rewrite !digit_iff. intros A B. unfold two. f_equal; [lia|]. f_equal. lia. Qed.
Lemma two_digits v : 0 <= v <= 99 -> all is_digit (two v).
Proof. intros H. unfold two. repeat constructor; apply digit_iff; lia. Qed.
Lemma dval_two v : 0 <= v <= 99 -> dval (two v) = v.
Proof. intros H. unfold two, dval. cbn [fold_left]. lia. Qed.
Lemma four_digits v : 0 <= v <= 9999 -> all is_digit (four v).
Proof. intros H. unfold four. apply Forall_app. split; apply two_digits; lia. Qed.
Lemma dval_four v : 0 <= v <= 9999 -> dval (four v) = v.
Proof. intros H. unfold four, two, dval. cbn [app fold_left]. lia. Qed.
Lemma four_of a b c e : all is_digit [a; b; c; e] -> [a; b; c; e] = four (dval [a; b; c; e]).
Proof.
  intros H. inversion H as [|? ? A H1]; subst. inversion H1 as [|? ? B H2]; subst. inversion H2 as [|? ? C H3]; subst. inversion H3 as [|? ? E _]; subst.
  apply digit_iff in A, B, C, E. unfold four, two, dval. cbn [fold_left app]. repeat f_equal; lia.
Qed.
Lemma stoi_two v : 0 <= v <= 99 -> stoi (two v) = Ok v.
Proof. intros H. unfold stoi. rewrite strtol_digits, dval_two by (try apply two_digits; lia). replace (in_i32b v) with true; [reflexivity|]. unfold in_i32b, INT_MIN, INT_MAX. lia. Qed.

Ltac pred := unfold p_month, p_day, p_hour, p_60, two, is_digit in *.
Lemma pair_eq (a b c d : Z) : [a; b] = [c; d] -> a = c /\ b = d.
Proof. intros H. split; congruence. Qed.
Ltac two_lia v E := unfold two in E; apply pair_eq in E; destruct E as [-> ->]; pred; assert (HE : v = 10 * (v / 10) + v mod 10 /\ 0 <= v mod 10 < 10) by lia; revert HE; generalize (v / 10) (v mod 10); intros q r HE;
  repeat match goal with |- context [?x =? ?y] => let E := fresh in destruct (Z.eqb_spec x y) as [E|E] | |- context [?x <=? ?y] => let E := fresh in destruct (Z.leb_spec x y) as [E|E] end; cbn [andb orb]; try reflexivity; exfalso; lia.
Lemma p_month_iff a b : p_month a b = true <-> exists v, 1 <= v <= 12 /\ [a; b] = two v.
Proof.
  split.
  - intros H. exists (10 * (a - 48) + (b - 48)). split; [pred; lia|apply two_of; pred; lia].
  - intros (v & V & E). two_lia v E.
Qed.
Lemma p_day_iff a b : p_day a b = true <-> exists v, 1 <= v <= 31 /\ [a; b] = two v.
Proof.
  split.
  - intros H. exists (10 * (a - 48) + (b - 48)). split; [pred; lia|apply two_of; pred; lia].
  - intros (v & V & E). two_lia v E.
Qed.
Lemma p_hour_iff a b : p_hour a b = true <-> exists v, 0 <= v <= 23 /\ [a; b] = two v.
Proof.
  split.
  - intros H. exists (10 * (a - 48) + (b - 48)). split; [pred; lia|apply two_of; pred; lia].
  - intros (v & V & E). two_lia v E.
Qed.
Lemma p_60_iff a b : p_60 a b = true <-> exists v, 0 <= v <= 59 /\ [a; b] = two v.
Proof.
  split.
  - intros H. exists (10 * (a - 48) + (b - 48)). split; [pred; lia|apply two_of; pred; lia].
  - intros (v & V & E). two_lia v E.
Qed.
Lemma rx2_inv p s x r : rx2 p s = Some (x, r) -> exists a b, x = [a; b] /\ s = [a; b] ++ r /\ p a b = true.
Proof. unfold rx2. destruct s as [|a [|b s]]; try discriminate. destruct (p a b) eqn:P; [|discriminate]. intros H. injection H as <- <-. now exists a, b. Qed.
Lemma rx2_two p v r : (forall a b, [a; b] = two v -> p a b = true) -> rx2 p (two v ++ r) = Some (two v, r).
Proof. intros H. unfold two, rx2. cbn [app]. rewrite H by reflexivity. reflexivity. Qed.
Lemma rx_char_inv c s r : rx_char c s = Some r -> s = c :: r.
Proof. unfold rx_char. destruct s as [|a s]; [discriminate|]. destruct (a =? c) eqn:E; [|discriminate]. intros H. injection H as <-. f_equal. lia. Qed.

(** ** the year *)
Lemma dval_nonneg s : all is_digit s -> 0 <= dval s.
Proof.
  induction s as [|c s IH] using rev_ind; intros H; [now compute|]. rewrite dval_app. apply Forall_app in H. destruct H as [H C].
  inversion C as [|? ? D]; subst. specialize (IH H). apply digit_iff in D. lia.
Qed.
Lemma dval_big c s : 49 <= c -> all is_digit s -> 10 ^ Z.of_nat (length s) <= dval (c :: s).
Proof.
  intros C H. pose proof (dval_nonneg s H) as P. unfold dval at 1. cbn [fold_left]. rewrite dval_from.
  assert (0 < 10 ^ Z.of_nat (length s)) by (apply Z.pow_pos_nonneg; lia). nia.
Qed.
Lemma rx_year_inv s x r : rx_year s = Some (x, r) -> exists neg ds, x = (if neg : bool then [45] else []) ++ ds /\ s = x ++ r /\ all is_digit ds /\ strtol x = minus neg (dval ds) /\ (length ds = 4%nat \/ 10000 <= dval ds).
Proof.
  unfold rx_year. set (q := match s with c :: r => if c =? 45 then ([45], r) else ([], s) | [] => ([], []) end).
  assert (Q : exists neg, fst q = (if neg : bool then [45] else []) /\ s = fst q ++ snd q).
  { unfold q. destruct s as [|c s]; [now exists false|]. destruct (c =? 45) eqn:E; [exists true|exists false]; cbn [fst snd app]; split; try reflexivity. f_equal. lia. }
  clearbody q. destruct q as [sg r0]. destruct Q as (neg & E1 & E2). cbn [fst snd] in *. destruct (span is_digit r0) as [ds r'] eqn:SP.
  apply span_spec in SP. destruct SP as (E3 & D & _). destruct (_ || _) eqn:C; [|discriminate]. intros H. injection H as <- <-. exists neg, ds.
  split; [now rewrite E1|]. split; [rewrite <- app_assoc; congruence|]. split; [exact D|]. split.
  - rewrite E1. destruct neg; cbn [app minus]; [now apply strtol_minus|now apply strtol_digits].
  - destruct (length ds =? 4)%nat eqn:L; [left; now apply Nat.eqb_eq|right]. cbn [orb] in C. destruct ds as [|c ds]; [discriminate|]. cbn [hd length] in C.
    apply andb_prop in C. destruct C as [C1 C2]. apply Nat.ltb_lt in C1. inversion D as [|? ? DC DS]; subst. apply digit_iff in DC.
    assert (P : 10 ^ 4 <= 10 ^ Z.of_nat (length ds)) by (apply Z.pow_le_mono_r; lia). pose proof (dval_big c ds ltac:(lia) DS). lia.
Qed.
Lemma rx_year_four neg y r : 0 <= y <= 9999 -> stops is_digit r -> rx_year ((if neg : bool then [45] else []) ++ four y ++ r) = Some ((if neg then [45] else []) ++ four y, r).
Proof.
  intros Y R. pose proof (four_digits y Y) as D. unfold rx_year. destruct neg; cbn [app].
  - change (45 =? 45) with true. cbv iota. rewrite span_app by assumption. reflexivity.
  - pose proof (span_app is_digit (four y) r D R) as SP. assert (E : exists c t, four y = c :: t /\ (c =? 45) = false /\ length t = 3%nat).
    { unfold four, two. eexists _, _. split; [reflexivity|]. split; [lia|reflexivity]. }
    destruct E as (c & t & E & N & L). rewrite E in *. cbn [app] in *. rewrite N, SP. cbn [length]. rewrite L. reflexivity.
Qed.

(** ** decimal places and zone *)
Lemma rx_frac_inv s r : rx_frac s = Some r -> exists f, decimals f /\ s = f ++ r.
Proof.
  unfold rx_frac. destruct s as [|c s]; [intros H; injection H as <-; exists []; split; [now left|reflexivity]|]. destruct (c =? 46) eqn:C.
  - destruct (span is_digit s) as [ds r'] eqn:SP. apply span_spec in SP. destruct SP as (E & D & _). destruct ds as [|x ds]; [discriminate|]. intros H. injection H as <-.
    exists (46 :: x :: ds). split; [right; exists (x :: ds); split; [discriminate|]; split; [now apply digits_iff|reflexivity]|]. cbn [app]. f_equal; [lia|exact E].
  - intros H. injection H as <-. exists []. split; [now left|reflexivity].
Qed.
Lemma rx_frac_ok f r : decimals f -> stops (fun c => is_digit c || (c =? 46)) r -> rx_frac (f ++ r) = Some r.
Proof.
  intros [->|(ds & N & D & ->)] R; cbn [app].
  - destruct r as [|c r]; [reflexivity|]. cbn [stops] in R. unfold rx_frac. destruct (c =? 46) eqn:C; [|reflexivity]. rewrite orb_true_r in R. discriminate.
  - unfold rx_frac. cbn [Z.eqb]. change (46 =? 46) with true. cbv iota. rewrite span_app; [|now apply digits_iff|].
    + destruct ds; [contradiction|reflexivity].
    + destruct r as [|c r]; [exact I|]. cbn [stops] in *. now apply orb_false_elim in R.
Qed.
Definition zone_text (s : str) : Prop := s = [] \/ s = [90] \/ exists neg h m, 0 <= h <= 23 /\ 0 <= m <= 59 /\ s = [if neg : bool then 45 else 43] ++ two h ++ [58] ++ two m.
Lemma rx_zone_inv s z : rx_zone s = Some z -> z = s /\ zone_text s.
Proof.
  unfold rx_zone, zone_text. destruct s as [|c [|a [|b [|k [|e [|g [|x s]]]]]]]; try discriminate.
  - intros H. injection H as <-. auto.
  - destruct (c =? 90) eqn:C; [|discriminate]. intros H. injection H as <-. split; [reflexivity|]. right. left. f_equal. lia.
  - destruct (_ && _) eqn:C; [|discriminate]. intros H. injection H as <-. split; [reflexivity|]. right. right.
    apply andb_prop in C. destruct C as [C C3]. apply andb_prop in C. destruct C as [C C2]. apply andb_prop in C. destruct C as [C0 C1].
    apply p_hour_iff in C1. apply p_60_iff in C3. destruct C1 as (h & H & E), C3 as (m & M & F). exists (c =? 45), h, m. split; [exact H|]. split; [exact M|].
    rewrite <- E, <- F. cbn [app]. destruct (c =? 45) eqn:X; repeat f_equal; lia.
Qed.
Lemma rx_zone_ok s : zone_text s -> rx_zone s = Some s.
Proof.
  intros [->|[->|(neg & h & m & H & M & ->)]]; [reflexivity..|].
  assert (P : p_hour (48 + h / 10) (48 + h mod 10) = true) by (apply p_hour_iff; exists h; split; [exact H|reflexivity]).
  assert (Q : p_60 (48 + m / 10) (48 + m mod 10) = true) by (apply p_60_iff; exists m; split; [exact M|reflexivity]).
  unfold two. cbn [app rx_zone]. rewrite P, Q. destruct neg; reflexivity.
Qed.

(** ** the whole text *)
Definition text_of (neg : bool) (y mo da h mi se : Z) (f z : str) : str :=
  (if neg then [45] else []) ++ four y ++ [45] ++ two mo ++ [45] ++ two da ++ [84] ++ two h ++ [58] ++ two mi ++ [58] ++ two se ++ f ++ z.
Lemma rx_date_text neg y mo da h mi se f z : 0 <= y <= 9999 -> 1 <= mo <= 12 -> 1 <= da <= 31 -> 0 <= h <= 23 -> 0 <= mi <= 59 -> 0 <= se <= 59 ->
  decimals f -> zone_text z -> rx_date (text_of neg y mo da h mi se f z) = Some ((if neg then [45] else []) ++ four y, two mo, two da, two h, two mi, two se, z).
Proof.
  intros Y Mo Da H Mi Se F Z. unfold rx_date, text_of. rewrite rx_year_four by (try exact Y; reflexivity). cbn [obind app]. unfold rx_char at 1. rewrite Z.eqb_refl. cbn [obind].
  rewrite rx2_two by (intros a b E; apply p_month_iff; now exists mo). cbn [obind app]. unfold rx_char at 1. rewrite Z.eqb_refl. cbn [obind].
  rewrite rx2_two by (intros a b E; apply p_day_iff; now exists da). cbn [obind app]. unfold rx_char at 1. rewrite Z.eqb_refl. cbn [obind].
  rewrite rx2_two by (intros a b E; apply p_hour_iff; now exists h). cbn [obind app]. unfold rx_char at 1. rewrite Z.eqb_refl. cbn [obind].
  rewrite rx2_two by (intros a b E; apply p_60_iff; now exists mi). cbn [obind app]. unfold rx_char at 1. rewrite Z.eqb_refl. cbn [obind].
  rewrite rx2_two by (intros a b E; apply p_60_iff; now exists se). cbn [obind].
  rewrite rx_frac_ok; [|exact F|destruct Z as [->|[->|(neg' & h' & m' & _ & _ & ->)]]; [exact I|reflexivity|destruct neg'; reflexivity]]. cbn [obind].
  rewrite rx_zone_ok by exact Z. reflexivity.
Qed.
Lemma rx_date_inv s y mo da h mi se z : rx_date s = Some (y, mo, da, h, mi, se, z) -> exists neg ds mo' da' h' mi' se' f,
  y = (if neg : bool then [45] else []) ++ ds /\ all is_digit ds /\ strtol y = minus neg (dval ds) /\ (length ds = 4%nat \/ 10000 <= dval ds) /\
  1 <= mo' <= 12 /\ mo = two mo' /\ 1 <= da' <= 31 /\ da = two da' /\ 0 <= h' <= 23 /\ h = two h' /\ 0 <= mi' <= 59 /\ mi = two mi' /\ 0 <= se' <= 59 /\ se = two se' /\
  decimals f /\ zone_text z /\ s = y ++ [45] ++ mo ++ [45] ++ da ++ [84] ++ h ++ [58] ++ mi ++ [58] ++ se ++ f ++ z.
Proof.
  unfold rx_date. intros H.
  destruct (rx_year s) as [[y0 s1]|] eqn:E1; [|discriminate]. cbn [obind] in H. destruct (rx_char 45 s1) as [s2|] eqn:E2; [|discriminate]. cbn [obind] in H.
  destruct (rx2 p_month s2) as [[mo0 s3]|] eqn:E3; [|discriminate]. cbn [obind] in H. destruct (rx_char 45 s3) as [s4|] eqn:E4; [|discriminate]. cbn [obind] in H.
  destruct (rx2 p_day s4) as [[da0 s5]|] eqn:E5; [|discriminate]. cbn [obind] in H. destruct (rx_char 84 s5) as [s6|] eqn:E6; [|discriminate]. cbn [obind] in H.
  destruct (rx2 p_hour s6) as [[h0 s7]|] eqn:E7; [|discriminate]. cbn [obind] in H. destruct (rx_char 58 s7) as [s8|] eqn:E8; [|discriminate]. cbn [obind] in H.
  destruct (rx2 p_60 s8) as [[mi0 s9]|] eqn:E9; [|discriminate]. cbn [obind] in H. destruct (rx_char 58 s9) as [s10|] eqn:E10; [|discriminate]. cbn [obind] in H.
  destruct (rx2 p_60 s10) as [[se0 s11]|] eqn:E11; [|discriminate]. cbn [obind] in H. destruct (rx_frac s11) as [s12|] eqn:E12; [|discriminate]. cbn [obind] in H.
  destruct (rx_zone s12) as [z0|] eqn:E13; [|discriminate]. cbn [obind] in H. injection H as -> -> -> -> -> -> ->.
  apply rx_year_inv in E1. destruct E1 as (neg & ds & A1 & A2 & A3 & A4 & A5). apply rx_char_inv in E2, E4, E6, E8, E10.
  apply rx2_inv in E3, E5, E7, E9, E11. destruct E3 as (? & ? & B1 & B2 & B3), E5 as (? & ? & C1 & C2 & C3), E7 as (? & ? & D1 & D2 & D3), E9 as (? & ? & F1 & F2 & F3), E11 as (? & ? & G1 & G2 & G3).
  apply p_month_iff in B3. apply p_day_iff in C3. apply p_hour_iff in D3. apply p_60_iff in F3, G3.
  destruct B3 as (mo' & B3 & B4), C3 as (da' & C3 & C4), D3 as (h' & D3 & D4), F3 as (mi' & F3 & F4), G3 as (se' & G3 & G4).
  apply rx_frac_inv in E12. destruct E12 as (f & Fr & E12). apply rx_zone_inv in E13. destruct E13 as [-> E13].
  exists neg, ds, mo', da', h', mi', se', f. rewrite <- B1 in B2, B4. rewrite <- C1 in C2, C4. rewrite <- D1 in D2, D4. rewrite <- F1 in F2, F4. rewrite <- G1 in G2, G4.
  repeat (split; [assumption|]). rewrite A2, E2, B2, E4, C2, E6, D2, E8, F2, E10, G2, E12. rewrite <- ?app_assoc. reflexivity.
Qed.

(** ** white space around the text *)
Definition ends_ok (s : str) : Prop := exists p c, s = p ++ [c] /\ is_blank c = false.
Lemma ends_app_r a b : ends_ok b -> ends_ok (a ++ b).
Proof. intros (p & c & -> & C). exists (a ++ p), c. split; [now rewrite app_assoc|exact C]. Qed.
Lemma blank_all s : blank s <-> all is_blank s.
Proof. split; apply Forall_impl; intros c; unfold is_blank; lia. Qed.
Lemma trim_split s : exists a b, blank a /\ blank b /\ s = a ++ trim s ++ b.
Proof.
  unfold trim. destruct (span is_blank s) as [a r] eqn:E. apply span_spec in E. destruct E as (E & A & _). cbn [snd].
  destruct (span is_blank (rev r)) as [b q] eqn:F. apply span_spec in F. destruct F as (F & B & _). cbn [snd]. exists a, (rev b).
  split; [now apply blank_all|]. split; [apply blank_all, Forall_rev, B|]. rewrite E. f_equal. rewrite <- rev_app_distr, <- F. now rewrite rev_involutive.
Qed.
Lemma trim_of a t b : blank a -> blank b -> t <> [] -> stops is_blank t -> ends_ok t -> trim (a ++ t ++ b) = t.
Proof.
  intros A B N S (p & c & E & C). apply blank_all in A, B. unfold trim. rewrite span_app; [|exact A|destruct t; [contradiction|exact S]]. cbn [snd].
  rewrite rev_app_distr. rewrite span_app; [|apply Forall_rev, B|rewrite E, rev_app_distr; exact C]. cbn [snd]. apply rev_involutive.
Qed.
Lemma text_bounds neg y mo da h mi se f z : 0 <= y <= 9999 -> 0 <= se <= 59 -> decimals f -> zone_text z ->
  let t := text_of neg y mo da h mi se f z in t <> [] /\ stops is_blank t /\ ends_ok t.
Proof.
  intros Y S F Z t. assert (T : ends_ok (two se ++ f ++ z)).
  { assert (TW : forall v, 0 <= v <= 99 -> ends_ok (two v)). { intros v V. exists [48 + v / 10], (48 + v mod 10). split; [reflexivity|]. unfold is_blank. lia. }
    destruct Z as [->|[->|(n & h' & m' & H' & M' & ->)]].
    - rewrite app_nil_r. destruct F as [->|(ds & N & D & ->)]; [rewrite app_nil_r; apply TW; lia|]. apply ends_app_r. destruct (exists_last N) as (p & c & ->).
      exists (46 :: p), c. split; [reflexivity|]. apply Forall_app in D. destruct D as [_ D]. inversion D; subst. unfold is_blank. lia.
    - do 2 apply ends_app_r. exists [], 90. split; reflexivity.
    - do 5 apply ends_app_r. apply TW. lia. }
  unfold t, text_of. split; [destruct neg; discriminate|]. split; [destruct neg; [reflexivity|]; unfold four, two; cbn [app stops]; unfold is_blank; lia|].
  do 11 apply ends_app_r. exact T.
Qed.

(** ** the zone *)
Lemma zone_iff d z : zone d z <-> zone_text z /\ zone_fields z = Ok (t_utc d, t_offh d, t_offm d).
Proof.
  assert (X : forall neg h m, 0 <= h <= 23 -> 0 <= m <= 59 -> zone_fields ([if neg : bool then 45 else 43] ++ two h ++ [58] ++ two m) = Ok (false, minus neg h, m)).
  { intros neg h m H M. pose proof (two_digits h ltac:(lia)) as DH. assert (S : stoi ([if neg then 45 else 43] ++ two h) = Ok (minus neg h)).
    { unfold stoi. destruct neg; cbn [app minus]; [rewrite strtol_minus by exact DH|rewrite strtol_plus by exact DH]; rewrite dval_two by lia.
      - replace (in_i32b (- h)) with true; [reflexivity|]. unfold in_i32b, INT_MIN, INT_MAX. lia.
      - replace (in_i32b h) with true; [reflexivity|]. unfold in_i32b, INT_MIN, INT_MAX. lia. }
    assert (U : zone_fields ([if neg then 45 else 43] ++ two h ++ [58] ++ two m) = (let* oh := stoi ([if neg then 45 else 43] ++ two h) in let* om := stoi (two m) in Ok (false, oh, om))) by (destruct neg; reflexivity).
    rewrite U, S. cbn [bind]. rewrite stoi_two by lia. reflexivity. }
  unfold zone, zone_text. split.
  - intros [(-> & U & H & M)|[(-> & U & H & M)|(neg & h & m & H & M & -> & U & HH & MM)]].
    + split; [now left|]. rewrite U, H, M. reflexivity.
    + split; [right; now left|]. rewrite U, H, M. reflexivity.
    + split; [right; right; now exists neg, h, m|]. rewrite U, HH, MM. now apply X.
  - intros [[->|[->|(neg & h & m & H & M & ->)]] E].
    + left. cbn in E. injection E as U H M. auto.
    + right. left. cbn in E. injection E as U H M. auto.
    + right. right. exists neg, h, m. rewrite X in E by assumption. injection E as U HH MM. auto 8.
Qed.

(** ** parsing *)
Lemma after_match y mo da h mi se z utc oh om : 0 <= mo <= 99 -> 0 <= da <= 99 -> 0 <= h <= 99 -> 0 <= mi <= 99 -> 0 <= se <= 99 -> zone_fields z = Ok (utc, oh, om) ->
  (let* year := stoi y in let* mon := stoi (two mo) in let* mday := stoi (two da) in let* hour := stoi (two h) in let* min := stoi (two mi) in let* sec := stoi (two se) in
   let* (utc, oh, om) := zone_fields z in let d := mkDate sec min hour mday mon year utc oh om in Ok (if is_valid d then Some d else None)) =
  (let* year := stoi y in let d := mkDate se mi h da mo year utc oh om in Ok (if is_valid d then Some d else None)).
Proof. intros. destruct (stoi y); cbn [bind]; try reflexivity. rewrite !stoi_two by assumption. cbn [bind]. rewrite H4. reflexivity. Qed.
Lemma zone_fields_ok z : zone_text z -> exists utc oh om, zone_fields z = Ok (utc, oh, om).
Proof.
  intros [->|[->|(neg & h & m & H & M & ->)]]; [now do 3 eexists..|]. exists false, (minus neg h), m.
  pose proof (zone_iff (mkDate 0 0 0 0 0 0 false (minus neg h) m) ([if neg then 45 else 43] ++ two h ++ [58] ++ two m)) as [X _].
  apply X. right. right. exists neg, h, m. repeat split; try lia.
Qed.

Theorem parse_sound s d : try_parse s = Ok (Some d) -> exists a t b, blank a /\ blank b /\ s = a ++ t ++ b /\ iso t d.
Proof.
  intros H. destruct (trim_split s) as (a & b & A & B & E). exists a, (trim s), b. split; [exact A|]. split; [exact B|]. split; [exact E|]. clear A B E.
  unfold try_parse in H. destruct (rx_date (trim s)) as [[[[[[[y mo] da] h] mi] se] z]|] eqn:R; [|discriminate].
  apply rx_date_inv in R. destruct R as (neg & ds & mo' & da' & h' & mi' & se' & f & -> & D & SV & LN & Mo & -> & Da & -> & Hh & -> & Mi & -> & Se & -> & F & Z & E).
  destruct (zone_fields_ok z Z) as (utc & oh & om & ZF). rewrite (after_match _ mo' da' h' mi' se' z utc oh om) in H by (try lia; exact ZF).
  unfold stoi in H. rewrite SV in H. destruct (in_i32b (minus neg (dval ds))); [|discriminate]. cbn [bind] in H. set (d0 := mkDate _ _ _ _ _ _ _ _ _) in H.
  destruct (is_valid d0) eqn:V; [|discriminate]. injection H as <-. apply valid_iff in V. pose proof (dval_nonneg ds D) as P.
  assert (Y : 0 <= dval ds <= 9999). { destruct V as (V & _). cbn [t_year d0] in V. unfold minus in V. destruct neg; lia. }
  assert (DS : ds = four (dval ds)). { destruct LN as [L|L]; [|lia]. destruct ds as [|c1 [|c2 [|c3 [|c4 [|? ?]]]]]; try discriminate. now apply four_of. }
  exists neg, (dval ds), f, z. split; [exact Y|]. split; [reflexivity|]. split; [|split; [exact F|split]].
  - unfold calendar in *. cbn [t_sec d0]. intuition lia.
  - apply zone_iff. split; [exact Z|exact ZF].
  - rewrite E. rewrite DS at 1. rewrite <- !app_assoc. reflexivity.
Qed.
Lemma parse_text neg y mo da h mi se f z d : decimals f -> zone d z -> 0 <= y <= 9999 -> d = mkDate se mi h da mo (minus neg y) (t_utc d) (t_offh d) (t_offm d) -> calendar 59 d ->
  forall a b, blank a -> blank b -> try_parse (a ++ text_of neg y mo da h mi se f z ++ b) = Ok (Some d).
Proof.
  intros F Z Y E C a b A B. apply zone_iff in Z. destruct Z as [ZT ZF].
  assert (Rg : 1 <= mo <= 12 /\ 1 <= da <= 31 /\ 0 <= h <= 23 /\ 0 <= mi <= 59 /\ 0 <= se <= 59).
  { rewrite E in C. unfold calendar in C. cbn [t_year t_mon t_mday t_hour t_min t_sec] in C. destruct C as (_ & C1 & C2 & C3 & C4 & C5).
    assert (month_days (minus neg y) mo <= 31). { unfold month_days. repeat match goal with |- context [match ?x with _ => _ end] => destruct x end; lia. } lia. }
  destruct (text_bounds neg y mo da h mi se f z Y ltac:(lia) F ZT) as (N & S & T). cbv zeta in N, S, T.
  unfold try_parse. rewrite trim_of by assumption. rewrite rx_date_text by (try assumption; lia).
  rewrite (after_match _ mo da h mi se z _ _ _) by (try lia; exact ZF). unfold stoi.
  assert (SV : strtol ((if neg then [45] else []) ++ four y) = minus neg y).
  { destruct neg; cbn [app minus]; [rewrite strtol_minus|rewrite strtol_digits]; try (now apply four_digits); now rewrite dval_four. }
  rewrite SV. replace (in_i32b (minus neg y)) with true by (unfold in_i32b, INT_MIN, INT_MAX, minus; destruct neg; lia). cbn [bind]. cbv zeta. rewrite <- E.
  replace (is_valid d) with true; [reflexivity|]. symmetry. apply valid_iff. unfold calendar in *. intuition lia.
Qed.
Theorem parse_complete t d a b : iso t d -> blank a -> blank b -> try_parse (a ++ t ++ b) = Ok (Some d).
Proof.
  intros (neg & y & f & z & Y & EY & C & F & Z & ->) A B. apply (parse_text neg y (t_mon d) (t_mday d) (t_hour d) (t_min d) (t_sec d) f z d F Z Y); [|exact C|exact A|exact B].
  rewrite <- EY. now destruct d.
Qed.

(** ** writing *)
Lemma dec_two v : 0 <= v <= 99 -> padded 2 v = two v.
Proof.
  intros H. unfold padded, dec, two. destruct (Z.ltb_spec v 0) as [L|L]; [lia|]. destruct (Z.lt_ge_cases v 10) as [T|T].
  - cbn [dec_digits]. replace (v <? 10) with true by lia. cbn [length Nat.sub repeat app]. f_equal; [lia|]. f_equal. lia.
  - cbn [dec_digits]. replace (v <? 10) with false by lia. replace (v / 10 <? 10) with true by lia. reflexivity.
Qed.
Ltac each := repeat (apply f_equal2; [lia|]); reflexivity.
Lemma dec_four v : 0 <= v <= 9999 -> padded 4 v = four v.
Proof.
  intros H. unfold padded, dec, four, two. destruct (Z.ltb_spec v 0) as [L|L]; [lia|]. cbn [dec_digits].
  destruct (Z.ltb_spec v 10) as [T|T]; [cbn [length Nat.sub repeat app]; each|].
  destruct (Z.ltb_spec (v / 10) 10) as [T1|T1]; [cbn [length Nat.sub repeat app]; each|].
  destruct (Z.ltb_spec (v / 10 / 10) 10) as [T2|T2]; [cbn [length Nat.sub repeat app]; each|].
  destruct (Z.ltb_spec (v / 10 / 10 / 10) 10) as [T3|T3]; [cbn [length Nat.sub repeat app]; each|]. lia.
Qed.
Lemma dec_minus v : 10 <= v <= 99 -> padded 2 (- v) = [45] ++ two v.
Proof.
  intros H. unfold padded, dec, two. destruct (Z.ltb_spec (- v) 0) as [L|L]; [|lia]. rewrite Z.opp_involutive. cbn [dec_digits].
  replace (v <? 10) with false by lia. replace (v / 10 <? 10) with true by lia. reflexivity.
Qed.
(** dates which are written correctly *)
Definition writable (d : datetime) : Prop :=
  calendar 59 d /\ 0 <= t_year d /\ (has_offset d = true -> 0 <= t_offh d \/ t_offh d <= -10).
Theorem write_ok d : writable d -> exists t, to_xml d = Ok t /\ iso t (normal d).
Proof.
  intros (C & Y & O). pose proof C as (CY & CM & CD & CH & CI & CS). assert (V : is_valid d = true) by (apply valid_iff; unfold calendar in *; intuition lia).
  unfold to_xml. rewrite V. cbn [negb]. eexists. split; [reflexivity|].
  assert (D31 : t_mday d <= 31). { assert (month_days (t_year d) (t_mon d) <= 31); [|lia]. unfold month_days. repeat match goal with |- context [match ?x with _ => _ end] => destruct x end; lia. }
  rewrite dec_four, (dec_two (t_mon d)), (dec_two (t_mday d)), (dec_two (t_hour d)), (dec_two (t_min d)), (dec_two (t_sec d)) by lia.
  assert (NF : t_year (normal d) = t_year d /\ t_mon (normal d) = t_mon d /\ t_mday (normal d) = t_mday d /\ t_hour (normal d) = t_hour d /\ t_min (normal d) = t_min d /\ t_sec (normal d) = t_sec d /\ t_utc (normal d) = t_utc d)
    by (unfold normal; destruct (has_offset d); repeat split; reflexivity).
  destruct NF as (N1 & N2 & N3 & N4 & N5 & N6 & N7).
  exists false, (t_year d), [], (if t_utc d then [90] else if has_offset d then (if 0 <=? t_offh d then [43] else []) ++ padded 2 (t_offh d) ++ [58] ++ padded 2 (t_offm d) else []).
  rewrite N1, N2, N3, N4, N5, N6. split; [lia|]. split; [reflexivity|]. split; [unfold calendar; rewrite N1, N2, N3, N4, N5, N6; exact C|]. split; [now left|]. split; [|reflexivity].
  unfold zone. rewrite N7. destruct (t_utc d) eqn:U.
  - right. left. unfold normal, has_offset. rewrite U. repeat split; reflexivity.
  - destruct (has_offset d) eqn:HO.
    + right. right. specialize (O eq_refl). unfold normal. rewrite HO. unfold has_offset in HO. rewrite U in HO.
      destruct (Z.leb_spec 0 (t_offh d)) as [P|P].
      * exists false, (t_offh d), (t_offm d). rewrite !dec_two by lia. repeat split; try lia.
      * exists true, (- t_offh d), (t_offm d). assert (E : padded 2 (t_offh d) = [45] ++ two (- t_offh d)) by (rewrite <- dec_minus by lia; f_equal; lia).
        rewrite E, (dec_two (t_offm d)) by lia. cbn [minus app]. repeat split; lia.
    + left. unfold normal. rewrite HO. repeat split; reflexivity.
Qed.
Theorem round_trip d : writable d -> exists t, to_xml d = Ok t /\ try_parse t = Ok (Some (normal d)).
Proof.
  intros W. destruct (write_ok d W) as (t & E & I). exists t. split; [exact E|]. pose proof (parse_complete t (normal d) [] [] I (Forall_nil _) (Forall_nil _)) as P.
  cbn [app] in P. now rewrite app_nil_r in P.
Qed.
Theorem writes_iff d : (exists t, to_xml d = Ok t) <-> calendar 60 d.
Proof.
  rewrite <- valid_iff. unfold to_xml. destruct (is_valid d); cbn [negb]; split; intros H.
  - reflexivity.
  - now eexists.
  - destruct H as [t H]. discriminate.
  - discriminate.
Qed.
Theorem round_trip_all d : calendar 59 d -> 0 <= t_year d -> (has_offset d = true -> 0 <= t_offh d \/ t_offh d <= -10) ->
  exists t, to_xml d = Ok t /\ iso t (normal d) /\ try_parse t = Ok (Some (normal d)).
Proof.
  intros C Y O. destruct (write_ok d (conj C (conj Y O))) as (t & E & J). destruct (round_trip d (conj C (conj Y O))) as (t' & E' & P).
  exists t. split; [exact E|]. split; [exact J|]. congruence.
Qed.
Theorem read_iff s d : try_parse s = Ok (Some d) <-> exists a t b, blank a /\ blank b /\ s = a ++ t ++ b /\ iso t d.
Proof. split; [apply parse_sound|]. intros (a & t & b & A & B & -> & J). now apply parse_complete. Qed.
