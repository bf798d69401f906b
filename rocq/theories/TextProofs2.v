(** Proofs about bounds, index sets, colours and property bags. *)
From Verif Require Import Base TextModel TextSpec TextProofs.

(** ** Bounds *)
Lemma strtol_signed o ds : sign_ok o -> all is_digit ds -> strtol (sign_text o ++ ds) = signed o ds.
Proof.
  intros Hs Hd. destruct o as [c|]; [destruct Hs as [->| ->]|]; cbn [sign_text app signed].
  - now apply strtol_minus.
  - now apply strtol_plus.
  - now apply strtol_digits.
Qed.

Lemma rx_number_digits ds rest : ds <> [] -> all is_digit ds -> stops is_digit rest ->
  rx_number (ds ++ rest) = Some (ds, rest).
Proof.
  intros N H S. destruct ds as [|c ds]; [contradiction|].
  inversion H as [|? ? Hc Hd]; subst.
  unfold rx_number.
  assert (E : rx_sign ((c :: ds) ++ rest) = ([], (c :: ds) ++ rest)).
  { cbn [app]. unfold rx_sign. apply digit_not in Hc. destruct c as [|p|p]; try reflexivity.
    do 7 (try destruct p as [p|p|]; try reflexivity); lia. }
  rewrite E. rewrite span_app by assumption. reflexivity.
Qed.

Lemma rx_number_signed o ds rest : sign_ok o -> ds <> [] -> all is_digit ds -> stops is_digit rest ->
  rx_number (sign_text o ++ ds ++ rest) = Some (sign_text o ++ ds, rest).
Proof.
  intros So N H S. destruct o as [c|]; cbn [sign_text app]; [|now apply rx_number_digits].
  assert (E : span is_digit (ds ++ rest) = (ds, rest)) by now apply span_app.
  destruct So as [->| ->]; unfold rx_number; cbn [rx_sign]; rewrite E; destruct ds; (contradiction || reflexivity).
Qed.

Lemma rx_match_item it rest : bitem_ok it -> stops is_digit (b_space it ++ rest) -> stops is_space rest ->
  rx_match (bitem_text it ++ rest) =
    Some (b_letter it, sign_text (b_sign1 it) ++ b_digits1 it, sign_text (b_sign2 it) ++ b_digits2 it, rest).
Proof.
  intros [H1 [H2 H2'] [H3 H3'] [H4 H4'] H5 _ _] S1 S2.
  destruct (char_dim (b_letter it)) as [d|] eqn:D; [|contradiction].
  apply char_dim_letter in D.
  unfold bitem_text. cbn [app]. cbn [rx_match]. rewrite D.
  rewrite <- !app_assoc. rewrite rx_number_signed by (assumption || reflexivity).
  cbn [app]. rewrite <- !app_assoc.
  rewrite rx_number_signed by assumption.
  rewrite span_app by assumption. reflexivity.
Qed.

Lemma rx_search_match s m : rx_match s = Some m -> rx_search s = Some m.
Proof. intros H. destruct s; cbn [rx_search]; [discriminate H|]. now rewrite H. Qed.

Fixpoint bfill (l : list bitem) (t : bounds) : bounds :=
  match l with
  | [] => t
  | it :: l' => bfill l' (tset t (bitem_dim it) (bitem_value it))
  end.

Lemma bitem_letter it : bitem_ok it -> char_dim (b_letter it) = Some (bitem_dim it) /\ In (bitem_dim it) dims.
Proof.
  intros H. pose proof (bok_letter _ H) as E. unfold bitem_dim.
  destruct (char_dim (b_letter it)) as [d|] eqn:D; [|contradiction].
  split; [reflexivity|]. eapply char_dim_dims; eauto.
Qed.

Lemma bitems_stops l : Forall bitem_ok l -> stops is_digit (flat_map bitem_text l) /\ stops is_space (flat_map bitem_text l).
Proof.
  intros H. destruct l as [|it l]; [split; exact I|]. inversion H as [|? ? Hi _]; subst.
  destruct (bitem_letter it Hi) as [Hl _]. apply char_dim_letter, letter_not in Hl. cbn. tauto.
Qed.

Lemma try_parse_signed o ds : sign_ok o -> all is_digit ds -> in_i32 (signed o ds) ->
  try_parse_int (sign_text o ++ ds) = Some (signed o ds).
Proof.
  intros A B C. unfold try_parse_int. rewrite strtol_signed by assumption. apply in_i32b_spec in C. now rewrite C.
Qed.

Lemma parse_bounds_complete l : forall fuel t nosuf,
  Forall bitem_ok l -> NoDup (map bitem_dim l) -> length t = 9%nat ->
  (forall d, In d (map bitem_dim l) -> tget t d = None) ->
  (length (flat_map bitem_text l) < fuel)%nat -> (l = [] -> nosuf = true) ->
  parse_bounds_loop fuel (flat_map bitem_text l) t nosuf = Ok (bfill l t).
Proof.
  induction l as [|it l IH]; intros fuel t nosuf Ho Hn Ht Hf Hl Hz.
  - destruct fuel; [cbn [flat_map length] in Hl; lia|]. cbn. now rewrite Hz.
  - inversion Ho as [|? ? O1 O2]; subst. inversion Hn as [|? ? N1 N2]; subst.
    destruct (bitem_letter it O1) as [El Ed]. destruct (bitems_stops l O2) as [St1 St2].
    destruct fuel as [|fuel]; [cbn [flat_map length] in Hl; lia|].
    cbn [parse_bounds_loop flat_map].
    rewrite (rx_search_match _ _ (rx_match_item it (flat_map bitem_text l) O1
      ltac:(destruct (b_space it) as [|c r] eqn:Es; [exact St1|pose proof (bok_space _ O1) as Q; rewrite Es in Q;
            inversion Q as [|? ? Qc _]; subst; cbn; unfold is_space, is_digit in *; lia]) St2)).
    rewrite El. destruct O1 as [H1 [H2 H2'] [H3 H3'] [H4 H4'] H5 H6 [H7 H8]].
    cbn [bitem_value fst snd] in H6, H7, H8.
    rewrite (try_parse_signed _ _ H2 H3' H6), (try_parse_signed _ _ H2' H4' H7).
    destruct (Z.eqb_spec (signed (b_sign2 it) (b_digits2 it)) 0) as [E|_]; [contradiction|].
    rewrite (Hf (bitem_dim it)) by (left; reflexivity).
    cbn [bfill]. apply IH; auto.
    + now apply tset_length.
    + intros d I. rewrite tget_tset; auto.
      * destruct (Z.eqb_spec (bitem_dim it) d) as [E|E]; [subst; contradiction|]. apply Hf. now right.
      * apply in_map_iff in I. destruct I as (x & <- & I). rewrite Forall_forall in O2. now apply bitem_letter, O2.
    + cbn [flat_map] in Hl. rewrite app_length in Hl. unfold bitem_text at 1 in Hl. cbn [length] in Hl. lia.
    + intros ->. cbn. now rewrite orb_true_r.
Qed.

Lemma bfill_length l : forall t, length t = 9%nat -> Forall bitem_ok l -> length (bfill l t) = 9%nat.
Proof.
  induction l as [|it l IH]; intros t H O; [exact H|]. inversion O as [|? ? O1 O2]; subst.
  cbn [bfill]. apply IH; [|assumption]. apply tset_length; [assumption|]. now apply bitem_letter.
Qed.

Lemma bfill_other l : forall t d, length t = 9%nat -> Forall bitem_ok l -> In d dims ->
  ~ In d (map bitem_dim l) -> tget (bfill l t) d = tget t d.
Proof.
  induction l as [|it l IH]; intros t d H O I N; [reflexivity|]. inversion O as [|? ? O1 O2]; subst.
  cbn [bfill map] in *. assert (Hd : In (bitem_dim it) dims) by now apply bitem_letter.
  rewrite IH; [| now apply tset_length | assumption | assumption | intros C; apply N; now right].
  rewrite tget_tset by assumption. destruct (Z.eqb_spec (bitem_dim it) d); [|reflexivity].
  exfalso. apply N. now left.
Qed.

Lemma bfill_in l : forall t it, length t = 9%nat -> Forall bitem_ok l -> NoDup (map bitem_dim l) -> In it l ->
  tget (bfill l t) (bitem_dim it) = Some (bitem_value it).
Proof.
  induction l as [|x l IH]; intros t it H O N I; [destruct I|].
  inversion O as [|? ? O1 O2]; subst. inversion N as [|? ? N1 N2]; subst. cbn [bfill].
  assert (Hd : In (bitem_dim x) dims) by now apply bitem_letter.
  destruct I as [->|I].
  - rewrite bfill_other; [|now apply tset_length|assumption|assumption|assumption].
    rewrite tget_tset by assumption. now rewrite Z.eqb_refl.
  - apply IH; auto. now apply tset_length.
Qed.

Theorem bounds_complete s l b : spells_bounds s l b -> parse_bounds s = Ok b.
Proof.
  intros (-> & Hne & O & N & Lb & H).
  assert (E : parse_bounds (flat_map bitem_text l) = Ok (bfill l empty_table)).
  { unfold parse_bounds. apply parse_bounds_complete; auto; try (intros ->; contradiction).
    intros d I. apply tget_empty. apply in_map_iff in I. destruct I as (x & <- & I).
      rewrite Forall_forall in O. now apply bitem_letter, O. }
  rewrite E. f_equal. symmetry. apply table_ext; [assumption|now apply bfill_length|].
  intros d Hd. destruct (tget b d) as [v|] eqn:G.
  - apply H in G; [|assumption]. destruct G as (it & I & <- & <-). symmetry. now apply bfill_in.
  - destruct (in_dec Z.eq_dec d (map bitem_dim l)) as [I|I].
    + exfalso. apply in_map_iff in I. destruct I as (it & <- & I).
      assert (X : tget b (bitem_dim it) = Some (bitem_value it)) by (apply H; [assumption|exists it; auto]). congruence.
    + rewrite bfill_other by (auto; reflexivity). symmetry. now apply tget_empty.
Qed.

Definition dsign (v : Z) : option Z := if v <? 0 then Some 45 else None.
Lemma dec_signed v : dec v = sign_text (dsign v) ++ mag v.
Proof. rewrite dec_mag. unfold dsign. destruct (v <? 0); reflexivity. Qed.
Lemma signed_mag v : in_i32 v -> signed (dsign v) (mag v) = v.
Proof.
  intros H. destruct (mag_spec v H) as (_ & _ & M & _). unfold dsign.
  destruct (Z.ltb_spec v 0); cbn [signed]; lia.
Qed.
Lemma dsign_ok v : sign_ok (dsign v).
Proof. unfold dsign. destruct (v <? 0); cbn; auto. Qed.

Definition dec_bitem (d st sz : Z) : bitem := BItem (dim_char d) (dsign st) (mag st) (dsign sz) (mag sz) [].

Lemma dec_bitem_text d st sz : bitem_text (dec_bitem d st sz) = dim_char d :: dec st ++ 58 :: dec sz.
Proof.
  unfold bitem_text, dec_bitem. cbn [b_letter b_sign1 b_digits1 b_sign2 b_digits2 b_space].
  rewrite !dec_signed, app_nil_r, <- app_assoc. reflexivity.
Qed.

Lemma dec_bitem_ok d st sz : In d dims -> in_i32 st -> in_i32 sz -> sz <> 0 ->
  bitem_ok (dec_bitem d st sz) /\ bitem_dim (dec_bitem d st sz) = d /\ bitem_value (dec_bitem d st sz) = (st, sz).
Proof.
  intros Hd Hs Hz Nz.
  assert (Ev : bitem_value (dec_bitem d st sz) = (st, sz)).
  { unfold bitem_value, dec_bitem. cbn [b_sign1 b_digits1 b_sign2 b_digits2]. now rewrite !signed_mag. }
  assert (Ed : bitem_dim (dec_bitem d st sz) = d).
  { unfold bitem_dim, dec_bitem. cbn [b_letter]. now rewrite char_dim_char. }
  split; [|auto].
  destruct (mag_spec st Hs) as (M1 & M2 & _). destruct (mag_spec sz Hz) as (M1' & M2' & _).
  constructor; rewrite ?Ev; cbn [dec_bitem b_letter b_sign1 b_digits1 b_sign2 b_digits2 b_space fst snd]; auto.
  - rewrite char_dim_char by assumption. discriminate.
  - split; apply dsign_ok.
Qed.

Definition bounds_items (b : bounds) (ds : list Z) : list bitem :=
  flat_map (fun d => match tget b d with Some (st, sz) => [dec_bitem d st sz] | None => [] end) ds.

Lemma bounds_items_text c ds :
  flat_map bitem_text (bounds_items c ds) =
  flat_map (fun d => match tget c d with Some (st, sz) => dim_char d :: dec st ++ 58 :: dec sz | None => [] end) ds.
Proof.
  induction ds as [|d ds IH]; [reflexivity|]. unfold bounds_items in *. cbn [flat_map].
  rewrite flat_map_app, IH. f_equal. destruct (tget c d) as [[st sz]|]; [|reflexivity].
  cbn [flat_map]. now rewrite dec_bitem_text, app_nil_r.
Qed.

Lemma bounds_items_ok c ds : bounds_ok c -> incl ds dims -> NoDup ds ->
  Forall bitem_ok (bounds_items c ds) /\
  NoDup (map bitem_dim (bounds_items c ds)) /\ incl (map bitem_dim (bounds_items c ds)) ds.
Proof.
  intros (L & _ & V). induction ds as [|d ds IH]; intros Hi Hn.
  - cbn. repeat split; constructor || (intros x Hx; exact Hx).
  - inversion Hn as [|? ? N1 N2]; subst.
    destruct IH as (A & C & D); [intros x Hx; apply Hi; now right|assumption|].
    unfold bounds_items in *. cbn [flat_map]. assert (Hd : In d dims) by (apply Hi; now left).
    destruct (tget c d) as [[st sz]|] eqn:E.
    + destruct (V d st sz Hd E) as (V1 & V2 & V3).
      destruct (dec_bitem_ok d st sz Hd V1 V2 V3) as (I1 & I3 & I4).
      cbn [app map]. rewrite I3.
      split; [now constructor|].
      split; [constructor; [intros Hx; apply N1, D, Hx|exact C]|].
      intros x [<-|Hx]; [now left|right; now apply D].
    + cbn [app]. split; [assumption|]. split; [assumption|].
      intros x Hx. right. now apply D.
Qed.

Lemma bounds_spelled b : bounds_ok b -> spells_bounds (bounds_to_string b) (bounds_items b dims) b.
Proof.
  intros H. destruct (bounds_items_ok b dims H (incl_refl _) dims_nodup) as (A & C & D).
  destruct H as (L & (d0 & Hd0 & Hne) & V).
  assert (Hiff : forall d v, In d dims ->
     (tget b d = Some v <-> exists it, In it (bounds_items b dims) /\ bitem_dim it = d /\ bitem_value it = v)).
  { intros d [st sz] Hd. split.
    - intros E. exists (dec_bitem d st sz). destruct (V d st sz Hd E) as (V1 & V2 & V3).
      destruct (dec_bitem_ok d st sz Hd V1 V2 V3) as (_ & I3 & I4).
      split; [|auto]. unfold bounds_items. apply in_flat_map. exists d. split; [assumption|]. rewrite E. now left.
    - intros (it & I & <- & E). unfold bounds_items in I. apply in_flat_map in I.
      destruct I as (d' & Hd' & I). destruct (tget b d') as [[st' sz']|] eqn:E'; [|destruct I].
      destruct I as [<-|[]]. destruct (V d' st' sz' Hd' E') as (V1 & V2 & V3).
      destruct (dec_bitem_ok d' st' sz' Hd' V1 V2 V3) as (_ & I3 & I4). rewrite I3. congruence. }
  unfold spells_bounds. split; [symmetry; apply bounds_items_text|].
  split; [|split; [assumption|split; [assumption|split; [assumption|exact Hiff]]]].
  destruct (tget b d0) as [v|] eqn:E; [|contradiction].
  apply Hiff in E; [|assumption]. destruct E as (it & I & _). intros Z. rewrite Z in I. destruct I.
Qed.

Theorem bounds_round_trip b : bounds_ok b -> parse_bounds (bounds_to_string b) = Ok b.
Proof. intros H. exact (bounds_complete _ _ _ (bounds_spelled b H)). Qed.

(** The parser terminates on every string. *)
Lemma rx_match_shorter s c st sz r : rx_match s = Some (c, st, sz, r) -> (length r < length s)%nat.
Proof.
  assert (Hn : forall x a b, rx_number x = Some (a, b) -> (length b <= length x)%nat).
  { intros x a b. unfold rx_number.
    assert (Hp : (length (snd (rx_sign x)) <= length x)%nat).
    { unfold rx_sign. destruct x as [|c0 x]; [cbn; lia|]. destruct c0 as [|q|q]; [cbn; lia| |cbn; lia].
      do 7 (try destruct q as [q|q|]; try (cbn [snd length]; lia)). }
    destruct (rx_sign x) as [sg s1]. cbn [snd] in Hp. destruct (span is_digit s1) as [ds s2] eqn:E.
    apply span_spec in E. destruct E as (-> & _ & _). rewrite app_length in Hp.
    destruct ds; [discriminate|]. intros [= _ <-]. lia. }
  unfold rx_match. destruct s as [|c0 s1]; [discriminate|]. destruct (is_letter c0); [|discriminate].
  destruct (rx_number s1) as [[a b]|] eqn:E1; [|discriminate]. apply Hn in E1.
  destruct b as [|x s2]; [discriminate|].
  destruct (Z.eq_dec x 58) as [->|N].
  - destruct (rx_number s2) as [[a' b']|] eqn:E2; [|discriminate]. apply Hn in E2.
    intros [= _ _ _ <-]. pose proof (span_len is_space b'). cbn [length] in *. lia.
  - intros H. exfalso. destruct x as [|q|q]; try discriminate H.
    do 6 (try destruct q as [q|q|]; try discriminate H). lia.
Qed.

Lemma rx_search_shorter s : forall c st sz r, rx_search s = Some (c, st, sz, r) -> (length r < length s)%nat.
Proof.
  induction s as [|x s IH]; intros c st sz r; cbn [rx_search]; [discriminate|].
  destruct (rx_match (x :: s)) as [m|] eqn:E.
  - intros [= ->]. now apply rx_match_shorter in E.
  - intros H. apply IH in H. cbn [length]. lia.
Qed.

Lemma parse_bounds_total_loop fuel : forall s t n, (length s < fuel)%nat ->
  (exists b, parse_bounds_loop fuel s t n = Ok b) \/ parse_bounds_loop fuel s t n = Throw.
Proof.
  induction fuel as [|fuel IH]; intros s t n H; [lia|]. cbn [parse_bounds_loop].
  destruct (rx_search s) as [[[[c st] sz] r]|] eqn:E; [|destruct n; eauto].
  apply rx_search_shorter in E.
  destruct (char_dim c); [|auto]. destruct (try_parse_int st); [|auto]. destruct (try_parse_int sz); [|auto].
  destruct (_ =? 0); [auto|]. destruct (tget t _); [auto|]. apply IH. lia.
Qed.

Theorem parse_bounds_total s : (exists b, parse_bounds s = Ok b) \/ parse_bounds s = Throw.
Proof. apply parse_bounds_total_loop. lia. Qed.

(** ** Index sets *)
Lemma INF_head r : span is_digit (INF ++ r) = ([], INF ++ r).
Proof. reflexivity. Qed.

Definition plain (s : str) : Prop := match s with c :: _ => is_digit c = false | [] => True end.

Lemma part_number_bnd b rest : bnd_ok b -> plain rest ->
  part_number (bnd_text b ++ rest) = Some (bnd_text b, rest).
Proof.
  intros Hb Hr. destruct b as [n| | |]; cbn [bnd_text]; [|reflexivity|reflexivity|reflexivity].
  cbn [bnd_ok] in Hb. destruct (mag_spec n Hb) as (M1 & M2 & _).
  assert (Sp : forall ds, all is_digit ds -> span is_digit (ds ++ rest) = (ds, rest)).
  { intros ds Hd. apply span_app; [assumption|]. destruct rest; [exact I|exact Hr]. }
  rewrite dec_mag. destruct (n <? 0).
  - cbn [app part_number]. change ((45 =? 45) || (45 =? 43)) with true. cbv iota.
    destruct (mag n) as [|c r] eqn:Em; [contradiction|]. rewrite <- Em in *.
    assert (Hs : stops is_space (mag n ++ rest)).
    { rewrite Em in *. inversion M2 as [|? ? Hc _]; subst. cbn. now apply digit_not in Hc. }
    rewrite span_stop by assumption. cbn [snd].
    rewrite (Sp _ M2). rewrite Em in *. inversion M2 as [|? ? Hc _]; subst. apply digit_not in Hc.
    cbn [app]. destruct c as [|p|p]; try reflexivity.
    do 7 (try destruct p as [p|p|]; try reflexivity). lia.
  - destruct (mag n) as [|c r] eqn:Em; [contradiction|].
    inversion M2 as [|? ? Hc Hr2]; subst. cbn [app part_number].
    pose proof (digit_not c Hc) as Hc'. destruct ((c =? 45) || (c =? 43)) eqn:E; [lia|].
    rewrite Hc. rewrite (Sp _ Hr2). reflexivity.
Qed.

Lemma num_value_bnd b : bnd_ok b -> num_value (bnd_text b) = Ok (bnd_value b).
Proof.
  intros H. destruct b as [n| | |]; [|reflexivity|reflexivity|reflexivity].
  cbn [bnd_text bnd_value bnd_ok] in *. unfold num_value.
  destruct (mag_spec n H) as (M1 & M2 & _).
  assert (Ne : forall s, In 105 s -> str_eqb (dec n) s = false).
  { intros s Is. unfold str_eqb. destruct (list_eq_dec Z.eq_dec (dec n) s) as [<-|]; [|reflexivity]. exfalso.
    rewrite dec_mag in Is. assert (Hm : ~ In 105 (mag n)).
    { intros C. rewrite Forall_forall in M2. apply M2 in C. unfold is_digit in C. lia. }
    destruct (n <? 0); [destruct Is as [Is|Is]; [discriminate Is|]|]; contradiction. }
  rewrite !Ne by (cbn; auto). cbn [orb]. rewrite strtol_dec by assumption. apply in_i32b_spec in H. now rewrite H.
Qed.

Lemma bnd_text_head b : bnd_ok b -> exists c r, bnd_text b = c :: r /\ is_blank c = false /\ c <> 44 /\ is_space c = false.
Proof.
  intros H. destruct b as [n| | |]; cbn [bnd_text bnd_ok] in *; try (eexists _, _; split; [reflexivity|]; now split).
  destruct (mag_spec n H) as (M1 & M2 & _). rewrite dec_mag. destruct (n <? 0).
  - eexists _, _; split; [reflexivity|]. now split.
  - destruct (mag n) as [|c r]; [contradiction|]. inversion M2 as [|? ? Hc _]; subst. apply digit_not in Hc.
    exists c, r. tauto.
Qed.

Lemma bnd_text_chars b : bnd_ok b -> Forall (fun c => is_blank c = false /\ c <> 44) (bnd_text b).
Proof.
  intros H. destruct b as [n| | |]; cbn [bnd_text bnd_ok INF] in *;
    try (repeat constructor; cbn; lia).
  destruct (mag_spec n H) as (M1 & M2 & _). rewrite dec_mag.
  assert (Forall (fun c => is_blank c = false /\ c <> 44) (mag n)).
  { eapply Forall_impl; [|exact M2]. intros c Hc. apply digit_not in Hc. tauto. }
  destruct (n <? 0); [constructor; [cbn; lia|assumption]|assumption].
Qed.

Lemma entry_text_chars e : entry_ok e -> Forall (fun c => is_blank c = false /\ c <> 44) (entry_text e) /\ entry_text e <> [].
Proof.
  destruct e as [b|lo hi]; cbn [entry_ok entry_text].
  - intros H. split; [now apply bnd_text_chars|]. destruct (bnd_text_head b H) as (c & r & -> & _). discriminate.
  - intros (H1 & H2 & _). split.
    + apply Forall_app. split; [now apply bnd_text_chars|]. constructor; [cbn; lia|now apply bnd_text_chars].
    + destruct (bnd_text_head lo H1) as (c & r & -> & _). discriminate.
Qed.

Definition entry_interval (e : entry) : Z * Z :=
  match e with
  | Single b => (bnd_value b, bnd_value b)
  | Range lo hi => (bnd_value lo, bnd_value hi)
  end.

Lemma parse_part_entry e : entry_ok e -> parse_part (entry_text e) = Ok (entry_interval e).
Proof.
  intros H. unfold parse_part. destruct e as [b|lo hi]; cbn [entry_text entry_ok entry_interval] in *.
  - rewrite <- (app_nil_r (bnd_text b)). rewrite part_number_bnd by (assumption || exact I).
    cbn [span snd]. now rewrite num_value_bnd.
  - destruct H as (H1 & H2 & _). rewrite part_number_bnd by (assumption || reflexivity).
    rewrite span_stop by reflexivity. cbn [snd].
    rewrite <- (app_nil_r (bnd_text hi)) at 1. rewrite part_number_bnd by (assumption || exact I).
    now rewrite !num_value_bnd.
Qed.

Lemma trim_entry w e w' : all is_blank w -> all is_blank w' -> entry_ok e ->
  trim (w ++ entry_text e ++ w') = entry_text e.
Proof.
  intros H1 H2 H3. destruct (entry_text_chars e H3) as [C N]. unfold trim.
  set (t := entry_text e) in *.
  assert (Sf : stops is_blank (t ++ w')).
  { destruct t as [|c r]; [contradiction|]. inversion C; subst. cbn. tauto. }
  assert (E1 : snd (span is_blank (w ++ t ++ w')) = t ++ w') by now rewrite span_app.
  rewrite E1, rev_app_distr.
  assert (Sb : stops is_blank (rev t)).
  { assert (Cr : Forall (fun c => is_blank c = false /\ c <> 44) (rev t)) by now apply Forall_rev.
    destruct (rev t) as [|c r]; [exact I|]. inversion Cr; subst. cbn. tauto. }
  rewrite span_app by (assumption || now apply Forall_rev). cbn [snd]. apply rev_involutive.
Qed.

Lemma split_at_clean s cur rest : Forall (fun c => c <> 44) s ->
  split_at 44 (s ++ rest) cur = split_at 44 rest (cur ++ s).
Proof.
  intros H. revert cur. induction H as [|c s Hc Hs IH]; intros cur; cbn [app]; [now rewrite app_nil_r|].
  cbn [split_at]. destruct (Z.eqb_spec c 44); [contradiction|]. rewrite IH, <- app_assoc. reflexivity.
Qed.

Lemma piece_clean w e w' : all is_blank w -> all is_blank w' -> entry_ok e ->
  Forall (fun c => c <> 44) (w ++ entry_text e ++ w') /\ w ++ entry_text e ++ w' <> [].
Proof.
  intros H1 H2 H3. destruct (entry_text_chars e H3) as [C N].
  assert (B : forall x, all is_blank x -> Forall (fun c => c <> 44) x).
  { intros x Hx. eapply Forall_impl; [|exact Hx]. unfold is_blank. intros; lia. }
  split.
  - apply Forall_app; split; [auto|]. apply Forall_app; split; [|auto]. eapply Forall_impl; [|exact C]. intros c Hc; apply Hc.
  - intros E. apply app_eq_nil in E. destruct E as [_ E]. apply app_eq_nil in E. tauto.
Qed.

Lemma split_listing l : listing_ok l ->
  split 44 (listing l) = map (fun x => fst (fst x) ++ entry_text (snd (fst x)) ++ snd x) l.
Proof.
  unfold split. induction 1 as [|[[w e] w'] l (H1 & H2 & H3) Hl IH]; [reflexivity|].
  cbn [fst snd] in H1, H2, H3. destruct (piece_clean w e w' H1 H2 H3) as [Pc Pn].
  set (p := w ++ entry_text e ++ w') in *.
  destruct l as [|y l].
  - cbn [listing map fst snd]. fold p. rewrite <- (app_nil_r p) at 1. rewrite split_at_clean by assumption.
    cbn [split_at app]. destruct p; [contradiction|reflexivity].
  - change (listing ((w, e, w') :: y :: l)) with (w ++ entry_text e ++ w' ++ 44 :: listing (y :: l)).
    replace (w ++ entry_text e ++ w' ++ 44 :: listing (y :: l)) with (p ++ 44 :: listing (y :: l))
      by (unfold p; rewrite <- !app_assoc; reflexivity).
    rewrite split_at_clean by assumption. cbn [app].
    change (split_at 44 (44 :: listing (y :: l)) p) with
      (match p with [] => split_at 44 (listing (y :: l)) [] | _ => p :: split_at 44 (listing (y :: l)) [] end).
    rewrite IH. cbn [map fst snd]. fold p. destruct p; [contradiction|reflexivity].
Qed.

Theorem index_set_parsed l : listing_ok l ->
  parse_index_set (listing l) = Ok (map (fun x => entry_interval (snd (fst x))) l).
Proof.
  intros H. unfold parse_index_set. rewrite split_listing by assumption.
  induction H as [|[[w e] w'] l (H1 & H2 & H3) Hl IH]; [reflexivity|].
  cbn [fst snd] in *. cbn [map parse_parts fst snd].
  rewrite trim_entry by assumption. rewrite parse_part_entry by assumption. cbn [bind].
  destruct (entry_interval e) as [a b] eqn:E.
  assert (a <= b).
  { destruct e as [x|lo hi]; cbn in E, H3; injection E as <- <-; lia. }
  destruct (Z.ltb_spec b a); [lia|]. rewrite IH. reflexivity.
Qed.

Theorem index_set_contains l i : listing_ok l ->
  exists set, parse_index_set (listing l) = Ok set /\
    (is_contained set i = true <-> exists e, In e (map (fun x => snd (fst x)) l) /\ entry_has e i).
Proof.
  intros H. exists (map (fun x => entry_interval (snd (fst x))) l).
  split; [now apply index_set_parsed|]. unfold is_contained. rewrite existsb_exists. split.
  - intros ([a b] & I & C). apply in_map_iff in I. destruct I as (x & E & I).
    exists (snd (fst x)). split; [apply in_map_iff; eauto|].
    destruct (snd (fst x)) as [y|lo hi]; cbn in *; injection E as <- <-; lia.
  - intros (e & I & C). apply in_map_iff in I. destruct I as (x & <- & I).
    exists (entry_interval (snd (fst x))). split; [apply in_map_iff; eauto|].
    destruct (snd (fst x)) as [y|lo hi]; cbn in *; lia.
Qed.
