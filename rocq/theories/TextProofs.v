(** Proofs about the text formats. *)
From Verif Require Import Base TextModel TextSpec.

(** ** Scanning *)
Definition stops (p : Z -> bool) (s : str) : Prop :=
  match s with [] => True | c :: _ => p c = false end.
Notation all p s := (Forall (fun c => p c = true) s).

Lemma span_app p a b : all p a -> stops p b -> span p (a ++ b) = (a, b).
Proof.
  induction 1 as [|c a Hc Ha IH]; intros Hb; cbn [app].
  - destruct b as [|c b]; cbn [span]; [reflexivity|]. cbn [stops] in Hb. now rewrite Hb.
  - cbn [span]. rewrite Hc, (IH Hb). reflexivity.
Qed.

Lemma span_spec p s : forall a b, span p s = (a, b) -> s = a ++ b /\ all p a /\ stops p b.
Proof.
  induction s as [|c s IH]; intros a b; cbn [span].
  - intros [= <- <-]. repeat split; constructor.
  - destruct (p c) eqn:E.
    + destruct (span p s) as [a' b'] eqn:E'. intros [= <- <-].
      destruct (IH _ _ eq_refl) as (-> & H1 & H2). split; [reflexivity|]. split; [now constructor|assumption].
    + intros [= <- <-]. split; [reflexivity|]. split; [constructor|exact E].
Qed.

Lemma span_stop p s : stops p s -> span p s = ([], s).
Proof. intros H. apply (span_app p [] s); [constructor|assumption]. Qed.

Lemma span_skip p a b : all p a -> snd (span p (a ++ b)) = snd (span p b).
Proof.
  induction 1 as [|c a Hc Ha IH]; cbn [app]; [reflexivity|].
  cbn [span]. rewrite Hc. destruct (span p (a ++ b)) as [x y]. exact IH.
Qed.

Lemma span_snd_stops p s : stops p (snd (span p s)).
Proof. destruct (span p s) as [a b] eqn:E. now apply span_spec in E. Qed.

Lemma span_idem p s : span p (snd (span p s)) = ([], snd (span p s)).
Proof. apply span_stop, span_snd_stops. Qed.

Lemma span_len p s : (length (snd (span p s)) <= length s)%nat.
Proof.
  destruct (span p s) as [a b] eqn:E. apply span_spec in E. destruct E as (-> & _).
  cbn [snd]. rewrite app_length. lia.
Qed.

(** ** Decimal numbers *)
Lemma dval_app a c : dval (a ++ [c]) = 10 * dval a + (c - 48).
Proof. unfold dval. now rewrite fold_left_app. Qed.

Lemma dec_digits_spec f : forall n, 0 <= n < 10 ^ Z.of_nat (S f) ->
  dec_digits (S f) n <> [] /\ all is_digit (dec_digits (S f) n) /\ dval (dec_digits (S f) n) = n /\
  (n <> 0 -> stops (Z.eqb 48) (dec_digits (S f) n)).
Proof.
  induction f as [|f IH]; intros n Hn.
  - change (10 ^ Z.of_nat 1) with 10 in Hn. cbn [dec_digits].
    destruct (Z.ltb_spec n 10); [|lia].
    split; [discriminate|]. split; [constructor; [unfold is_digit; lia|constructor]|].
    split; [unfold dval; cbn [fold_left]; lia|]. intros. cbn [stops]. lia.
  - change (dec_digits (S (S f)) n) with
      (if n <? 10 then [48 + n] else dec_digits (S f) (n / 10) ++ [48 + n mod 10]).
    rewrite Nat2Z.inj_succ, Z.pow_succ_r in Hn by lia.
    destruct (Z.ltb_spec n 10) as [H|H].
    + split; [discriminate|]. split; [constructor; [unfold is_digit; lia|constructor]|].
      split; [unfold dval; cbn [fold_left]; lia|]. intros. cbn [stops]. lia.
    + destruct (IH (n / 10)) as (A & B & C & D); [lia|].
      split; [intros E; apply app_eq_nil in E; destruct E as [_ E]; discriminate E|].
      split; [apply Forall_app; split; [exact B|constructor; [unfold is_digit; lia|constructor]]|].
      split; [rewrite dval_app, C; lia|].
      intros _. assert (Hq : n / 10 <> 0) by lia. specialize (D Hq).
      destruct (dec_digits (S f) (n / 10)) as [|x y]; [contradiction|exact D].
Qed.

Lemma dec_digits_length f : forall n k, 0 <= n < 10 ^ Z.of_nat (S k) -> (k <= f)%nat ->
  (length (dec_digits (S f) n) <= S k)%nat.
Proof.
  induction f as [|f IH]; intros n k Hn Hk.
  - replace k with 0%nat in * by lia. change (10 ^ Z.of_nat 1) with 10 in Hn. cbn [dec_digits].
    destruct (Z.ltb_spec n 10); cbn [length]; lia.
  - change (dec_digits (S (S f)) n) with
      (if n <? 10 then [48 + n] else dec_digits (S f) (n / 10) ++ [48 + n mod 10]).
    destruct (Z.ltb_spec n 10) as [H|H]; [cbn [length]; lia|].
    destruct k as [|k]; [change (10 ^ Z.of_nat 1) with 10 in Hn; lia|].
    rewrite app_length. cbn [length].
    assert (length (dec_digits (S f) (n / 10)) <= S k)%nat; [|lia].
    apply IH; [|lia]. rewrite Nat2Z.inj_succ, Z.pow_succ_r in Hn by lia. lia.
Qed.

Definition mag (v : Z) : str := dec_digits 20 (Z.abs v).

Lemma dec_mag v : dec v = if v <? 0 then 45 :: mag v else mag v.
Proof. unfold dec, mag. destruct (Z.ltb_spec v 0); do 2 f_equal; lia. Qed.

Lemma mag_spec v : in_i32 v ->
  mag v <> [] /\ all is_digit (mag v) /\ dval (mag v) = Z.abs v /\
  (v <> 0 -> stops (Z.eqb 48) (mag v)) /\ (length (mag v) <= 10)%nat.
Proof.
  unfold in_i32, INT_MIN, INT_MAX, mag. intros H.
  destruct (dec_digits_spec 19 (Z.abs v)) as (A & B & C & D).
  { change (10 ^ Z.of_nat 20) with 100000000000000000000. lia. }
  split; [exact A|]. split; [exact B|]. split; [exact C|].
  split; [intros Hv; apply D; lia|].
  apply (dec_digits_length 19 _ 9); [change (10 ^ Z.of_nat 10) with 10000000000; lia|lia].
Qed.

Lemma mag_zero : mag 0 = [48].
Proof. reflexivity. Qed.

Lemma digit_not c : is_digit c = true -> c <> 45 /\ c <> 43 /\ is_blank c = false /\ is_sep c = false
  /\ is_space c = false /\ c <> 58 /\ c <> 124 /\ c <> 44 /\ c <> 105 /\ is_letter c = false.
Proof. unfold is_digit, is_blank, is_sep, is_space, is_letter. lia. Qed.

Lemma strtol_digits ds : all is_digit ds -> strtol ds = dval ds.
Proof.
  intros H. destruct ds as [|c r]; [reflexivity|].
  inversion H as [|? ? Hc Hr]; subst.
  assert (E : span is_digit (c :: r) = (c :: r, [])).
  { rewrite <- (app_nil_r (c :: r)) at 1. apply span_app; [assumption|exact I]. }
  apply digit_not in Hc.
  assert (Hs : strtol (c :: r) = dval (fst (span is_digit (c :: r)))).
  { unfold strtol.
    destruct c as [|p|p]; [reflexivity| |reflexivity].
    do 6 (destruct p as [p|p|]; try reflexivity); lia. }
  rewrite Hs, E. reflexivity.
Qed.

Lemma strtol_minus ds : all is_digit ds -> strtol (45 :: ds) = - dval ds.
Proof.
  intros H. cbn [strtol].
  rewrite <- (app_nil_r ds) at 1. rewrite (span_app is_digit ds []) by (assumption || exact I). reflexivity.
Qed.

Lemma strtol_plus ds : all is_digit ds -> strtol (43 :: ds) = dval ds.
Proof.
  intros H. cbn [strtol].
  rewrite <- (app_nil_r ds) at 1. rewrite (span_app is_digit ds []) by (assumption || exact I). reflexivity.
Qed.

Lemma strtol_dec v : in_i32 v -> strtol (dec v) = v.
Proof.
  intros H. destruct (mag_spec v H) as (_ & A & B & _). rewrite dec_mag.
  destruct (Z.ltb_spec v 0); [rewrite strtol_minus, B by assumption|rewrite strtol_digits, B by assumption]; lia.
Qed.

Lemma try_parse_dec v : in_i32 v -> try_parse_int (dec v) = Some v.
Proof.
  intros H. unfold try_parse_int. rewrite strtol_dec by assumption.
  apply in_i32b_spec in H. now rewrite H.
Qed.

(** ** Tables of nine dimensions *)
Lemma tset_length {A} (t : table A) d v : length t = 9%nat -> In d dims -> length (tset t d v) = 9%nat.
Proof.
  intros H I. do 10 (destruct t as [|? t]; try discriminate H).
  unfold dims in I. repeat (destruct I as [<-|I]; [reflexivity|]). destruct I.
Qed.

Lemma tget_tset {A} (t : table A) d d' v : length t = 9%nat -> In d dims -> In d' dims ->
  tget (tset t d v) d' = if d =? d' then Some v else tget t d'.
Proof.
  intros H I I'. do 10 (destruct t as [|? t]; try discriminate H).
  unfold dims in I, I'.
  repeat (destruct I as [<-|I]; [repeat (destruct I' as [<-|I']; [reflexivity|]); destruct I'|]). destruct I.
Qed.

Lemma table_ext {A} (t t' : table A) : length t = 9%nat -> length t' = 9%nat ->
  (forall d, In d dims -> tget t d = tget t' d) -> t = t'.
Proof.
  intros H H' E.
  do 10 (destruct t as [|? t]; try discriminate H).
  do 10 (destruct t' as [|? t']; try discriminate H').
  pose proof (E 1 ltac:(cbn; tauto)) as E1. pose proof (E 2 ltac:(cbn; tauto)) as E2.
  pose proof (E 3 ltac:(cbn; tauto)) as E3. pose proof (E 4 ltac:(cbn; tauto)) as E4.
  pose proof (E 5 ltac:(cbn; tauto)) as E5. pose proof (E 6 ltac:(cbn; tauto)) as E6.
  pose proof (E 7 ltac:(cbn; tauto)) as E7. pose proof (E 8 ltac:(cbn; tauto)) as E8.
  pose proof (E 9 ltac:(cbn; tauto)) as E9.
  vm_compute in E1, E2, E3, E4, E5, E6, E7, E8, E9. subst. reflexivity.
Qed.

Lemma tget_empty {A} d : In d dims -> tget (@empty_table A) d = None.
Proof. unfold dims. intros I. repeat (destruct I as [<-|I]; [reflexivity|]). destruct I. Qed.

Lemma char_dim_dims c d : char_dim c = Some d -> In d dims.
Proof.
  unfold char_dim, dims. intros E.
  destruct c as [|p|p]; try discriminate E.
  do 7 (destruct p as [p|p|]; try discriminate E); injection E as <-; cbn; tauto.
Qed.

Lemma char_dim_letter c d : char_dim c = Some d -> is_letter c = true.
Proof.
  unfold char_dim. intros E.
  destruct c as [|p|p]; try discriminate E.
  do 7 (destruct p as [p|p|]; try discriminate E); reflexivity.
Qed.

Lemma char_dim_char d : In d dims -> char_dim (dim_char d) = Some d.
Proof. unfold dims. intros I. repeat (destruct I as [<-|I]; [reflexivity|]). destruct I. Qed.

Lemma letter_not c : is_letter c = true -> is_sep c = false /\ is_digit c = false /\ is_blank c = false /\ is_space c = false /\ 0 < c.
Proof. unfold is_letter, is_sep, is_digit, is_blank, is_space. lia. Qed.

(** ** The digit loop *)
(** what is stored of a run of digits *)
Fixpoint stored (z0 nz : bool) (ds : str) : str :=
  match ds with
  | [] => []
  | c :: r => if (c =? 48) && negb nz then (if z0 then [] else [c]) ++ stored true nz r
              else c :: stored z0 true r
  end.

Lemma dval_from a s : fold_left (fun a c => 10 * a + (c - 48)) s a = a * 10 ^ Z.of_nat (length s) + dval s.
Proof.
  revert a; induction s as [|c s IH]; intros a; [cbn; lia|].
  cbn [fold_left length]. rewrite IH. unfold dval at 2. cbn [fold_left]. rewrite IH.
  rewrite Nat2Z.inj_succ, Z.pow_succ_r by lia. ring.
Qed.

Lemma stored_nz z0 ds : stored z0 true ds = ds.
Proof. revert z0; induction ds as [|c r IH]; intros z0; cbn [stored]; [reflexivity|]. rewrite andb_false_r, IH. reflexivity. Qed.

Lemma dval_stored z0 nz ds : dval (stored z0 nz ds) = dval ds.
Proof.
  destruct nz; [now rewrite stored_nz|].
  revert z0; induction ds as [|c r IH]; intros z0; cbn [stored]; [reflexivity|].
  destruct (Z.eqb_spec c 48) as [->|]; cbn [negb andb].
  - assert (D : dval (48 :: r) = dval r).
    { unfold dval at 1. cbn [fold_left]. rewrite dval_from. lia. }
    rewrite D. destruct z0; cbn [app]; [apply IH|].
    assert (D' : dval (48 :: stored true false r) = dval (stored true false r)).
    { unfold dval at 1. cbn [fold_left]. rewrite dval_from. lia. }
    rewrite D'. apply IH.
  - now rewrite stored_nz.
Qed.

Lemma stored_digits z0 nz ds : all is_digit ds -> all is_digit (stored z0 nz ds).
Proof.
  intros H; revert z0 nz; induction H as [|c r Hc Hr IH]; intros z0 nz; cbn [stored]; [constructor|].
  destruct ((c =? 48) && negb nz); [|constructor; [exact Hc|apply IH]].
  apply Forall_app; split; [destruct z0; [constructor|constructor; [exact Hc|constructor]]|apply IH].
Qed.

Lemma stored_length_true ds : length (stored true false ds) = length (drop_zeros ds).
Proof.
  induction ds as [|c r IH]; [reflexivity|]. cbn [stored negb].
  destruct (Z.eqb_spec c 48) as [->|N]; [exact IH|]. cbn [andb].
  rewrite stored_nz.
  assert (E : drop_zeros (c :: r) = c :: r).
  { cbn [drop_zeros]. destruct c as [|p|p]; try reflexivity.
    do 6 (destruct p as [p|p|]; try reflexivity). lia. }
  now rewrite E.
Qed.

Lemma stored_length ds :
  length (stored false false ds) =
  (length (drop_zeros ds) + match ds with 48%Z :: _ => 1 | _ => 0 end)%nat.
Proof.
  destruct ds as [|c r]; [reflexivity|]. cbn [stored negb].
  destruct (Z.eqb_spec c 48) as [->|N].
  - cbn [andb app length drop_zeros]. rewrite stored_length_true. lia.
  - cbn [andb length]. rewrite stored_nz.
    assert (E : drop_zeros (c :: r) = c :: r).
    { cbn [drop_zeros]. destruct c as [|p|p]; try reflexivity.
      do 6 (destruct p as [p|p|]; try reflexivity). lia. }
    assert (E2 : (match c :: r with 48%Z :: _ => 1 | _ => 0 end = 0)%nat).
    { destruct c as [|p|p]; try reflexivity.
      do 6 (destruct p as [p|p|]; try reflexivity). lia. }
    rewrite E, E2. cbn [length]. lia.
Qed.

Definition nonempty (s : str) : bool := match s with [] => false | _ => true end.

(** the loop never stores beyond the array *)
Definition room (num : str) (z0 nz : bool) : Prop :=
  (length num <= 11)%nat /\ (z0 = false -> nz = false -> (length num <= 1)%nat).

Lemma push_ok num c : (length num < 12)%nat -> push num c = Ok (num ++ [c]).
Proof. intros H. unfold push. destruct (Nat.ltb_spec (length num) 12); [reflexivity|lia]. Qed.

Lemma digit_loop_sound s : forall num z0 nz n r, room num z0 nz ->
  digit_loop s num z0 nz n = Ok r ->
  match r with
  | inl (num', hd, rest) =>
      exists ds, s = ds ++ rest /\ all is_digit ds /\ stops is_digit rest /\
        num' = num ++ stored z0 nz ds /\ hd = z0 || nz || nonempty ds /\ (length num' <= 11)%nat
  | inr m => n <= m < n + len s
  end.
Proof.
  induction s as [|c s IH]; intros num z0 nz n r [R1 R2]; cbn [digit_loop].
  - intros [= <-]. exists []. cbn [stored app nonempty]. rewrite app_nil_r, orb_false_r. repeat split; auto; constructor.
  - unfold c_isdigit. destruct (c <? -1); cbn [bind]; [discriminate|].
    destruct (is_digit c) eqn:D.
    + destruct ((c =? 48) && negb nz) eqn:Z.
      * destruct z0.
        -- cbn [bind]. intros H. apply IH in H; [|split; [assumption|discriminate]].
           destruct r as [[[num' hd] rest]|m].
           ++ destruct H as (ds & -> & A & B & -> & -> & L). exists (c :: ds).
              split; [reflexivity|]. split; [now constructor|]. split; [assumption|].
              cbn [stored]. rewrite Z. cbn [app nonempty orb]. repeat split; auto.
           ++ unfold len in *. cbn [length]. lia.
        -- destruct nz; [rewrite andb_false_r in Z; discriminate Z|].
           rewrite push_ok by lia. cbn [bind]. intros H.
           apply IH in H; [|split; [rewrite app_length; cbn [length]; specialize (R2 eq_refl eq_refl); lia|discriminate]].
           destruct r as [[[num' hd] rest]|m].
           ++ destruct H as (ds & -> & A & B & -> & -> & L). exists (c :: ds).
              split; [reflexivity|]. split; [now constructor|]. split; [assumption|].
              cbn [stored]. rewrite Z. cbn [app nonempty orb]. rewrite <- app_assoc. cbn [app].
              split; [reflexivity|]. split; [reflexivity|]. rewrite <- app_assoc in L. exact L.
           ++ unfold len in *. cbn [length]. lia.
      * destruct (11 <=? length num)%nat eqn:Lq.
        -- intros [= <-]. unfold len. cbn [length]. lia.
        -- apply Nat.leb_gt in Lq. rewrite push_ok by lia. cbn [bind]. intros H.
           apply IH in H; [|split; [rewrite app_length; cbn [length]; lia|discriminate]].
           destruct r as [[[num' hd] rest]|m].
           ++ destruct H as (ds & -> & A & B & -> & -> & L). exists (c :: ds).
              split; [reflexivity|]. split; [now constructor|]. split; [assumption|].
              cbn [stored]. rewrite Z. cbn [nonempty]. rewrite <- app_assoc in *. cbn [app] in *.
              split; [reflexivity|]. split; [now rewrite !orb_true_r|]. exact L.
           ++ unfold len in *. cbn [length]. lia.
    + intros [= <-]. exists []. cbn [stored app nonempty]. rewrite app_nil_r, orb_false_r.
      split; [reflexivity|]. split; [constructor|]. split; [exact D|]. auto.
Qed.

Lemma digit_loop_complete ds : forall rest num z0 nz n,
  all is_digit ds -> stops is_digit rest -> (match rest with c :: _ => -1 <= c | [] => True end) ->
  (length num + length (stored z0 nz ds) <= 11)%nat ->
  digit_loop (ds ++ rest) num z0 nz n = Ok (inl (num ++ stored z0 nz ds, z0 || nz || nonempty ds, rest)).
Proof.
  induction ds as [|c ds IH]; intros rest num z0 nz n Hd Hs Hc Hl.
  - cbn [app stored nonempty]. rewrite app_nil_r, orb_false_r.
    destruct rest as [|c rest]; cbn [digit_loop]; [reflexivity|].
    unfold c_isdigit. destruct (Z.ltb_spec c (-1)); [lia|]. cbn [stops] in Hs. rewrite Hs. reflexivity.
  - inversion Hd as [|? ? H1 H2]; subst. cbn [app digit_loop].
    unfold c_isdigit. destruct (Z.ltb_spec c (-1)) as [H|_]; [unfold is_digit in H1; lia|].
    rewrite H1. cbn [bind]. cbn [stored] in *.
    destruct ((c =? 48) && negb nz) eqn:Z.
    + destruct z0; cbn [app] in *.
      * cbn [bind]. rewrite IH by assumption. cbn [orb]. reflexivity.
      * cbn [length] in Hl. rewrite push_ok by lia. cbn [bind].
        rewrite IH by (assumption || (rewrite app_length; cbn [length]; lia)).
        rewrite <- app_assoc. cbn [app nonempty orb]. rewrite orb_true_r. reflexivity.
    + cbn [length] in Hl. destruct (Nat.leb_spec 11 (length num)); [lia|].
      rewrite push_ok by lia. cbn [bind].
      rewrite IH by (assumption || (rewrite app_length; cbn [length]; lia)).
      rewrite <- app_assoc. cbn [app nonempty]. rewrite !orb_true_r. reflexivity.
Qed.

Lemma digit_loop_total s : forall num z0 nz n, room num z0 nz -> Forall (fun c => -1 <= c) s ->
  exists r, digit_loop s num z0 nz n = Ok r.
Proof.
  induction s as [|c s IH]; intros num z0 nz n [R1 R2] Hs; cbn [digit_loop]; [eauto|].
  inversion Hs as [|? ? H1 H2]; subst. unfold c_isdigit.
  destruct (Z.ltb_spec c (-1)); [lia|]. cbn [bind].
  destruct (is_digit c); [|eauto].
  destruct ((c =? 48) && negb nz) eqn:Z.
  - destruct z0; cbn [bind].
    + apply IH; [split; [assumption|discriminate]|assumption].
    + destruct nz; [rewrite andb_false_r in Z; discriminate Z|]. specialize (R2 eq_refl eq_refl).
      rewrite push_ok by lia. cbn [bind].
      apply IH; [split; [rewrite app_length; cbn [length]; lia|discriminate]|assumption].
  - destruct (Nat.leb_spec 11 (length num)); [eauto|].
    rewrite push_ok by lia. cbn [bind].
    apply IH; [split; [rewrite app_length; cbn [length]; lia|discriminate]|assumption].
Qed.

(** ** One coordinate item *)
(** how the sign is read *)
Lemma sign_part_spec s : stops is_blank s ->
  exists sg, s = (match sg with Some (c, w) => c :: w | None => [] end) ++ snd (sign_part s) /\
    (match sg with Some (c, w) => (c = 45 \/ c = 43) /\ all is_blank w | None => True end) /\
    fst (sign_part s) = (match sg with Some (45, _) => [45] | _ => [] end).
Proof.
  intros Hs. destruct s as [|c r]; [exists None; cbn; auto|].
  destruct (Z.eq_dec c 45) as [->|N1].
  - cbn [sign_part fst snd]. destruct (span is_blank r) as [w r'] eqn:E. apply span_spec in E.
    destruct E as (-> & A & B). exists (Some (45, w)). cbn [snd app]. repeat split; auto.
  - destruct (Z.eq_dec c 43) as [->|N2].
    + cbn [sign_part fst snd]. destruct (span is_blank r) as [w r'] eqn:E. apply span_spec in E.
      destruct E as (-> & A & B). exists (Some (43, w)). cbn [snd app]. repeat split; auto.
    + assert (E : sign_part (c :: r) = ([], c :: r)).
      { unfold sign_part. destruct c as [|p|p]; try reflexivity.
        do 6 (destruct p as [p|p|]; try reflexivity); lia. }
      exists None. rewrite E. cbn. auto.
Qed.

Lemma sign_part_sign c w r : c = 45 \/ c = 43 -> all is_blank w -> stops is_blank r ->
  sign_part (c :: w ++ r) = ((if c =? 45 then [45] else []), r).
Proof.
  intros Hc Hw Hr.
  assert (E : snd (span is_blank (w ++ r)) = r) by now rewrite span_app.
  destruct Hc as [->| ->]; cbn [sign_part]; rewrite E; reflexivity.
Qed.

Lemma sign_part_none s : (match s with c :: _ => c <> 45 /\ c <> 43 | [] => True end) -> sign_part s = ([], s).
Proof.
  destruct s as [|c r]; [reflexivity|]. intros [N1 N2].
  unfold sign_part. destruct c as [|p|p]; try reflexivity.
  do 6 (destruct p as [p|p|]; try reflexivity); lia.
Qed.

(** int_parse_coordinate with the sign reading named *)
Lemma int_parse_eq s : int_parse_coordinate s =
  let '(w0, s0) := span is_sep s in
  match s0 with
  | [] => Ok (inr (len w0))
  | dc :: s1 =>
    match char_dim dc with
    | None => Ok (inr (len w0))
    | Some d =>
      let s2 := snd (span is_blank s1) in
      let num := fst (sign_part s2) in
      let s3 := snd (sign_part s2) in
      let* r := digit_loop s3 num false false (len s - len s3) in
      match r with
      | inr n => Ok (inr n)
      | inl (num', hd, s4) =>
        let s5 := snd (span is_sep s4) in
        let* _ := push num' 0 in
        if negb hd then Ok (inr (len s - len s5))
        else match try_parse_int num' with
             | None => Ok (inr (len s - len s5))
             | Some v => Ok (inl (d, v, s5))
             end
      end
    end
  end.
Proof.
  unfold int_parse_coordinate. destruct (span is_sep s) as [w0 s0]. destruct s0 as [|dc s1]; [reflexivity|].
  destruct (char_dim dc) as [d|]; [|reflexivity].
  destruct (span is_blank s1) as [w1 s2]. cbn [snd fst].
  destruct (sign_part s2) as [num s3]. cbn [fst snd].
  destruct (digit_loop s3 num false false (len s - len s3)) as [[[[num' hd] s4]|n]| | |]; cbn [bind]; try reflexivity.
  destruct (span is_sep s4) as [w s5]. reflexivity.
Qed.

Lemma sign_room s : room (fst (sign_part s)) false false.
Proof.
  unfold sign_part, room. destruct s as [|c r]; [cbn; lia|].
  destruct c as [|p|p]; [cbn; lia| |cbn; lia].
  do 6 (destruct p as [p|p|]; try (cbn [fst length]; lia)).
Qed.

Lemma int_parse_sound s d v rest : int_parse_coordinate s = Ok (inl (d, v, rest)) ->
  exists it, item_ok it /\ s = item_text it ++ rest /\ item_dim it = d /\ item_value it = v /\
             item_short it.
Proof.
  rewrite int_parse_eq. destruct (span is_sep s) as [w0 s0] eqn:E0.
  apply span_spec in E0. destruct E0 as (-> & A0 & B0).
  destruct s0 as [|dc s1]; [discriminate|].
  destruct (char_dim dc) as [d'|] eqn:Ed; [|discriminate].
  destruct (span is_blank s1) as [w1 s2] eqn:E1. cbn [snd].
  apply span_spec in E1. destruct E1 as (-> & A1 & B1).
  destruct (sign_part_spec s2 B1) as (sg & S1 & S2 & S3).
  pose proof (sign_room s2) as Rm.
  set (s3 := snd (sign_part s2)) in *. set (num := fst (sign_part s2)) in *.
  set (n0 := len (w0 ++ dc :: w1 ++ s2) - len s3).
  destruct (digit_loop s3 num false false n0) as [r| | |] eqn:Dl; cbn [bind]; try discriminate.
  pose proof (digit_loop_sound _ _ _ _ _ _ Rm Dl) as L.
  destruct r as [[[num' hd] s4]|n]; [|discriminate].
  destruct L as (ds & D1 & D2 & D3 & D4 & D5 & D6).
  rewrite push_ok by lia. cbn [bind].
  destruct hd; [|discriminate]. cbn [negb].
  destruct (try_parse_int num') as [v'|] eqn:Tp; [|discriminate].
  destruct (span is_sep s4) as [w5 s5] eqn:E5. cbn [snd].
  apply span_spec in E5. destruct E5 as (E5 & A5 & B5).
  intros H. assert (d' = d /\ v' = v /\ s5 = rest) as (-> & -> & ->) by (split; [congruence|split; congruence]).
  assert (Hds : ds <> []) by (intros ->; cbn in D5; discriminate D5).
  assert (Hv : v = (if match sg with Some (45, _) => true | _ => false end then - dval ds else dval ds) /\ in_i32 v).
  { unfold try_parse_int in Tp.
    assert (St : strtol num' = if match sg with Some (45, _) => true | _ => false end then - dval ds else dval ds).
    { rewrite D4, S3. pose proof (stored_digits false false ds D2) as Sd.
      destruct sg as [[c w]|].
      - destruct S2 as [[->| ->] _]; cbn [app]; [rewrite strtol_minus by exact Sd|rewrite strtol_digits by exact Sd];
          rewrite dval_stored; reflexivity.
      - cbn [app]. rewrite strtol_digits by exact Sd. now rewrite dval_stored. }
    destruct (in_i32b (strtol num')) eqn:Ei; [|discriminate Tp].
    assert (Hv : strtol num' = v) by congruence. split; [congruence|]. apply in_i32b_spec. congruence. }
  exists (Item w0 dc w1 sg ds w5).
  split; [|split; [|split; [|split]]].
  - constructor; cbn [i_lead i_letter i_blank i_sign i_digits i_trail]; auto; [congruence|].
    assert (Hval : item_value (Item w0 dc w1 sg ds w5) = v) by (symmetry; apply Hv).
    rewrite Hval. apply Hv.
  - unfold item_text; cbn [i_lead i_letter i_blank i_sign i_digits i_trail].
    rewrite S1 at 1. rewrite D1, E5. rewrite <- !app_assoc. cbn [app]. rewrite <- !app_assoc. reflexivity.
  - unfold item_dim. cbn [i_letter]. now rewrite Ed.
  - unfold item_value, item_negative. cbn [i_sign i_digits]. symmetry. apply Hv.
  - rewrite D4, S3, app_length, stored_length in D6. unfold item_short, item_negative.
    cbn [i_sign i_digits].
    destruct sg as [[c w]|]; [destruct S2 as [[->| ->] _]|]; cbn [length] in D6; lia.
Qed.

Definition calm (s : str) : Prop := match s with c :: _ => is_digit c = false /\ -1 <= c | [] => True end.

Lemma sep_calm c : is_sep c = true -> is_digit c = false /\ -1 <= c.
Proof. unfold is_sep, is_digit. lia. Qed.

Lemma stops_digits ds r : ds <> [] -> all is_digit ds -> stops is_blank (ds ++ r).
Proof.
  intros N H. destruct ds as [|c ds]; [contradiction|]. inversion H as [|? ? Hc _]; subst.
  cbn. now apply digit_not in Hc.
Qed.

Lemma item_letter it : item_ok it -> char_dim (i_letter it) = Some (item_dim it) /\ In (item_dim it) dims.
Proof.
  intros H. pose proof (ok_letter _ H) as E. unfold item_dim.
  destruct (char_dim (i_letter it)) as [d|] eqn:D; [|contradiction].
  split; [reflexivity|]. eapply char_dim_dims; eauto.
Qed.

Lemma int_parse_complete it rest : item_ok it -> item_short it -> calm (i_trail it ++ rest) ->
  int_parse_coordinate (item_text it ++ rest) =
    Ok (inl (item_dim it, item_value it, snd (span is_sep rest))).
Proof.
  intros Hi Sh Ca. destruct (item_letter it Hi) as [Hl _].
  destruct Hi as [H1 H2 H3 H4 [H5 H5'] H6 H7].
  set (s := item_text it ++ rest).
  assert (Es : s = i_lead it ++ i_letter it :: i_blank it
      ++ ((match i_sign it with Some (c, w) => c :: w | None => [] end)
      ++ i_digits it ++ i_trail it ++ rest)).
  { unfold s, item_text. rewrite <- !app_assoc. cbn [app]. rewrite <- !app_assoc. reflexivity. }
  set (s2 := (match i_sign it with Some (c, w) => c :: w | None => [] end)
      ++ i_digits it ++ i_trail it ++ rest) in *.
  rewrite int_parse_eq.
  rewrite Es at 1. rewrite (span_app is_sep) by (assumption || (cbn; apply char_dim_letter in Hl; now apply letter_not in Hl)).
  rewrite Hl.
  assert (St2 : stops is_blank s2).
  { unfold s2. destruct (i_sign it) as [[c w]|]; [|cbn [app]; now apply stops_digits].
    cbn. destruct H4 as [[->| ->] _]; reflexivity. }
  rewrite (span_app is_blank) by assumption. cbn [snd].
  assert (Sp : sign_part s2 = ((if item_negative it then [45] else []), i_digits it ++ i_trail it ++ rest)).
  { unfold s2, item_negative. destruct (i_sign it) as [[c w]|].
    - destruct H4 as [Hc Hw]. cbn [app].
      rewrite sign_part_sign; [|assumption|assumption|now apply stops_digits].
      destruct Hc as [->| ->]; reflexivity.
    - cbn [app]. apply sign_part_none. destruct (i_digits it) as [|c r]; [contradiction|].
      inversion H5' as [|? ? Hc _]; subst. cbn [app]. apply digit_not in Hc. tauto. }
  rewrite Sp. cbn [fst snd].
  rewrite digit_loop_complete; [|assumption| | |].
  - cbn [bind].
    assert (Ln : (length ((if item_negative it then [45%Z] else []) ++ stored false false (i_digits it)) <= 11)%nat).
    { unfold item_short in Sh. rewrite app_length, stored_length. destruct (item_negative it); cbn [length]; lia. }
    rewrite push_ok by lia. cbn [bind].
    assert (Ne : nonempty (i_digits it) = true) by (destruct (i_digits it); [contradiction|reflexivity]).
    rewrite Ne. cbn [orb negb].
    assert (Tp : try_parse_int ((if item_negative it then [45] else []) ++ stored false false (i_digits it)) = Some (item_value it)).
    { unfold try_parse_int.
      assert (E : strtol ((if item_negative it then [45] else []) ++ stored false false (i_digits it)) = item_value it).
      { pose proof (stored_digits false false _ H5') as Sd. unfold item_value. destruct (item_negative it); cbn [app].
        - rewrite strtol_minus by exact Sd. now rewrite dval_stored.
        - rewrite strtol_digits by exact Sd. now rewrite dval_stored. }
      rewrite E. apply in_i32b_spec in H7. now rewrite H7. }
    rewrite Tp. rewrite span_skip by assumption. reflexivity.
  - destruct (i_trail it ++ rest) as [|c r]; [exact I|]. cbn in *. tauto.
  - destruct (i_trail it ++ rest) as [|c r]; [exact I|]. cbn in *. tauto.
  - unfold item_short in Sh. rewrite stored_length. destruct (item_negative it); cbn [length]; lia.
Qed.

Definition items_short (l : list item) : Prop := Forall item_short l.

Lemma items_calm l : Forall item_ok l -> calm (flat_map item_text l).
Proof.
  intros H. destruct l as [|it l]; [exact I|]. inversion H as [|? ? Hi _]; subst.
  destruct (item_letter it Hi) as [Hl _]. destruct Hi as [H1 _ _ _ _ _ _].
  cbn [flat_map]. unfold item_text at 1. destruct (i_lead it) as [|c r].
  - cbn. apply char_dim_letter in Hl. apply letter_not in Hl. destruct Hl as (_ & ? & _ & _ & ?). split; [assumption|lia].
  - inversion H1; subst. cbn. now apply sep_calm.
Qed.

Lemma item_text_length it : (1 <= length (item_text it))%nat.
Proof. unfold item_text. rewrite app_length. cbn [length]. lia. Qed.

(** the table after reading the items *)
Fixpoint fill (l : list item) (t : coord) : coord :=
  match l with
  | [] => t
  | it :: l' => fill l' (tset t (item_dim it) (item_value it))
  end.

Lemma parse_loop_complete l : forall fuel t until,
  Forall item_ok l -> items_short l -> NoDup (map item_dim l) -> length t = 9%nat ->
  (forall d, In d (map item_dim l) -> tget t d = None) ->
  (length (snd (span is_sep (flat_map item_text l))) <= fuel)%nat ->
  exists u, parse_coordinate_loop fuel (snd (span is_sep (flat_map item_text l))) t until = Ok (inl (fill l t))
    /\ u = 0.
Proof.
  induction l as [|it l IH]; intros fuel t until Ho Hs Hn Ht Hf Hfu.
  - cbn [flat_map span snd]. exists 0. destruct fuel; auto.
  - inversion Ho as [|? ? O1 O2]; subst. inversion Hs as [|? ? S1 S2]; subst. inversion Hn as [|? ? N1 N2]; subst.
    destruct (item_letter it O1) as [Hl Hd].
    assert (Ca : calm (i_trail it ++ flat_map item_text l)).
    { pose proof (items_calm l O2) as C. pose proof (ok_trail _ O1) as T.
      destruct (i_trail it) as [|c r]; [exact C|]. inversion T; subst. cbn. now apply sep_calm. }
    pose proof (int_parse_complete it (flat_map item_text l) O1 S1 Ca) as P.
    set (s := snd (span is_sep (flat_map item_text (it :: l)))) in *.
    set (it' := Item [] (i_letter it) (i_blank it) (i_sign it) (i_digits it) (i_trail it)).
    assert (Es : s = item_text it' ++ flat_map item_text l).
    { unfold s. cbn [flat_map]. unfold item_text at 1. rewrite <- app_assoc. rewrite span_skip by apply (ok_lead _ O1).
      rewrite span_stop by (cbn; apply char_dim_letter in Hl; now apply letter_not in Hl). cbn [snd]. reflexivity. }
    assert (O1' : item_ok it').
    { destruct O1. constructor; cbn [it' i_lead i_letter i_blank i_sign i_digits i_trail]; auto. }
    pose proof (int_parse_complete it' (flat_map item_text l) O1' S1 Ca) as P'. rewrite <- Es in P'.
    change (item_dim it') with (item_dim it) in P'. change (item_value it') with (item_value it) in P'.
    assert (Ls : (length (snd (span is_sep (flat_map item_text l))) < length s)%nat).
    { rewrite Es, app_length. pose proof (item_text_length it'). pose proof (span_len is_sep (flat_map item_text l)). lia. }
    destruct fuel as [|fuel]; [lia|].
    destruct s as [|c s'] eqn:Esv; [cbn [length] in Ls; lia|].
    cbn [parse_coordinate_loop]. rewrite P'. cbn [bind].
    rewrite (Hf (item_dim it)) by (left; reflexivity).
    destruct (IH fuel (tset t (item_dim it) (item_value it))
               (until + (len (c :: s') - len (snd (span is_sep (flat_map item_text l)))))) as (u & E & _); auto.
    + now apply tset_length.
    + intros d I. rewrite tget_tset; auto.
      * destruct (Z.eqb_spec (item_dim it) d) as [E|E]; [subst; contradiction|]. apply Hf. now right.
      * apply in_map_iff in I. destruct I as (x & <- & I). rewrite Forall_forall in O2. now apply item_letter, O2.
    + lia.
    + exists 0. rewrite E. auto.
Qed.

Lemma fill_length l : forall t, length t = 9%nat -> Forall item_ok l -> length (fill l t) = 9%nat.
Proof.
  induction l as [|it l IH]; intros t H O; [exact H|]. inversion O as [|? ? O1 O2]; subst.
  cbn [fill]. apply IH; [|assumption]. apply tset_length; [assumption|]. now apply item_letter.
Qed.

Lemma fill_other l : forall t d, length t = 9%nat -> Forall item_ok l -> In d dims ->
  ~ In d (map item_dim l) -> tget (fill l t) d = tget t d.
Proof.
  induction l as [|it l IH]; intros t d H O I N; [reflexivity|]. inversion O as [|? ? O1 O2]; subst.
  cbn [fill map] in *. assert (Hd : In (item_dim it) dims) by now apply item_letter.
  rewrite IH; [| now apply tset_length | assumption | assumption | intros C; apply N; now right].
  rewrite tget_tset by assumption. destruct (Z.eqb_spec (item_dim it) d); [|reflexivity].
  exfalso. apply N. now left.
Qed.

Lemma fill_in l : forall t it, length t = 9%nat -> Forall item_ok l -> NoDup (map item_dim l) -> In it l ->
  tget (fill l t) (item_dim it) = Some (item_value it).
Proof.
  induction l as [|x l IH]; intros t it H O N I; [destruct I|].
  inversion O as [|? ? O1 O2]; subst. inversion N as [|? ? N1 N2]; subst. cbn [fill].
  assert (Hd : In (item_dim x) dims) by now apply item_letter.
  destruct I as [->|I].
  - rewrite fill_other; [|now apply tset_length|assumption|assumption|assumption].
    rewrite tget_tset by assumption. now rewrite Z.eqb_refl.
  - apply IH; auto. now apply tset_length.
Qed.

Lemma fill_spells l : Forall item_ok l -> NoDup (map item_dim l) ->
  spells (flat_map item_text l) l (fill l empty_table).
Proof.
  intros O N. unfold spells. split; [reflexivity|]. split; [assumption|]. split; [assumption|].
  split; [now apply fill_length|].
  intros d v Hd. split.
  - intros E. destruct (in_dec Z.eq_dec d (map item_dim l)) as [I|I].
    + apply in_map_iff in I. destruct I as (it & <- & I).
      rewrite fill_in in E by (auto; reflexivity). injection E as <-. exists it. auto.
    + rewrite fill_other in E by (auto; reflexivity). rewrite tget_empty in E by assumption. discriminate E.
  - intros (it & I & <- & <-). now apply fill_in.
Qed.

Lemma spells_unique s l c c' : spells s l c -> spells s l c' -> c = c'.
Proof.
  intros (_ & _ & _ & L & H) (_ & _ & _ & L' & H').
  apply table_ext; auto. intros d Hd.
  destruct (tget c d) as [v|] eqn:E.
  - apply H, H' in E; auto.
  - destruct (tget c' d) as [v|] eqn:E'; [|reflexivity]. apply H', H in E'; auto. congruence.
Qed.

Theorem parse_complete s l c : spells s l c -> items_short l -> parse_coordinate s = Ok (inl c).
Proof.
  intros Sp Sh. pose proof Sp as (-> & O & N & _ & _).
  assert (Ec : c = fill l empty_table).
  { apply (spells_unique _ _ _ _ Sp). now apply fill_spells. }
  subst c. unfold parse_coordinate.
  destruct l as [|it l]; [reflexivity|].
  inversion O as [|? ? O1 O2]; subst. inversion Sh as [|? ? S1 S2]; subst. inversion N as [|? ? N1 N2]; subst.
  destruct (item_letter it O1) as [Hl Hd].
  assert (Ca : calm (i_trail it ++ flat_map item_text l)).
  { pose proof (items_calm l O2) as C. pose proof (ok_trail _ O1) as T.
    destruct (i_trail it) as [|c r]; [exact C|]. inversion T; subst. cbn. now apply sep_calm. }
  pose proof (int_parse_complete it (flat_map item_text l) O1 S1 Ca) as P.
  cbn [flat_map]. set (s := item_text it ++ flat_map item_text l) in *.
  assert (Ls : (length (snd (span is_sep (flat_map item_text l))) < length s)%nat).
  { unfold s. rewrite app_length. pose proof (item_text_length it). pose proof (span_len is_sep (flat_map item_text l)). lia. }
  destruct s as [|c s'] eqn:Esv; [cbn [length] in Ls; lia|].
  cbn [length parse_coordinate_loop]. rewrite P. cbn [bind]. rewrite tget_empty by assumption.
  cbn [length] in Ls.
  destruct (parse_loop_complete l (length s') (tset empty_table (item_dim it) (item_value it))
      (0 + (len (c :: s') - len (snd (span is_sep (flat_map item_text l)))))) as (_ & E & _); auto.
  - now apply tset_length.
  - intros d I. assert (In d dims).
    { apply in_map_iff in I. destruct I as (x & <- & I). rewrite Forall_forall in O2. now apply item_letter, O2. }
    rewrite tget_tset by (auto; reflexivity).
    destruct (Z.eqb_spec (item_dim it) d) as [E|E]; [subst; contradiction|]. now apply tget_empty.
  - lia.
Qed.

Lemma parse_loop_sound fuel : forall s t until c, length t = 9%nat ->
  parse_coordinate_loop fuel s t until = Ok (inl c) ->
  exists l, s = flat_map item_text l /\ Forall item_ok l /\ NoDup (map item_dim l) /\ c = fill l t /\
    items_short l /\ (forall d, In d (map item_dim l) -> tget t d = None).
Proof.
  induction fuel as [|fuel IH]; intros s t until c Ht.
  - destruct s; cbn [parse_coordinate_loop]; [|discriminate]. intros H. exists []. cbn.
    split; [reflexivity|]. split; [constructor|]. split; [constructor|]. split; [congruence|]. split; [constructor|tauto].
  - destruct s as [|c0 s']; cbn [parse_coordinate_loop].
    + intros H. exists []. cbn. split; [reflexivity|]. split; [constructor|]. split; [constructor|]. split; [congruence|]. split; [constructor|tauto].
    + set (s := c0 :: s') in *.
      destruct (int_parse_coordinate s) as [[[[d v] rest]|n]| | |] eqn:P; cbn [bind]; try discriminate.
      apply int_parse_sound in P. destruct P as (it & Oi & Es & Ed & Ev & Sh).
      destruct (tget t d) eqn:G; [discriminate|]. intros H.
      assert (Hd : In d dims) by (subst d; now apply item_letter).
      apply IH in H; [|now apply tset_length].
      destruct H as (l & -> & O & N & -> & Hsh & Hn). exists (it :: l). cbn [flat_map map fill].
      split; [assumption|]. split; [now constructor|]. subst d v.
      split; [constructor; [|assumption]|].
      * intros C. apply Hn in C. rewrite tget_tset in C by assumption. rewrite Z.eqb_refl in C. discriminate C.
      * split; [reflexivity|]. split; [constructor; assumption|]. intros d [<-|I]; [assumption|]. pose proof (Hn d I) as E.
        assert (Hdd : In d dims).
        { apply in_map_iff in I. destruct I as (x & <- & I). rewrite Forall_forall in O. now apply item_letter, O. }
        rewrite tget_tset in E by assumption. destruct (item_dim it =? d); [discriminate E|exact E].
Qed.

Theorem parse_sound s c : parse_coordinate s = Ok (inl c) -> exists l, spells s l c /\ items_short l.
Proof.
  intros H. apply parse_loop_sound in H; [|reflexivity].
  destruct H as (l & -> & O & N & -> & Hsh & _). exists l. split; [now apply fill_spells|assumption].
Qed.

Theorem parse_iff s c : parse_coordinate s = Ok (inl c) <-> exists l, spells s l c /\ items_short l.
Proof.
  split; [apply parse_sound|]. intros (l & H1 & H2). now apply (parse_complete s l).
Qed.

Theorem spells_functional s l l' c c' :
  spells s l c -> items_short l -> spells s l' c' -> items_short l' -> c = c'.
Proof.
  intros A B C D. pose proof (parse_complete _ _ _ A B). pose proof (parse_complete _ _ _ C D). congruence.
Qed.

(** totality *)
Lemma int_parse_bounds s : Forall (fun c => -1 <= c) s ->
  exists r, int_parse_coordinate s = Ok r /\
    match r with
    | inl (_, _, rest) => (length rest < length s)%nat /\ (exists p, s = p ++ rest)
    | inr n => 0 <= n <= len s
    end.
Proof.
  intros Hs. rewrite int_parse_eq.
  destruct (span is_sep s) as [w0 s0] eqn:E0. apply span_spec in E0. destruct E0 as (-> & A0 & B0).
  assert (Lw : 0 <= len w0 <= len (w0 ++ s0)) by (unfold len; rewrite app_length; lia).
  destruct s0 as [|dc s1]; [eexists; split; [reflexivity|exact Lw]|].
  destruct (char_dim dc) as [d'|] eqn:Ed; [|eexists; split; [reflexivity|exact Lw]].
  destruct (span is_blank s1) as [w1 s2] eqn:E1. cbn [snd].
  apply span_spec in E1. destruct E1 as (-> & A1 & B1).
  destruct (sign_part_spec s2 B1) as (sg & S1 & S2 & S3).
  pose proof (sign_room s2) as Rm. cbv zeta.
  set (s3 := snd (sign_part s2)) in *. set (num := fst (sign_part s2)) in *.
  assert (Hs3 : Forall (fun c => -1 <= c) s3).
  { apply Forall_app in Hs. destruct Hs as [_ Hs]. apply Forall_inv_tail in Hs.
    pose proof Hs as Hs'. apply Forall_app in Hs'. destruct Hs' as [_ Hs']. rewrite S1 in Hs'. apply Forall_app in Hs'. tauto. }
  assert (Ls2 : (length s3 <= length s2)%nat) by (rewrite S1; rewrite app_length; lia).
  set (n0 := len (w0 ++ dc :: w1 ++ s2) - len s3).
  assert (Ln0 : 0 <= n0 /\ n0 + len s3 = len (w0 ++ dc :: w1 ++ s2)).
  { unfold n0, len. rewrite app_length. cbn [length]. rewrite app_length. lia. }
  destruct (digit_loop_total s3 num false false n0 Rm Hs3) as [r Dl]. rewrite Dl. cbn [bind].
  pose proof (digit_loop_sound _ _ _ _ _ _ Rm Dl) as L.
  destruct r as [[[num' hd] s4]|n].
  - destruct L as (ds & D1 & D2 & D3 & D4 & D5 & D6). rewrite push_ok by lia. cbn [bind].
    destruct (span is_sep s4) as [w5 s5] eqn:E5. cbn [snd]. apply span_spec in E5. destruct E5 as (E5 & _ & _).
    assert (L5 : (length s5 <= length s3)%nat) by (rewrite D1, E5; rewrite !app_length; lia).
    assert (Fin : 0 <= len (w0 ++ dc :: w1 ++ s2) - len s5 <= len (w0 ++ dc :: w1 ++ s2)).
    { unfold len. rewrite app_length. cbn [length]. rewrite app_length. lia. }
    destruct hd; cbn [negb]; [|eexists; split; [reflexivity|exact Fin]].
    destruct (try_parse_int num'); [|eexists; split; [reflexivity|exact Fin]].
    eexists; split; [reflexivity|]. split.
    + rewrite app_length. cbn [length]. rewrite app_length. lia.
    + exists (w0 ++ dc :: w1 ++ (match sg with Some (c, w) => c :: w | None => [] end) ++ ds ++ w5).
      rewrite S1 at 1. rewrite D1, E5. rewrite <- !app_assoc. cbn [app]. rewrite <- !app_assoc. reflexivity.
  - exists (inr n). split; [reflexivity|]. destruct Ln0 as [Ln0 Ln1]. cbv beta iota in L |- *.
    rewrite <- Ln1. lia.
Qed.

Definition perr_pos (e : perr) : Z := match e with SyntaxError p | DuplicateDimension p => p end.

Lemma parse_loop_total fuel : forall s t until, Forall (fun c => -1 <= c) s -> (length s <= fuel)%nat ->
  exists r, parse_coordinate_loop fuel s t until = Ok r /\
    match r with inl _ => True | inr e => until <= perr_pos e <= until + len s end.
Proof.
  induction fuel as [|fuel IH]; intros s t until Hs Hl.
  - destruct s; [|cbn [length] in Hl; lia]. eexists; split; [reflexivity|exact I].
  - destruct s as [|c s']; [eexists; split; [reflexivity|exact I]|].
    cbn [parse_coordinate_loop]. set (s := c :: s') in *.
    destruct (int_parse_bounds s Hs) as (r & -> & B). cbn [bind].
    destruct r as [[[d v] rest]|n]; [|eexists; split; [reflexivity|cbn [perr_pos]; lia]].
    destruct B as [B1 [p Ep]].
    destruct (tget t d); [eexists; split; [reflexivity|cbn [perr_pos]; unfold len; lia]|].
    assert (Hr : Forall (fun c => -1 <= c) rest).
    { rewrite Ep in Hs. apply Forall_app in Hs. tauto. }
    destruct (IH rest (tset t d v) (until + (len s - len rest)) Hr) as (r & E & B); [lia|].
    exists r. split; [exact E|]. destruct r; [exact I|]. unfold len in *. lia.
Qed.

Theorem parse_total s : Forall (fun c => -1 <= c) s ->
  exists r, parse_coordinate s = Ok r /\
    match r with inl _ => True | inr e => 0 <= perr_pos e <= len s end.
Proof.
  intros H. destruct (parse_loop_total (length s) s empty_table 0 H (le_n _)) as (r & E & B).
  exists r. split; [exact E|]. destruct r; [exact I|]. lia.
Qed.

(** round trip *)
Definition dec_item (d v : Z) : item :=
  Item [] (dim_char d) [] (if v <? 0 then Some (45, []) else None) (mag v) [].

Lemma dec_item_text d v : item_text (dec_item d v) = dim_char d :: dec v.
Proof.
  unfold item_text, dec_item. cbn [i_lead i_letter i_blank i_sign i_digits i_trail app].
  rewrite dec_mag, app_nil_r. destruct (v <? 0); reflexivity.
Qed.

Lemma dec_item_ok d v : In d dims -> in_i32 v ->
  item_ok (dec_item d v) /\ item_short (dec_item d v) /\ item_dim (dec_item d v) = d /\ item_value (dec_item d v) = v.
Proof.
  intros Hd Hv. destruct (mag_spec v Hv) as (M1 & M2 & M3 & M4 & M5).
  assert (Ev : item_value (dec_item d v) = v).
  { unfold item_value, item_negative, dec_item. cbn [i_sign i_digits]. rewrite M3.
    destruct (Z.ltb_spec v 0); lia. }
  assert (Ed : item_dim (dec_item d v) = d).
  { unfold item_dim, dec_item. cbn [i_letter]. now rewrite char_dim_char. }
  split; [|split; [|auto]].
  - constructor; cbn [dec_item i_lead i_letter i_blank i_sign i_digits i_trail]; auto.
    + rewrite char_dim_char by assumption. discriminate.
    + destruct (v <? 0); auto.
    + fold (dec_item d v). now rewrite Ev.
  - unfold item_short, item_negative, dec_item. cbn [i_sign i_digits].
    destruct (Z.eq_dec v 0) as [->|N]; [cbn; lia|]. specialize (M4 N).
    assert (Z48 : drop_zeros (mag v) = mag v /\ (match mag v with 48%Z :: _ => 1 | _ => 0 end = 0)%nat).
    { destruct (mag v) as [|c r]; [split; reflexivity|]. cbn [stops] in M4.
      assert (c <> 48) by lia. cbn [drop_zeros]. destruct c as [|p|p]; try (split; reflexivity).
      do 6 (destruct p as [p|p|]; try (split; reflexivity)). lia. }
    destruct Z48 as [-> ->]. destruct (v <? 0); lia.
Qed.

Definition coord_items (c : coord) (ds : list Z) : list item :=
  flat_map (fun d => match tget c d with Some v => [dec_item d v] | None => [] end) ds.

Lemma coord_items_text c ds :
  flat_map item_text (coord_items c ds) =
  flat_map (fun d => match tget c d with Some v => dim_char d :: dec v | None => [] end) ds.
Proof.
  induction ds as [|d ds IH]; [reflexivity|]. unfold coord_items in *. cbn [flat_map].
  rewrite flat_map_app, IH. f_equal. destruct (tget c d); [|reflexivity].
  cbn [flat_map]. now rewrite dec_item_text, app_nil_r.
Qed.

Lemma coord_items_ok c ds : coord_ok c -> incl ds dims -> NoDup ds ->
  Forall item_ok (coord_items c ds) /\ items_short (coord_items c ds) /\
  NoDup (map item_dim (coord_items c ds)) /\ incl (map item_dim (coord_items c ds)) ds.
Proof.
  intros [L V]. induction ds as [|d ds IH]; intros Hi Hn.
  - cbn. repeat split; constructor || (intros x Hx; exact Hx).
  - inversion Hn as [|? ? N1 N2]; subst.
    destruct IH as (A & B & C & D); [intros x Hx; apply Hi; now right|assumption|].
    unfold coord_items in *. cbn [flat_map]. assert (Hd : In d dims) by (apply Hi; now left).
    destruct (tget c d) as [v|] eqn:E.
    + destruct (dec_item_ok d v Hd (V d v Hd E)) as (I1 & I2 & I3 & I4).
      cbn [app map]. unfold items_short in *. rewrite I3.
      split; [now constructor|]. split; [now constructor|].
      split; [constructor; [intros Hx; apply N1, D, Hx|exact C]|].
      intros x [<-|Hx]; [now left|right; now apply D].
    + cbn [app]. split; [assumption|]. split; [assumption|]. split; [assumption|].
      intros x Hx. right. now apply D.
Qed.

Lemma dims_nodup : NoDup dims.
Proof. unfold dims. repeat constructor; cbn; lia. Qed.

Lemma coord_spelled c : coord_ok c -> spells (coord_to_string c) (coord_items c dims) c.
Proof.
  intros H. destruct (coord_items_ok c dims H (incl_refl _) dims_nodup) as (A & B & C & D).
  unfold spells. split; [symmetry; apply coord_items_text|]. split; [assumption|]. split; [assumption|].
  split; [apply H|]. intros d v Hd. split.
  - intros E. exists (dec_item d v). destruct (dec_item_ok d v Hd (proj2 H d v Hd E)) as (_ & _ & I3 & I4).
    split; [|auto]. unfold coord_items. apply in_flat_map. exists d. split; [assumption|]. rewrite E. now left.
  - intros (it & I & <- & <-). unfold coord_items in I. apply in_flat_map in I.
    destruct I as (d' & Hd' & I). destruct (tget c d') as [v|] eqn:E; [|destruct I].
    destruct I as [<-|[]]. destruct (dec_item_ok d' v Hd' (proj2 H d' v Hd' E)) as (_ & _ & -> & ->). exact E.
Qed.

Theorem coord_round_trip c : coord_ok c -> parse_coordinate (coord_to_string c) = Ok (inl c).
Proof.
  intros H. apply (parse_complete _ (coord_items c dims)); [now apply coord_spelled|].
  apply (coord_items_ok c dims H (incl_refl _) dims_nodup).
Qed.
