(** Lemmas: node values as numbers. *)
From Coq Require Import String.
From Verif Require Import Base TextModel TextProofs XmlModel XmlSpec XmlProofs XmlValues XmlPaths.
Open Scope Z_scope.

Lemma number_iff s neg m r : number s = Some (neg, m, r) <-> exists a, s = a ++ r /\ spells_number a neg m /\ stops is_digit r.
Proof.
  split.
  - unfold number. destruct (span is_space s) as [w s1] eqn:E. cbn [snd]. apply span_spec in E. destruct E as (-> & Hw & Hs).
    rewrite Forall_forall in Hw.
    assert (G : forall sg s2, s1 = sg ++ s2 -> (sg = [] /\ neg = false) \/ (sg = [43] /\ neg = false) \/ (sg = [45] /\ neg = true) ->
      (let '(ds, r0) := span is_digit s2 in match ds with [] => None | _ => Some (neg, dval ds, r0) end) = Some (neg, m, r) ->
      exists a, w ++ s1 = a ++ r /\ spells_number a neg m /\ stops is_digit r).
    { intros sg s2 -> Hsg H. destruct (span is_digit s2) as [ds r0] eqn:D. apply span_spec in D. destruct D as (-> & Hd & Hr).
      destruct ds as [|d ds]; [discriminate|]. injection H as <- <-. exists (w ++ sg ++ d :: ds). split; [now rewrite !app_assoc|]. split; [|exact Hr].
      exists w, sg, (d :: ds). rewrite Forall_forall in Hd. split; [reflexivity|]. split; [exact Hw|]. split; [exact Hsg|]. split; [discriminate|]. split; [exact Hd|reflexivity]. }
    destruct s1 as [|c s1]; [cbn; discriminate|]. destruct (c =? 45) eqn:E1.
    + destruct (span is_digit s1) as [ds r0] eqn:D. destruct ds as [|d ds]; [discriminate|]. intros H. injection H as <- <- <-.
      apply (G [45] s1); [cbn [app]; f_equal; lia|auto|]. now rewrite D.
    + destruct (c =? 43) eqn:E2.
      * destruct (span is_digit s1) as [ds r0] eqn:D. destruct ds as [|d ds]; [discriminate|]. intros H. injection H as <- <- <-.
        apply (G [43] s1); [cbn [app]; f_equal; lia|auto|]. now rewrite D.
      * destruct (span is_digit (c :: s1)) as [ds r0] eqn:D. destruct ds as [|d ds]; [discriminate|]. intros H. injection H as <- <- <-.
        apply (G [] (c :: s1)); [reflexivity|auto|]. now rewrite D.
  - intros (a & -> & (w & sg & ds & -> & Hw & Hsg & Nd & Hd & ->) & Hr). unfold number. rewrite <- !app_assoc.
    assert (S1 : stops is_space (sg ++ ds ++ r)).
    { destruct Hsg as [[-> _]|[[-> _]|[-> _]]]; try reflexivity. destruct ds as [|d ds]; [easy|]. cbn.
      specialize (Hd d (or_introl eq_refl)). unfold is_digit in Hd. unfold is_space. lia. }
    rewrite (span_app is_space w (sg ++ ds ++ r)) by (try exact S1; now apply Forall_forall). cbn [snd].
    assert (D : span is_digit (ds ++ r) = (ds, r)) by (apply span_app; [now apply Forall_forall|exact Hr]).
    destruct Hsg as [[-> ->]|[[-> ->]|[-> ->]]]; cbn [app].
    + destruct ds as [|d ds]; [easy|]. cbn [app] in *. specialize (Hd d (or_introl eq_refl)). unfold is_digit in Hd.
      replace (d =? 45) with false by lia. replace (d =? 43) with false by lia. rewrite D. reflexivity.
    + replace (43 =? 45) with false by lia. replace (43 =? 43) with true by lia. rewrite D. now destruct ds.
    + replace (45 =? 45) with true by lia. rewrite D. now destruct ds.
Qed.
Lemma spells_functional s neg m neg' m' : spells_number s neg m -> spells_number s neg' m' -> neg = neg' /\ m = m'.
Proof.
  intros H H'. assert (A : number s = Some (neg, m, [])) by (apply number_iff; exists s; rewrite app_nil_r; cbn; auto).
  assert (B : number s = Some (neg', m', [])) by (apply number_iff; exists s; rewrite app_nil_r; cbn; auto). rewrite A in B. now injection B as -> ->.
Qed.

(** no white space directly after a number, and only characters isspace may be called with *)
Definition calm_text (s : str) : Prop :=
  (forall c, In c s -> 0 <= c <= 255) /\
  (forall a c b neg m, s = a ++ c :: b -> spells_number a neg m -> is_space c = false).

Lemma tail_calm fuel a r neg m : calm_text (a ++ r) -> spells_number a neg m -> tail_loop fuel r = Ok (match r with [] => true | _ => false end).
Proof.
  intros [H1 H2] S. destruct r as [|c r]; [destruct fuel; reflexivity|].
  assert (R : 0 <= c <= 255) by (apply H1; apply in_app_iff; right; now left). assert (Sp : is_space c = false) by (now apply (H2 a c r neg m)).
  destruct fuel; cbn [tail_loop]; unfold c_isspace; replace ((c <? -1) || (255 <? c)) with false by lia; cbn [bind]; rewrite Sp; reflexivity.
Qed.

(** a conversion which looks at sign and magnitude only *)
Lemma convert_calm {A} fuel (conv : str -> option (A * str)) (f : bool -> Z -> option A) n s :
  (forall s, conv s = match number s with Some (neg, m, r) => match f neg m with Some v => Some (v, r) | None => None end | None => None end) ->
  try_get_value n = Some s -> calm_text s ->
  exists o, try_convert fuel conv n = Ok o /\ forall v, o = Some v <-> exists neg m, spells_number s neg m /\ f neg m = Some v.
Proof.
  intros C V T. unfold try_convert. rewrite V, C. destruct (number s) as [[[neg m] r]|] eqn:N.
  - apply number_iff in N. destruct N as (a & -> & S & R). destruct (f neg m) as [v0|] eqn:F.
    + rewrite (tail_calm fuel a r neg m T S). cbn [bind]. eexists. split; [reflexivity|]. intros v. split.
      * destruct r; [|discriminate]. intros H. injection H as <-. exists neg, m. rewrite app_nil_r. auto.
      * intros (neg' & m' & S' & F'). destruct r as [|c r].
        -- rewrite app_nil_r in S'. destruct (spells_functional _ _ _ _ _ S S') as [<- <-]. now rewrite F in F'.
        -- exfalso. assert (X : number (a ++ c :: r) = Some (neg', m', [])) by (apply number_iff; exists (a ++ c :: r); rewrite app_nil_r; cbn; auto).
           assert (Y : number (a ++ c :: r) = Some (neg, m, c :: r)) by (apply number_iff; exists a; auto). rewrite X in Y. discriminate.
    + eexists. split; [reflexivity|]. intros v. split; [discriminate|]. intros (neg' & m' & S' & F').
      assert (X : number (a ++ r) = Some (neg', m', [])) by (apply number_iff; exists (a ++ r); rewrite app_nil_r; cbn; auto).
      assert (Y : number (a ++ r) = Some (neg, m, r)) by (apply number_iff; exists a; auto). rewrite X in Y. injection Y as -> -> <-. congruence.
  - eexists. split; [reflexivity|]. intros v. split; [discriminate|]. intros (neg' & m' & S' & F').
    assert (X : number s = Some (neg', m', [])) by (apply number_iff; exists s; rewrite app_nil_r; cbn; auto). congruence.
Qed.
Lemma convert_hangs {A} fuel (conv : str -> option (A * str)) (f : bool -> Z -> option A) n a c b neg m v :
  (forall s, conv s = match number s with Some (neg, m, r) => match f neg m with Some v => Some (v, r) | None => None end | None => None end) ->
  try_get_value n = Some (a ++ c :: b) -> spells_number a neg m -> f neg m = Some v -> is_space c = true ->
  try_convert fuel conv n = OutOfFuel.
Proof.
  intros C V S F Sp. unfold try_convert. rewrite V, C.
  assert (Y : number (a ++ c :: b) = Some (neg, m, c :: b)).
  { apply number_iff. exists a. split; [reflexivity|]. split; [exact S|]. cbn. unfold is_space in Sp. unfold is_digit. lia. }
  rewrite Y, F. assert (L : tail_loop fuel (c :: b) = OutOfFuel).
  { induction fuel as [|f0 IH]; cbn [tail_loop]; unfold c_isspace in *; unfold is_space in Sp;
      replace ((c <? -1) || (255 <? c)) with false by lia; cbn [bind]; unfold is_space; rewrite Sp; [reflexivity|exact IH]. }
  now rewrite L.
Qed.

Definition signed_value (lo hi : Z) (neg : bool) (m : Z) : option Z :=
  let v := if neg then - m else m in if (lo <=? v) && (v <=? hi) then Some v else None.
Definition unsigned_value (hi : Z) (neg : bool) (m : Z) : option Z :=
  if 2 ^ 64 - 1 <? m then None else let v := if neg then u64 (- m) else m in if v <=? hi then Some v else None.
Lemma conv_signed_eq lo hi s : conv_signed lo hi s =
  match number s with Some (neg, m, r) => match signed_value lo hi neg m with Some v => Some (v, r) | None => None end | None => None end.
Proof.
  unfold conv_signed, signed_value. destruct (number s) as [[[neg m] r]|]; [|reflexivity].
  destruct ((lo <=? (if neg then - m else m)) && ((if neg then - m else m) <=? hi)); reflexivity.
Qed.
Lemma conv_unsigned_eq hi s : conv_unsigned hi s =
  match number s with Some (neg, m, r) => match unsigned_value hi neg m with Some v => Some (v, r) | None => None end | None => None end.
Proof.
  unfold conv_unsigned, unsigned_value. destruct (number s) as [[[neg m] r]|]; [|reflexivity]. destruct (2 ^ 64 - 1 <? m); [reflexivity|].
  destruct ((if neg then u64 (- m) else m) <=? hi); reflexivity.
Qed.

(** ** signed numbers *)
Theorem signed_read lo hi fuel n s : try_get_value n = Some s -> calm_text s ->
  exists o, try_convert fuel (conv_signed lo hi) n = Ok o /\
    forall v, o = Some v <-> exists neg m, spells_number s neg m /\ v = (if neg then - m else m) /\ lo <= v <= hi.
Proof.
  intros V T. destruct (convert_calm fuel (conv_signed lo hi) (signed_value lo hi) n s (conv_signed_eq lo hi) V T) as (o & E & H).
  exists o. split; [exact E|]. intros v. rewrite H. split; intros (neg & m & S & X); exists neg, m; (split; [exact S|]); unfold signed_value in *.
  - destruct ((lo <=? (if neg then - m else m)) && ((if neg then - m else m) <=? hi)) eqn:B; [|discriminate]. injection X as <-. lia.
  - destruct X as [-> X]. replace ((lo <=? (if neg then - m else m)) && ((if neg then - m else m) <=? hi)) with true; [reflexivity|]. symmetry. lia.
Qed.
Theorem unsigned_read hi fuel n s : hi < 2 ^ 64 -> try_get_value n = Some s -> calm_text s ->
  exists o, try_convert fuel (conv_unsigned hi) n = Ok o /\
    forall v, o = Some v <-> exists neg m, spells_number s neg m /\ m < 2 ^ 64 /\ v = (if neg then - m mod 2 ^ 64 else m) /\ v <= hi.
Proof.
  intros Hh V T. destruct (convert_calm fuel (conv_unsigned hi) (unsigned_value hi) n s (conv_unsigned_eq hi) V T) as (o & E & H).
  exists o. split; [exact E|]. intros v. rewrite H. unfold unsigned_value, u64.
  split; intros (neg & m & S & X); exists neg, m; (split; [exact S|]).
  - destruct (2 ^ 64 - 1 <? m) eqn:B; [discriminate|]. destruct ((if neg then - m mod 2 ^ 64 else m) <=? hi) eqn:B2; [|discriminate].
    injection X as <-. split; [lia|]. split; [reflexivity|]. now apply Z.leb_le in B2.
  - destruct X as (Hm & -> & Hv). replace (2 ^ 64 - 1 <? m) with false by lia.
    apply Z.leb_le in Hv. now rewrite Hv.
Qed.

(** ** round trips *)
Lemma dec_spells v : - 2 ^ 63 <= v < 2 ^ 64 -> spells_number (dec v) (v <? 0) (Z.abs v) /\ calm_text (dec v).
Proof.
  intros Hv. unfold dec.
  assert (P : forall a, 0 <= a < 2 ^ 64 -> dec_digits 20 a <> [] /\ (forall c, In c (dec_digits 20 a) -> is_digit c = true) /\ dval (dec_digits 20 a) = a).
  { intros a Ha. destruct (dec_digits_spec 19 a) as (A & B & C & _); [change (10 ^ Z.of_nat 20) with 100000000000000000000; lia|].
    rewrite Forall_forall in B. auto. }
  assert (Q : forall s, (forall c, In c s -> c = 45 \/ is_digit c = true) -> calm_text s).
  { intros s Hs. split.
    - intros c Hc. destruct (Hs c Hc) as [-> | D]; [lia|]. unfold is_digit in D. lia.
    - intros a c b neg m -> _. destruct (Hs c) as [-> | D]; [apply in_app_iff; right; now left|reflexivity|]. unfold is_digit in D. unfold is_space. lia. }
  destruct (v <? 0) eqn:E.
  - destruct (P (- v)) as (A & B & C); [lia|]. split.
    + exists [], [45], (dec_digits 20 (- v)). split; [reflexivity|]. split; [intros c []|]. split; [auto|]. split; [exact A|]. split; [exact B|].
      rewrite C. lia.
    + apply Q. intros c [<-|Hc]; [now left|right; now apply B].
  - destruct (P v) as (A & B & C); [lia|]. split.
    + exists [], [], (dec_digits 20 v). split; [reflexivity|]. split; [intros c []|]. split; [auto|]. split; [exact A|]. split; [exact B|].
      rewrite C. lia.
    + apply Q. intros c Hc. right. now apply B.
Qed.
Lemma set_number_value v n n' : tidy_kids (kids_of n) -> set_number v n = Ok n' -> try_get_value n' = Some (dec v).
Proof. intros T H. now apply (set_value_get (dec v) n n' T). Qed.

Theorem signed_round_trip lo hi fuel v n n' : - 2 ^ 63 <= lo -> hi < 2 ^ 63 -> lo <= v <= hi -> tidy_kids (kids_of n) ->
  set_number v n = Ok n' -> try_convert fuel (conv_signed lo hi) n' = Ok (Some v).
Proof.
  intros Hl Hh Hv T H. pose proof (set_number_value v n n' T H) as V. destruct (dec_spells v) as [S C]; [lia|].
  destruct (signed_read lo hi fuel n' (dec v) V C) as (o & E & R). rewrite E. f_equal. apply R. exists (v <? 0), (Z.abs v). split; [exact S|].
  split; [|exact Hv]. destruct (v <? 0) eqn:X; lia.
Qed.
Theorem unsigned_round_trip hi fuel v n n' : hi < 2 ^ 64 -> 0 <= v <= hi -> tidy_kids (kids_of n) ->
  set_number v n = Ok n' -> try_convert fuel (conv_unsigned hi) n' = Ok (Some v).
Proof.
  intros Hh Hv T H. pose proof (set_number_value v n n' T H) as V. destruct (dec_spells v) as [S C]; [lia|].
  destruct (unsigned_read hi fuel n' (dec v) Hh V C) as (o & E & R). rewrite E. f_equal. apply R. exists (v <? 0), (Z.abs v). split; [exact S|].
  replace (v <? 0) with false by lia. lia.
Qed.

Theorem numbers_round_trip fuel v n n' : tidy_kids (kids_of n) -> set_number v n = Ok n' ->
  (in_i32 v -> as_int32 fuel n' = Ok (Some v)) /\ (- 2 ^ 63 <= v < 2 ^ 63 -> as_int64 fuel n' = Ok (Some v)) /\
  (in_u32 v -> as_uint32 fuel n' = Ok (Some v)) /\ (0 <= v < 2 ^ 64 -> as_uint64 fuel n' = Ok (Some v)).
Proof.
  intros T H. unfold in_i32, in_u32. repeat split; intros Hv.
  - apply (signed_round_trip INT_MIN INT_MAX fuel v n n'); unfold INT_MIN, INT_MAX in *; auto; lia.
  - apply (signed_round_trip (- 2 ^ 63) (2 ^ 63 - 1) fuel v n n'); auto; lia.
  - apply (unsigned_round_trip UINT_MAX fuel v n n'); unfold UINT_MAX in *; auto; lia.
  - apply (unsigned_round_trip (2 ^ 64 - 1) fuel v n n'); auto; lia.
Qed.
Theorem bool_round_trip b n n' : tidy_kids (kids_of n) -> set_bool b n = Ok n' -> as_bool n' = Some b.
Proof.
  intros T H. unfold as_bool. unfold set_bool in H. rewrite (set_value_get _ n n' T H). destruct b; reflexivity.
Qed.
Theorem white_space_hangs fuel n a c b neg m : try_get_value n = Some (a ++ c :: b) -> spells_number a neg m -> is_space c = true ->
  in_i32 (if neg then - m else m) -> as_int32 fuel n = OutOfFuel /\ as_int64 fuel n = OutOfFuel.
Proof.
  intros V S Sp R. unfold as_int32, as_int64. split.
  - apply (convert_hangs fuel _ (signed_value INT_MIN INT_MAX) n a c b neg m (if neg then - m else m) (conv_signed_eq _ _) V S); [|exact Sp].
    unfold signed_value. unfold in_i32 in R. replace ((INT_MIN <=? (if neg then - m else m)) && ((if neg then - m else m) <=? INT_MAX)) with true; [reflexivity|symmetry; lia].
  - apply (convert_hangs fuel _ (signed_value (- 2 ^ 63) (2 ^ 63 - 1)) n a c b neg m (if neg then - m else m) (conv_signed_eq _ _) V S); [|exact Sp].
    unfold signed_value. unfold in_i32, INT_MIN, INT_MAX in R.
    replace ((- 2 ^ 63 <=? (if neg then - m else m)) && ((if neg then - m else m) <=? 2 ^ 63 - 1)) with true; [reflexivity|symmetry; lia].
Qed.

Lemma empty_double (F : Type) (wcstod : str -> F * nat) fuel : snd (wcstod []) = 0%nat ->
  as_double wcstod fuel (Elem (txt "A") [] [Text []]) = Ok (Some (fst (wcstod []))).
Proof. unfold as_double, try_convert. cbn. destruct (wcstod []) as [v k]. cbn. intros ->. destruct fuel; reflexivity. Qed.

(** * Truth values *)
Lemma upper_same c d : upper c = upper d <-> same_letter c d.
Proof. unfold upper, same_letter. destruct ((97 <=? c) && (c <=? 122)) eqn:A, ((97 <=? d) && (d <=? 122)) eqn:B; lia. Qed.
Lemma icase_iff w t : icase t w = true <-> Forall2 same_letter w t.
Proof.
  unfold icase. rewrite str_eqb_eq. revert w. induction t as [|c t IH]; intros [|d w]; cbn [map]; split; intros H; try discriminate; try (inversion H; fail); try constructor; auto.
  - apply upper_same. injection H as H _. congruence.
  - apply IH. now injection H.
  - inversion H as [|? ? ? ? A B]; subst. apply upper_same in A. apply IH in B. congruence.
Qed.
Lemma trim_parts s : exists a z, s = a ++ trim s ++ z /\ all is_blank (a ++ z).
Proof.
  unfold trim. destruct (span is_blank s) as [a r] eqn:E. apply span_spec in E. destruct E as (-> & A & _). cbn [snd].
  destruct (span is_blank (rev r)) as [z t] eqn:F. apply span_spec in F. destruct F as (F & Zs & _). cbn [snd].
  exists a, (rev z). assert (R : r = rev t ++ rev z) by (rewrite <- rev_app_distr, <- F; symmetry; apply rev_involutive).
  split; [now rewrite R at 1|]. apply Forall_app. split; [exact A|]. now apply Forall_rev.
Qed.
Lemma trim_unique a w z : all is_blank (a ++ z) -> stops is_blank w -> stops is_blank (rev w) -> w <> [] -> trim (a ++ w ++ z) = w.
Proof.
  intros B S1 S2 N. apply Forall_app in B. destruct B as [Ba Bz]. unfold trim. rewrite (span_app is_blank a (w ++ z) Ba) by (destruct w; [congruence|exact S1]).
  cbn [snd]. rewrite rev_app_distr, (span_app is_blank (rev z) (rev w)) by (try apply Forall_rev; assumption). cbn [snd]. apply rev_involutive.
Qed.
Lemma words_not_blank b word w : In word (truth_words b) -> Forall2 same_letter word w -> w <> [] /\ stops is_blank w /\ stops is_blank (rev w).
Proof.
  intros I F.
  assert (NB : forall c d, 48 <= c <= 122 -> same_letter c d -> is_blank d = false) by (intros c d; unfold same_letter, is_blank; lia).
  assert (W : Forall (fun c => 48 <= c <= 122) word /\ word <> []).
  { destruct b; cbn [truth_words In] in I; destruct I as [<-|[<-|[<-|[]]]]; (split; [|discriminate]); apply Forall_forall; intros c H; cbn in H; lia. }
  assert (A : Forall (fun d => is_blank d = false) w) by (destruct W as [W _]; clear I; induction F as [|c d l l' S F IH]; constructor; inversion W; subst; eauto).
  assert (NE : w <> []) by (destruct W as [_ W]; destruct F; [congruence|discriminate]). split; [exact NE|].
  assert (ST : forall l, Forall (fun d => is_blank d = false) l -> stops is_blank l) by (intros [|c l] H; [exact Logic.I|cbn; now inversion H]).
  split; [now apply ST|]. now apply ST, Forall_rev.
Qed.
Theorem as_bool_iff n b : as_bool n = Some b <-> exists s, try_get_value n = Some s /\ truth_text s b.
Proof.
  unfold as_bool. destruct (try_get_value n) as [s|]; [|split; [discriminate|intros (s & H & _); discriminate]].
  assert (T : forall b', truth_text s b' <-> exists word, In word (truth_words b') /\ icase (trim s) word = true).
  { intros b'. split.
    - intros (a & w & z & word & -> & B & I & F). exists word. split; [exact I|]. destruct (words_not_blank b' word w I F) as (N & S1 & S2).
      rewrite trim_unique; [now apply icase_iff| |exact S1|exact S2|exact N]. apply Forall_forall. intros c H. apply B in H. unfold is_blank. lia.
    - intros (word & I & F). apply icase_iff in F. destruct (trim_parts s) as (a & z & E & B). exists a, (trim s), z, word. split; [exact E|]. split; [|auto].
      intros c H. rewrite Forall_forall in B. specialize (B c H). unfold is_blank in B. lia. }
  assert (D : forall w1 w2, In w1 (truth_words true) -> In w2 (truth_words false) -> icase (trim s) w1 = true -> icase (trim s) w2 = true -> False).
  { intros w1 w2 I1 I2 H1 H2. unfold icase in *. rewrite str_eqb_eq in *. rewrite H1 in H2. cbn in I1, I2. destruct I1 as [<-|[<-|[<-|[]]]], I2 as [<-|[<-|[<-|[]]]]; discriminate. }
  assert (Y : icase (trim s) (txt "yes") || icase (trim s) (txt "true") || icase (trim s) (txt "1") = true <-> truth_text s true).
  { rewrite T. cbn [truth_words In]. rewrite !orb_true_iff. split.
    - intros [[H|H]|H]; eexists; (split; [|exact H]); auto.
    - intros (w & [<-|[<-|[<-|[]]]] & H); auto. }
  assert (N : icase (trim s) (txt "no") || icase (trim s) (txt "false") || icase (trim s) (txt "0") = true <-> truth_text s false).
  { rewrite T. cbn [truth_words In]. rewrite !orb_true_iff. split.
    - intros [[H|H]|H]; eexists; (split; [|exact H]); auto.
    - intros (w & [<-|[<-|[<-|[]]]] & H); auto. }
  assert (X : ~ (truth_text s true /\ truth_text s false)).
  { rewrite !T. intros [(w1 & I1 & H1) (w2 & I2 & H2)]. eauto. }
  cbv zeta. destruct (icase (trim s) (txt "yes") || icase (trim s) (txt "true") || icase (trim s) (txt "1")).
  - split; [intros [= <-]; exists s; split; [reflexivity|now apply Y]|]. intros (s' & [= <-] & H). destruct b; [reflexivity|]. exfalso. apply X. split; [now apply Y|exact H].
  - destruct (icase (trim s) (txt "no") || icase (trim s) (txt "false") || icase (trim s) (txt "0")).
    + split; [intros [= <-]; exists s; split; [reflexivity|now apply N]|]. intros (s' & [= <-] & H). destruct b; [|reflexivity]. apply Y in H. discriminate.
    + split; [discriminate|]. intros (s' & [= <-] & H). destruct b; [apply Y in H|apply N in H]; discriminate.
Qed.

(** * Removing *)
Lemma remove_attribute_spec k nm ats kids : exists r, remove_attribute k (Elem nm ats kids) = Ok r /\
  ((snd r = true /\ exists a v b, ats = a ++ (k, v) :: b /\ (forall v', ~ In (k, v') a) /\ fst r = Elem nm (a ++ b) kids) \/
   (snd r = false /\ fst r = Elem nm ats kids /\ forall v, ~ In (k, v) ats)).
Proof.
  cbn [remove_attribute]. destruct (find_index (fun a => str_eqb (fst a) k) ats) as [i|] eqn:E.
  - eexists. split; [reflexivity|]. left. split; [reflexivity|]. apply find_index_some in E. destruct E as (x & H1 & H2 & H3).
    apply str_eqb_eq in H2. destruct x as [k' v]. cbn [fst] in H2. subst k'. exists (firstn i ats), v, (skipn (S i) ats).
    split; [|split; [|reflexivity]].
    + now apply nth_split_at.
    + intros v' I. apply In_nth_error in I. destruct I as (j & I). assert (J : (j < length (firstn i ats))%nat) by (apply nth_error_Some; congruence).
      rewrite firstn_length in J. assert (I' : nth_error ats j = Some (k, v')).
      { rewrite <- I. clear - J. revert i J. revert j. induction ats as [|y l IH]; intros j i J; [destruct j, i; reflexivity|].
        destruct i; [lia|]. destruct j; [reflexivity|]. cbn. apply IH. cbn in J. lia. }
      specialize (H3 j (k, v') ltac:(lia) I'). cbn [fst] in H3. now rewrite str_eqb_refl in H3.
  - eexists. split; [reflexivity|]. right. split; [reflexivity|]. split; [reflexivity|]. intros v I.
    pose proof (find_index_none _ _ E (k, v) I) as H. cbn [fst] in H. now rewrite str_eqb_refl in H.
Qed.

Lemma find_path_bare toks nm ats h : find_path toks (Elem nm ats []) = Ok (Some h) -> h = [].
Proof.
  destruct toks as [|tk r]; cbn [find_path kids_of]; [congruence|]. unfold find_step.
  destruct (parse_step tk) as [[nm' [sp|]]|]; cbn [bind find_index]; try discriminate.
  destruct (index_spec sp) as [i|]; cbn [find_nth].
  - destruct (UINT_MAX <? i); cbn [bind]; discriminate.
  - destruct (parse_attributes sp); cbn [bind find_index]; discriminate.
Qed.
Theorem clear_spec n n' : is_elem n = true ->
  (remove_children n = Ok n' -> try_get_value n' = None /\ (forall p t, get_child_node p n' = Ok (Some t) -> t = []) /\
    forall k, try_get_attribute k n' = try_get_attribute k n) /\
  (remove_attributes n = Ok n' -> (forall k, try_get_attribute k n' = None) /\ try_get_value n' = try_get_value n /\ kids_of n' = kids_of n).
Proof.
  destruct n as [nm ats kids| |]; try discriminate. intros _. cbn [remove_children remove_attributes]. split; intros [= <-].
  - split; [reflexivity|]. split; [|reflexivity]. intros p t H. unfold get_child_node in H. destruct (path_tokens p) as [toks| | |]; try discriminate.
    cbn [bind] in H. now apply find_path_bare in H.
  - split; [reflexivity|]. split; reflexivity.
Qed.
