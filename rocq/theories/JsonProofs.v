(** The JSON reader is right (JsonModel, JsonSpec). *)
From Coq Require Import String Floats.SpecFloat.
From Verif Require Import Base CodecModel TextModel TextProofs PugiModel DateModel StatModel DocModel GuidModel JsonModel JsonSpec.
Open Scope Z_scope.
Local Open Scope list_scope.
Lemma pair_code_eq h l : pair_code h l = 65536 + 1024 * (h - 55296) + (l - 56320).
Proof. unfold pair_code. lia. Qed.
Local Opaque utf8_char pair_code.

(** ** White space, fixed texts *)
Lemma white_all w : white w <-> all is_ws w.
Proof. unfold white. split; intro H; (eapply Forall_impl; [|exact H]); intros c; unfold is_ws; lia. Qed.
Lemma skip_spec s : exists w, s = w ++ skip_ws s /\ white w /\ stops is_ws (skip_ws s).
Proof.
  unfold skip_ws. destruct (span is_ws s) as [w r] eqn:E. apply span_spec in E. destruct E as (E & A & B). exists w. cbn [snd]. split; [exact E|].
  split; [now apply white_all|exact B].
Qed.
Lemma skip_app w r : white w -> stops is_ws r -> skip_ws (w ++ r) = r.
Proof. intros W R. unfold skip_ws. rewrite span_app; [reflexivity|now apply white_all|exact R]. Qed.
Lemma skip_none r : stops is_ws r -> skip_ws r = r.
Proof. intro R. exact (skip_app [] r (Forall_nil _) R). Qed.
Lemma white_app a b : white a -> white b -> white (a ++ b).
Proof. intros. apply Forall_app; auto. Qed.
Lemma strip_iff w : forall s r, strip w s = Some r <-> s = w ++ r.
Proof.
  induction w as [|a w IH]; intros s r; cbn [strip app].
  - split; congruence.
  - destruct s as [|b s]; [split; discriminate|]. destruct (Z.eqb_spec a b) as [->|N].
    + rewrite IH. split; [now intros ->|now intros [= ->]].
    + split; [discriminate|]. intros [= E _]. congruence.
Qed.
Lemma strip_app w r : strip w (w ++ r) = Some r.
Proof. now apply strip_iff. Qed.
Lemma strip_not a w c s : a <> c -> strip (a :: w) (c :: s) = None.
Proof. intro N. cbn [strip]. destruct (Z.eqb_spec a c); [contradiction|reflexivity]. Qed.

(** ** Numbers *)
Definition num_stop (r : str) : Prop := match r with [] => True | c :: _ => is_digit c = false /\ c <> 46 /\ c <> 101 /\ c <> 69 end.
Lemma figures_all t : figures t <-> all is_digit t.
Proof. unfold figures. split; intro H; (eapply Forall_impl; [|exact H]); intros c; unfold is_digit; lia. Qed.
Lemma whole_sound s ip r : whole_part s = Some (ip, r) -> s = ip ++ r /\ whole_text ip.
Proof.
  unfold whole_part. destruct s as [|c s]; [discriminate|]. destruct (Z.eqb_spec c 48) as [->|N].
  - intros [= <- <-]. split; [reflexivity|now left].
  - destruct (is_digit c) eqn:D; [|discriminate]. intros [= E]. cbn [span] in E. rewrite D in E.
    destruct (span is_digit s) as [a b] eqn:S. injection E as <- <-. apply span_spec in S. destruct S as (-> & A & _).
    split; [reflexivity|]. right. exists c, a. split; [reflexivity|]. split; [unfold is_digit in D; lia|now apply figures_all].
Qed.
Lemma whole_complete ip r : whole_text ip -> stops is_digit r -> whole_part (ip ++ r) = Some (ip, r).
Proof.
  intros [->|(c & t & -> & C & F)] R; [reflexivity|]. cbn [app]. unfold whole_part. destruct (Z.eqb_spec c 48); [lia|].
  replace (is_digit c) with true by (unfold is_digit; lia). f_equal. change (c :: t ++ r) with ((c :: t) ++ r).
  apply span_app; [constructor; [unfold is_digit; lia|now apply figures_all]|exact R].
Qed.
Lemma whole_digit ip : whole_text ip -> exists c t, ip = c :: t /\ 48 <= c <= 57.
Proof. intros [->|(c & t & -> & C & _)]; [exists 48, []|exists c, t]; (split; [reflexivity|lia]). Qed.
Lemma fraction_sound s fp r : fraction s = Some (fp, r) -> s = fp ++ r /\ fraction_text fp.
Proof.
  unfold fraction. destruct s as [|c s]; [intros [= <- <-]; split; [reflexivity|now left]|]. destruct (Z.eqb_spec c 46) as [->|N].
  - destruct (span is_digit s) as [d b] eqn:S. destruct d as [|x d]; [discriminate|]. intros [= <- <-]. apply span_spec in S. destruct S as (-> & A & _).
    split; [reflexivity|]. right. exists (x :: d). split; [reflexivity|]. split; [discriminate|now apply figures_all].
  - intros [= <- <-]. split; [reflexivity|now left].
Qed.
Lemma fraction_complete fp r : fraction_text fp -> stops is_digit r -> (match r with c :: _ => c <> 46 | [] => True end) -> fraction (fp ++ r) = Some (fp, r).
Proof.
  intros [->|(d & -> & N & F)] R D.
  - cbn [app]. unfold fraction. destruct r as [|c r]; [reflexivity|]. destruct (Z.eqb_spec c 46); [contradiction|reflexivity].
  - cbn [app fraction Z.eqb Pos.eqb]. rewrite span_app; [|now apply figures_all|exact R]. destruct d; [contradiction|reflexivity].
Qed.
Lemma sign_of_spec s : forall sg r, sign_of s = (sg, r) -> s = sg ++ r /\ (sg = [] \/ sg = [43] \/ sg = [45]).
Proof.
  unfold sign_of. destruct s as [|c s]; intros sg r; [intros [= <- <-]; auto|]. destruct ((c =? 43) || (c =? 45)) eqn:E; intros [= <- <-].
  - split; [reflexivity|]. assert (c = 43 \/ c = 45) as [->| ->] by lia; auto.
  - split; auto.
Qed.
Lemma exponent_sound s ep r : exponent s = Some (ep, r) -> s = ep ++ r /\ exponent_text ep.
Proof.
  unfold exponent. destruct s as [|c s]; [intros [= <- <-]; split; [reflexivity|now left]|]. destruct ((c =? 101) || (c =? 69)) eqn:E.
  - destruct (sign_of s) as [sg r1] eqn:G. apply sign_of_spec in G. destruct G as (-> & G).
    destruct (span is_digit r1) as [d b] eqn:S. destruct d as [|x d]; [discriminate|]. intros [= <- <-]. apply span_spec in S. destruct S as (-> & A & _).
    split; [cbn [app]; now rewrite <- app_assoc|]. right. exists c, sg, (x :: d). split; [reflexivity|]. split; [lia|]. split; [exact G|].
    split; [discriminate|now apply figures_all].
  - intros [= <- <-]. split; [reflexivity|now left].
Qed.
Lemma sign_complete sg d r : (sg = [] \/ sg = [43] \/ sg = [45]) -> d <> [] -> figures d -> sign_of (sg ++ d ++ r) = (sg, d ++ r).
Proof.
  intros S N F. destruct S as [->|[->| ->]]; try reflexivity. destruct d as [|x d]; [contradiction|]. cbn [app]. unfold sign_of.
  inversion F as [|? ? X _]. destruct (Z.eqb_spec x 43); [lia|]. destruct (Z.eqb_spec x 45); [lia|]. reflexivity.
Qed.
Lemma exponent_complete ep r : exponent_text ep -> num_stop r -> exponent (ep ++ r) = Some (ep, r).
Proof.
  intros [->|(e & sg & d & -> & E & S & N & F)] R.
  - cbn [app]. unfold exponent. destruct r as [|c r]; [reflexivity|]. destruct R as (_ & _ & A & B).
    destruct (Z.eqb_spec c 101); [contradiction|]. destruct (Z.eqb_spec c 69); [contradiction|]. reflexivity.
  - cbn [app]. unfold exponent. replace ((e =? 101) || (e =? 69)) with true by lia. rewrite <- app_assoc, (sign_complete _ _ _ S N F).
    rewrite span_app; [|now apply figures_all|destruct r as [|c r]; [exact Logic.I|apply R]]. destruct d; [contradiction|reflexivity].
Qed.
Lemma number_sound s v r : number s = Some (v, r) -> exists t, s = t ++ r /\ json_value v t.
Proof.
  unfold number. destruct (minus_of s) as [sg r0] eqn:M. destruct (whole_part r0) as [[ip r1]|] eqn:W; [|discriminate].
  destruct (fraction r1) as [[fp r2]|] eqn:F; [|discriminate]. destruct (exponent r2) as [[ep r3]|] eqn:E; [|discriminate].
  intros [= <- <-]. apply whole_sound in W. destruct W as (-> & W). apply fraction_sound in F. destruct F as (-> & F).
  apply exponent_sound in E. destruct E as (-> & E).
  assert (exists neg, sg = sign_text neg /\ s = sign_text neg ++ ip ++ fp ++ ep ++ r3) as (neg & -> & ->).
  { unfold minus_of in M. destruct s as [|c s]; [injection M as <- H; destruct (whole_digit _ W) as (a & b & -> & _); discriminate H|].
    destruct (Z.eqb_spec c 45) as [->|N]; injection M as <- H; [exists true|exists false]; (split; [reflexivity|]); cbn [sign_text app]; now rewrite H. }
  exists (sign_text neg ++ ip ++ fp ++ ep). split; [now rewrite <- !app_assoc|]. unfold number_value. destruct (fp ++ ep) as [|x y] eqn:Q.
  - apply app_eq_nil in Q. destruct Q as (-> & ->). rewrite !app_nil_r. destruct neg; [exact (JVInt true ip W)|exact (JVInt false ip W)].
  - rewrite <- Q. apply JVNum; auto. congruence.
Qed.
Lemma minus_complete neg ip r : whole_text ip -> minus_of (sign_text neg ++ ip ++ r) = (sign_text neg, ip ++ r).
Proof.
  intro W. destruct neg; [reflexivity|]. destruct (whole_digit _ W) as (c & t & -> & C). cbn [sign_text app]. unfold minus_of.
  destruct (Z.eqb_spec c 45); [lia|reflexivity].
Qed.
Lemma exp_head ep r : exponent_text ep -> num_stop r -> stops is_digit (ep ++ r) /\ match ep ++ r with c :: _ => c <> 46 | [] => True end.
Proof.
  intros [->|(e & sg & d & -> & E & _)] R; cbn [app].
  - destruct r as [|c r]; [split; exact Logic.I|]. destruct R as (A & B & _). split; assumption.
  - split; [cbn [stops]; unfold is_digit; lia|lia].
Qed.
Lemma frac_head fp r : fraction_text fp -> stops is_digit r -> stops is_digit (fp ++ r).
Proof. intros [->|(d & -> & _)] R; [exact R|reflexivity]. Qed.
Lemma number_complete neg ip fp ep r : whole_text ip -> fraction_text fp -> exponent_text ep -> num_stop r ->
  number ((sign_text neg ++ ip ++ fp ++ ep) ++ r) = Some (number_value (sign_text neg) ip fp ep, r).
Proof.
  intros W F E R. unfold number. rewrite <- !app_assoc, (minus_complete _ _ _ W). destruct (exp_head _ _ E R) as (H1 & H2).
  rewrite whole_complete; [|exact W|now apply frac_head]. rewrite fraction_complete; [|exact F|exact H1|exact H2].
  now rewrite exponent_complete.
Qed.

(** ** Strings *)
Lemma hex_digit_iff c x : hex_digit c = Some x <-> hexfig c x.
Proof.
  unfold hex_digit, hex_char_to_int. split.
  - destruct ((48 <=? c) && (c <=? 57)) eqn:A.
    { destruct (Z.eqb_spec (c - 48) 255); [discriminate|]. intros [= <-]. replace c with (48 + (c - 48)) at 1 by lia. constructor. lia. }
    destruct ((65 <=? c) && (c <=? 70)) eqn:B.
    { destruct (Z.eqb_spec (c - 55) 255); [discriminate|]. intros [= <-]. replace c with (55 + (c - 55)) at 1 by lia. constructor. lia. }
    destruct ((97 <=? c) && (c <=? 102)) eqn:C; [|discriminate].
    destruct (Z.eqb_spec (c - 87) 255); [discriminate|]. intros [= <-]. replace c with (87 + (c - 87)) at 1 by lia. constructor. lia.
  - intros [y H|y H|y H].
    + replace ((48 <=? 48 + y) && (48 + y <=? 57)) with true by lia. replace (48 + y - 48) with y by lia. destruct (Z.eqb_spec y 255); [lia|reflexivity].
    + replace ((48 <=? 55 + y) && (55 + y <=? 57)) with false by lia. replace ((65 <=? 55 + y) && (55 + y <=? 70)) with true by lia.
      replace (55 + y - 55) with y by lia. destruct (Z.eqb_spec y 255); [lia|reflexivity].
    + replace ((48 <=? 87 + y) && (87 + y <=? 57)) with false by lia. replace ((65 <=? 87 + y) && (87 + y <=? 70)) with false by lia.
      replace ((97 <=? 87 + y) && (87 + y <=? 102)) with true by lia. replace (87 + y - 87) with y by lia. destruct (Z.eqb_spec y 255); [lia|reflexivity].
Qed.
Lemma hex4_sound s u r : hex4 s = Some (u, r) -> exists t, s = t ++ r /\ unit_text (92 :: 117 :: t) u.
Proof.
  unfold hex4. destruct s as [|a [|b [|c [|d s]]]]; try discriminate.
  destruct (hex_digit a) as [x|] eqn:A; [|discriminate]. destruct (hex_digit b) as [y|] eqn:B; [|discriminate].
  destruct (hex_digit c) as [z|] eqn:C; [|discriminate]. destruct (hex_digit d) as [w|] eqn:D; [|discriminate].
  intros [= <- <-]. exists [a; b; c; d]. split; [reflexivity|]. apply hex_digit_iff in A, B, C, D.
  replace (((x * 16 + y) * 16 + z) * 16 + w) with (4096 * x + 256 * y + 16 * z + w) by lia. now constructor.
Qed.
Lemma hex4_complete t u r : unit_text t u -> exists t', t = 92 :: 117 :: t' /\ length t' = 4%nat /\ hex4 (t' ++ r) = Some (u, r).
Proof.
  intros [a b c d x y z w A B C D]. exists [a; b; c; d]. split; [reflexivity|]. split; [reflexivity|]. cbn [app hex4].
  apply hex_digit_iff in A, B, C, D. rewrite A, B, C, D. f_equal. f_equal. lia.
Qed.
Lemma simple_iff e x : simple_escape e = Some x <-> In (e, x) escapes.
Proof.
  unfold simple_escape, escapes. cbn [In]. split.
  - repeat match goal with |- context[if ?a =? ?b then _ else _] => destruct (Z.eqb_spec a b) as [->|?] end; intros [= <-]; tauto.
  - intro H. repeat destruct H as [H|H]; try (injection H as <- <-; reflexivity). destruct H.
Qed.
Lemma escape_sound s t r : escape s = Some (t, r) -> exists p, s = p ++ r /\ piece (92 :: p) t.
Proof.
  unfold escape. destruct s as [|e s]; [discriminate|]. destruct (Z.eqb_spec e 117) as [->|N].
  - destruct (hex4 s) as [[u r1]|] eqn:H; [|discriminate]. apply hex4_sound in H. destruct H as (h & -> & H).
    destruct ((55296 <=? u) && (u <=? 56319)) eqn:HI.
    + destruct (strip [92; 117] r1) as [r2|] eqn:ST; [|discriminate]. apply strip_iff in ST. subst r1.
      destruct (hex4 r2) as [[l r3]|] eqn:L; [|discriminate]. apply hex4_sound in L. destruct L as (q & -> & L).
      destruct ((56320 <=? l) && (l <=? 57343)) eqn:LO; [|discriminate]. intros [= <- <-].
      exists (117 :: h ++ [92; 117] ++ q). split; [cbn [app]; now rewrite <- !app_assoc|].
      change (92 :: 117 :: h ++ [92; 117] ++ q) with ((92 :: 117 :: h) ++ (92 :: 117 :: q)).
      rewrite pair_code_eq.
      apply PPair; auto; lia.
    + destruct ((56320 <=? u) && (u <=? 57343)) eqn:LO; [discriminate|]. intros [= <- <-]. exists (117 :: h). split; [reflexivity|].
      apply PUnit; [exact H|lia].
  - destruct (simple_escape e) as [x|] eqn:X; [|discriminate]. intros [= <- <-]. exists [e]. split; [reflexivity|]. apply PEscape. now apply simple_iff.
Qed.
Lemma jstring_sound n : forall s u r, jstring n s = Some (u, r) -> exists t, s = t ++ 34 :: r /\ string_text t u.
Proof.
  induction n as [|n IH]; intros s u r; cbn [jstring]; [discriminate|]. destruct s as [|c s]; [discriminate|].
  destruct (Z.eqb_spec c 34) as [->|N]; [intros [= <- <-]; exists []; split; [reflexivity|constructor]|].
  destruct (Z.eqb_spec c 92) as [->|N2].
  - destruct (escape s) as [[t r1]|] eqn:E; [|discriminate]. destruct (jstring n r1) as [[u' r2]|] eqn:J; [|discriminate]. intros [= <- <-].
    apply escape_sound in E. destruct E as (p & -> & P). apply IH in J. destruct J as (t' & -> & J).
    exists ((92 :: p) ++ t'). split; [cbn [app]; now rewrite <- app_assoc|]. now constructor.
  - destruct (Z.ltb_spec c 32); [discriminate|]. destruct (jstring n s) as [[u' r2]|] eqn:J; [|discriminate]. intros [= <- <-].
    apply IH in J. destruct J as (t' & -> & J). exists ([c] ++ t'). split; [reflexivity|]. apply (STPiece [c] [c]); [constructor; lia|exact J].
Qed.
Lemma unit_range t u : unit_text t u -> 0 <= u < 65536.
Proof. intros [a b c d x y z w A B C D]. destruct A, B, C, D; lia. Qed.
(** one piece *)
Lemma piece_complete n p s r : piece p s -> jstring (S n) (p ++ r) = match jstring n r with Some (u, r2) => Some (s ++ u, r2) | None => None end.
Proof.
  intros [c C Q B|e x I|t u U R|t h t' l H L Rh Rl].
  - cbn [app jstring]. destruct (Z.eqb_spec c 34); [contradiction|]. destruct (Z.eqb_spec c 92); [contradiction|]. destruct (Z.ltb_spec c 32); [lia|reflexivity].
  - cbn [app jstring Z.eqb Pos.eqb]. apply simple_iff in I. unfold escape. destruct (Z.eqb_spec e 117) as [->|_]; [discriminate I|]. now rewrite I.
  - destruct (hex4_complete _ _ r U) as (q & -> & _ & E). cbn [app jstring Z.eqb Pos.eqb]. unfold escape. cbn [Z.eqb Pos.eqb]. rewrite E.
    replace ((55296 <=? u) && (u <=? 56319)) with false by lia. replace ((56320 <=? u) && (u <=? 57343)) with false by lia. reflexivity.
  - destruct (hex4_complete _ _ r L) as (q' & -> & _ & E'). destruct (hex4_complete _ _ ((92 :: 117 :: q') ++ r) H) as (q & -> & _ & E).
    rewrite <- app_assoc. cbn [app jstring Z.eqb Pos.eqb] in *. unfold escape. cbn [Z.eqb Pos.eqb]. rewrite E.
    replace ((55296 <=? h) && (h <=? 56319)) with true by lia. cbn [strip Z.eqb Pos.eqb]. rewrite E'.
    replace ((56320 <=? l) && (l <=? 57343)) with true by lia. rewrite pair_code_eq.
    reflexivity.
Qed.
Lemma piece_length p s : piece p s -> (1 <= length p)%nat.
Proof. intros [c| | |]; cbn [length]; try lia. - match goal with H : unit_text _ _ |- _ => destruct H end. cbn [length]. lia.
  - rewrite app_length. match goal with H : unit_text t _ |- _ => destruct H end. cbn [length]. lia. Qed.
Lemma jstring_complete t u : string_text t u -> forall n r, (length t < n)%nat -> jstring n (t ++ 34 :: r) = Some (u, r).
Proof.
  induction 1 as [|p s t u P T IH]; intros n r L; (destruct n as [|n]; [lia|]).
  - reflexivity.
  - rewrite <- app_assoc, (piece_complete _ _ _ _ P). pose proof (piece_length _ _ P). rewrite app_length in L. rewrite IH by lia. reflexivity.
Qed.
