(** Arguments of the command-line tool: pixel types with an alpha value, lists of levels. *)
From Coq Require Import String.
From Verif Require Import Base CodesModel TextModel TextProofs XmlModel XmlProofs OptsModel OptsSpec OptsProofs ArgsModel ArgsSpec ArgsProofs ArgsRect.
From Verif Require DateProofs.
Open Scope Z_scope.
Local Notation len := List.length.

(** ** hexadecimal numerals *)
Fixpoint hexfold (v : Z) (s : str) : option Z :=
  match s with [] => Some v | c :: r => match hex_char c with None => None | Some x => hexfold (v * 16 + x) r end end.
Lemma hex_char_iff c x : hex_char c = Some x <-> hex_digit c x.
Proof.
  unfold hex_char, is_digit. split.
  - destruct ((48 <=? c) && (c <=? 57)) eqn:A; [intros E; injection E as <-; apply hex_09; lia|].
    destruct ((65 <=? c) && (c <=? 70)) eqn:B; [intros E; injection E as <-; replace (c - 55) with (c - 65 + 10) by lia; apply hex_AF; lia|].
    destruct ((97 <=? c) && (c <=? 102)) eqn:C; [intros E; injection E as <-; replace (c - 87) with (c - 97 + 10) by lia; apply hex_af; lia|discriminate].
  - intros H. inversion H; subst.
    + replace ((48 <=? c) && (c <=? 57)) with true by lia. reflexivity.
    + replace ((48 <=? c) && (c <=? 57)) with false by lia. replace ((65 <=? c) && (c <=? 70)) with true by lia. f_equal. lia.
    + replace ((48 <=? c) && (c <=? 57)) with false by lia. replace ((65 <=? c) && (c <=? 70)) with false by lia. replace ((97 <=? c) && (c <=? 102)) with true by lia. f_equal. lia.
Qed.
Lemma hex_range c x : hex_digit c x -> 0 <= x <= 15.
Proof. intros H; inversion H; subst; lia. Qed.
Lemma hexfold_app a : forall v b, hexfold v (a ++ b) = match hexfold v a with Some w => hexfold w b | None => None end.
Proof. induction a as [|c a IH]; intros v b; cbn [hexfold app]; [reflexivity|]. destruct (hex_char c); [apply IH|reflexivity]. Qed.
Lemma hexfold_iff s v : s <> [] -> (hexfold 0 s = Some v <-> hex_value s v).
Proof.
  intros N. split.
  - revert v N. induction s as [|c s IH] using rev_ind; intros v N; [congruence|]. rewrite hexfold_app. destruct (hexfold 0 s) as [w|] eqn:E; [|discriminate]. cbn [hexfold].
    destruct (hex_char c) as [x|] eqn:C; [|discriminate]. apply hex_char_iff in C. intros H. injection H as <-. destruct s as [|d s].
    + cbn [hexfold] in E. injection E as <-. cbn [app]. now constructor.
    + rewrite Z.mul_comm. constructor; [apply IH; [discriminate|reflexivity]|exact C].
  - induction 1 as [c x H|s v c x H IH D]; [cbn [hexfold]; apply hex_char_iff in H; now rewrite H|]. rewrite hexfold_app, IH; [|intros ->; inversion H; destruct s; discriminate].
    cbn [hexfold]. apply hex_char_iff in D. rewrite D. f_equal. lia.
Qed.
Lemma hexfold_le s : forall v r, 0 <= v -> hexfold v s = Some r -> v <= r.
Proof.
  induction s as [|c s IH]; intros v r V; cbn [hexfold]; [intros E; injection E as <-; lia|]. destruct (hex_char c) as [x|] eqn:C; [|discriminate]. apply hex_char_iff, hex_range in C.
  intros H. apply IH in H; lia.
Qed.
Lemma hex_loop_fold s : forall v cnt, (v = 0 /\ cnt = 0 \/ 0 <= cnt <= 7 /\ 16 ^ cnt <= v < 16 ^ (cnt + 1)) ->
  hex_loop v cnt s = match hexfold v s with Some r => if r <? 2 ^ 32 then Some r else None | None => None end.
Proof.
  induction s as [|c s IH]; intros v cnt H; cbn [hex_loop hexfold].
  - replace (v <? 2 ^ 32) with true; [reflexivity|]. symmetry. destruct H as [[-> _]|[C B]]; [reflexivity|]. assert (16 ^ (cnt + 1) <= 16 ^ 8) by (apply Z.pow_le_mono_r; lia). change (16 ^ 8) with (2 ^ 32) in *. lia.
  - destruct (hex_char c) as [x|] eqn:C; [|reflexivity]. apply hex_char_iff, hex_range in C. destruct (0 <? v) eqn:V.
    + destruct H as [[-> _]|[K B]]; [discriminate|]. assert (P : 16 ^ (cnt + 1) = 16 * 16 ^ cnt) by (rewrite Z.pow_add_r by lia; lia).
      assert (P' : 16 ^ (cnt + 1 + 1) = 16 * 16 ^ (cnt + 1)) by (rewrite (Z.pow_add_r 16 (cnt + 1)) by lia; lia).
      destruct (7 <? cnt + 1) eqn:L.
      * assert (cnt = 7) by lia. subst cnt. destruct (hexfold (v * 16 + x) s) as [r|] eqn:E; [|reflexivity]. apply hexfold_le in E; [|lia]. change (16 ^ 7) with 268435456 in B.
        replace (r <? 2 ^ 32) with false by lia. reflexivity.
      * apply IH. right. split; [lia|]. rewrite P'. lia.
    + assert (v = 0 /\ cnt = 0) as [-> ->] by (destruct H as [H|[K B]]; [exact H|]; assert (0 < 16 ^ cnt) by (apply Z.pow_pos_nonneg; lia); lia).
      apply IH. destruct (Z.eq_dec x 0) as [->|]; [left; auto|right]. change (16 ^ 0) with 1. change (16 ^ (0 + 1)) with 16. lia.
Qed.
Lemma hex_integer_iff s v : hex_integer s = Some v <-> hex_value s v /\ v < 2 ^ 32.
Proof.
  destruct s as [|c s]; [cbn [hex_integer]; split; [discriminate|]; intros [H _]; inversion H; destruct s; discriminate|]. unfold hex_integer. rewrite hex_loop_fold by auto. rewrite <- hexfold_iff by discriminate.
  destruct (hexfold 0 (c :: s)) as [r|]; [|split; [discriminate|intros [E _]; discriminate]]. destruct (r <? 2 ^ 32) eqn:L; split; try discriminate.
  - intros E. injection E as ->. split; [reflexivity|lia].
  - intros [E _]. exact E.
  - intros [E L']. injection E as ->. lia.
Qed.

(** ** the expressions *)
Definition small (x : Z) : Prop := ~ (65 <= x <= 90).
Lemma lower_same c x : small x -> (lower c =? x) = true <-> same_letter c x.
Proof. unfold small, lower, same_letter. intros N. destruct ((65 <=? c) && (c <=? 90)) eqn:E; lia. Qed.
Lemma mt_chi x u cu : small x -> (mt (chi x) u cu <-> exists c, u = [c] /\ same_letter c x /\ cu = []).
Proof. intros N. unfold chi. rewrite mt_one_iff. setoid_rewrite (fun c => lower_same c x N). reflexivity. Qed.
Lemma mt_wordi w r u cu : Forall small w -> (mt (wordi w r) u cu <-> exists B v, u = B ++ v /\ same_word B w /\ mt r v cu).
Proof.
  intros F. revert u cu. induction F as [|x w X F IH]; intros u cu; cbn [wordi fold_right].
  - split; [intros M; exists [], u; split; [reflexivity|]; split; [constructor|exact M]|]. intros (B & v & -> & S & M). inversion S; subst. exact M.
  - change (fold_right (fun c0 r0 => Seq (chi c0) r0) r w) with (wordi w r). rewrite mt_Seq. setoid_rewrite (fun u cu => mt_chi x u cu X). setoid_rewrite IH. split.
    + intros (a & b & ca & cb & -> & -> & (c & -> & C & ->) & B & v & -> & S & M). exists (c :: B), v. split; [reflexivity|]. split; [now constructor|exact M].
    + intros (B & v & -> & S & M). inversion S as [|c y B' w' C S' E E']; subst. exists [c], (B' ++ v), [], cu. split; [reflexivity|]. split; [reflexivity|]. split; [eauto|]. exists B', v. auto.
Qed.
Definition hexbar_text (t : str) : Prop := exists x h, t = 48 :: x :: h /\ (x = 120 \/ x = 88) /\ h <> [] /\ forallb is_hex_or_bar h = true.
Lemma mt_hex t cu : mt re_hex t cu <-> hexbar_text t /\ cu = [].
Proof.
  unfold re_hex, hexbar_text. repeat (setoid_rewrite mt_Seq || setoid_rewrite mt_ch || setoid_rewrite (fun u cu => mt_chi 120 u cu ltac:(unfold small; lia)) || setoid_rewrite mt_one_iff || setoid_rewrite mt_many_iff). split.
  - intros (a & r1 & c1 & c1' & -> & -> & [-> ->] & b & r2 & c2 & c2' & -> & -> & (x & -> & X & ->) & d & r3 & c3 & c3' & -> & -> & (y & -> & Y & ->) & R & ->).
    split; [|reflexivity]. exists x, (y :: r3). split; [reflexivity|]. split; [unfold same_letter in X; lia|]. split; [discriminate|]. cbn [forallb]. now rewrite Y, R.
  - intros [(x & h & -> & X & N & F) ->]. destruct h as [|y h]; [congruence|]. cbn [forallb] in F. apply andb_true_iff in F as [Y F].
    exists [48], (x :: y :: h), [], []. split; [reflexivity|]. split; [reflexivity|]. split; [auto|].
    exists [x], (y :: h), [], []. split; [reflexivity|]. split; [reflexivity|]. split; [exists x; unfold same_letter; split; [reflexivity|]; split; [lia|reflexivity]|].
    exists [y], h, [], []. split; [reflexivity|]. split; [reflexivity|]. split; [eauto|auto].
Qed.
Definition with_value (w t : str) : Prop := exists B, same_word B (txt "bgra32") /\ w = B ++ txt "(" ++ t ++ txt ")".
Lemma small_word : Forall small (txt "bgra32").
Proof. unfold txt, small. cbn. repeat constructor; lia. Qed.
Lemma alpha_mt value P w cs : (forall t cu, mt value t cu <-> P t /\ cu = []) -> (mt (re_alpha value) w cs <-> exists t, P t /\ with_value w t /\ cs = [t]).
Proof.
  intros HP. unfold re_alpha. rewrite (mt_wordi _ _ _ _ small_word). repeat (setoid_rewrite mt_Seq || setoid_rewrite mt_Group || setoid_rewrite mt_ch || setoid_rewrite HP). unfold with_value. split.
  - intros (B & v & -> & S & a & r1 & c1 & c1' & -> & -> & [-> ->] & t & r2 & c2 & c2' & -> & -> & (cu & -> & T & ->) & -> & ->). exists t. split; [exact T|]. split; [eauto|reflexivity].
  - intros (t & T & (B & S & ->) & ->). exists B, (txt "(" ++ t ++ txt ")"). split; [reflexivity|]. split; [exact S|].
    exists [40], (t ++ [41]), [], [t]. split; [reflexivity|]. split; [reflexivity|]. split; [auto|]. exists t, [41], [t], []. split; [reflexivity|]. split; [reflexivity|]. split; [exists []; auto|auto].
Qed.
Lemma same_len a b : same_word a b -> len a = len b.
Proof. unfold same_word. induction 1; cbn [len]; congruence. Qed.
Lemma app_inj_len (a b a' b' : str) : len a = len a' -> a ++ b = a' ++ b' -> a = a' /\ b = b'.
Proof. revert a'. induction a as [|x a IH]; intros [|x' a'] L E; cbn [len app] in *; try discriminate; [auto|]. injection E as -> E. destruct (IH a') as [-> ->]; [congruence|exact E|auto]. Qed.
Lemma with_value_unique w t t' : with_value w t -> with_value w t' -> t = t'.
Proof.
  intros (B & S & ->) (B' & S' & E). apply app_inj_len in E as [_ E]; [|rewrite (same_len _ _ S), (same_len _ _ S'); reflexivity]. apply app_inv_head in E. now apply app_inv_tail in E.
Qed.
Lemma numeral_not_hex t : numeral t -> ~ hexbar_text t.
Proof. intros [_ F] (x & h & -> & X & _). inversion F; subst. inversion H2; subst. unfold digit_char in *. lia. Qed.
Definition either (w : str) : option (list str) := orelse (regex_match (re_alpha num) w) (regex_match (re_alpha re_hex) w).
Lemma either_some w cs : either w = Some cs -> exists t, cs = [t] /\ with_value w t /\ (numeral t \/ hexbar_text t).
Proof.
  intros H. apply orelse_some in H as [H|H]; apply match_sound in H.
  - apply (alpha_mt num numeral _ _ mt_num) in H as (t & T & W & ->). eauto 10.
  - apply (alpha_mt re_hex hexbar_text _ _ mt_hex) in H as (t & T & W & ->). eauto 10.
Qed.
Lemma either_of w t : with_value w t -> numeral t \/ hexbar_text t -> either w = Some [t].
Proof.
  intros W [T|T]; unfold either.
  - rewrite (match_exact (re_alpha num) w [t]); [reflexivity|apply (alpha_mt num numeral _ _ mt_num); eauto|]. intros cs M. apply (alpha_mt num numeral _ _ mt_num) in M as (t' & _ & W' & ->).
    now rewrite (with_value_unique _ _ _ W W').
  - rewrite match_fail; [cbn [orelse]|].
    + apply match_exact; [apply (alpha_mt re_hex hexbar_text _ _ mt_hex); eauto|]. intros cs M. apply (alpha_mt re_hex hexbar_text _ _ mt_hex) in M as (t' & _ & W' & ->). now rewrite (with_value_unique _ _ _ W W').
    + intros cs M. apply (alpha_mt num numeral _ _ mt_num) in M as (t' & N & W' & _). rewrite (with_value_unique _ _ _ W W') in T. exact (numeral_not_hex _ N T).
Qed.

(** ** the alpha value *)
Lemma stoi_numeral t : numeral t -> stoi t = if dval t <? 2 ^ 31 then Some (dval t, []) else None.
Proof.
  intros N. destruct (dval t <? 2 ^ 31) eqn:L.
  - apply stoi_int. pose proof (dval_nonneg t N). destruct N as [N F]. exists [], t. split; [reflexivity|]. split; [exact N|]. split; [exact F|]. split; [auto|lia].
  - destruct (stoi t) as [[v r]|] eqn:E; [|reflexivity]. exfalso. revert E. unfold stoi. pose proof N as [NN F]. destruct t as [|c t]; [congruence|]. inversion F; subst.
    rewrite span_stop by (cbn [stops]; unfold is_space, digit_char in *; lia). cbn [snd skip_sign]. replace (c =? 45) with false by (unfold digit_char in *; lia). replace (c =? 43) with false by (unfold digit_char in *; lia).
    pose proof (span_app _ (c :: t) [] (numeral_all _ N) I) as S. rewrite app_nil_r in S. rewrite S. replace (in_i32b (dval (c :: t))) with false; [discriminate|]. unfold in_i32b, INT_MIN, INT_MAX. lia.
Qed.
Lemma alpha_numeral t : numeral t -> parse_alpha_value t = if dval t <? 2 ^ 31 then if 255 <? dval t then Ok None else Ok (Some (dval t)) else Throw.
Proof.
  intros N. pose proof (dval_nonneg t N).
  assert (D : (match stoi t with None => Throw | Some (i, _) => if (i <? 0) || (255 <? i) then Ok None else Ok (Some i) end) =
              if dval t <? 2 ^ 31 then if 255 <? dval t then Ok None else Ok (Some (dval t)) else (Throw : res (option Z))).
  { rewrite (stoi_numeral t N). destruct (dval t <? 2 ^ 31); [|reflexivity]. replace (dval t <? 0) with false by lia. reflexivity. }
  unfold parse_alpha_value. destruct t as [|c0 [|c1 [|c2 r]]]; try exact D. destruct N as [_ F]. inversion F; subst. inversion H3; subst. unfold digit_char in *.
  replace ((c0 =? 48) && ((c1 =? 120) || (c0 =? 88))) with false by lia. exact D.
Qed.
Lemma alpha_hex h : h <> [] -> parse_alpha_value (48 :: 120 :: h) = match hex_integer h with None => Ok None | Some v => if 255 <? v then Ok None else Ok (Some v) end.
Proof. intros N. destruct h as [|c h]; [congruence|]. reflexivity. Qed.
Lemma alpha_big_x h : parse_alpha_value (48 :: 88 :: h) = Ok (Some 0).
Proof. destruct h as [|c h]; reflexivity. Qed.
Lemma hex_chars h v : hex_value h v -> h <> [] /\ forallb is_hex_or_bar h = true /\ 0 <= v.
Proof.
  assert (D : forall c x, hex_digit c x -> is_hex_or_bar c = true).
  { intros c x H. unfold is_hex_or_bar, lower, is_digit. inversion H; subst; destruct ((65 <=? c) && (c <=? 90)) eqn:E; lia. }
  induction 1 as [c x H|s v c x H (N & F & V) C]; [split; [discriminate|]; split; [cbn [forallb]; now rewrite (D _ _ H)|apply hex_range in H; lia]|].
  split; [destruct s; discriminate|]. split; [rewrite forallb_app, F; cbn [forallb]; now rewrite (D _ _ C)|apply hex_range in C; lia].
Qed.
Lemma alpha_iff t v : numeral t \/ hexbar_text t -> ~ In 88 t -> (parse_alpha_value t = Ok (Some v) <-> alpha_text t v /\ v <= 255).
Proof.
  intros C NX. destruct C as [N|(x & h & -> & X & NE & F)].
  - rewrite (alpha_numeral t N). pose proof (dval_nonneg t N). split.
    + destruct (dval t <? 2 ^ 31) eqn:A; [|discriminate]. destruct (255 <? dval t) eqn:B; [discriminate|]. intros E. injection E as <-. split; [left; auto|lia].
    + intros [[[_ ->]|(h & -> & _)] L]; [replace (dval t <? 2 ^ 31) with true by lia; replace (255 <? dval t) with false by lia; reflexivity|].
      exfalso. destruct N as [_ N]. inversion N; subst. inversion H3; subst. unfold digit_char in *. lia.
  - assert (x = 120) by (destruct X as [X| ->]; [exact X|]; exfalso; apply NX; right; now left). subst x. rewrite alpha_hex by exact NE. split.
    + destruct (hex_integer h) as [w|] eqn:E; [|discriminate]. destruct (255 <? w) eqn:L; [discriminate|]. intros Q. injection Q as <-. apply hex_integer_iff in E as [E _]. split; [|lia]. right. exists h. split; [reflexivity|exact E].
    + intros [[[[_ N] _]|(h' & E & V)] L]; [exfalso; inversion N; subst; inversion H2; subst; unfold digit_char in *; lia|]. change (txt "0x") with [48; 120] in E. cbn [app] in E. injection E as <-.
      replace (hex_integer h) with (Some v) by (symmetry; apply hex_integer_iff; split; [exact V|lia]). replace (255 <? v) with false by lia. reflexivity.
Qed.

(** ** the pixel type *)
Lemma letters_first B : same_word B (txt "bgra32") \/ same_word B (txt "bgr24") -> exists c r, B = c :: r /\ is_blank c = false.
Proof. unfold txt. cbn. intros [H|H]; inversion H as [|c y B' w' C S' E E']; subst; exists c, B'; (split; [reflexivity|]); unfold same_letter, is_blank in *; lia. Qed.
Lemma letters_last B : same_word B (txt "bgra32") \/ same_word B (txt "bgr24") -> DateProofs.ends_ok B.
Proof.
  unfold txt. cbn. intros [H|H]; repeat (match goal with H : same_word _ (_ :: _) |- _ => inversion H; clear H; subst | H : Forall2 same_letter _ (_ :: _) |- _ => inversion H; clear H; subst end);
    match goal with H : Forall2 same_letter _ [] |- _ => inversion H; subst end.
  - exists [x; x0; x1; x2; x3], x4. split; [reflexivity|]. unfold same_letter, is_blank in *. lia.
  - exists [x; x0; x1; x2], x3. split; [reflexivity|]. unfold same_letter, is_blank in *. lia.
Qed.
Lemma format_else w t : with_value w t -> icase w (txt "bgr24") = false /\ icase w (txt "bgra32") = false.
Proof.
  intros (B & S & ->). pose proof (same_len _ _ S) as L. split; apply not_true_iff_false; intros E; apply icase_spec, same_len in E; rewrite !app_length, L in E; cbn in E; lia.
Qed.
Lemma trim_with a w b t : tabs a -> tabs b -> with_value w t -> trim (a ++ w ++ b) = w.
Proof.
  intros A B' (B & S & ->). destruct (letters_first B (or_introl S)) as (c & r & -> & C). apply DateProofs.trim_of; [exact A|exact B'|discriminate|exact C|].
  apply DateProofs.ends_app_r, DateProofs.ends_app_r, DateProofs.ends_app_r. exists [], 41. split; reflexivity.
Qed.
Theorem format_accepted s p al : ~ In 88 s -> (parse_format s = Ok (Some (p, al)) <-> format_text s p al).
Proof.
  intros NX. split.
  - unfold parse_format. destruct (DateProofs.trim_split s) as (a & b & A & B & S). assert (NX' : ~ In 88 (trim s)) by (intros I; apply NX; rewrite S, !in_app_iff; auto). set (w := trim s) in *.
    destruct (icase w (txt "bgr24")) eqn:E1; [|destruct (icase w (txt "bgra32")) eqn:E2].
    + intros E. injection E as <- <-. apply icase_spec in E1. exists a, w, b. auto 10.
    + intros E. injection E as <- <-. apply icase_spec in E2. exists a, w, b. auto 10.
    + fold (either w). destruct (either w) as [cs|] eqn:EI; [|discriminate]. apply either_some in EI as (t & -> & W & C). destruct (parse_alpha_value t) as [[v|]| | |] eqn:V; try discriminate.
      cbn [bind]. intros E. injection E as <- <-. destruct W as (B' & SB & EW). apply alpha_iff in V as [V L]; [|exact C|intros I; apply NX'; rewrite EW, !in_app_iff; auto].
      exists a, w, b. split; [exact A|]. split; [exact B|]. split; [exact S|]. right. right. exists B', t, v. auto 10.
  - intros (a & w & b & A & B & -> & C). unfold parse_format. destruct C as [(W & -> & ->)|[(W & -> & ->)|(B' & t & v & W & T & L & -> & -> & ->)]].
    + destruct (letters_first w (or_intror W)) as (c & r & -> & CB). rewrite DateProofs.trim_of; [|exact A|exact B|discriminate|exact CB|apply letters_last; auto]. apply icase_spec in W. now rewrite W.
    + destruct (letters_first w (or_introl W)) as (c & r & -> & CB). rewrite DateProofs.trim_of; [|exact A|exact B|discriminate|exact CB|apply letters_last; auto].
      replace (icase (c :: r) (txt "bgr24")) with false; [apply icase_spec in W; now rewrite W|]. symmetry. apply not_true_iff_false. intros E. apply icase_spec, same_len in E. apply same_len in W. rewrite W in E. discriminate.
    + assert (WV : with_value (B' ++ txt "(" ++ t ++ txt ")") t) by (exists B'; auto). rewrite (trim_with _ _ _ _ A B WV). destruct (format_else _ _ WV) as [-> ->]. fold (either (B' ++ txt "(" ++ t ++ txt ")")).
      assert (C : numeral t \/ hexbar_text t). { destruct T as [[N _]|(h & -> & V)]; [auto|right]. apply hex_chars in V as (NE & F & _). exists 120, h. auto. }
      rewrite (either_of _ _ WV C). assert (PV : parse_alpha_value t = Ok (Some v)). { apply alpha_iff; [exact C| |auto]. intros I. apply NX. rewrite !in_app_iff. tauto. }
      rewrite PV. reflexivity.
Qed.
Theorem format_thrown s : parse_format s = Throw <-> enormous_alpha s.
Proof.
  split.
  - unfold parse_format. destruct (DateProofs.trim_split s) as (a & b & A & B & S). set (w := trim s) in *.
    destruct (icase w (txt "bgr24")); [discriminate|]. destruct (icase w (txt "bgra32")); [discriminate|]. fold (either w). destruct (either w) as [cs|] eqn:EI; [|discriminate].
    apply either_some in EI as (t & -> & (B' & SB & EW) & C). intros E. destruct C as [N|(x & h & -> & X & NE & F)].
    + rewrite (alpha_numeral t N) in E. destruct (dval t <? 2 ^ 31) eqn:L; [destruct (255 <? dval t); discriminate|]. exists a, B', t, b. repeat (split; [assumption|]). split; [lia|]. rewrite S, EW. now rewrite <- !app_assoc.
    + destruct X as [-> | ->]; [rewrite alpha_hex in E by exact NE|rewrite alpha_big_x in E; discriminate]. destruct (hex_integer h) as [v|]; [destruct (255 <? v)|]; discriminate.
  - intros (a & B' & t & b & A & B & W & N & L & ->). assert (WV : with_value (B' ++ txt "(" ++ t ++ txt ")") t) by (exists B'; auto).
    replace (a ++ B' ++ txt "(" ++ t ++ txt ")" ++ b) with (a ++ (B' ++ txt "(" ++ t ++ txt ")") ++ b) by now rewrite <- !app_assoc.
    unfold parse_format. rewrite (trim_with _ _ _ _ A B WV). destruct (format_else _ _ WV) as [-> ->]. fold (either (B' ++ txt "(" ++ t ++ txt ")")). rewrite (either_of _ _ WV (or_introl N)), (alpha_numeral t N).
    replace (dval t <? 2 ^ 31) with false by lia. reflexivity.
Qed.
