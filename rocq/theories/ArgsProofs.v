(** Arguments of the command-line tool: proofs. *)
From Coq Require Import String SpecFloat.
From Verif Require Import Base CodesModel TextModel TextProofs XmlModel XmlProofs CreateModel OptsModel OptsSpec OptsProofs ArgsModel ArgsSpec.
Open Scope Z_scope.
Local Notation len := List.length.

Lemma match_exact r s cs : mt r s cs -> (forall cs', mt r s cs' -> cs' = cs) -> regex_match r s = Some cs.
Proof. intros M U. destruct (match_complete _ _ _ M) as (cs' & E). rewrite E. f_equal. apply U. now apply match_sound. Qed.
Lemma match_fail r s : (forall cs, ~ mt r s cs) -> regex_match r s = None.
Proof. intros N. destruct (regex_match r s) as [cs|] eqn:E; [|reflexivity]. now apply match_sound, N in E. Qed.

Lemma is_digit_char c : is_digit c = true <-> digit_char c.
Proof. unfold is_digit, digit_char. lia. Qed.
Lemma numeral_spec s : (exists c r, s = c :: r /\ is_digit c = true /\ forallb is_digit r = true) <-> numeral s.
Proof.
  unfold numeral. split.
  - intros (c & r & -> & D & F). split; [discriminate|]. constructor; [now apply is_digit_char|]. apply Forall_forall. intros x I. rewrite forallb_forall in F. apply is_digit_char, F, I.
  - intros [N F]. destruct s as [|c r]; [congruence|]. inversion F; subst. exists c, r. split; [reflexivity|]. split; [now apply is_digit_char|].
    apply forallb_forall. intros x I. apply is_digit_char. rewrite Forall_forall in H2. apply H2, I.
Qed.
Lemma mt_one_iff p u cu : mt (One p) u cu <-> exists c, u = [c] /\ p c = true /\ cu = [].
Proof. split; [intros M; inversion M; subst; eauto|]. intros (c & -> & P & ->). now constructor. Qed.
Lemma mt_many_iff p u cu : mt (Many p) u cu <-> forallb p u = true /\ cu = [].
Proof. split; [intros M; inversion M; subst; eauto|]. intros (P & ->). now constructor. Qed.
Lemma mt_Maybe a u cu : mt (Maybe a) u cu <-> (u = [] /\ cu = []) \/ mt a u cu.
Proof. split; [intros M; inversion M; subst; auto|]. intros [[-> ->]|M]; [apply mt_maybe0|now apply mt_maybe1]. Qed.
Lemma mt_num u cu : mt num u cu <-> numeral u /\ cu = [].
Proof.
  unfold num. rewrite mt_Seq, <- numeral_spec. split.
  - intros (x & v & cx & cv & -> & -> & A & B). apply mt_one_iff in A as (c & -> & P & ->). apply mt_many_iff in B as [F ->]. split; [exists c, v; auto|reflexivity].
  - intros [(c & r & -> & D & F) ->]. exists [c], r, [], []. split; [reflexivity|]. split; [reflexivity|]. split; [constructor; exact D|constructor; exact F].
Qed.
Lemma mt_gnum u cu : mt (Group num) u cu <-> numeral u /\ cu = [u].
Proof. rewrite mt_Group. setoid_rewrite mt_num. split; [intros (x & -> & N & ->); auto|]. intros [N ->]. exists []. auto. Qed.

(** runs of digits *)
Lemma numeral_all s : numeral s -> all is_digit s.
Proof. intros [_ F]. revert F. apply Forall_impl. intros c. apply is_digit_char. Qed.
Lemma run_unique a b r r' : numeral a -> numeral b -> stops is_digit r -> stops is_digit r' -> a ++ r = b ++ r' -> a = b /\ r = r'.
Proof.
  intros A B R R' E. pose proof (span_app _ a r (numeral_all _ A) R) as S. rewrite E, (span_app _ b r' (numeral_all _ B) R') in S. injection S as -> ->. auto.
Qed.
Lemma solid_numeral s : numeral s -> solid s = s.
Proof. intros [_ F]. apply solid_name. unfold name. revert F. apply Forall_impl. unfold digit_char, alnum_char. lia. Qed.
Lemma solid_one c : ~ space_char c -> solid [c] = [c].
Proof. intros N. unfold solid. cbn [filter]. replace (is_space c) with false; [reflexivity|]. symmetry. apply not_true_iff_false. rewrite is_space_spec. exact N. Qed.
Lemma times_not_space c : times_char c -> ~ space_char c.
Proof. unfold times_char, space_char. lia. Qed.
Lemma is_times_spec c : is_times c = true <-> times_char c.
Proof. unfold is_times, times_char. lia. Qed.

(** ** sizes *)
Lemma size_mt s cs : mt re_size s cs <-> exists a b, cs = [a; b] /\ size_text s a b.
Proof.
  unfold re_size. repeat (setoid_rewrite mt_Seq || setoid_rewrite mt_gnum || setoid_rewrite mt_sp || setoid_rewrite mt_one_iff). split.
  - intros (a & r1 & c1 & c1' & -> & -> & [A ->] & x & r2 & c2 & c2' & -> & -> & [X ->] & t & r3 & c3 & c3' & -> & -> & (t' & -> & T & ->) &
      y & b & c4 & c4' & -> & -> & [Y ->] & B & ->).
    exists a, b. split; [reflexivity|]. exists x, t', y. apply is_times_spec in T. auto 10.
  - intros (a & b & -> & x & t & y & A & B & X & Y & T & ->). apply is_times_spec in T.
    exists a, (x ++ [t] ++ y ++ b), [a], [b]. split; [reflexivity|]. split; [reflexivity|]. split; [auto|].
    exists x, ([t] ++ y ++ b), [], [b]. split; [reflexivity|]. split; [reflexivity|]. split; [auto|].
    exists [t], (y ++ b), [], [b]. split; [reflexivity|]. split; [reflexivity|]. split; [eauto|].
    exists y, b, [], [b]. auto 10.
Qed.
Lemma size_unique s a b a' b' : size_text s a b -> size_text s a' b' -> a = a' /\ b = b'.
Proof.
  intros (x & t & y & A & B & X & Y & T & E) (x' & t' & y' & A' & B' & X' & Y' & T' & E'). rewrite E in E'. apply (f_equal solid) in E'.
  rewrite !solid_app, !(solid_numeral a), !(solid_numeral b), !(solid_numeral a'), !(solid_numeral b'), (solid_blank x), (solid_blank y), (solid_blank x'), (solid_blank y'), !solid_one in E'
    by (assumption || now apply times_not_space).
  cbn [app] in E'. apply run_unique in E' as [-> F]; [|assumption|assumption|unfold times_char in T; cbn [stops]; unfold is_digit; lia|unfold times_char in T'; cbn [stops]; unfold is_digit; lia].
  injection F as _ ->. auto.
Qed.
Lemma size_match s a b : size_text s a b -> regex_match re_size s = Some [a; b].
Proof.
  intros H. apply match_exact; [apply size_mt; eauto|]. intros cs M. apply size_mt in M as (a' & b' & -> & H'). destruct (size_unique _ _ _ _ _ H H') as [-> ->]. reflexivity.
Qed.
Lemma dval_nonneg s : numeral s -> 0 <= dval s.
Proof.
  intros [_ F]. unfold dval. assert (G : forall l a, Forall digit_char l -> 0 <= a -> 0 <= fold_left (fun a c => 10 * a + (c - 48)) l a).
  { induction l as [|c l IH]; intros a H Ha; cbn [fold_left]; [exact Ha|]. inversion H; subst. apply IH; [assumption|]. unfold digit_char in *. lia. }
  apply G; [exact F|lia].
Qed.
Lemma positive_cases n : numeral n ->
  (enormous n /\ positive_u32 n = Throw) \/ (proper n /\ positive_u32 n = Ok (Some (dval n))) \/ (~ enormous n /\ ~ proper n /\ positive_u32 n = Ok None).
Proof.
  intros N. pose proof (dval_nonneg n N). unfold positive_u32, stoull, enormous, proper, bind. destruct (dval n <? 2 ^ 64) eqn:A.
  - destruct ((dval n =? 0) || (2 ^ 32 - 1 <? dval n)) eqn:B; right; [right|left]; (split; [lia|]); [split; [lia|reflexivity]|reflexivity].
  - left. split; [lia|reflexivity].
Qed.
Theorem size_accepted s w h : parse_size s = Ok (Some (w, h)) <-> exists a b, size_text s a b /\ proper a /\ proper b /\ w = dval a /\ h = dval b.
Proof.
  split.
  - unfold parse_size. destruct (regex_match re_size s) as [cs|] eqn:E; [|discriminate]. apply match_sound, size_mt in E as (a & b & -> & H).
    pose proof H as (x & t & y & A & B & _). destruct (positive_cases a A) as [[_ ->]|[[P ->]|[_ [_ ->]]]]; try discriminate. cbn [bind].
    destruct (positive_cases b B) as [[_ ->]|[[P' ->]|[_ [_ ->]]]]; try discriminate. cbn [bind]. intros Q. injection Q as <- <-. eauto 10.
  - intros (a & b & H & P & P' & -> & ->). unfold parse_size. rewrite (size_match _ _ _ H). pose proof H as (x & t & y & A & B & _).
    destruct (positive_cases a A) as [[G _]|[[_ ->]|[_ [N _]]]]; [unfold enormous, proper in *; lia| |contradiction]. cbn [bind].
    destruct (positive_cases b B) as [[G _]|[[_ ->]|[_ [N _]]]]; [unfold enormous, proper in *; lia|reflexivity|contradiction].
Qed.
Theorem size_thrown s : parse_size s = Throw <-> exists a b, size_text s a b /\ (enormous a \/ proper a /\ enormous b).
Proof.
  split.
  - unfold parse_size. destruct (regex_match re_size s) as [cs|] eqn:E; [|discriminate]. apply match_sound, size_mt in E as (a & b & -> & H).
    pose proof H as (x & t & y & A & B & _). intros Q. exists a, b. split; [exact H|]. revert Q. destruct (positive_cases a A) as [[G ->]|[[P ->]|[_ [_ ->]]]]; cbn [bind]; [auto| |discriminate].
    destruct (positive_cases b B) as [[G ->]|[[P' ->]|[_ [_ ->]]]]; cbn [bind]; [auto|discriminate|discriminate].
  - intros (a & b & H & C). unfold parse_size. rewrite (size_match _ _ _ H). pose proof H as (x & t & y & A & B & _).
    destruct (positive_cases a A) as [[G ->]|[[P ->]|[NE [NP _]]]]; [reflexivity| |exfalso; tauto]. cbn [bind]. destruct C as [C|[_ C]]; [unfold enormous, proper in *; lia|].
    destruct (positive_cases b B) as [[_ ->]|[[P' _]|[N _]]]; [reflexivity|unfold enormous, proper in *; lia|contradiction].
Qed.
Theorem size_defined s : parse_size s = Throw \/ exists r, parse_size s = Ok r.
Proof.
  unfold parse_size. destruct (regex_match re_size s) as [cs|] eqn:E; [|eauto]. apply match_sound, size_mt in E as (a & b & -> & H). pose proof H as (x & t & y & A & B & _).
  destruct (positive_cases a A) as [[G ->]|[[P ->]|[NE [NP ->]]]]; cbn [bind]; eauto. destruct (positive_cases b B) as [[G ->]|[[P' ->]|[_ [_ ->]]]]; cbn [bind]; eauto.
Qed.

(** ** tiles *)
Definition tail_text (tail : str) (p : option str) : Prop :=
  match p with
  | None => tail = []
  | Some n => exists m u v, (m = 44 \/ m = 59 \/ m = 45) /\ blank u /\ blank v /\ numeral n /\ tail = [m] ++ u ++ n ++ v ++ [37]
  end.
Definition opt_list (p : option str) : list str := match p with Some n => [n] | None => [] end.
Lemma is_minor_spec c : is_minor c = true <-> c = 44 \/ c = 59 \/ c = 45.
Proof. unfold is_minor. lia. Qed.
Lemma tail_mt u cu : mt (Maybe (Seq (One is_minor) (Seq sp (Seq (Group num) (Seq sp (ch 37)))))) u cu <-> exists p, cu = opt_list p /\ tail_text u p.
Proof.
  rewrite mt_Maybe. repeat (setoid_rewrite mt_Seq || setoid_rewrite mt_gnum || setoid_rewrite mt_sp || setoid_rewrite mt_ch || setoid_rewrite mt_one_iff). split.
  - intros [[-> ->]|(a & r1 & c1 & c1' & -> & -> & (m & -> & M & ->) & x & r2 & c2 & c2' & -> & -> & [X ->] & n & r3 & c3 & c3' & -> & -> & [N ->] &
      y & r4 & c4 & c4' & -> & -> & [Y ->] & -> & ->)]; [now exists None|].
    exists (Some n). split; [reflexivity|]. exists m, x, y. apply is_minor_spec in M. auto 10.
  - intros ([n|] & -> & H); [right|left; split; [exact H|reflexivity]]. destruct H as (m & x & y & M & X & Y & N & ->). apply is_minor_spec in M.
    exists [m], (x ++ n ++ y ++ [37]), [], [n]. split; [reflexivity|]. split; [reflexivity|]. split; [eauto|].
    exists x, (n ++ y ++ [37]), [], [n]. split; [reflexivity|]. split; [reflexivity|]. split; [auto|].
    exists n, (y ++ [37]), [n], []. split; [reflexivity|]. split; [reflexivity|]. split; [auto|].
    exists y, [37], [], []. auto 10.
Qed.
Lemma tiles_mt s cs : mt re_tiles s cs <-> exists a b p, cs = a :: b :: opt_list p /\ tiles_text s a b p.
Proof.
  unfold re_tiles. setoid_rewrite mt_Seq at 1. repeat (setoid_rewrite mt_Seq at 1 || setoid_rewrite mt_gnum || setoid_rewrite mt_sp || setoid_rewrite tail_mt || setoid_rewrite mt_one_iff at 1). split.
  - intros (a & r1 & c1 & c1' & -> & -> & [A ->] & x & r2 & c2 & c2' & -> & -> & [X ->] & t & r3 & c3 & c3' & -> & -> & (t' & -> & T & ->) &
      y & r4 & c4 & c4' & -> & -> & [Y ->] & b & r5 & c5 & c5' & -> & -> & [B ->] & z & r6 & c6 & c6' & -> & -> & [Z ->] & tl & z' & c7 & c7' & -> & -> & (p & -> & P) & Z' & ->).
    exists a, b, p. split; [cbn [app]; now rewrite app_nil_r|]. exists x, t', y, z, tl, z'. apply is_times_spec in T. auto 15.
  - intros (a & b & p & -> & x & t & y & z & tl & z' & A & B & X & Y & Z & Z' & T & -> & P). apply is_times_spec in T.
    exists a, (x ++ [t] ++ y ++ b ++ z ++ tl ++ z'), [a], (b :: opt_list p). split; [reflexivity|]. split; [reflexivity|]. split; [auto|].
    exists x, ([t] ++ y ++ b ++ z ++ tl ++ z'), [], (b :: opt_list p). split; [reflexivity|]. split; [reflexivity|]. split; [auto|].
    exists [t], (y ++ b ++ z ++ tl ++ z'), [], (b :: opt_list p). split; [reflexivity|]. split; [reflexivity|]. split; [eauto|].
    exists y, (b ++ z ++ tl ++ z'), [], (b :: opt_list p). split; [reflexivity|]. split; [reflexivity|]. split; [auto|].
    exists b, (z ++ tl ++ z'), [b], (opt_list p). split; [reflexivity|]. split; [reflexivity|]. split; [auto|].
    exists z, (tl ++ z'), [], (opt_list p). split; [reflexivity|]. split; [reflexivity|]. split; [auto|].
    exists tl, z', (opt_list p), []. split; [reflexivity|]. split; [now rewrite app_nil_r|]. split; [exists p; auto|auto].
Qed.
Definition solid_tail (p : option str) (m : Z) : str := match p with None => [] | Some n => m :: n ++ [37] end.
Lemma tail_solid tail p : tail_text tail p -> exists m, (m = 44 \/ m = 59 \/ m = 45) /\ solid tail = solid_tail p m.
Proof.
  destruct p as [n|]; cbn [tail_text solid_tail].
  - intros (m & u & v & M & U & V & N & ->). exists m. split; [exact M|]. rewrite !solid_app, (solid_blank u), (solid_blank v), (solid_numeral n), (solid_one m), (solid_one 37) by (assumption || (unfold space_char; lia)). reflexivity.
  - intros ->. exists 44. auto.
Qed.
Lemma tiles_unique s a b p a' b' p' : tiles_text s a b p -> tiles_text s a' b' p' -> a = a' /\ b = b' /\ p = p'.
Proof.
  intros (x & t & y & z & tl & e & A & B & X & Y & Z & Z1 & T & E & P) (x' & t' & y' & z' & tl' & e' & A' & B' & X' & Y' & Z' & Z1' & T' & E' & P'). rewrite E in E'. apply (f_equal solid) in E'.
  destruct (tail_solid _ _ P) as (m & M & S). destruct (tail_solid _ _ P') as (m' & M' & S').
  rewrite !solid_app, S, S', !(solid_numeral a), !(solid_numeral b), !(solid_numeral a'), !(solid_numeral b'), (solid_blank x), (solid_blank y), (solid_blank x'), (solid_blank y'),
    (solid_blank z), (solid_blank e), (solid_blank z'), (solid_blank e'), !solid_one in E' by (assumption || now apply times_not_space).
  cbn [app] in E'. rewrite !app_nil_r in E'.
  apply run_unique in E' as [-> F]; [|assumption|assumption|unfold times_char in T; cbn [stops]; unfold is_digit; lia|unfold times_char in T'; cbn [stops]; unfold is_digit; lia].
  injection F as _ F. assert (ST : forall q k, (k = 44 \/ k = 59 \/ k = 45) -> stops is_digit (solid_tail q k)).
  { intros [q|] k K; cbn [solid_tail stops]; [unfold is_digit; lia|exact I]. }
  apply run_unique in F as [-> F]; auto. split; [reflexivity|]. split; [reflexivity|]. destruct p as [n|], p' as [n'|]; cbn [solid_tail] in F; try discriminate; [|reflexivity].
  injection F as _ F. apply app_inv_tail in F. now subst.
Qed.
Lemma tiles_match s a b p : tiles_text s a b p -> regex_match re_tiles s = Some (a :: b :: opt_list p).
Proof.
  intros H. apply match_exact; [apply tiles_mt; eauto|]. intros cs M. apply tiles_mt in M as (a' & b' & p' & -> & H'). destruct (tiles_unique _ _ _ _ _ _ _ H H') as (-> & -> & ->). reflexivity.
Qed.
Definition opt_all (P : str -> Prop) (p : option str) : Prop := match p with Some n => P n | None => True end.
Lemma tiles_numeral s a b p : tiles_text s a b p -> numeral a /\ numeral b /\ opt_all numeral p.
Proof.
  intros (x & t & y & z & tl & e & A & B & X & Y & Z & Z1 & T & E & P). split; [exact A|]. split; [exact B|]. destruct p as [n|]; [|exact I].
  destruct P as (m & u & v & _ & _ & _ & N & _). exact N.
Qed.
Theorem tiles_accepted s i : parse_tiles s = Ok (Some i) <->
  exists a b p, tiles_text s a b p /\ proper a /\ proper b /\ opt_all proper p /\ i = mkTiles (dval a) (dval b) (overlap_of (option_map dval p)).
Proof.
  split.
  - unfold parse_tiles. destruct (regex_match re_tiles s) as [cs|] eqn:E; [|discriminate]. apply match_sound, tiles_mt in E as (a & b & p & -> & H).
    destruct (tiles_numeral _ _ _ _ H) as (A & B & N). destruct (positive_cases a A) as [[_ ->]|[[P ->]|[_ [_ ->]]]]; try discriminate. cbn [bind].
    destruct (positive_cases b B) as [[_ ->]|[[P' ->]|[_ [_ ->]]]]; try discriminate. cbn [bind]. destruct p as [n|]; cbn [opt_list opt_all] in *.
    + destruct (positive_cases n N) as [[_ ->]|[[P2 ->]|[_ [_ ->]]]]; try discriminate. cbn [bind]. intros Q. injection Q as <-. exists a, b, (Some n). auto 10.
    + intros Q. injection Q as <-. exists a, b, None. cbn [opt_all]. auto 10.
  - intros (a & b & p & H & P & P' & P2 & ->). unfold parse_tiles. rewrite (tiles_match _ _ _ _ H). destruct (tiles_numeral _ _ _ _ H) as (A & B & N).
    destruct (positive_cases a A) as [[G _]|[[_ ->]|[_ [X _]]]]; [unfold enormous, proper in *; lia| |contradiction]. cbn [bind].
    destruct (positive_cases b B) as [[G _]|[[_ ->]|[_ [X _]]]]; [unfold enormous, proper in *; lia| |contradiction]. cbn [bind]. destruct p as [n|]; cbn [opt_list opt_all] in *; [|reflexivity].
    destruct (positive_cases n N) as [[G _]|[[_ ->]|[_ [X _]]]]; [unfold enormous, proper in *; lia|reflexivity|contradiction].
Qed.
