(** Arguments of the command-line tool: integers, regions and pyramid layers. *)
From Coq Require Import String.
From Verif Require Import Base CodesModel TextModel TextProofs XmlModel OptsModel OptsSpec OptsProofs ArgsModel ArgsSpec ArgsProofs.
From Verif Require DateProofs.
Open Scope Z_scope.
Local Notation len := List.length.

Lemma stoi_text v n : stops is_space v -> stoi v = Some (n, []) -> int_text v n.
Proof.
  intros V. unfold stoi. rewrite (span_stop _ _ V). cbn [snd]. destruct (skip_sign v) as [neg r] eqn:SS. destruct (span is_digit r) as [ds rest] eqn:S. apply span_split in S as [E F].
  destruct ds as [|c ds]; [discriminate|]. set (x := if neg then - dval (c :: ds) else dval (c :: ds)). destruct (in_i32b x) eqn:I; [|discriminate].
  intros H. injection H as <- ->. rewrite app_nil_r in E. subst r.
  assert (R : - 2 ^ 31 <= x < 2 ^ 31) by (unfold in_i32b, INT_MIN, INT_MAX in I; lia).
  assert (X : exists sg, v = sg ++ (c :: ds) /\ (sg = [45] /\ x = - dval (c :: ds) \/ (sg = [] \/ sg = [43]) /\ x = dval (c :: ds))).
  { unfold skip_sign in SS. destruct v as [|y v]; [discriminate|]. destruct (y =? 45) eqn:A; [|destruct (y =? 43) eqn:B].
    - injection SS as <- ->. exists [45]. cbn [app]. split; [f_equal; lia|]. left. now split.
    - injection SS as <- ->. exists [43]. cbn [app]. split; [f_equal; lia|]. right. split; [now right|reflexivity].
    - injection SS as <- -> ->. exists []. split; [reflexivity|]. right. split; [now left|reflexivity]. }
  destruct X as (sg & -> & X). exists sg, (c :: ds). split; [reflexivity|]. split; [discriminate|]. split; [now apply digits_spec|]. split; [exact X|exact R].
Qed.
Lemma stoi_skip a t : blank a -> stoi (a ++ t) = stoi t.
Proof.
  intros A. unfold stoi. rewrite span_skip; [reflexivity|]. revert A. apply Forall_impl. intros c. apply is_space_spec.
Qed.
Lemma int_last t n : int_text t n -> exists p c, t = p ++ [c] /\ digit_char c.
Proof.
  intros (sg & ds & -> & N & D & _). destruct (exists_last N) as (p & c & ->). exists (sg ++ p), c. split; [now rewrite app_assoc|]. apply Forall_app in D as [_ D]. inversion D; subst. assumption.
Qed.
Lemma int_first t n : int_text t n -> exists c r, t = c :: r /\ (c = 45 \/ c = 43 \/ digit_char c).
Proof.
  intros (sg & ds & -> & N & D & S & _). destruct S as [[-> _]|[[-> | ->] _]]; cbn [app]; [exists 45, ds; auto| |exists 43, ds; auto]. destruct ds as [|c r]; [congruence|]. exists c, r. split; [reflexivity|]. inversion D; subst. auto.
Qed.
Lemma int_chars t n : int_text t n -> Forall (fun c => c = 45 \/ c = 43 \/ digit_char c) t.
Proof.
  intros (sg & ds & -> & N & D & S & _). apply Forall_app. split; [destruct S as [[-> _]|[[-> | ->] _]]; [constructor; [auto|constructor]|constructor|constructor; [auto|constructor]]|]. revert D. apply Forall_impl. unfold digit_char. auto.
Qed.
Theorem parse_int_iff s n : parse_int s = Some n <-> number_text s n.
Proof.
  unfold parse_int. split.
  - destruct (stoi (trim s)) as [[v [|? ?]]|] eqn:E; try discriminate. intros H. injection H as ->. destruct (DateProofs.trim_split s) as (a & b & A & B & S).
    destruct (span is_space (trim s)) as [w r] eqn:W. apply span_spec in W as (W & F & ST). assert (BW : blank w) by (revert F; apply Forall_impl; intros c; apply is_space_spec).
    rewrite W, stoi_skip in E by exact BW. apply stoi_text in E; [|exact ST]. exists (a ++ w), r, b. split; [|split; [exact B|]]; [|split; [exact E|rewrite S, W at 1; now rewrite <- !app_assoc]].
    apply Forall_app. split; [|exact BW]. revert A. apply Forall_impl. unfold space_char. lia.
  - intros (a & t & b & A & B & T & ->). destruct (span is_blank a) as [a1 a2] eqn:E. apply span_spec in E as (-> & F & ST). apply Forall_app in A as [_ A2].
    assert (TR : trim ((a1 ++ a2) ++ t ++ b) = a2 ++ t).
    { rewrite <- app_assoc, (app_assoc a2). destruct (int_first _ _ T) as (c & r & ET & C). destruct (int_last _ _ T) as (p & d & ET' & D). apply DateProofs.trim_of.
      - revert F. apply Forall_impl. intros x. unfold is_blank. lia.
      - exact B.
      - rewrite ET. destruct a2; discriminate.
      - destruct a2; [|exact ST]. rewrite ET. cbn [app stops]. unfold is_blank, digit_char in *. lia.
      - apply DateProofs.ends_app_r. exists p, d. split; [exact ET'|]. unfold is_blank, digit_char in *. lia. }
    rewrite TR, stoi_skip, (stoi_int _ _ T) by exact A2. reflexivity.
Qed.
Lemma number_unique s n n' : number_text s n -> number_text s n' -> n = n'.
Proof. intros A B. apply parse_int_iff in A, B. congruence. Qed.

(** ** pyramid layers *)
Lemma is_bar_spec c : is_bar c = true <-> c = 59 \/ c = 44 \/ c = 124.
Proof. unfold is_bar. lia. Qed.
Lemma number_no_bar s n : number_text s n -> Forall (fun c => negb (is_bar c) = true) s.
Proof.
  intros (a & t & b & A & B & T & ->). apply Forall_app. split; [revert A; apply Forall_impl; unfold space_char, is_bar; lia|]. apply Forall_app. split.
  - apply int_chars in T. revert T. apply Forall_impl. unfold digit_char, is_bar. lia.
  - revert B. apply Forall_impl. unfold is_bar. lia.
Qed.
Theorem pyramid_accepted s f l : parse_pyramid s = Some (f, l) <-> pyramid_text s f l.
Proof.
  unfold parse_pyramid. split.
  - destruct (span (fun c => negb (is_bar c)) s) as [a r] eqn:E. apply span_spec in E as (-> & F & ST). destruct r as [|d b]; [discriminate|]. cbn [stops] in ST.
    destruct (parse_int a) as [x|] eqn:X; [|discriminate]. destruct (parse_int b) as [y|] eqn:Y; [|discriminate]. intros H. injection H as <- <-.
    apply parse_int_iff in X, Y. exists a, d, b. split; [exact X|]. split; [exact Y|]. split; [apply is_bar_spec; now destruct (is_bar d)|reflexivity].
  - intros (a & d & b & A & B & D & ->). rewrite span_app; [|exact (number_no_bar _ _ A)|cbn [app stops]; apply is_bar_spec in D; now rewrite D]. cbn [app].
    apply parse_int_iff in A, B. now rewrite A, B.
Qed.

(** ** regions *)
Definition sgn_text (minus : bool) (v : str) : Prop :=
  exists sg ds, v = sg ++ ds /\ numeral ds /\ (sg = [] \/ sg = [43] \/ minus = true /\ (sg = [124] \/ sg = [45])).
Lemma mt_snum u cu : mt snum u cu <-> sgn_text true u /\ cu = [u].
Proof.
  unfold snum. rewrite mt_Group. repeat (setoid_rewrite mt_num || setoid_rewrite mt_Seq at 1 || setoid_rewrite mt_Maybe || setoid_rewrite mt_one_iff). split.
  - intros (x & -> & a & b & ca & cb & -> & -> & A & N & ->). assert (X : ca = [] /\ (a = [] \/ a = [43] \/ true = true /\ (a = [124] \/ a = [45]))).
    { destruct A as [[-> ->]|(c & -> & S & ->)]; [auto|]. split; [reflexivity|]. right. unfold is_sign in S. assert (C : c = 43 \/ c = 124 \/ c = 45) by lia. destruct C as [->|[->| ->]]; auto. }
    destruct X as [-> X]. split; [exists a, b; auto|reflexivity].
  - intros [(sg & ds & -> & N & S) ->]. exists []. split; [reflexivity|]. exists sg, ds, [], []. split; [reflexivity|]. split; [reflexivity|]. split; [|auto].
    destruct S as [->|[->|[_ [->| ->]]]]; [auto|right; eexists; split; [reflexivity|auto]..].
Qed.
Lemma mt_pnum u cu : mt pnum u cu <-> sgn_text false u /\ cu = [u].
Proof.
  unfold pnum. rewrite mt_Group. repeat (setoid_rewrite mt_num || setoid_rewrite mt_Seq at 1 || setoid_rewrite mt_Maybe || setoid_rewrite mt_ch). split.
  - intros (x & -> & a & b & ca & cb & -> & -> & A & N & ->). split; [exists a, b|]; destruct A as [[-> ->]|(-> & ->)]; auto 10.
  - intros [(sg & ds & -> & N & S) ->]. exists []. split; [reflexivity|]. exists sg, ds, [], []. split; [reflexivity|]. split; [reflexivity|]. split; [|auto].
    destruct S as [->|[->|[X _]]]; [auto|auto|discriminate].
Qed.
Lemma mt_word w r u cu : mt (word w r) u cu <-> exists v, u = w ++ v /\ mt r v cu.
Proof.
  revert u cu. induction w as [|c w IH]; intros u cu; cbn [word fold_right app]; [split; [eauto|intros (v & -> & M); exact M]|].
  change (fold_right (fun c0 r0 => Seq (ch c0) r0) r w) with (word w r). rewrite mt_Seq. setoid_rewrite mt_ch. setoid_rewrite IH. split.
  - intros (a & b & ca & cb & -> & -> & [-> ->] & v & -> & M). exists v. split; [reflexivity|exact M].
  - intros (v & -> & M). exists [c], (w ++ v), [], cu. split; [reflexivity|]. split; [reflexivity|]. split; [auto|]. exists v. auto.
Qed.
Definition rect_shape (s mode X Y W H : str) : Prop :=
  sgn_text true X /\ sgn_text true Y /\ sgn_text false W /\ sgn_text false H /\
  s = mode ++ txt "(" ++ X ++ txt "," ++ Y ++ txt "," ++ W ++ txt "," ++ H ++ txt ")".
Lemma rect_mt mode s cs : mt (re_rect mode) s cs <-> exists X Y W H, cs = [X; Y; W; H] /\ rect_shape s mode X Y W H.
Proof.
  unfold re_rect. rewrite mt_word. repeat (setoid_rewrite mt_Seq at 1 || setoid_rewrite mt_snum || setoid_rewrite mt_pnum || setoid_rewrite mt_ch). split.
  - intros (v & -> & l1 & r1 & c1 & c1' & -> & -> & [-> ->] & X & r2 & c2 & c2' & -> & -> & [HX ->] & l3 & r3 & c3 & c3' & -> & -> & [-> ->] & Y & r4 & c4 & c4' & -> & -> & [HY ->] &
      l5 & r5 & c5 & c5' & -> & -> & [-> ->] & W & r6 & c6 & c6' & -> & -> & [HW ->] & l7 & r7 & c7 & c7' & -> & -> & [-> ->] & H & r8 & c8 & c8' & -> & -> & [HH ->] & -> & ->).
    exists X, Y, W, H. split; [reflexivity|]. unfold rect_shape. auto 10.
  - intros (X & Y & W & H & -> & HX & HY & HW & HH & ->). eexists. split; [reflexivity|].
    exists [40], (X ++ [44] ++ Y ++ [44] ++ W ++ [44] ++ H ++ [41]), [], [X; Y; W; H]. split; [reflexivity|]. split; [reflexivity|]. split; [auto|].
    exists X, ([44] ++ Y ++ [44] ++ W ++ [44] ++ H ++ [41]), [X], [Y; W; H]. split; [reflexivity|]. split; [reflexivity|]. split; [auto|].
    exists [44], (Y ++ [44] ++ W ++ [44] ++ H ++ [41]), [], [Y; W; H]. split; [reflexivity|]. split; [reflexivity|]. split; [auto|].
    exists Y, ([44] ++ W ++ [44] ++ H ++ [41]), [Y], [W; H]. split; [reflexivity|]. split; [reflexivity|]. split; [auto|].
    exists [44], (W ++ [44] ++ H ++ [41]), [], [W; H]. split; [reflexivity|]. split; [reflexivity|]. split; [auto|].
    exists W, ([44] ++ H ++ [41]), [W], [H]. split; [reflexivity|]. split; [reflexivity|]. split; [auto|].
    exists [44], (H ++ [41]), [], [H]. split; [reflexivity|]. split; [reflexivity|]. split; [auto|].
    exists H, [41], [H], []. auto 10.
Qed.
Lemma sgn_not x m v : ~ digit_char x -> x <> 43 -> x <> 124 -> x <> 45 -> sgn_text m v -> ~ In x v.
Proof.
  intros D A B C (sg & ds & -> & [_ F] & S). rewrite in_app_iff. intros [I|I].
  - destruct S as [->|[->|[_ [->| ->]]]]; cbn [In] in I; intuition congruence.
  - rewrite Forall_forall in F. exact (D (F x I)).
Qed.
Lemma rect_unique s mode X Y W H X' Y' W' H' : rect_shape s mode X Y W H -> rect_shape s mode X' Y' W' H' -> [X; Y; W; H] = [X'; Y'; W'; H'].
Proof.
  intros (A & B & C & D & E) (A' & B' & C' & D' & E'). rewrite E in E'. apply app_inv_head in E'. change (txt "(") with [40] in E'. change (txt ",") with [44] in E'. change (txt ")") with [41] in E'.
  cbn [app] in E'. injection E' as E'. assert (N : forall m v, sgn_text m v -> ~ In 44 v /\ ~ In 41 v) by (intros m v S; split; apply (sgn_not _ m); unfold digit_char; try lia; exact S).
  apply sep_unique in E' as [-> E']; [|apply (N _ _ A)|apply (N _ _ A')]. apply sep_unique in E' as [-> E']; [|apply (N _ _ B)|apply (N _ _ B')].
  apply sep_unique in E' as [-> E']; [|apply (N _ _ C)|apply (N _ _ C')]. apply sep_unique in E' as [-> E']; [|apply (N _ _ D)|apply (N _ _ D')]. reflexivity.
Qed.
Lemma rect_match s mode X Y W H : rect_shape s mode X Y W H -> regex_match (re_rect mode) s = Some [X; Y; W; H].
Proof.
  intros R. apply match_exact; [apply rect_mt; eauto 10|]. intros cs M. apply rect_mt in M as (X' & Y' & W' & H' & -> & R'). symmetry. eapply rect_unique; eassumption.
Qed.
(** an integer in the shape of the expression *)
Lemma sgn_int m v n : sgn_text m v -> (parse_int v = Some n <-> int_text v n).
Proof.
  intros S. rewrite parse_int_iff. split; [|intros I; exists [], v, []; repeat split; [constructor|constructor|exact I|now rewrite app_nil_r]].
  intros (a & t & b & A & B & T & E). assert (a = []).
  { destruct a as [|c a]; [reflexivity|]. exfalso. inversion A; subst. apply (sgn_not c m _) in S; [apply S; now left|..]; unfold space_char, digit_char in *; lia. }
  assert (b = []).
  { destruct b as [|c b]; [reflexivity|]. exfalso. inversion B; subst. apply (sgn_not c m _) in S; [apply S; rewrite !in_app_iff; cbn; auto|..]; unfold digit_char in *; lia. }
  subst a b. rewrite app_nil_r in E. now subst v.
Qed.
Lemma int_sgn v n : int_text v n -> sgn_text true v.
Proof. intros (sg & ds & -> & N & D & S & _). exists sg, ds. split; [reflexivity|]. split; [split; assumption|]. destruct S as [[-> _]|[[->| ->] _]]; auto. Qed.
Lemma int_sgn_pos v n : int_text v n -> 0 < n -> sgn_text false v.
Proof.
  intros (sg & ds & -> & N & D & S & _) P. exists sg, ds. split; [reflexivity|]. split; [split; assumption|]. destruct S as [[-> ->]|[[->| ->] _]]; auto.
  exfalso. pose proof (dval_nonneg ds (conj N D)). lia.
Qed.
Lemma region_iff b X Y W H g : sgn_text true X -> sgn_text true Y -> sgn_text false W -> sgn_text false H ->
  region_of b [X; Y; W; H] = Some g <->
  g_abs g = b /\ int_text X (g_x g) /\ int_text Y (g_y g) /\ int_text W (g_w g) /\ int_text H (g_h g) /\ 0 < g_w g /\ 0 < g_h g.
Proof.
  intros SX SY SW SH. cbn [region_of]. split.
  - destruct (parse_int X) as [x|] eqn:EX; [|discriminate]. destruct (parse_int Y) as [y|] eqn:EY; [|discriminate]. destruct (parse_int W) as [w|] eqn:EW; [|discriminate].
    destruct (w <=? 0) eqn:LW; [discriminate|]. destruct (parse_int H) as [h|] eqn:EH; [|discriminate]. destruct (h <=? 0) eqn:LH; [discriminate|]. intros E. injection E as <-.
    cbn [g_abs g_x g_y g_w g_h]. apply (sgn_int _ _ _ SX) in EX. apply (sgn_int _ _ _ SY) in EY. apply (sgn_int _ _ _ SW) in EW. apply (sgn_int _ _ _ SH) in EH. repeat split; (assumption || lia).
  - destruct g as [g x y w h]. cbn [g_abs g_x g_y g_w g_h]. intros (-> & IX & IY & IW & IH & PW & PH). apply (sgn_int _ _ _ SX) in IX. apply (sgn_int _ _ _ SY) in IY. apply (sgn_int _ _ _ SW) in IW. apply (sgn_int _ _ _ SH) in IH.
    rewrite IX, IY, IW, IH. replace (w <=? 0) with false by lia. replace (h <=? 0) with false by lia. reflexivity.
Qed.
Theorem rect_accepted s g : parse_rect s = Some g <-> rect_text s (g_abs g) (g_x g) (g_y g) (g_w g) (g_h g).
Proof.
  split.
  - unfold parse_rect. destruct (regex_match (re_rect (txt "abs")) s) as [cs|] eqn:E.
    + apply match_sound, rect_mt in E as (X & Y & W & H & -> & A & B & C & D & ->). intros R. apply region_iff in R as (EB & IX & IY & IW & IH & PW & PH); [|assumption..]. rewrite EB. exists X, Y, W, H. auto 15.
    + destruct (regex_match (re_rect (txt "rel")) s) as [cs|] eqn:E2; [|discriminate]. apply match_sound, rect_mt in E2 as (X & Y & W & H & -> & A & B & C & D & ->).
      intros R. apply region_iff in R as (EB & IX & IY & IW & IH & PW & PH); [|assumption..]. rewrite EB. exists X, Y, W, H. auto 15.
  - intros (X & Y & W & H & IX & IY & IW & IH & PW & PH & ->).
    pose proof (int_sgn _ _ IX) as SX. pose proof (int_sgn _ _ IY) as SY. pose proof (int_sgn_pos _ _ IW PW) as SW. pose proof (int_sgn_pos _ _ IH PH) as SH.
    assert (RI : region_of (g_abs g) [X; Y; W; H] = Some g) by (apply region_iff; auto 15).
    unfold parse_rect. destruct (g_abs g).
    + rewrite (rect_match _ (txt "abs") X Y W H) by (unfold rect_shape; auto 10). exact RI.
    + rewrite match_fail; [rewrite (rect_match _ (txt "rel") X Y W H) by (unfold rect_shape; auto 10); exact RI|].
      intros cs M. apply rect_mt in M as (X' & Y' & W' & H' & _ & _ & _ & _ & _ & E). change (txt "rel") with [114; 101; 108] in E. change (txt "abs") with [97; 98; 115] in E. discriminate.
Qed.
