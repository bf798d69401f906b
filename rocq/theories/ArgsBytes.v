(** Arguments of the command-line tool: the size of the cache. *)
From Coq Require Import String QArith Qabs Lqa SpecFloat.
From Verif Require Import Base TextModel TextProofs XmlModel XmlProofs FloatProofs SFloatProofs StatModel ScaleModel ScaleNum NumModel NumSpec NumProofs NumText NumRound
  OptsModel OptsSpec OptsProofs ArgsModel ArgsSpec ArgsProofs ArgsRect ArgsFormat.
Open Scope Z_scope.
Local Notation len := List.length.
Local Notation small := ArgsFormat.small.

Definition unit_shape (u : str) : Prop :=
  exists x i, u = x :: i /\ ((lower x =? 107) || (lower x =? 109) || (lower x =? 103) || (lower x =? 116)) = true /\ (i = [] \/ exists c, i = [c] /\ same_letter c 105).
Definition b_shape (bb : str) : Prop := bb = [] \/ exists c, bb = [c] /\ same_letter c 98.
Definition number_shape (t : str) : Prop := exists M K, decimal_text t M K.
Definition bytes_shape (P : str -> Prop) (s n u : str) : Prop :=
  exists a b bb c, blank a /\ blank b /\ blank c /\ P n /\ unit_shape u /\ b_shape bb /\ s = a ++ n ++ b ++ u ++ bb ++ c.
Definition signed (P : str -> Prop) (n : str) : Prop := exists sg t, n = sg ++ t /\ (sg = [] \/ sg = [43]) /\ P t.
Lemma mt_unit u cu : mt (Group (Seq (One (fun c => (lower c =? 107) || (lower c =? 109) || (lower c =? 103) || (lower c =? 116))) (Maybe (chi 105)))) u cu <-> unit_shape u /\ cu = [u].
Proof.
  rewrite mt_Group. setoid_rewrite mt_Seq. setoid_rewrite mt_Maybe. setoid_rewrite (fun u cu => mt_chi 105 u cu ltac:(unfold small; lia)). setoid_rewrite mt_one_iff. unfold unit_shape. split.
  - intros (cu' & -> & a & b & ca & cb & -> & -> & (x & -> & X & ->) & C). split; [exists x, b; split; [reflexivity|]; split; [exact X|]|]; destruct C as [[-> ->]|(c & -> & C & ->)]; eauto.
  - intros [(x & i & -> & X & I) ->]. exists []. split; [reflexivity|]. exists [x], i, [], []. split; [reflexivity|]. split; [reflexivity|]. split; [exists x; auto|].
    destruct I as [->|(c & -> & C)]; [left; auto|right; exists c; auto].
Qed.
Lemma mt_b u cu : mt (Maybe (chi 98)) u cu <-> b_shape u /\ cu = [].
Proof.
  rewrite mt_Maybe. setoid_rewrite (fun u cu => mt_chi 98 u cu ltac:(unfold small; lia)). unfold b_shape. split.
  - intros [[-> ->]|(c & -> & C & ->)]; split; eauto.
  - intros [[->|(c & -> & C)] ->]; [auto|right; eauto].
Qed.
Lemma mt_signed r P n cu : (forall u cu, mt r u cu <-> P u /\ cu = []) -> (mt (Group (Seq (Maybe (ch 43)) r)) n cu <-> signed P n /\ cu = [n]).
Proof.
  intros HP. rewrite mt_Group. setoid_rewrite mt_Seq. setoid_rewrite mt_Maybe. setoid_rewrite mt_ch. setoid_rewrite HP. unfold signed. split.
  - intros (cu' & -> & a & b & ca & cb & -> & -> & C & T & ->). split; [exists a, b; split; [reflexivity|]|]; destruct C as [[-> ->]|(-> & ->)]; auto.
  - intros [(sg & t & -> & S & T) ->]. exists []. split; [reflexivity|]. exists sg, t, [], []. split; [reflexivity|]. split; [reflexivity|]. split; [destruct S as [->| ->]; auto|auto].
Qed.
Lemma bytes_mt r P s cs : (forall u cu, mt r u cu <-> P u /\ cu = []) -> (mt (re_bytes r) s cs <-> exists n u, cs = [n; u] /\ bytes_shape (signed P) s n u).
Proof.
  intros HP. unfold re_bytes. setoid_rewrite mt_Seq at 1. repeat (setoid_rewrite mt_Seq at 1 || setoid_rewrite mt_sp || setoid_rewrite (fun n cu => mt_signed r P n cu HP) || setoid_rewrite mt_unit || setoid_rewrite mt_b). unfold bytes_shape. split.
  - intros (a & r1 & c1 & c1' & -> & -> & [A ->] & n & r2 & c2 & c2' & -> & -> & [N ->] & b & r3 & c3 & c3' & -> & -> & [B ->] & u & r4 & c4 & c4' & -> & -> & [U ->] & bb & c & c5 & c5' & -> & -> & [BB ->] & C & ->).
    exists n, u. split; [reflexivity|]. exists a, b, bb, c. auto 15.
  - intros (n & u & -> & a & b & bb & c & A & B & C & N & U & BB & ->).
    exists a, (n ++ b ++ u ++ bb ++ c), [], [n; u]. split; [reflexivity|]. split; [reflexivity|]. split; [auto|].
    exists n, (b ++ u ++ bb ++ c), [n], [u]. split; [reflexivity|]. split; [reflexivity|]. split; [auto|].
    exists b, (u ++ bb ++ c), [], [u]. split; [reflexivity|]. split; [reflexivity|]. split; [auto|].
    exists u, (bb ++ c), [u], []. split; [reflexivity|]. split; [reflexivity|]. split; [auto|].
    exists bb, c, [], []. auto 10.
Qed.
Definition num1 (t : str) : Prop := exists ip, numeral ip /\ (t = ip \/ exists fp, Forall digit_char fp /\ t = ip ++ [46] ++ fp).
Definition num2 (t : str) : Prop := exists fp, numeral fp /\ t = [46] ++ fp.
Lemma digits_forallb s : forallb is_digit s = true <-> Forall digit_char s.
Proof. apply digits_spec. Qed.
Lemma mt_num1 u cu : mt re_number1 u cu <-> num1 u /\ cu = [].
Proof.
  unfold re_number1, num1. setoid_rewrite mt_Seq at 1. setoid_rewrite mt_num. setoid_rewrite mt_Maybe. setoid_rewrite mt_Seq. setoid_rewrite mt_ch. setoid_rewrite mt_many_iff. setoid_rewrite digits_forallb. split.
  - intros (a & b & ca & cb & -> & -> & [N ->] & [[-> ->]|(x & fp & cx & cf & -> & -> & [-> ->] & F & ->)]); (split; [exists a; split; [exact N|]|reflexivity]); [left; apply app_nil_r|right; eauto].
  - intros [(ip & N & C) ->]. destruct C as [->|(fp & F & ->)].
    + exists ip, [], [], []. split; [now rewrite app_nil_r|]. auto 10.
    + exists ip, ([46] ++ fp), [], []. split; [reflexivity|]. split; [reflexivity|]. split; [auto|]. right. exists [46], fp, [], []. auto 10.
Qed.
Lemma mt_num2 u cu : mt re_number2 u cu <-> num2 u /\ cu = [].
Proof.
  unfold re_number2, num2. setoid_rewrite mt_Seq at 1. setoid_rewrite mt_num. setoid_rewrite mt_ch. split.
  - intros (a & b & ca & cb & -> & -> & [-> ->] & N & ->). split; [eauto|reflexivity].
  - intros [(fp & N & ->) ->]. exists [46], fp, [], []. auto 10.
Qed.
Lemma number_cases n : number_shape n <-> signed num1 n \/ signed num2 n.
Proof.
  unfold number_shape, decimal_text, signed, num1, num2, numeral. split.
  - intros (M & K & sg & ip & fp & S & I & F & _ & _ & [(N & -> & ->)|[(N & ->)|(-> & N & ->)]]); [left; exists sg, ip|left; exists sg, (ip ++ [46] ++ fp)|right; exists sg, ([46] ++ fp)]; (split; [reflexivity|]); (split; [exact S|]).
    + exists ip. auto.
    + exists ip. split; [auto|]. right. eauto.
    + exists fp. auto.
  - intros [(sg & t & -> & S & ip & [N I] & C)|(sg & t & -> & S & fp & [N I] & ->)].
    + destruct C as [->|(fp & F & ->)]; [exists (dval (ip ++ [])), (Z.of_nat (len (@nil Z))), sg, ip, []|exists (dval (ip ++ fp)), (Z.of_nat (len fp)), sg, ip, fp]; repeat (split; [auto; fail|]); auto 10.
    + exists (dval ([] ++ fp)), (Z.of_nat (len fp)), sg, [], fp. repeat (split; [auto; fail|]). auto 10.
Qed.
(** which texts match *)
Definition is_numc (c : Z) : bool := is_digit c || (c =? 43) || (c =? 46).
Lemma number_chars n : number_shape n -> all is_numc n.
Proof.
  intros (M & K & sg & ip & fp & S & I & F & _ & _ & C). assert (D : forall l, Forall digit_char l -> all is_numc l) by (intros l; apply Forall_impl; unfold is_numc, is_digit, digit_char; lia).
  assert (SG : all is_numc sg) by (destruct S as [->| ->]; repeat constructor). assert (P : all is_numc [46]) by (repeat constructor).
  destruct C as [(_ & _ & ->)|[(_ & ->)|(_ & _ & ->)]]; repeat (apply Forall_app; split); auto.
Qed.
Lemma unit_facts u : unit_shape u -> all (fun c => negb (is_space c)) u /\ forall r, stops is_numc (u ++ r).
Proof.
  intros (x & i & -> & X & C). assert (XB : 65 <= x <= 122) by (unfold lower in X; destruct ((65 <=? x) && (x <=? 90)) eqn:E; lia). split.
  - constructor; [unfold is_space; lia|]. destruct C as [->|(c & -> & C)]; [constructor|]. constructor; [unfold is_space, same_letter in *; lia|constructor].
  - intros r. cbn [app stops]. unfold is_numc, is_digit. lia.
Qed.
Lemma solid_all s : all (fun c => negb (is_space c)) s -> solid s = s.
Proof. unfold solid. induction 1 as [|c s H _ IH]; [reflexivity|]. cbn [filter]. now rewrite H, IH. Qed.
Lemma solid_number n : number_shape n -> solid n = n.
Proof. intros H. apply solid_all. apply number_chars in H. revert H. apply Forall_impl. unfold is_numc, is_digit, is_space. lia. Qed.
Lemma b_solid bb : b_shape bb -> solid bb = bb.
Proof. intros [->|(c & -> & C)]; [reflexivity|]. apply solid_one. unfold space_char, same_letter in *. lia. Qed.
Lemma unit_b_unique u bb u' bb' : unit_shape u -> b_shape bb -> unit_shape u' -> b_shape bb' -> u ++ bb = u' ++ bb' -> u = u'.
Proof.
  intros (x & i & -> & _ & I) B (x' & i' & -> & _ & I') B' E. cbn [app] in E. injection E as -> E. f_equal.
  destruct I as [->|(c & -> & C)], I' as [->|(c' & -> & C')]; cbn [app] in E; try reflexivity; try (injection E as -> _; reflexivity).
  - destruct B as [->|(d & -> & D)]; [discriminate|]. injection E as -> _. unfold same_letter in *. lia.
  - destruct B' as [->|(d & -> & D)]; [discriminate|]. injection E as -> _. unfold same_letter in *. lia.
Qed.
Lemma bytes_unique s n u n' u' : bytes_shape number_shape s n u -> bytes_shape number_shape s n' u' -> n = n' /\ u = u'.
Proof.
  intros (a & b & bb & c & A & B & C & N & U & BB & E) (a' & b' & bb' & c' & A' & B' & C' & N' & U' & BB' & E'). rewrite E in E'. apply (f_equal solid) in E'.
  rewrite !solid_app, (solid_blank a), (solid_blank b), (solid_blank c), (solid_blank a'), (solid_blank b'), (solid_blank c'), (solid_number n), (solid_number n'), (b_solid bb), (b_solid bb'),
    (solid_all u), (solid_all u'), !app_nil_r in E' by (assumption || now apply unit_facts). cbn [app] in E'.
  pose proof (span_app _ n (u ++ bb) (number_chars _ N) (proj2 (unit_facts u U) bb)) as S. rewrite E', (span_app _ n' (u' ++ bb') (number_chars _ N') (proj2 (unit_facts u' U') bb')) in S.
  injection S as -> S. split; [reflexivity|]. symmetry in S. now apply unit_b_unique in S.
Qed.
Definition either_bytes (s : str) : option (list str) := orelse (regex_match (re_bytes re_number1) s) (regex_match (re_bytes re_number2) s).
Lemma shape_impl (P Q : str -> Prop) s n u : (forall n, P n -> Q n) -> bytes_shape P s n u -> bytes_shape Q s n u.
Proof. intros I (a & b & bb & c & A & B & C & N & R). exists a, b, bb, c. auto 10. Qed.
Lemma either_bytes_some s cs : either_bytes s = Some cs -> exists n u, cs = [n; u] /\ bytes_shape number_shape s n u.
Proof.
  intros H. apply orelse_some in H as [H|H]; apply match_sound in H.
  - apply (bytes_mt _ num1 _ _ mt_num1) in H as (n & u & -> & H). exists n, u. split; [reflexivity|]. revert H. apply shape_impl. intros x X. apply number_cases. auto.
  - apply (bytes_mt _ num2 _ _ mt_num2) in H as (n & u & -> & H). exists n, u. split; [reflexivity|]. revert H. apply shape_impl. intros x X. apply number_cases. auto.
Qed.
Lemma either_bytes_of s n u : bytes_shape number_shape s n u -> either_bytes s = Some [n; u].
Proof.
  intros H. destruct (either_bytes s) as [cs|] eqn:E.
  - apply either_bytes_some in E as (n' & u' & -> & H'). destruct (bytes_unique _ _ _ _ _ H H') as [-> ->]. reflexivity.
  - exfalso. apply orelse_none in E as [E1 E2]. destruct H as (a & b & bb & c & A & B & C & N & R). apply number_cases in N as [N|N].
    + destruct (match_complete (re_bytes re_number1) s [n; u]) as (cs & X); [|congruence]. apply (bytes_mt _ num1 _ _ mt_num1). exists n, u. split; [reflexivity|]. exists a, b, bb, c. auto 10.
    + destruct (match_complete (re_bytes re_number2) s [n; u]) as (cs & X); [|congruence]. apply (bytes_mt _ num2 _ _ mt_num2). exists n, u. split; [reflexivity|]. exists a, b, bb, c. auto 10.
Qed.

(** ** units *)
Lemma unit_names u : unit_shape u <-> exists name f, In (name, f) units /\ same_word u name.
Proof.
  split.
  - intros (x & i & -> & X & C). assert (XL : exists y, (y = 107 \/ y = 109 \/ y = 103 \/ y = 116) /\ same_letter x y).
    { exists (lower x). split; [lia|]. unfold lower, same_letter. destruct ((65 <=? x) && (x <=? 90)) eqn:E; lia. }
    destruct XL as (y & Y & S). destruct C as [->|(c & -> & C)].
    + exists [y]. assert (SW : same_word [x] [y]) by (constructor; [exact S|constructor]). destruct Y as [->|[->|[->| ->]]]; eexists; (split; [|exact SW]); cbn [units In]; [left; reflexivity|right; left; reflexivity|right; right; left; reflexivity|right; right; right; left; reflexivity].
    + exists [y; 105]. assert (SW : same_word [x; c] [y; 105]) by (constructor; [exact S|constructor; [exact C|constructor]]).
      destruct Y as [->|[->|[->| ->]]]; eexists; (split; [|exact SW]); cbn [units In]; do 4 right; [left; reflexivity|right; left; reflexivity|right; right; left; reflexivity|right; right; right; left; reflexivity].
  - intros (name & f & IN & S). assert (G : exists y i, name = y :: i /\ (y = 107 \/ y = 109 \/ y = 103 \/ y = 116) /\ (i = [] \/ i = [105])).
    { cbn [units In] in IN. repeat (destruct IN as [IN|IN]; [injection IN as <- _; eexists _, _; split; [reflexivity|]; lia || (split; [lia|auto])|]). destruct IN. }
    destruct G as (y & i & -> & Y & I). inversion S as [|x y' u' i' XY S' E E']; subst. exists x, u'. split; [reflexivity|]. split.
    + unfold same_letter, lower in *. destruct ((65 <=? x) && (x <=? 90)) eqn:E; lia.
    + destruct I as [->| ->]; [left; inversion S'; reflexivity|right]. inversion S' as [|c z u2 i2 C S2 E E']; subst. inversion S2; subst. eauto.
Qed.
Lemma unit_same u v : map upper u = map upper v -> unit_factor u = unit_factor v.
Proof. intros H. unfold unit_factor, icase. now rewrite H. Qed.
Lemma unit_of u name f : In (name, f) units -> same_word u name -> unit_factor u = Some f.
Proof.
  intros IN S. apply icase_spec in S. unfold icase in S. apply str_eqb_eq in S. rewrite (unit_same _ _ S). clear S. cbn [units In] in IN.
  repeat (destruct IN as [IN|IN]; [injection IN as <- <-; vm_compute; reflexivity|]). destruct IN.
Qed.
Lemma unit_range name f : In (name, f) units -> 0 < f <= 2 ^ 40.
Proof. cbn [units In]. intros IN. repeat (destruct IN as [IN|IN]; [injection IN as _ <-; lia|]). destruct IN. Qed.
Lemma b_names bb : b_shape bb <-> bb = [] \/ bb = txt "b" \/ bb = txt "B".
Proof.
  unfold b_shape. change (txt "b") with [98]. change (txt "B") with [66]. split.
  - intros [->|(c & -> & C)]; [auto|right]. assert (D : c = 98 \/ c = 66) by (unfold same_letter in C; lia). destruct D as [->| ->]; auto.
  - intros [->|[->| ->]]; [auto|right; eexists; split; [reflexivity|]; unfold same_letter; lia..].
Qed.

(** ** numbers *)
Lemma digit_digits l : Forall digit_char l -> digits l.
Proof. unfold digits. apply Forall_impl. unfold digit_char. lia. Qed.
Lemma no_exponent : exponent [] 0.
Proof. constructor. Qed.
Lemma strtod_plus t x : (exists c r, t = c :: r /\ (is_digit c = true \/ c = 46)) -> strtod t = (x, len t) -> strtod (43 :: t) = (x, len (43 :: t)).
Proof.
  intros (c & r & -> & C) H. assert (S1 : span is_space (c :: r) = ([], c :: r)) by (apply span_stop; cbn [stops]; unfold is_space, is_digit in *; lia).
  assert (S2 : span is_space (43 :: c :: r) = ([], 43 :: c :: r)) by (apply span_stop; reflexivity).
  unfold strtod in *. rewrite S1 in H. rewrite S2. cbn [snd take_sign] in *. replace (c =? 45) with false in H by (unfold is_digit in C; lia). replace (c =? 43) with false in H by (unfold is_digit in C; lia).
  change (43 =? 45) with false. change (43 =? 43) with true. cbv iota. destruct (span is_digit (c :: r)) as [ip s3]. destruct (take_fraction s3) as [fp s4]. destruct (ip ++ fp) as [|d ds]; [cbn [len] in H; discriminate|].
  destruct (take_exponent s4) as [ex s5]. injection H as <- L. f_equal. cbn [len] in *. destruct (len s5); cbn [len] in *; lia.
Qed.
Lemma stod_number t M K : decimal_text t M K -> stod t = match of_decimal false M (- K) with S754_infinity _ => None | x => Some x end.
Proof.
  intros (sg & ip & fp & S & I & F & -> & -> & C).
  assert (D : exists t', t = sg ++ t' /\ (exists c r, t' = c :: r /\ (is_digit c = true \/ c = 46)) /\ strtod t' = (of_decimal false (dval (ip ++ fp)) (- Z.of_nat (len fp)), len t')).
  { destruct C as [(N & -> & ->)|[(N & ->)|(-> & N & ->)]].
    - exists ip. split; [reflexivity|]. split; [destruct ip as [|c r]; [congruence|]; inversion I; subst; exists c, r; split; [reflexivity|left; now apply is_digit_char]|].
      rewrite app_nil_r. pose proof (read_decimal false ip (dval ip) 0) as R. cbv zeta in R. cbn [app] in R. apply R. rewrite <- (app_nil_r ip) at 1. eapply whole; [now apply digit_digits|exact N|apply no_exponent|reflexivity|reflexivity].
    - exists (ip ++ [46] ++ fp). split; [reflexivity|]. split; [destruct ip as [|c r]; [congruence|]; inversion I; subst; exists c, (r ++ [46] ++ fp); split; [reflexivity|left; now apply is_digit_char]|].
      pose proof (read_decimal false (ip ++ [46] ++ fp) (dval (ip ++ fp)) (- Z.of_nat (len fp))) as R. cbv zeta in R. cbn [app] in R. apply R.
      replace (ip ++ 46 :: fp) with (ip ++ [46] ++ fp ++ []) by now rewrite app_nil_r. eapply fraction; [now apply digit_digits|now apply digit_digits|destruct ip; [congruence|discriminate]|apply no_exponent|reflexivity|lia].
    - exists ([46] ++ fp). split; [reflexivity|]. split; [exists 46, fp; auto|].
      pose proof (read_decimal false ([46] ++ fp) (dval fp) (- Z.of_nat (len fp))) as R. cbv zeta in R. cbn [app] in *. apply R.
      replace (46 :: fp) with ([] ++ [46] ++ fp ++ []) by now rewrite app_nil_r. eapply fraction; [constructor|now apply digit_digits|exact N|apply no_exponent|reflexivity|lia]. }
  destruct D as (t' & -> & H & R). assert (ST : strtod (sg ++ t') = (of_decimal false (dval (ip ++ fp)) (- Z.of_nat (len fp)), len (sg ++ t'))).
  { destruct S as [->| ->]; [exact R|]. apply strtod_plus; assumption. }
  unfold stod. rewrite ST. assert (L : exists n, len (sg ++ t') = Datatypes.S n). { destruct H as (c & r & -> & _). destruct S as [->| ->]; cbn [app len]; eauto. }
  destruct L as (n & ->). destruct (of_decimal false (dval (ip ++ fp)) (- Z.of_nat (len fp))); reflexivity.
Qed.

(** ** rounding *)
Local Open Scope Q_scope.
Lemma lround_63 x : fin64 x -> 0 <= sfQ x -> sfQ x < b2 62 -> exists k, lround x = Ok k /\ (0 <= k < 2 ^ 63)%Z /\ near (inject_Z k) (sfQ x) (1 # 2).
Proof.
  intros F P B. destruct (frac_ok x F) as (n & d & E & D & Q). unfold lround. rewrite E. cbv zeta.
  assert (n0 : (0 * d <= n)%Z) by (apply (Q_num _ n d 0 D Q); exact P). assert (n1 : (n < 2 ^ 62 * d)%Z) by (apply (Q_num_lt _ n d (2 ^ 62) D Q); rewrite <- b2_Z by lia; exact B).
  set (q := ((2 * Z.abs n + d) / (2 * d))%Z).
  pose proof (Z.mul_div_le (2 * Z.abs n + d) (2 * d) ltac:(lia)) as L. pose proof (Z.mul_succ_div_gt (2 * Z.abs n + d) (2 * d) ltac:(lia)) as U. fold q in L, U.
  set (k := (Z.sgn n * q)%Z). assert (K : (2 * n - d <= 2 * (k * d) <= 2 * n + d)%Z) by (unfold k; destruct (Z.sgn_spec n) as [[S ->]|[[S ->]|[S ->]]]; nia).
  assert (KB : (0 <= k < 2 ^ 63)%Z). { split; [|nia]. unfold k. assert (0 <= q)%Z by (apply Z.div_pos; lia). assert (0 <= Z.sgn n)%Z by lia. nia. }
  exists k. split; [destruct (_ && _) eqn:G; [reflexivity|lia]|]. split; [exact KB|].
  assert (Q2 : (2 * sfQ x * inject_Z d == inject_Z (2 * n))%Q) by (rewrite inject_Z_mult; change (inject_Z 2) with 2%Q; rewrite <- Q; ring).
  assert (K1 : (inject_Z (2 * k - 1) <= 2 * sfQ x)%Q) by (apply (Q_num _ (2 * n) d _ D Q2); nia).
  assert (K2 : (2 * sfQ x <= inject_Z (2 * k + 1))%Q) by (apply (Q_num _ (2 * n) d _ D Q2); nia).
  rewrite inject_Z_plus, inject_Z_mult in K2. replace (2 * k - 1)%Z with (2 * k + - (1))%Z in K1 by lia. rewrite inject_Z_plus, inject_Z_mult in K1.
  change (inject_Z 2) with 2%Q in *. change (inject_Z 1) with 1%Q in *. change (inject_Z (- (1))) with (- (1))%Q in *. unfold near. split; lra.
Qed.

Definition tt : Q := b2 (emin 53 1024 - 1).
Lemma tt_small : 0 <= tt /\ tt * b2 40 <= b2 (-103).
Proof. split; vm_compute; discriminate. Qed.
Lemma decimal_close M K : (0 <= M)%Z -> inject_Z M * t10 (- K) < b2 62 ->
  nn 53 1024 (of_decimal false M (- K)) /\ Qabs (sfQ (of_decimal false M (- K)) - inject_Z M * t10 (- K)) <= inject_Z M * t10 (- K) * b2 (-53) + tt.
Proof.
  intros HM HX. destruct (Z.eq_dec M 0) as [->|N].
  - change (of_decimal false 0 (- K)) with (S754_zero false). split; [split; [reflexivity|reflexivity]|]. cbn [sfQ]. change (inject_Z 0) with 0. destruct tt_small as [T0 _]. apply Qabs_Qle_condition. setoid_replace (0 * t10 (- K) * b2 (-53)) with 0 by ring. setoid_replace (0 * t10 (- K)) with 0 by ring. lra.
  - assert (X0 : 0 <= inject_Z M * t10 (- K)) by (apply Qmult_le_0_compat; [change 0 with (inject_Z 0); apply injZ_le; lia|apply Qlt_le_weak, t10_pos]).
    pose proof (of_decimal_op M (- K) 62 ltac:(lia) HX ltac:(lia)) as O. split; [apply O|]. pose proof (sop_rel 53 1024 _ _ _ (sop_of_op 53 1024 _ _ _ X0 O)) as R.
    rewrite (Qabs_pos _ X0) in R. exact R.
Qed.
Lemma bytes_round M K f : (0 <= M)%Z -> (0 < f <= 2 ^ 40)%Z -> inject_Z M * t10 (- K) * inject_Z f < b2 61 ->
  exists x k, of_decimal false M (- K) = x /\ nn 53 1024 x /\ lround (f64_mul x (f64_of_Z f)) = Ok k /\ (0 <= k < 2 ^ 63)%Z /\
    Qabs (inject_Z k - inject_Z M * t10 (- K) * inject_Z f) <= (1 # 2) + inject_Z M * t10 (- K) * inject_Z f * b2 (-51) + b2 (-100).
Proof.
  intros HM Hf HV. set (X := inject_Z M * t10 (- K)) in *. assert (F1 : 1 <= inject_Z f) by (change 1 with (inject_Z 1); apply injZ_le; lia).
  assert (F2 : inject_Z f <= b2 40) by (rewrite b2_Z by lia; apply injZ_le; lia).
  assert (X0 : 0 <= X) by (apply Qmult_le_0_compat; [change 0 with (inject_Z 0); apply injZ_le; lia|apply Qlt_le_weak, t10_pos]).
  assert (XV : X <= X * inject_Z f) by (rewrite <- (Qmult_1_r X) at 1; rewrite (Qmult_comm X 1), (Qmult_comm X (inject_Z f)); apply Qmult_le_compat_r; assumption).
  assert (V0 : 0 <= X * inject_Z f) by lra. assert (B62 : b2 61 + b2 61 == b2 62) by reflexivity. assert (P61 := b2_pos 61).
  destruct (decimal_close M K HM) as [N1 E1]; [fold X; lra|]. fold X in E1. set (x := of_decimal false M (- K)) in *. apply Qabs_Qle_condition in E1.
  destruct (sf_of_Z_exact 53 1024 ltac:(lia) ltac:(lia) f ltac:(lia)) as [Nf Qf]. change (sf_of_Z 53 1024 f) with (f64_of_Z f) in *.
  destruct tt_small as [T0 T1]. set (V := X * inject_Z f) in *.
  assert (TF : tt * inject_Z f <= b2 (-103)). { apply Qle_trans with (tt * b2 40); [|exact T1]. rewrite (Qmult_comm tt (inject_Z f)), (Qmult_comm tt (b2 40)). apply Qmult_le_compat_r; assumption. }
  assert (TF0 : 0 <= tt * inject_Z f) by (apply Qmult_le_0_compat; lra).
  assert (TT : tt <= b2 (-103)) by (vm_compute; discriminate).
  set (W := sfQ x * inject_Z f).
  assert (W1 : W <= V + (V * b2 (-53) + tt * inject_Z f)).
  { apply Qle_trans with ((X + (X * b2 (-53) + tt)) * inject_Z f); [unfold W; apply Qmult_le_compat_r; lra|]. unfold V. apply Qle_lteq. right. ring. }
  assert (W2 : V - (V * b2 (-53) + tt * inject_Z f) <= W).
  { apply Qle_trans with ((X - (X * b2 (-53) + tt)) * inject_Z f); [unfold V; apply Qle_lteq; right; ring|]. unfold W. apply Qmult_le_compat_r; lra. }
  assert (c53 : b2 (-53) == 1 # 9007199254740992) by reflexivity. assert (c51 : b2 (-51) == 1 # 2251799813685248) by reflexivity.
  assert (c103 : b2 (-103) == b2 (-100) * (1 # 8)) by reflexivity. assert (c100 : 0 < b2 (-100)) by apply b2_pos. assert (c100' : b2 (-100) <= 1) by (vm_compute; discriminate).
  assert (c61 : 1 <= b2 61) by (vm_compute; discriminate).
  rewrite c53 in *. rewrite c103 in *.
  assert (WB : W < b2 61 + b2 61 * (1 # 4) + 1) by lra.
  assert (EW : sfQ x * sfQ (f64_of_Z f) == W) by (unfold W; now rewrite Qf).
  assert (W0 : 0 <= W). { unfold W. apply Qmult_le_0_compat; [|lra]. exact (nn_ge0 _ _ _ N1). }
  pose proof (SFmul_op 53 1024 ltac:(lia) ltac:(lia) x (f64_of_Z f) 62 N1 Nf) as O. 
  assert (O' : op_ok 53 1024 (sfQ x * sfQ (f64_of_Z f)) 62 (f64_mul x (f64_of_Z f))) by (apply O; [rewrite EW; lra|lia]). clear O.
  assert (W0' : 0 <= sfQ x * sfQ (f64_of_Z f)) by (rewrite EW; exact W0).
  pose proof (sop_rel 53 1024 _ _ _ (sop_of_op 53 1024 _ _ _ W0' O')) as R. fold tt in R. rewrite EW, (Qabs_pos W W0) in R. change (b2 (- (53))) with (b2 (-53)) in R. rewrite c53 in R. apply Qabs_Qle_condition in R.
  set (y := f64_mul x (f64_of_Z f)) in *. destruct O' as [Ny _]. assert (Y0 : 0 <= sfQ y) by (exact (nn_ge0 _ _ _ Ny)).
  assert (YB : sfQ y < b2 62) by lra. destruct (lround_63 y (nn_finite _ _ _ Ny) Y0 YB) as (k & EK & KB & [K1 K2]).
  exists x, k. split; [reflexivity|]. split; [exact N1|]. split; [exact EK|]. split; [exact KB|]. apply Qabs_Qle_condition. rewrite c51. split; lra.
Qed.

(** ** the argument *)
Lemma meant_t10 M K f : (0 <= K)%Z -> bytes_meant M K f == inject_Z M * t10 (- K) * inject_Z f.
Proof.
  intros HK. unfold bytes_meant. rewrite inject_Z_mult. assert (P : 0 < inject_Z (10 ^ K)) by (apply injZ_pos; apply Z.pow_pos_nonneg; lia).
  assert (E : t10 (- K) * inject_Z (10 ^ K) == 1) by (rewrite <- t10_Z by exact HK; apply t10_inv). assert (N : ~ inject_Z (10 ^ K) == 0) by lra.
  apply (Qmult_inj_r _ _ (inject_Z (10 ^ K)) N). rewrite Qmult_comm, Qmult_div_r by exact N. transitivity (inject_Z M * inject_Z f * (t10 (- K) * inject_Z (10 ^ K))); [rewrite E; ring|ring].
Qed.
Lemma text_shape s M K f : bytes_text s M K f -> exists n u, bytes_shape number_shape s n u /\ decimal_text n M K /\ unit_factor u = Some f /\ (0 <= M)%Z /\ (0 <= K)%Z /\ (0 < f <= 2 ^ 40)%Z.
Proof.
  intros (a & t & b & u & name & bb & c & A & B & C & D & IN & S & BB & E). exists t, u. split.
  - exists a, b, bb, c. repeat (split; [assumption|]). split; [exists M, K; exact D|]. split; [apply unit_names; eauto|]. split; [now apply b_names|exact E].
  - split; [exact D|]. split; [eapply unit_of; eassumption|]. split; [|split; [|eapply unit_range; eassumption]].
    + destruct D as (sg & ip & fp & _ & I & F & -> & _ & _). destruct (ip ++ fp) as [|x r] eqn:E2; [reflexivity|]. rewrite <- E2. apply dval_nonneg. split; [rewrite E2; discriminate|apply Forall_app; auto].
    + destruct D as (sg & ip & fp & _ & _ & _ & _ & -> & _). lia.
Qed.
Theorem bytes_ok s M K f : bytes_text s M K f -> bytes_meant M K f < b2 61 ->
  exists k, parse_bytes s = Ok (Some k) /\ (0 <= k < 2 ^ 63)%Z /\
    Qabs (inject_Z k - bytes_meant M K f) <= (1 # 2) + bytes_meant M K f * b2 (-51) + b2 (-100).
Proof.
  intros H V. destruct (text_shape _ _ _ _ H) as (n & u & S & D & U & HM & HK & Hf). rewrite (meant_t10 M K f HK) in V. destruct (bytes_round M K f HM Hf V) as (x & k & EX & NX & EK & KB & R).
  exists k. split; [|split; [exact KB|rewrite (meant_t10 M K f HK); exact R]].
  assert (ST : stod n = Some x) by (rewrite (stod_number _ _ _ D), EX; destruct x; [reflexivity|destruct NX as [_ []]|reflexivity|reflexivity]).
  unfold parse_bytes. fold (either_bytes s). rewrite (either_bytes_of _ _ _ S), ST, U, EK. cbn [bind]. rewrite Z.mod_small by lia. reflexivity.
Qed.
Theorem bytes_exact s M K f z : bytes_text s M K f -> (M * f = z * 10 ^ K)%Z -> (0 <= z <= 2 ^ 49)%Z -> parse_bytes s = Ok (Some z).
Proof.
  intros H E Hz. pose proof (text_shape _ _ _ _ H) as (n & u & _ & _ & _ & HM & HK & Hf). assert (P : 0 < inject_Z (10 ^ K)) by (apply injZ_pos; apply Z.pow_pos_nonneg; lia).
  assert (V : bytes_meant M K f == inject_Z z). { unfold bytes_meant. rewrite E, inject_Z_mult. apply Qdiv_mult_l. lra. }
  assert (ZB : inject_Z z <= inject_Z (2 ^ 49)) by (apply injZ_le; lia). assert (Z0 : 0 <= inject_Z z) by (change 0 with (inject_Z 0); apply injZ_le; lia).
  assert (C : inject_Z (2 ^ 49) < b2 61) by reflexivity.
  destruct (bytes_ok s M K f H) as (k & -> & KB & R); [rewrite V; lra|]. rewrite V in R. do 2 f_equal. apply Qabs_Qle_condition in R. assert (c51 : b2 (-51) == 1 # 2251799813685248) by reflexivity. rewrite c51 in R.
  assert (c100 : b2 (-100) <= 1 # 8) by (vm_compute; discriminate). change (inject_Z (2 ^ 49)) with 562949953421312 in *.
  assert (U : inject_Z k < inject_Z (z + 1)) by (rewrite inject_Z_plus; change (inject_Z 1) with 1; lra). assert (L : inject_Z (z - 1) < inject_Z k) by (unfold Z.sub; rewrite inject_Z_plus; change (inject_Z (- (1))) with (- (1)); lra).
  rewrite <- Zlt_Qlt in U, L. lia.
Qed.
Theorem bytes_refused s : (forall M K f, ~ bytes_text s M K f) -> parse_bytes s = Ok None.
Proof.
  intros N. unfold parse_bytes. fold (either_bytes s). destruct (either_bytes s) as [cs|] eqn:E; [|reflexivity]. exfalso. apply either_bytes_some in E as (n & u & -> & a & b & bb & c & A & B & C & (M & K & D) & U & BB & ES).
  apply unit_names in U as (name & f & IN & S). apply (N M K f). exists a, n, b, u, name, bb, c. apply b_names in BB. auto 15.
Qed.
