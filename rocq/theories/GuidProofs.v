(** Proofs about parameters given as text. *)
From Coq Require Import String.
From Verif Require Import Base CodecModel TextModel XmlProofs DocSpec WriterModel WriterSpec WriterMain CoordModel GuidModel GuidSpec.
Open Scope Z_scope.

(** ** digits *)
Lemma hex_class_figure c : hex_class c = true <-> exists v, figure_of 16 c v.
Proof.
  unfold hex_class, figure_of, figure. split.
  - intros H. destruct ((48 <=? c) && (c <=? 57)) eqn:A; [exists (c - 48); split; [reflexivity|lia]|].
    destruct ((97 <=? c) && (c <=? 102)) eqn:B; [exists (c - 87); split; [reflexivity|lia]|].
    destruct ((65 <=? c) && (c <=? 70)) eqn:C; [exists (c - 55); split; [reflexivity|lia]|]. discriminate H.
  - intros (v & H & _). destruct ((48 <=? c) && (c <=? 57)); [reflexivity|]. destruct ((97 <=? c) && (c <=? 102)); [now rewrite orb_true_r|].
    destruct ((65 <=? c) && (c <=? 70)); [reflexivity|discriminate H].
Qed.
Lemma figure_hex_char c v : figure_of 16 c v -> hex_char_to_int c = v /\ 0 <= v < 16.
Proof.
  unfold figure_of, figure, hex_char_to_int. intros (H & L).
  destruct ((48 <=? c) && (c <=? 57)) eqn:A; [assert (c - 48 = v) by congruence; split; lia|].
  destruct ((97 <=? c) && (c <=? 102)) eqn:B.
  - assert (c - 87 = v) by congruence. replace ((65 <=? c) && (c <=? 70)) with false by lia. split; lia.
  - destruct ((65 <=? c) && (c <=? 70)) eqn:C; [|discriminate H]. assert (c - 55 = v) by congruence. split; lia.
Qed.
Lemma hex_loop_ok s vs : Forall2 (figure_of 16) s vs -> forall v cnt k, 0 <= cnt -> 0 <= v < 16 ^ k -> (v = 0 -> cnt = 0) -> 0 <= k -> k + Z.of_nat (length s) <= 8 ->
  (0 < v -> cnt < k) -> hex_loop s v cnt = Some (v * 16 ^ Z.of_nat (length s) + positional 16 vs).
Proof.
  induction 1 as [|c x s vs F H IH]; intros v cnt k C V Z0 K L P.
  - cbn [hex_loop length positional]. f_equal. change (Z.of_nat 0) with 0. lia.
  - cbn [hex_loop]. apply figure_hex_char in F as (-> & R). replace (x =? 255) with false by lia.
    assert (E : length vs = length s) by (clear -H; induction H; cbn [length]; congruence).
    cbn [length] in L. rewrite Nat2Z.inj_succ in L.
    assert (B : v * 16 + x < 16 ^ (k + 1)) by (rewrite Z.pow_add_r, Z.pow_1_r by lia; lia).
    assert (M : 16 ^ (k + 1) <= 16 ^ 8) by (apply Z.pow_le_mono_r; lia). change (16 ^ 8) with (2 ^ 32) in M.
    rewrite Z.mod_small by lia.
    replace (7 <? (if 0 <? v then cnt + 1 else cnt)) with false by (destruct (0 <? v) eqn:?; lia).
    rewrite (IH _ _ (k + 1)).
    + f_equal. cbn [length positional]. rewrite Nat2Z.inj_succ, Z.pow_succ_r, E by lia. ring.
    + destruct (0 <? v); lia.
    + lia.
    + intros Z1. assert (v = 0 /\ x = 0) as (-> & ->) by lia. cbn [Z.ltb Z.compare]. now apply Z0.
    + lia.
    + lia.
    + destruct (0 <? v) eqn:?; lia.
Qed.
Lemma convert_hex_ok s vs : s <> [] -> (length s <= 8)%nat -> Forall2 (figure_of 16) s vs -> convert_hex s = Some (positional 16 vs).
Proof.
  intros N L H. unfold convert_hex. destruct s as [|c s]; [congruence|].
  rewrite (hex_loop_ok _ _ H 0 0 0) by lia. now rewrite Z.mul_0_l.
Qed.
(** the digits of bytes *)
Lemma hexes_figures s bs : hexes s bs -> exists vs, Forall2 (figure_of 16) s vs /\ positional 16 vs = positional 256 bs /\ Forall (fun b => 0 <= b < 256) bs /\ length s = (2 * length bs)%nat /\ length vs = length s.
Proof.
  intros (hs & -> & H). induction H as [|h b hs bs (c & d & x & y & -> & F & G & ->) H (vs & I1 & I2 & I3 & I4 & I5)].
  - exists []. repeat split; constructor.
  - exists (x :: y :: vs). cbn [concat app]. pose proof (figure_hex_char _ _ F) as (_ & R1). pose proof (figure_hex_char _ _ G) as (_ & R2).
    split; [constructor; [assumption|constructor; assumption]|]. split; [|split; [constructor; [lia|assumption]|]].
    + cbn [positional length]. rewrite Nat2Z.inj_succ, Z.pow_succ_r by lia. rewrite I5, I4, I2, Nat2Z.inj_mul. change (Z.of_nat 2) with 2.
      rewrite Z.pow_mul_r by lia. change (16 ^ 2) with 256. unfold byte in *. ring.
    + cbn [length]. split; lia.
Qed.
Lemma le_rev bs : Forall (fun b => 0 <= b < 256) bs -> le (length bs) (positional 256 bs) = rev bs.
Proof.
  induction bs as [|b bs IH] using rev_ind; intros H; [reflexivity|].
  apply Forall_app in H as (H & Hb). pose proof (Forall_inv Hb) as R. cbv beta in R.
  assert (P : forall l x, positional 256 (l ++ [x]) = positional 256 l * 256 + x).
  { clear. induction l as [|a l IH]; intros x; [cbn; lia|]. cbn [app positional]. rewrite IH, app_length. cbn [length].
    replace (Z.of_nat (length l + 1)) with (Z.of_nat (length l) + 1) by lia. rewrite Z.pow_add_r, Z.pow_1_r by lia. ring. }
  rewrite P, app_length, Nat.add_comm. cbn [length Nat.add le]. rewrite rev_app_distr. cbn [rev app]. f_equal.
  - rewrite Z.add_comm, Z.mod_add, Z.mod_small by lia. reflexivity.
  - rewrite <- IH by assumption. f_equal. rewrite Z.add_comm, Z.div_add, Z.div_small by lia. lia.
Qed.
Lemma positional_range bs : Forall (fun b => 0 <= b < 256) bs -> 0 <= positional 256 bs < 256 ^ Z.of_nat (length bs).
Proof.
  induction 1 as [|b bs R H IH]; [cbn; lia|]. cbn [positional length]. rewrite Nat2Z.inj_succ, Z.pow_succ_r by lia. nia.
Qed.

Lemma hexes_class s bs : hexes s bs -> Forall (fun c => hex_class c = true) s.
Proof.
  intros H. destruct (hexes_figures s bs H) as (vs & F & _). clear H. induction F as [|c v s vs F H IH]; constructor; [|assumption].
  apply hex_class_figure. now exists v.
Qed.
Lemma hexes_convert s bs n : hexes s bs -> length bs = S n -> (n < 4)%nat -> convert_hex s = Some (positional 256 bs).
Proof.
  intros H L N. destruct (hexes_figures s bs H) as (vs & F & E & _ & K & _). rewrite <- E. apply convert_hex_ok; [|lia|assumption].
  intros ->. cbn [length] in K. lia.
Qed.
Lemma hex2_one h b : hex2 h b -> hexes h [b].
Proof. intros H. exists [h]. split; [cbn; now rewrite app_nil_r|]. now constructor. Qed.
Lemma hex2_convert h b : hex2 h b -> convert_hex h = Some b /\ 0 <= b < 256.
Proof.
  intros H. apply hex2_one in H. rewrite (hexes_convert h [b] 0 H) by (reflexivity || lia). split; [cbn; f_equal; lia|].
  destruct (hexes_figures _ _ H) as (vs & _ & _ & R & _). exact (Forall_inv R).
Qed.
(** digits are bytes *)
Lemma class_hexes n : forall s, Forall (fun c => hex_class c = true) s -> length s = (2 * n)%nat -> exists bs, hexes s bs /\ length bs = n.
Proof.
  induction n as [|n IH]; intros s H L.
  - destruct s; [|cbn [length] in L; lia]. exists []. split; [|reflexivity]. exists []. split; [reflexivity|constructor].
  - destruct s as [|c [|d s]]; [cbn [length] in L; lia..|]. cbn [length] in L.
    pose proof (Forall_inv H) as Hc. apply Forall_inv_tail in H. pose proof (Forall_inv H) as Hd. apply Forall_inv_tail in H.
    apply hex_class_figure in Hc as (x & Hc). apply hex_class_figure in Hd as (y & Hd).
    destruct (IH s H ltac:(lia)) as (bs & (hs & -> & F) & N). exists ((16 * x + y) :: bs). split; [|cbn [length]; lia].
    exists ([c; d] :: hs). split; [reflexivity|]. constructor; [|assumption]. exists c, d, x, y. auto.
Qed.

(** ** the text of 36 characters *)
Definition parse_core (s : str) : option bytes :=
  match convert_hex (cut s 0 8), convert_hex (cut s 9 4), convert_hex (cut s 14 4), all_some (map (fun p => convert_hex (cut s p 2)) data4_positions) with
  | Some d1, Some d2, Some d3, Some d4 => Some (le 4 d1 ++ le 2 (d2 mod 2 ^ 16) ++ le 2 (d3 mod 2 ^ 16) ++ map (fun v => v mod 2 ^ 8) d4)
  | _, _, _, _ => None
  end.
Ltac explode t := repeat (destruct t as [|? t]; try discriminate).
Lemma hexes_pairs t bs : hexes t bs -> length t = (2 * length bs)%nat.
Proof. intros H. destruct (hexes_figures t bs H) as (vs & _ & _ & _ & L & _). exact L. Qed.
Lemma le_hexes t bs n : hexes t bs -> length bs = n -> le n (positional 256 bs) = rev bs.
Proof. intros H <-. apply le_rev. destruct (hexes_figures t bs H) as (vs & _ & _ & R & _). exact R. Qed.
Lemma range_hexes t bs : hexes t bs -> 0 <= positional 256 bs < 256 ^ Z.of_nat (length bs).
Proof. intros H. apply positional_range. destruct (hexes_figures t bs H) as (vs & _ & _ & R & _). exact R. Qed.
Lemma core_parses s g : guid_core s g -> guid_regex s = true /\ parse_core s = Some g.
Proof.
  intros (t1 & t2 & t3 & t4 & t5 & a & b & c & d & e & -> & -> & H1 & H2 & H3 & H4 & H5 & La & Lb & Lc & Ld & Le).
  pose proof (hexes_pairs _ _ H1) as L1. pose proof (hexes_pairs _ _ H2) as L2. pose proof (hexes_pairs _ _ H3) as L3.
  pose proof (hexes_pairs _ _ H4) as L4. pose proof (hexes_pairs _ _ H5) as L5. rewrite La in L1. rewrite Lb in L2. rewrite Lc in L3. rewrite Ld in L4. rewrite Le in L5.
  cbn [Nat.mul Nat.add] in L1, L2, L3, L4, L5.
  pose proof (hexes_class _ _ H1) as C1. pose proof (hexes_class _ _ H2) as C2. pose proof (hexes_class _ _ H3) as C3.
  pose proof (hexes_class _ _ H4) as C4. pose proof (hexes_class _ _ H5) as C5.
  pose proof (hexes_convert _ _ 3 H1 La ltac:(lia)) as V1. pose proof (hexes_convert _ _ 1 H2 Lb ltac:(lia)) as V2. pose proof (hexes_convert _ _ 1 H3 Lc ltac:(lia)) as V3.
  pose proof (le_hexes _ _ _ H1 La) as E1. pose proof (le_hexes _ _ _ H2 Lb) as E2. pose proof (le_hexes _ _ _ H3 Lc) as E3.
  pose proof (range_hexes _ _ H2) as R2. pose proof (range_hexes _ _ H3) as R3. rewrite Lb in R2. rewrite Lc in R3. change (256 ^ Z.of_nat 2) with (2 ^ 16) in R2, R3.
  destruct H4 as (h4 & K4 & F4). destruct H5 as (h5 & K5 & F5).
  destruct d as [|d0 [|d1 [|? ?]]]; try discriminate Ld. destruct e as [|e0 [|e1 [|e2 [|e3 [|e4 [|e5 [|? ?]]]]]]]; try discriminate Le.
  inversion F4 as [|p0 ? ? ? P0 F4']; subst. inversion F4' as [|p1 ? ? ? P1 F4'']; subst. inversion F4''; subst. clear F4 F4' F4''.
  inversion F5 as [|q0 ? ? ? Q0 F5a]; subst. inversion F5a as [|q1 ? ? ? Q1 F5b]; subst. inversion F5b as [|q2 ? ? ? Q2 F5c]; subst.
  inversion F5c as [|q3 ? ? ? Q3 F5d]; subst. inversion F5d as [|q4 ? ? ? Q4 F5e]; subst. inversion F5e as [|q5 ? ? ? Q5 F5f]; subst. inversion F5f; subst.
  clear F5 F5a F5b F5c F5d F5e F5f.
  assert (W : forall h v, hex2 h v -> exists x y, h = [x; y]) by (intros h v (x & y & ? & ? & -> & _); now exists x, y).
  destruct (W _ _ P0) as (? & ? & ->). destruct (W _ _ P1) as (? & ? & ->).
  destruct (W _ _ Q0) as (? & ? & ->). destruct (W _ _ Q1) as (? & ? & ->). destruct (W _ _ Q2) as (? & ? & ->).
  destruct (W _ _ Q3) as (? & ? & ->). destruct (W _ _ Q4) as (? & ? & ->). destruct (W _ _ Q5) as (? & ? & ->). clear W.
  apply hex2_convert in P0 as (P0 & ?), P1 as (P1 & ?), Q0 as (Q0 & ?), Q1 as (Q1 & ?), Q2 as (Q2 & ?), Q3 as (Q3 & ?), Q4 as (Q4 & ?), Q5 as (Q5 & ?).
  explode t1. explode t2. explode t3. cbn [concat app] in *.
  split.
  - repeat match goal with H : Forall _ (_ :: _) |- _ => let A := fresh in pose proof (Forall_inv H) as A; apply Forall_inv_tail in H; cbv beta in A end.
    unfold guid_regex. cbn [length Nat.eqb andb forallb seq dash_at existsb nth orb].
    repeat match goal with A : hex_class _ = true |- _ => rewrite A; clear A end. reflexivity.
  - unfold parse_core, cut, data4_positions. cbn [firstn skipn map]. rewrite V1, V2, V3, P0, P1, Q0, Q1, Q2, Q3, Q4, Q5. cbn [all_some].
    rewrite !(Z.mod_small _ (2 ^ 16)) by assumption. rewrite E1, E2, E3. cbn [map]. rewrite !Z.mod_small by (change (2 ^ 8) with 256; assumption). reflexivity.
Qed.
Lemma regex_core s : guid_regex s = true -> exists g, guid_core s g.
Proof.
  unfold guid_regex. intros H. apply andb_prop in H as (L & H). apply Nat.eqb_eq in L.
  explode s. clear L.
  cbn [forallb seq dash_at existsb Nat.eqb orb nth andb] in H.
  repeat match type of H with (_ && _) = true => let A := fresh "A" in apply andb_prop in H as (A & H) end.
  repeat match goal with A : (_ =? 45) = true |- _ => apply Z.eqb_eq in A; subst end.
  match goal with |- exists g, guid_core [?a0;?a1;?a2;?a3;?a4;?a5;?a6;?a7;45;?b0;?b1;?b2;?b3;45;?c0;?c1;?c2;?c3;45;?d0;?d1;?d2;?d3;45;?e0;?e1;?e2;?e3;?e4;?e5;?e6;?e7;?e8;?e9;?e10;?e11] g =>
    destruct (class_hexes 4 [a0;a1;a2;a3;a4;a5;a6;a7] ltac:(repeat constructor; assumption) eq_refl) as (a & Ha & La);
    destruct (class_hexes 2 [b0;b1;b2;b3] ltac:(repeat constructor; assumption) eq_refl) as (b & Hb & Lb);
    destruct (class_hexes 2 [c0;c1;c2;c3] ltac:(repeat constructor; assumption) eq_refl) as (c & Hc & Lc);
    destruct (class_hexes 2 [d0;d1;d2;d3] ltac:(repeat constructor; assumption) eq_refl) as (d & Hd & Ld);
    destruct (class_hexes 6 [e0;e1;e2;e3;e4;e5;e6;e7;e8;e9;e10;e11] ltac:(repeat constructor; assumption) eq_refl) as (e & He & Le)
  end.
  eexists. eexists _, _, _, _, _, a, b, c, d, e. split; [|split; [reflexivity|]].
  2:{ split; [exact Ha|]. split; [exact Hb|]. split; [exact Hc|]. split; [exact Hd|]. split; [exact He|]. auto. }
  reflexivity.
Qed.
Lemma core_iff s g : (guid_regex s = true /\ parse_core s = Some g) <-> guid_core s g.
Proof.
  split; [|apply core_parses]. intros (R & P). destruct (regex_core s R) as (g' & C). destruct (core_parses s g' C) as (_ & P'). congruence.
Qed.

(** ** blanks and braces *)
Lemma is_blank_spec c : is_blank c = true <-> c = 32 \/ c = 9. Proof. unfold is_blank. lia. Qed.
Lemma drop_blanks_split s : exists w, s = w ++ drop_blanks s /\ blanks w.
Proof.
  induction s as [|c s (w & E & B)]; [exists []; split; [reflexivity|intros c []]|]. cbn [drop_blanks]. destruct (is_blank c) eqn:I.
  - exists (c :: w). split; [cbn [app]; congruence|]. intros x [<-|X]; [now apply is_blank_spec|now apply B].
  - exists []. split; [reflexivity|intros x []].
Qed.
Lemma drop_blanks_app w s : blanks w -> drop_blanks (w ++ s) = drop_blanks s.
Proof.
  induction w as [|c w IH]; intros B; [reflexivity|]. cbn [app drop_blanks]. rewrite (proj2 (is_blank_spec c)) by (apply B; now left).
  apply IH. intros x X. apply B. now right.
Qed.
Lemma blanks_rev w : blanks w -> blanks (rev w). Proof. intros B c H. apply B. now apply in_rev. Qed.
Lemma trim_split s : exists w1 w2, s = w1 ++ trim s ++ w2 /\ blanks w1 /\ blanks w2.
Proof.
  unfold trim. destruct (drop_blanks_split s) as (w1 & E1 & B1). destruct (drop_blanks_split (rev (drop_blanks s))) as (w2 & E2 & B2).
  exists w1, (rev w2). split; [|split; [assumption|now apply blanks_rev]]. rewrite E1 at 1. f_equal.
  rewrite <- (rev_involutive (drop_blanks s)) at 1. rewrite E2 at 1. now rewrite rev_app_distr.
Qed.
Lemma trim_app w1 w2 c m d : blanks w1 -> blanks w2 -> is_blank c = false -> is_blank d = false -> trim (w1 ++ (c :: m ++ [d]) ++ w2) = c :: m ++ [d].
Proof.
  intros B1 B2 C D. unfold trim. rewrite drop_blanks_app by assumption. cbn [app drop_blanks]. rewrite C.
  change (c :: (m ++ [d]) ++ w2) with ((c :: m ++ [d]) ++ w2). rewrite rev_app_distr, drop_blanks_app by now apply blanks_rev.
  change (c :: m ++ [d]) with ((c :: m) ++ [d]). rewrite rev_app_distr. cbn [rev app drop_blanks]. rewrite D. cbn [rev]. now rewrite rev_app_distr, rev_involutive.
Qed.
Lemma hex_class_not c : hex_class c = true -> is_blank c = false /\ c <> 123. Proof. unfold hex_class, is_blank. lia. Qed.
Lemma regex_ends s : guid_regex s = true -> exists c m d, s = c :: m ++ [d] /\ hex_class c = true /\ hex_class d = true.
Proof.
  unfold guid_regex. intros H. apply andb_prop in H as (L & H). apply Nat.eqb_eq in L. rewrite forallb_forall in H.
  pose proof (H 0%nat ltac:(cbn; tauto)) as H0. pose proof (H 35%nat ltac:(cbn; tauto)) as H35. cbn [dash_at existsb Nat.eqb orb] in H0, H35.
  destruct s as [|c s]; [discriminate L|]. destruct s as [|x s _] using rev_ind; [discriminate L|].
  exists c, s, x. split; [reflexivity|]. split; [exact H0|]. cbn [length] in L. rewrite app_length in L. cbn [length] in L.
  cbn [nth] in H35. rewrite app_nth2 in H35 by lia. replace (34 - length s)%nat with 0%nat in H35 by lia. exact H35.
Qed.
Theorem guid_iff s g : try_parse_guid s = Some g <-> guid_text s g.
Proof.
  split.
  - unfold try_parse_guid. fold (parse_core (unbrace (trim s))). destruct (length (trim s) <? 2)%nat eqn:L; [discriminate|]. apply Nat.ltb_ge in L.
    destruct (guid_regex (unbrace (trim s))) eqn:R; [|discriminate]. intros P.
    assert (C : guid_core (unbrace (trim s)) g) by now apply core_iff. destruct (trim_split s) as (w1 & w2 & E & B1 & B2).
    exists w1, w2, (unbrace (trim s)). split; [assumption|]. split; [assumption|]. split; [assumption|].
    unfold unbrace. destruct ((nth 0 (trim s) 0 =? 123) && (nth (length (trim s) - 1) (trim s) 0 =? 125)) eqn:B; [|now left]. right.
    apply andb_prop in B as (B & B'). apply Z.eqb_eq in B, B'. rewrite E at 1. f_equal. destruct (trim s) as [|c t]; [cbn [length] in L; lia|].
    destruct t as [|x t _] using rev_ind; [cbn [length] in L; lia|]. cbn [nth] in B. subst c. cbn [length] in *. rewrite app_length in *. cbn [length] in *.
    replace (S (length t + 1) - 1)%nat with (S (length t)) in B' by lia. cbn [nth] in B'. rewrite app_nth2, Nat.sub_diag in B' by lia. cbn [nth] in B'. subst x.
    replace (S (length t + 1) - 2)%nat with (length t + 0)%nat by lia. cbn [skipn]. rewrite firstn_app_2. cbn [firstn]. rewrite app_nil_r.
    cbn [app]. rewrite <- app_assoc. reflexivity.
  - intros (w1 & w2 & core & B1 & B2 & C & H). apply core_iff in C as (R & P). destruct (regex_ends core R) as (c & m & d & E & Hc & Hd).
    apply hex_class_not in Hc as (Hc & Nc), Hd as (Hd & Nd). unfold try_parse_guid.
    assert (T : (trim s = core \/ trim s = 123 :: core ++ [125])) by (destruct H as [-> | ->];
      [left; rewrite E; now apply trim_app | right; change ([123] ++ core ++ [125] ++ w2) with (123 :: core ++ [125] ++ w2);
       replace (123 :: core ++ [125] ++ w2) with ((123 :: core ++ [125]) ++ w2) by (cbn [app]; now rewrite <- app_assoc); now apply trim_app]).
    assert (U : unbrace (trim s) = core /\ (length (trim s) <? 2)%nat = false).
    { destruct T as [-> | ->].
      - split; [|rewrite E; cbn [length]; rewrite app_length; cbn [length]; apply Nat.ltb_ge; lia].
        unfold unbrace. rewrite E at 1. cbn [nth]. replace (c =? 123) with false by lia. reflexivity.
      - split; [|cbn [length]; rewrite app_length; cbn [length]; apply Nat.ltb_ge; lia].
        unfold unbrace. cbn [nth length]. rewrite app_length. cbn [length]. replace (S (length core + 1) - 1)%nat with (S (length core)) by lia. cbn [nth].
        rewrite app_nth2, Nat.sub_diag by lia. cbn [nth Z.eqb Pos.eqb andb skipn]. replace (S (length core + 1) - 2)%nat with (length core + 0)%nat by lia.
        rewrite firstn_app_2. cbn [firstn]. now rewrite app_nil_r. }
    destruct U as (-> & ->). rewrite R. exact P.
Qed.

(** ** documents *)
Lemma member_split k l v : member k l = Some v <-> exists pre post, l = pre ++ (k, v) :: post /\ ~ In k (map fst pre).
Proof.
  induction l as [|(k', v') l IH]; cbn [member].
  - split; [discriminate|]. intros (pre & post & E & _). now destruct pre.
  - destruct (str_eqb k' k) eqn:E.
    + apply str_eqb_eq in E as ->. split.
      * intros H. assert (v' = v) as -> by congruence. exists [], l. split; [reflexivity|intros []].
      * intros (pre & post & E & N). destruct pre as [|(a, b) pre]; [cbn in E; congruence|]. exfalso. apply N. left. cbn. cbn [app] in E. congruence.
    + assert (D : k' <> k) by (intros ->; rewrite str_eqb_refl in E; discriminate). split.
      * intros H. apply IH in H as (pre & post & -> & N). exists ((k', v') :: pre), post. split; [reflexivity|]. intros [X|X]; cbn in *; congruence || now apply N.
      * intros (pre & post & H & N). destruct pre as [|(a, b) pre]; cbn [app] in H; [congruence|]. apply IH. exists pre, post.
        split; [congruence|]. intros X. apply N. now right.
Qed.
Lemma has_member l k v : has (Some l) k v <-> member (txt k) l = Some v.
Proof.
  split.
  - intros (l' & pre & post & E & H & N). apply member_split. exists pre, post. split; [congruence|assumption].
  - intros H. apply member_split in H as (pre & post & H & N). exists l, pre, post. auto.
Qed.
Lemma c_text_iff s t : c_text s = t <-> until_nul s t.
Proof.
  split.
  - intros <-. induction s as [|c s (N & H)]; cbn [c_text]; [split; [intros []|now left]|].
    destruct (c =? 0) eqn:E; [split; [intros []|right; exists s; cbn; f_equal; lia]|]. split.
    + intros [X|X]; [lia|now apply N].
    + destruct H as [H|(r & H)]; [left; congruence|right; exists r; cbn [app]; congruence].
  - intros (N & H). revert s H. induction t as [|c t IH]; intros s H.
    + destruct H as [-> |(r & ->)]; reflexivity.
    + assert (C : c =? 0 = false) by (destruct (c =? 0) eqn:E; [|reflexivity]; exfalso; apply N; left; lia).
      destruct H as [-> |(r & ->)]; cbn [c_text app]; rewrite C; f_equal; apply IH; try (intros X; apply N; now right).
      * now left.
      * right. now exists r.
Qed.
Lemma until_nul_unique s t t' : until_nul s t -> until_nul s t' -> t = t'.
Proof. intros A B. apply c_text_iff in A, B. congruence. Qed.
Lemma le_4_length v : length (le 4 v) = 4%nat. Proof. reflexivity. Qed.
Lemma guid_text_bytes s g : guid_text s g -> length g = 16%nat /\ Forall (fun b => 0 <= b < 256) g.
Proof.
  intros (w1 & w2 & core & _ & _ & C & _). destruct C as (t1 & t2 & t3 & t4 & t5 & a & b & c & d & e & _ & -> & H1 & H2 & H3 & H4 & H5 & La & Lb & Lc & Ld & Le).
  split; [rewrite !app_length, !rev_length; lia|].
  assert (R : forall t l, hexes t l -> Forall (fun b => 0 <= b < 256) l) by (intros t l H; destruct (hexes_figures t l H) as (vs & _ & _ & R & _); exact R).
  rewrite !Forall_app. split; [apply Forall_rev; eauto|]. split; [apply Forall_rev; eauto|]. split; [apply Forall_rev; eauto|]. split; eauto.
Qed.
Lemma is_null_iff g : length g = 16%nat -> (is_null g = true <-> g = repeat 0 16).
Proof.
  intros L. split; [|intros ->; reflexivity]. unfold is_null. intros H. rewrite forallb_forall in H. rewrite <- L. clear L.
  induction g as [|b g IH]; [reflexivity|]. cbn [length repeat]. f_equal; [pose proof (H b (or_introl eq_refl)); lia|]. apply IH. intros x X. apply H. now right.
Qed.
Lemma has_value d k v v' : has d k v -> has d k v' -> v = v'.
Proof. destruct d as [l|]; [|intros (? & ? & ? & X & _); discriminate X]. rewrite !has_member. congruence. Qed.
Lemma guid_text_unique s g g' : guid_text s g -> guid_text s g' -> g = g'.
Proof. rewrite <- !guid_iff. congruence. Qed.
Definition guid_found (d : jdoc) : option bytes :=
  match d with None => None | Some l => match as_jstr (member (txt "file_guid") l) with Some t => try_parse_guid t | None => None end end.
Lemma guid_found_iff d g : guid_found d = Some g <-> exists s t, has d "file_guid" (JStr s) /\ until_nul s t /\ guid_text t g.
Proof.
  unfold guid_found. destruct d as [l|].
  - split.
    + intros H. destruct (member (txt "file_guid") l) as [[| |s|]|] eqn:M; cbn [as_jstr] in H; try discriminate H.
      exists s, (c_text s). split; [now apply has_member|]. split; [now apply c_text_iff|]. now apply guid_iff.
    + intros (s & t & H & U & G). apply has_member in H. rewrite H. cbn [as_jstr]. apply c_text_iff in U. rewrite U. now apply guid_iff.
  - split; [discriminate|]. intros (s & t & (l & pre & post & X & _) & _). discriminate X.
Qed.
Definition uint_found (d : jdoc) (k : string) : option Z := match d with None => None | Some l => as_juint (member (txt k) l) end.
Definition int_found (d : jdoc) (k : string) : option Z := match d with None => None | Some l => as_jint (member (txt k) l) end.
Lemma uint_found_iff d k n : uint_found d k = Some n <-> number_given d k 0 (2 ^ 32) n.
Proof.
  unfold uint_found, number_given. destruct d as [l|]; [|split; [discriminate|intros ((? & ? & ? & X & _) & _); discriminate X]].
  rewrite has_member. destruct (member (txt k) l) as [[|z| |]|]; cbn [as_juint];
    try (split; [discriminate|intros (X & _); discriminate X]).
  destruct ((0 <=? z) && (z <? 2 ^ 32)) eqn:E; split; intros H; try discriminate H.
  - assert (z = n) as <- by congruence. split; [reflexivity|lia].
  - destruct H as (H & R). congruence.
  - destruct H as (H & R). assert (z = n) as -> by congruence. lia.
Qed.
Lemma int_found_iff d k n : int_found d k = Some n <-> number_given d k (- 2 ^ 31) (2 ^ 31) n.
Proof.
  unfold int_found, number_given. destruct d as [l|]; [|split; [discriminate|intros ((? & ? & ? & X & _) & _); discriminate X]].
  rewrite has_member. destruct (member (txt k) l) as [[|z| |]|]; cbn [as_jint];
    try (split; [discriminate|intros (X & _); discriminate X]).
  destruct ((- 2 ^ 31 <=? z) && (z <? 2 ^ 31)) eqn:E; split; intros H; try discriminate H.
  - assert (z = n) as <- by congruence. split; [reflexivity|lia].
  - destruct H as (H & R). congruence.
  - destruct H as (H & R). assert (z = n) as -> by congruence. lia.
Qed.
Lemma in_force_fields fresh d :
  pr_guid (in_force fresh d) = match guid_found d with Some g => if is_null g then fresh else g | None => fresh end /\
  pr_ratt (in_force fresh d) = uint_found d "reserved_size_attachments_directory" /\
  pr_rdir (in_force fresh d) = uint_found d "reserved_size_subblock_directory" /\
  pr_rmeta (in_force fresh d) = uint_found d "reserved_size_metadata_segment" /\
  pr_m (in_force fresh d) = match int_found d "minimum_m_index", int_found d "maximum_m_index" with Some lo, Some hi => set_m lo hi | _, _ => None end.
Proof.
  unfold in_force, parse_writer_info, guid_found, uint_found, int_found. destruct d as [l|]; [|cbn; auto].
  destruct (match as_jstr (member (txt "file_guid") l) with Some t => try_parse_guid t | None => None end) as [g|];
  destruct (as_juint (member (txt "reserved_size_attachments_directory") l)) as [ra|];
  destruct (as_juint (member (txt "reserved_size_subblock_directory") l)) as [rd|];
  destruct (as_juint (member (txt "reserved_size_metadata_segment") l)) as [rm|];
  destruct (as_jint (member (txt "minimum_m_index") l)) as [lo|];
  destruct (as_jint (member (txt "maximum_m_index") l)) as [hi|];
  cbv beta iota zeta; cbn [pr_guid pr_ratt pr_rdir pr_rmeta pr_m];
  try (change (is_null null_guid) with true; cbv iota; cbn [pr_guid pr_ratt pr_rdir pr_rmeta pr_m]; repeat split; reflexivity);
  (destruct (is_null g); cbn [pr_guid pr_ratt pr_rdir pr_rmeta pr_m]; repeat split; reflexivity).
Qed.
Theorem parameters fresh d :
  (forall g, guid_given d g -> pr_guid (in_force fresh d) = g) /\
  ((forall g, ~ guid_given d g) -> pr_guid (in_force fresh d) = fresh) /\
  (forall n, pr_rmeta (in_force fresh d) = Some n <-> number_given d "reserved_size_metadata_segment" 0 (2 ^ 32) n) /\
  (forall n, pr_rdir (in_force fresh d) = Some n <-> number_given d "reserved_size_subblock_directory" 0 (2 ^ 32) n) /\
  (forall n, pr_ratt (in_force fresh d) = Some n <-> number_given d "reserved_size_attachments_directory" 0 (2 ^ 32) n).
Proof.
  destruct (in_force_fields fresh d) as (Eg & Ea & Ed & Em & _). rewrite Eg, Ea, Ed, Em.
  split; [|split; [|split; [|split]]]; try (intros n; apply uint_found_iff).
  - intros g (s & t & H & U & G & N). assert (F : guid_found d = Some g) by (apply guid_found_iff; exists s, t; auto). rewrite F.
    destruct (is_null g) eqn:I; [|reflexivity]. exfalso. apply N. apply is_null_iff; [|assumption]. now apply (guid_text_bytes t g).
  - intros N. destruct (guid_found d) as [g|] eqn:F; [|reflexivity]. destruct (is_null g) eqn:I; [reflexivity|]. exfalso.
    apply guid_found_iff in F as (s & t & H & U & G). apply (N g). exists s, t. split; [assumption|]. split; [assumption|]. split; [assumption|].
    intros E. apply is_null_iff in E; [congruence|]. now apply (guid_text_bytes t g).
Qed.
Theorem m_range fresh d lo hi : pr_m (in_force fresh d) = Some (lo, hi) <->
  number_given d "minimum_m_index" (- 2 ^ 31) (2 ^ 31) lo /\ number_given d "maximum_m_index" (- 2 ^ 31) (2 ^ 31) hi /\ lo <= hi.
Proof.
  destruct (in_force_fields fresh d) as (_ & _ & _ & _ & ->). rewrite <- !int_found_iff.
  destruct (int_found d "minimum_m_index") as [a|]; [|split; [discriminate|intros (X & _); discriminate X]].
  destruct (int_found d "maximum_m_index") as [b|]; [|split; [discriminate|intros (_ & X & _); discriminate X]].
  unfold set_m. destruct (b <? a) eqn:E; split; intros H; try discriminate H.
  - destruct H as (A & B & L). assert (a = lo) by congruence. assert (b = hi) by congruence. lia.
  - assert (a = lo) by congruence. assert (b = hi) by congruence. subst. split; [reflexivity|]. split; [reflexivity|lia].
  - destruct H as (A & B & L). congruence.
Qed.
Lemma in_force_creation fresh d : length fresh = 16%nat -> creation_ok (winfo_of (in_force fresh d)).
Proof.
  intros L. destruct (in_force_fields fresh d) as (Eg & Ea & Ed & Em & _). unfold creation_ok, winfo_of. cbn [wi_guid wi_rmeta wi_rdir wi_ratt].
  rewrite Eg, Ea, Ed, Em. assert (R : forall k, reservation_ok (uint_found d k)).
  { intros k. unfold reservation_ok. destruct (uint_found d k) as [n|] eqn:E; [|exact I]. apply uint_found_iff in E as (_ & E). exact E. }
  split; [|auto]. destruct (guid_found d) as [g|] eqn:F; [|assumption]. destruct (is_null g); [assumption|].
  apply guid_found_iff in F as (s & t & _ & _ & G). now apply (guid_text_bytes t g).
Qed.
Theorem created_guid m0 strict po fresh d g ops ws rs r :
  session (winfo_of (in_force fresh d)) ops = (ws, rs, r) -> length fresh = 16%nat -> guid_given d g \/ (g = fresh /\ forall g', ~ guid_given d g') ->
  Forall (request_ok INT_MAX) ops -> file_size ws < 2 ^ 63 -> Z.of_nat (length ops) <= INT_MAX -> strict = false \/ added ops rs <> [] ->
  r = Ok tt /\ exists o, open_file strict po (file_of m0 ws) = Ok o /\ op_guid o = g.
Proof.
  intros E L G Q F N S'. destruct (session_roundtrip m0 strict po _ ops ws rs r E (in_force_creation fresh d L) Q F N S') as (R & o & O & OG & _).
  split; [assumption|]. exists o. split; [assumption|]. rewrite OG. cbn [winfo_of wi_guid]. destruct (parameters fresh d) as (P1 & P2 & _).
  destruct G as [G|(-> & G)]; [now apply P1|now apply P2].
Qed.
(** whatever range of M is in force: without bounds of the dimensions nothing is checked (CziWriter.cpp l.1318-1322) *)
Theorem m_unchecked fresh d c m : check_coordinate None (pr_m (in_force fresh d)) c m = Ok CkOk. Proof. reflexivity. Qed.
Lemma bool_found d k b : has d k (JBool b) <-> match d with None => None | Some l => as_jbool (member (txt k) l) end = Some b.
Proof.
  destruct d as [l|]; [|split; [intros (? & ? & ? & X & _); discriminate X|discriminate]]. rewrite has_member.
  destruct (member (txt k) l) as [[b'| | |]|]; cbn [as_jbool]; split; congruence.
Qed.
Theorem duplicates_iff d : duplicates_allowed d = true <-> has d "allow_duplicate_subblocks" (JBool true).
Proof.
  rewrite bool_found. unfold duplicates_allowed, parse_writer_options. destruct d as [l|]; [|split; discriminate].
  destruct (as_jbool _) as [[]|]; split; congruence.
Qed.
Theorem mask_aware_iff d : mask_aware d = true <-> has d "mask_aware" (JBool true).
Proof.
  rewrite bool_found. unfold mask_aware. destruct d as [l|]; [|split; discriminate]. destruct (as_jbool _) as [[]|]; split; congruence.
Qed.

(** ** property bags *)
Lemma find_prop_in t : NoDup (map (fun e => fst (fst e)) t) -> forall k i ty, find_prop k t = Some (i, ty) <-> In (k, i, ty) t.
Proof.
  induction t as [|((n, j), ty') t IH]; intros N k i ty; cbn [find_prop In]; [split; [discriminate|intros []]|].
  cbn [map fst snd] in N. apply NoDup_cons_iff in N as (N1 & N2). destruct (str_eqb k n) eqn:E.
  - apply str_eqb_eq in E as ->. split.
    + intros H. left. congruence.
    + intros [H|H]; [congruence|]. exfalso. apply N1. apply (in_map (fun e => fst (fst e))) in H. exact H.
  - rewrite IH by assumption. split; [now right|]. intros [H|H]; [|assumption]. assert (n = k) as -> by congruence. rewrite str_eqb_refl in E. discriminate E.
Qed.
Lemma typed_fits ty v x : typed_value ty v = Some x <-> fits ty v x.
Proof.
  destruct ty, v as [b|z|s|]; cbn [typed_value as_jstr as_jbool as_jint option_map fits]; try (split; [discriminate|now intros []]).
  - destruct x; try (split; [discriminate|now intros []]). rewrite <- c_text_iff. split; congruence.
  - destruct x; try (split; [discriminate|now intros []]). split; congruence.
  - destruct ((- 2 ^ 31 <=? z) && (z <? 2 ^ 31)) eqn:E; cbn [option_map]; destruct x; try (split; [discriminate|now intros []]);
      split; intros H; try discriminate H.
    + assert (z = z0) by congruence. split; [assumption|lia].
    + destruct H as (-> & _). reflexivity.
    + destruct H as (-> & H). lia.
Qed.
Definition prop_of (t : ptable) (e : str * json) : option (Z * pvalue) :=
  match find_prop (c_text (fst e)) t with None => None | Some (i, ty) => option_map (fun x => (i, x)) (typed_value ty (snd e)) end.
Lemma prop_of_iff t e i x : NoDup (map (fun e => fst (fst e)) t) -> (prop_of t e = Some (i, x) <-> exists ty, listed t (fst e) i ty /\ fits ty (snd e) x).
Proof.
  intros N. unfold prop_of. split.
  - destruct (find_prop (c_text (fst e)) t) as [(j, ty)|] eqn:F; [|discriminate]. destruct (typed_value ty (snd e)) as [y|] eqn:T; [|discriminate]. cbn [option_map].
    intros H. assert (j = i) as -> by congruence. assert (y = x) as -> by congruence. exists ty. split; [|now apply typed_fits].
    exists (c_text (fst e)). split; [now apply c_text_iff|]. now apply find_prop_in.
  - intros (ty & (n & U & L) & F). apply c_text_iff in U. rewrite U, (proj2 (find_prop_in t N n i ty) L). apply typed_fits in F. rewrite F. reflexivity.
Qed.
Lemma parse_bag_fold t l : forall b, parse_bag t l b =
  match all_some (map (prop_of t) l) with Some ps => Some (fold_left (fun b e => bag_insert (fst e) (snd e) b) ps b) | None => None end.
Proof.
  induction l as [|(k, v) l IH]; intros b; [reflexivity|]. cbn [parse_bag map all_some]. unfold prop_of at 1. cbn [fst snd].
  destruct (find_prop (c_text k) t) as [(i, ty)|]; [|reflexivity]. destruct (typed_value ty v) as [x|]; cbn [option_map]; [|reflexivity].
  rewrite IH. destruct (all_some (map (prop_of t) l)); reflexivity.
Qed.
Lemma all_some_iff {A} (l : list (option A)) r : all_some l = Some r <-> l = map Some r.
Proof.
  revert r. induction l as [|[a|] l IH]; intros r; cbn [all_some].
  - split; [intros H; assert (r = []) as -> by congruence; reflexivity|]. destruct r; [reflexivity|discriminate].
  - destruct (all_some l) as [r'|] eqn:E.
    + split; [intros H; assert (r = a :: r') as -> by congruence; cbn [map]; f_equal; now apply IH|].
      destruct r as [|b r]; [discriminate|]. cbn [map]. intros H. assert (l = map Some r) by congruence. assert (Some r' = Some r) by now apply IH. congruence.
    + split; [discriminate|]. destruct r as [|b r]; [discriminate|]. cbn [map]. intros H. assert (l = map Some r) as X by congruence. apply IH in X. discriminate X.
  - split; [discriminate|]. destruct r; discriminate.
Qed.
Lemma bag_fold ps : forall b, NoDup (map fst b) ->
  let b' := fold_left (fun b e => bag_insert (fst e) (snd e) b) ps b in
  NoDup (map fst b') /\ forall i x, In (i, x) b' <-> In (i, x) b \/ (~ In i (map fst b) /\ exists pre post, ps = pre ++ (i, x) :: post /\ ~ In i (map fst pre)).
Proof.
  induction ps as [|(j, y) ps IH]; intros b N; cbn [fold_left].
  - split; [assumption|]. intros i x. split; [now left|]. intros [H|(_ & pre & post & E & _)]; [assumption|]. now destruct pre.
  - cbn [fst snd]. assert (E : existsb (fun e => fst e =? j) b = true <-> In j (map fst b)).
    { rewrite existsb_exists, in_map_iff. split; intros (e & A & B); exists e; split; auto; lia. }
    unfold bag_insert at 2. unfold bag_insert at 3. destruct (existsb (fun e => fst e =? j) b) eqn:X.
    + assert (J : In j (map fst b)) by now apply E. destruct (IH b N) as (I1 & I2). split; [exact I1|]. intros i x. rewrite I2. apply or_iff_compat_l.
      split; intros (A & pre & post & P & Q); split; auto.
      * exists ((j, y) :: pre), post. split; [cbn; congruence|]. intros [Z1|Z1]; [cbn in Z1; congruence|now apply Q].
      * destruct pre as [|p pre]; cbn [app] in P; [exfalso; apply A; congruence|]. exists pre, post. split; [congruence|]. intros Z1. apply Q. now right.
    + assert (J : ~ In j (map fst b)) by (intros J; apply E in J; discriminate J).
      assert (N' : NoDup (map fst (b ++ [(j, y)]))).
      { rewrite map_app. cbn [map fst]. apply NoDup_Add with (l := map fst b) (a := j); [|split; assumption]. rewrite <- (app_nil_r (map fst b)) at 1. apply Add_app. }
      destruct (IH _ N') as (I1 & I2). split; [exact I1|]. intros i x. rewrite I2, map_app, !in_app_iff. cbn [map fst In]. split.
      * intros [[H|[H|[]]]|(A & pre & post & P & Q)]; [now left| |].
        -- right. assert (j = i) as -> by congruence. assert (y = x) as -> by congruence. split; [assumption|]. exists [], ps. split; [reflexivity|intros []].
        -- right. split; [tauto|]. exists ((j, y) :: pre), post. split; [cbn; congruence|]. intros [Z1|Z1]; [cbn in Z1; tauto|now apply Q].
      * intros [H|(A & pre & post & P & Q)]; [tauto|]. destruct pre as [|p pre]; cbn [app] in P.
        -- left. right. left. congruence.
        -- right. assert (p = (j, y)) as -> by congruence. split; [intros [H|[H|[]]]; [now apply A|]; apply Q; left; exact H|].
           exists pre, post. split; [congruence|]. intros Z1. apply Q. now right.
Qed.
Theorem bag_accepted t d : table_ok t ->
  ((exists b, property_bag t d = Some b) <-> exists l, d = Some l /\ forall k v, In (k, v) l -> exists i ty x, listed t k i ty /\ fits ty v x).
Proof.
  intros (N & _). unfold property_bag. destruct d as [l|]; [|split; [intros (b & X); discriminate X|intros (l & X & _); discriminate X]].
  rewrite parse_bag_fold. split.
  - intros (b & H). exists l. split; [reflexivity|]. destruct (all_some (map (prop_of t) l)) as [ps|] eqn:E; [|discriminate H].
    apply all_some_iff in E. intros k v I. apply (in_map (prop_of t)) in I. rewrite E in I. apply in_map_iff in I as ((i & x) & P & _).
    symmetry in P. apply (prop_of_iff t (k, v) i x N) in P as (ty & P). exists i, ty, x. exact P.
  - intros (l' & E & H). assert (l' = l) as -> by congruence. clear E.
    assert (E : exists ps, all_some (map (prop_of t) l) = Some ps).
    { induction l as [|(k, v) l IH]; [exists []; reflexivity|]. destruct (IH (fun k v I => H k v (or_intror I))) as (ps & P).
      destruct (H k v (or_introl eq_refl)) as (i & ty & x & F). cbn [map all_some].
      rewrite (proj2 (prop_of_iff t (k, v) i x N)) by (exists ty; exact F). rewrite P. eexists. reflexivity. }
    destruct E as (ps & ->). eexists. reflexivity.
Qed.
Theorem bag_content t l b : table_ok t -> property_bag t (Some l) = Some b ->
  NoDup (map fst b) /\
  forall i x, In (i, x) b <-> exists pre k v post ty, l = pre ++ (k, v) :: post /\ listed t k i ty /\ fits ty v x /\ forall k' v' ty', In (k', v') pre -> ~ listed t k' i ty'.
Proof.
  intros (N & _) H. unfold property_bag in H. rewrite parse_bag_fold in H. destruct (all_some (map (prop_of t) l)) as [ps|] eqn:E; [|discriminate H].
  apply all_some_iff in E. assert (Hb : b = fold_left (fun b e => bag_insert (fst e) (snd e) b) ps []) by congruence. clear H. subst b.
  destruct (bag_fold ps [] (NoDup_nil _)) as (B1 & B2). split; [exact B1|]. intros i x. rewrite B2. split.
  - intros [[]|(_ & pre & post & P & Q)]. rewrite P, map_app in E. cbn [map] in E. apply map_eq_app in E as (l1 & l2 & -> & E1 & E2).
    destruct l2 as [|(k, v) l2]; [discriminate E2|]. cbn [map] in E2. assert (P' : prop_of t (k, v) = Some (i, x)) by congruence.
    apply (prop_of_iff t (k, v) i x N) in P' as (ty & L & F). exists l1, k, v, l2, ty. split; [reflexivity|]. split; [exact L|]. split; [exact F|].
    intros k' v' ty' I L'. apply (in_map (prop_of t)) in I. rewrite E1 in I. apply in_map_iff in I as ((i' & x') & P' & I). symmetry in P'.
    apply (prop_of_iff t (k', v') i' x' N) in P' as (ty'' & (n & U & In1) & _). cbn [fst snd] in *.
    destruct L' as (n' & U' & In2). assert (n' = n) as -> by eauto using until_nul_unique.
    apply (find_prop_in t N) in In1, In2. assert (i' = i) as -> by congruence. apply Q. apply (in_map fst) in I. exact I.
  - intros (pre & k & v & post & ty & -> & L & F & Q). right. split; [intros []|]. rewrite map_app in E. cbn [map] in E.
    symmetry in E. apply map_eq_app in E as (p1 & p2 & -> & E1 & E2). destruct p2 as [|e p2]; [discriminate E2|]. cbn [map] in E2.
    assert (P : prop_of t (k, v) = Some (i, x)) by (apply prop_of_iff; [assumption|]; exists ty; auto). assert (e = (i, x)) as -> by congruence.
    exists p1, p2. split; [reflexivity|]. intros I. apply in_map_iff in I as ((i' & x') & J & I). cbn [fst] in J. subst i'.
    apply (in_map Some) in I. rewrite E1 in I. apply in_map_iff in I as ((k' & v') & P' & I). apply (prop_of_iff t (k', v') i x' N) in P' as (ty' & L' & _).
    exact (Q k' v' ty' I L').
Qed.
