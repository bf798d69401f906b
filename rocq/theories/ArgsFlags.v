(** Arguments of the command-line tool: lists of levels. *)
From Coq Require Import String.
From Verif Require Import Base TextModel TextProofs XmlModel XmlProofs OptsModel OptsSpec OptsProofs ArgsModel ArgsSpec ArgsProofs ArgsRect ArgsFormat.
From Verif Require DateProofs.
Open Scope Z_scope.
Local Notation len := List.length.

Fixpoint fold_flags (table : list (str * Z)) (acc : Z) (l : list str) : option Z :=
  match l with
  | [] => Some acc
  | i :: r => match flag_of table i with None => None | Some f => fold_flags table (Z.lor acc f) r end
  end.
Lemma no_comma i : Forall (fun c => c <> 44 /\ c <> 59) i -> all (fun c => negb (is_comma c)) i.
Proof. apply Forall_impl. unfold is_comma. lia. Qed.
Lemma flag_of_empty table : flag_of table [] = Some 0.
Proof. reflexivity. Qed.
Lemma loop_fold table s l : items s l -> forall fuel acc, no_hole l -> (len s <= fuel)%nat -> flags_loop fuel table acc s = fold_flags table acc l.
Proof.
  induction 1 as [i F|i d s l F D H IH]; intros fuel acc N L.
  - destruct fuel as [|fuel]; cbn [flags_loop fold_flags].
    + destruct i; [|cbn [len] in L; lia]. rewrite flag_of_empty. cbn [fold_flags]. now rewrite Z.lor_0_r.
    + pose proof (span_app _ i [] (no_comma _ F) I) as S. rewrite app_nil_r in S. rewrite S. destruct i as [|c i]; [rewrite flag_of_empty; cbn [fold_flags]; now rewrite Z.lor_0_r|]. reflexivity.
  - rewrite !app_length in L. cbn [len] in L. destruct fuel as [|fuel]; [lia|]. cbn [flags_loop fold_flags]. cbn [app].
    rewrite (span_app _ i (d :: s) (no_comma _ F)) by (cbn [stops]; unfold is_comma; lia).
    assert (NE : i <> []) by (apply (N [] i l eq_refl); inversion H; discriminate). destruct i as [|c i]; [congruence|]. destruct (flag_of table (c :: i)) as [f|]; [|reflexivity].
    apply IH; [|cbn [len] in L; lia]. intros b j a E. apply (N ((c :: i) :: b) j a). now rewrite E.
Qed.
(** ** tables *)
Definition agree (table : list (str * Z)) (words : list (str * list Z)) : Prop :=
  Forall2 (fun e w => same_word (fst e) (fst w) /\ 0 <= snd e /\ forall n, 0 <= n -> (Z.testbit (snd e) n = true <-> In n (snd w))) table words.
Definition plain_word (w : str) : Prop := w <> [] /\ Forall (fun c => 48 <= c <= 122) w.
Definition distinct (words : list (str * list Z)) : Prop :=
  Forall (fun w => plain_word (fst w)) words /\ forall a b, In a words -> In b words -> same_word (fst a) (fst b) -> a = b.
Lemma same_trans a b c : same_word a b -> same_word b c -> same_word a c.
Proof. intros A B. apply icase_spec in A, B. apply icase_spec. unfold icase in *. apply str_eqb_eq in A, B. apply str_eqb_eq. congruence. Qed.
Lemma plain_same w name : same_word w name -> plain_word name -> w <> [] /\ stops is_blank w /\ DateProofs.ends_ok w.
Proof.
  intros S [N F]. assert (G : Forall (fun c => is_blank c = false) w).
  { clear N. unfold same_word in S. induction S as [|c y w n C S IH]; [constructor|]. inversion F; subst. constructor; [unfold same_letter, is_blank in *; lia|apply IH; assumption]. }
  assert (W : w <> []) by (intros ->; inversion S; subst; congruence). split; [exact W|]. split; [destruct w; [exact I|]; inversion G; assumption|].
  destruct (exists_last W) as (p & c & ->). exists p, c. split; [reflexivity|]. apply Forall_app in G as [_ G]. inversion G; assumption.
Qed.
Lemma tabs_trim i : tabs i -> trim i = [].
Proof.
  intros T. unfold trim. pose proof (span_app is_blank i [] ltac:(revert T; apply Forall_impl; unfold is_blank; lia) I) as S. rewrite app_nil_r in S. rewrite S. reflexivity.
Qed.
Lemma trim_tabs i : trim i = [] -> tabs i.
Proof. intros E. destruct (DateProofs.trim_split i) as (a & b & A & B & S). rewrite E in S. cbn [app] in S. rewrite S. apply Forall_app. split; [exact A|exact B]. Qed.
Section Table.
  Variable table : list (str * Z).
  Variable words : list (str * list Z).
  Hypothesis AG : agree table words.
  Hypothesis DI : distinct words.
  Lemma names_iff i levels : names words i levels <-> exists name, In (name, levels) words /\ same_word (trim i) name.
  Proof using DI.
    split.
    - intros (a & w & b & name & A & B & -> & IN & S). pose proof (proj1 (Forall_forall _ _) (proj1 DI) _ IN) as P. destruct (plain_same w name S P) as (N & ST & EN).
      rewrite (DateProofs.trim_of a w b A B N ST EN). eauto.
    - intros (name & IN & S). destruct (DateProofs.trim_split i) as (a & b & A & B & E). exists a, (trim i), b, name. auto 10.
  Qed.
  Lemma find_sound w e : find (fun e => icase (fst e) w) table = Some e ->
    exists word, In word words /\ same_word w (fst word) /\ 0 <= snd e /\ forall n, 0 <= n -> (Z.testbit (snd e) n = true <-> In n (snd word)).
  Proof using AG.
    clear DI. induction AG as [|e' w' t ws (S & P & B) F IH]; cbn [find]; [discriminate|]. destruct (icase (fst e') w) eqn:E.
    - intros H. injection H as <-. apply icase_spec, same_sym in E. exists w'. split; [now left|]. split; [eapply same_trans; eassumption|]. auto.
    - intros H. destruct (IH F H) as (x & X & R). exists x. split; [now right|exact R].
  Qed.
  Lemma find_none w : find (fun e => icase (fst e) w) table = None -> forall word, In word words -> ~ same_word w (fst word).
  Proof using AG.
    clear DI. induction AG as [|e' w' t ws (S & P & B) F IH]; cbn [find]; intros H word IN; [destruct IN|]. destruct (icase (fst e') w) eqn:E; [discriminate|]. destruct IN as [<-|IN].
    - intros X. apply not_true_iff_false in E. apply E. apply icase_spec. eapply same_trans; [exact S|]. now apply same_sym.
    - exact (IH F H word IN).
  Qed.
  Lemma flag_of_none i : flag_of table i = None -> ~ known words i.
  Proof using AG DI.
    unfold flag_of. destruct (trim i) as [|c r] eqn:T; [discriminate|]. destruct (find (fun e => icase (fst e) (c :: r)) table) as [e|] eqn:F; [discriminate|]. intros _ [K|(levels & K)].
    - apply tabs_trim in K. congruence.
    - apply names_iff in K as (name & IN & S). rewrite T in S. exact (find_none _ F _ IN S).
  Qed.
  Lemma flag_of_some i f : flag_of table i = Some f ->
    known words i /\ 0 <= f /\ forall n, 0 <= n -> (Z.testbit f n = true <-> exists levels, names words i levels /\ In n levels).
  Proof using AG DI.
    unfold flag_of. destruct (trim i) as [|c r] eqn:T.
    - intros H. injection H as <-. split; [left; now apply trim_tabs|]. split; [lia|]. intros n Hn. rewrite Z.testbit_0_l. split; [discriminate|]. intros (levels & K & _).
      apply names_iff in K as (name & IN & S). rewrite T in S. pose proof (proj1 (Forall_forall _ _) (proj1 DI) _ IN) as [N _]. inversion S; subst. cbn [fst] in N. congruence.
    - destruct (find (fun e => icase (fst e) (c :: r)) table) as [e|] eqn:F; [|discriminate]. intros H. injection H as <-. apply find_sound in F as ((name & levels) & IN & S & P & B). cbn [fst snd] in *.
      assert (K : names words i levels) by (apply names_iff; exists name; rewrite T; auto). split; [right; eauto|]. split; [exact P|]. intros n Hn. rewrite (B n Hn). split; [eauto|].
      intros (levels' & K' & I'). apply names_iff in K' as (name' & IN' & S'). rewrite T in S'.
      assert (X : (name, levels) = (name', levels')) by (apply (proj2 DI); [exact IN|exact IN'|]; cbn [fst]; eapply same_trans; [apply same_sym; exact S|exact S']). injection X as _ ->. exact I'.
  Qed.
  Lemma fold_none l : forall acc, fold_flags table acc l = None <-> ~ Forall (known words) l.
  Proof using AG DI.
    induction l as [|i l IH]; intros acc; cbn [fold_flags]; [split; [discriminate|]; intros H; exfalso; apply H; constructor|]. destruct (flag_of table i) as [f|] eqn:F.
    - apply flag_of_some in F as (K & _). rewrite IH. split; intros H X; apply H; [now inversion X|now constructor].
    - apply flag_of_none in F. split; [intros _ X; inversion X; contradiction|reflexivity].
  Qed.
  Lemma fold_some l : forall acc f, 0 <= acc -> fold_flags table acc l = Some f ->
    0 <= f /\ forall n, 0 <= n -> (Z.testbit f n = true <-> Z.testbit acc n = true \/ exists i levels, In i l /\ names words i levels /\ In n levels).
  Proof using AG DI.
    induction l as [|i l IH]; intros acc f A; cbn [fold_flags].
    - intros E. injection E as <-. split; [exact A|]. intros n _. split; [auto|]. intros [H|(i & levels & [] & _)]. exact H.
    - destruct (flag_of table i) as [g|] eqn:F; [|discriminate]. apply flag_of_some in F as (_ & G & B). intros E. destruct (IH _ _ (proj2 (Z.lor_nonneg acc g) (conj A G)) E) as [P IB]. split; [exact P|].
      intros n Hn. rewrite (IB n Hn), Z.lor_spec, orb_true_iff, (B n Hn). split.
      + intros [[H|(lv & K & IN)]|(j & lv & J & K & IN)]; [auto|right; exists i, lv; cbn [In]; auto|right; exists j, lv; cbn [In]; auto].
      + intros [H|(j & lv & [<-|J] & K & IN)]; [auto|left; right; eauto|right; eauto].
  Qed.
  Theorem flags_ok s l : items s l -> no_hole l ->
    (parse_flags table s = None <-> ~ Forall (known words) l) /\
    forall f, parse_flags table s = Some f -> 0 <= f /\ forall n, 0 <= n -> (Z.testbit f n = true <-> exists i levels, In i l /\ names words i levels /\ In n levels).
  Proof using AG DI.
    intros H N. unfold parse_flags. rewrite (loop_fold table s l H _ _ N (le_n _)). split; [apply fold_none|]. intros f E. destruct (fold_some l 0 f ltac:(lia) E) as [P B]. split; [exact P|].
    intros n Hn. rewrite (B n Hn), Z.testbit_0_l. split; [intros [X|X]; [discriminate|exact X]|auto].
  Qed.
End Table.

(** ** the two tables *)
Definition plain_b (w : str) : bool := negb (str_eqb w []) && forallb (fun c => (48 <=? c) && (c <=? 122)) w.
Definition distinct_b (words : list (str * list Z)) : bool :=
  forallb (fun w => plain_b (fst w)) words &&
  forallb (fun i => forallb (fun j => Nat.eqb i j || negb (icase (fst (nth i words ([], []))) (fst (nth j words ([], []))))) (seq 0 (len words))) (seq 0 (len words)).
Lemma distinct_spec words : distinct_b words = true -> distinct words.
Proof.
  unfold distinct_b. intros H. apply andb_true_iff in H as [A B]. rewrite forallb_forall in A, B. split.
  - apply Forall_forall. intros w I. apply A in I. unfold plain_b in I. apply andb_true_iff in I as [I1 I2]. split; [intros E; rewrite E in I1; discriminate|].
    apply Forall_forall. intros c C. rewrite forallb_forall in I2. apply I2 in C. lia.
  - intros a b IA IB S. apply (@In_nth (str * list Z) words _ ([], [])) in IA as (i & LI & EI), IB as (j & LJ & EJ). 
    assert (Y : In i (seq 0 (len words))) by (apply in_seq; split; [apply Nat.le_0_l|exact LI]). assert (X : In j (seq 0 (len words))) by (apply in_seq; split; [apply Nat.le_0_l|exact LJ]).
    specialize (B i Y). rewrite forallb_forall in B. specialize (B j X). cbv beta in B. rewrite EI, EJ in B. apply icase_spec in S. rewrite S in B. cbn [negb] in B. rewrite orb_false_r in B.
    apply Nat.eqb_eq in B. subst j. congruence.
Qed.
Fixpoint bits (l : list Z) : Z := match l with [] => 0 | n :: r => Z.lor (2 ^ n) (bits r) end.
Lemma bits_spec l : Forall (fun n => 0 <= n) l -> 0 <= bits l /\ forall n, 0 <= n -> (Z.testbit (bits l) n = true <-> In n l).
Proof.
  induction 1 as [|m l M F (P & IH)]; cbn [bits In]; [split; [lia|]; intros n _; rewrite Z.testbit_0_l; split; [discriminate|intros []]|].
  split; [apply Z.lor_nonneg; split; [apply Z.pow_nonneg; lia|exact P]|]. intros n Hn. rewrite Z.lor_spec, orb_true_iff, (IH n Hn), Z.pow2_bits_eqb, Z.eqb_eq by lia. reflexivity.
Qed.
Definition agree_b (table : list (str * Z)) (words : list (str * list Z)) : bool :=
  Nat.eqb (len table) (len words) &&
  forallb (fun p => icase (fst (fst p)) (fst (snd p)) && (snd (fst p) =? bits (snd (snd p))) && forallb (fun n => 0 <=? n) (snd (snd p))) (combine table words).
Lemma agree_spec table : forall words, agree_b table words = true -> agree table words.
Proof.
  induction table as [|e t IH]; intros [|w ws] H; unfold agree_b in H; cbn [len Nat.eqb andb] in H; try discriminate; [constructor|].
  apply andb_true_iff in H as [L H]. cbn [combine forallb fst snd] in H. apply andb_true_iff in H as [H R]. apply andb_true_iff in H as [H N]. apply andb_true_iff in H as [S B]. constructor.
  - split; [now apply icase_spec|]. apply Z.eqb_eq in B. rewrite B. apply bits_spec. apply Forall_forall. intros n I. rewrite forallb_forall in N. apply N in I. lia.
  - apply IH. unfold agree_b. now rewrite L, R.
Qed.
Theorem verbosity_ok s l : items s l -> no_hole l ->
  (parse_flags verbosities s = None <-> ~ Forall (known verbosity_words) l) /\
  forall f, parse_flags verbosities s = Some f -> 0 <= f /\ forall n, 0 <= n -> (Z.testbit f n = true <-> exists i levels, In i l /\ names verbosity_words i levels /\ In n levels).
Proof. apply flags_ok; [apply agree_spec; vm_compute; reflexivity|apply distinct_spec; vm_compute; reflexivity]. Qed.
Theorem info_ok s l : items s l -> no_hole l ->
  (parse_flags info_levels s = None <-> ~ Forall (known info_words) l) /\
  forall f, parse_flags info_levels s = Some f -> 0 <= f /\ forall n, 0 <= n -> (Z.testbit f n = true <-> exists i levels, In i l /\ names info_words i levels /\ In n levels).
Proof. apply flags_ok; [apply agree_spec; vm_compute; reflexivity|apply distinct_spec; vm_compute; reflexivity]. Qed.
