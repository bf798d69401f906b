(** Files: the claims, cases, and where they fail. *)
From Verif Require Import Base FileModel FileSpec FileProofs FileLife.
Open Scope Z_scope.

Lemma content_some w n d : content w n = Some d -> exists i f, w_names w n = Some i /\ nth_error (w_files w) i = Some f /\ f_data f = d.
Proof. unfold content. destruct (w_names w n) as [i|]; [|discriminate]. destruct (nth_error (w_files w) i) as [f|] eqn:E; [|discriminate]. cbn. intros H. injection H as <-. eauto. Qed.
Lemma content_none w n : sound w -> content w n = None -> w_names w n = None.
Proof. intros [S _]. unfold content. destruct (w_names w n) as [i|] eqn:N; [|reflexivity]. apply S in N. apply nth_error_Some in N. destruct (nth_error (w_files w) i); [discriminate|congruence]. Qed.

(** ** not to overwrite *)
Theorem refused a w n d between allow : content w n = Some d -> (a = CRuntime -> readable w n) -> step w (MakeOut a n false between allow) = Ok (w, RThrow).
Proof.
  intros C R. destruct (content_some _ _ _ C) as (i & f & N & F & _). cbn [step]. f_equal. unfold make_out. destruct a.
  - unfold make, sys_open. rewrite N, F. now destruct allow.
  - destruct (R eq_refl) as (i' & f' & N' & F' & P). unfold can_read, sys_open. rewrite N', F'. cbn [in_flags o_r o_w o_creat o_excl o_trunc andb orb negb]. now rewrite P.
  - unfold make, sys_open. rewrite N, F. now destruct allow.
Qed.
Definition three : bytes := [1; 2; 3].
Definition std : list (option desc) := [Some (mkDesc 0 true false); Some (mkDesc 0 false true); Some (mkDesc 0 false true)].
(** a terminal, and the file with the name 7 *)
Definition tty : file := mkFile [] true true.
Definition with_file (r w : bool) : world := mkWorld (fun n => if (n =? 7)%nat then Some 1%nat else None) [tty; mkFile three r w] std [].
Definition no_file : world := mkWorld (fun _ => None) [tty] std [].
Lemma overwritten :
  (content (with_file false true) 7 = Some three /\ exists w, step (with_file false true) (MakeOut CRuntime 7 false [] true) = Ok (w, RStream 0) /\ content w 7 = Some []) /\
  (content (others no_file [OPut 7 (mkFile three true true)]) 7 = Some three /\
   exists w, step no_file (MakeOut CRuntime 7 false [OPut 7 (mkFile three true true)] true) = Ok (w, RStream 0) /\ content w 7 = Some []).
Proof. split; (split; [reflexivity|eexists; split; reflexivity]). Qed.
Lemma ex_refused : content (with_file true true) 7 = Some three /\ readable (with_file true true) 7 /\ step (with_file true true) (MakeOut Posix 7 false [] true) = Ok (with_file true true, RThrow).
Proof. split; [reflexivity|]. split; [exists 1%nat, (mkFile three true true); auto|reflexivity]. Qed.

(** ** to write *)
Theorem made a w n ow : sound w -> content w n = None \/ (ow = true /\ writable w n) -> exists w1 s, step w (MakeOut a n ow [] true) = Ok (w1, RStream s).
Proof.
  intros S C. cbn [step]. assert (G : forall fl, o_creat fl = true -> o_r fl = false -> (ow = true -> o_excl fl = false) -> exists w1 s, make w a n fl true = (w1, RStream s)).
  { intros fl H1 H2 H3. unfold make, sys_open. destruct C as [C|[O (i & f & N & F & P)]].
    - rewrite (content_none _ _ S C), H1. eauto.
    - rewrite N, F, H1, H2, (H3 O), P. cbn [andb orb negb]. rewrite andb_false_r. eauto. }
  assert (E : make_out w a n ow [] true = make w a n (out_flags a ow) true).
  { unfold make_out. destruct a; try reflexivity. destruct ow; [reflexivity|]. destruct C as [C|[O _]]; [|discriminate]. cbn [negb andb]. unfold can_read, sys_open. rewrite (content_none _ _ S C). reflexivity. }
  rewrite E. destruct (G (out_flags a ow)) as (w1 & s & ->); [now destruct a|now destruct a|now destruct a, ow|eauto].
Qed.
Theorem written_out a w n ow w1 s l : sound w -> step w (MakeOut a n ow [] true) = Ok (w1, RStream s) -> Forall (fits a) l -> Forall is_write l ->
  exists w2 rs d, run w1 (map (call s) l ++ [Destroy s Fine]) = Ok (w2, rs ++ [RDone]) /\ content w2 n = Some d /\ accessed [] l rs d /\ forall m, separate w m n -> content w2 m = content w m.
Proof.
  intros S E F W. assert (M : make w a n (out_flags a ow) true = (w1, RStream s)).
  { cbn [step] in E. injection E as E. unfold make_out in E. destruct a; try exact E. destruct (negb ow && can_read w n); [discriminate|exact E]. }
  destruct (used w w1 a n (out_flags a ow) s l S M F) as (old & O & U).
  { apply Forall_forall. intros c I. rewrite Forall_forall in W. specialize (W c I). destruct c; [|destruct W]. now destruct a. }
  assert (old = []) as -> by (destruct (content w n); destruct a, ow; exact O). apply U. apply Forall_forall. intros c I. rewrite Forall_forall in W. specialize (W c I). destruct c; [|destruct W]. now destruct a.
Qed.
Lemma ex_written : exists w1 w2, step (with_file true true) (MakeOut CRuntime 7 true [] true) = Ok (w1, RStream 0) /\
  run w1 [Write 0 2 [9; 8] Fine; Write 0 0 [5] Fine; Destroy 0 Fine] = Ok (w2, [RCount 2; RCount 1; RDone]) /\ content w2 7 = Some [5; 0; 9; 8].
Proof. do 2 eexists. split; [reflexivity|]. split; reflexivity. Qed.

(** ** to change *)
Theorem edited a w n old w1 s l : a <> CRuntime -> sound w -> content w n = Some old -> step w (MakeInOut a n true) = Ok (w1, RStream s) -> Forall (fits a) l -> Forall (reads_inside a (Z.of_nat (length old))) l ->
  exists w2 rs d, run w1 (map (call s) l ++ [Destroy s Fine]) = Ok (w2, rs ++ [RDone]) /\ content w2 n = Some d /\ accessed old l rs d /\ forall m, separate w m n -> content w2 m = content w m.
Proof.
  intros A S C E F R. cbn [step] in E. injection E as E. destruct (used w w1 a n (inout_flags a) s l S E F) as (d0 & O & U).
  { apply Forall_forall. intros c _. destruct a, c; try reflexivity; contradiction. }
  rewrite C in O. assert (d0 = old) as -> by (destruct a; exact O || contradiction). now apply U.
Qed.
Theorem not_edited w n w1 s : step w (MakeInOut CRuntime n true) = Ok (w1, RStream s) ->
  forall off x o, 0 <= off <= 9223372036854775807 -> step w1 (Write s off x o) = Ok (w1, RCount 0) /\ (x <> [] -> write_all w1 s off x o = Ok (w1, false)).
Proof.
  intros E off x o P. cbn [step] in E. injection E as E. unfold make, sys_open in E. destruct (w_names w n) as [i|]; [|discriminate]. destruct (nth_error (w_files w) i) as [f|] eqn:F; [|discriminate].
  cbn [inout_flags o_creat o_excl o_r o_w o_trunc andb orb negb] in E. destruct (negb (f_r f) || false); [discriminate|]. injection E as <- <-.
  assert (G : step (with_streams (with_fds (with_files w (w_files w)) (take (w_fds w) (mkDesc i true false))) (w_streams w ++ [Some (mkStream CRuntime (first_free (w_fds w)) None)]))
                (Write (length (w_streams w)) off x o) = Ok (with_streams (with_fds (with_files w (w_files w)) (take (w_fds w) (mkDesc i true false))) (w_streams w ++ [Some (mkStream CRuntime (first_free (w_fds w)) None)]), RCount 0)).
  { cbn [step]. unfold with_stream. cbn [with_streams with_fds with_files w_streams]. rewrite nth_error_app2, Nat.sub_diag by lia. cbn [nth_error]. unfold write_stream. cbn [s_api s_fd]. unfold flush. cbn [s_wait].
    cbn [negb orb]. replace (OFF_MAX <? off) with false by (unfold OFF_MAX; lia). unfold open_file. cbn [with_streams with_fds with_files w_fds w_files]. rewrite take_same. cbn [d_file]. rewrite F. reflexivity. }
  split; [exact G|]. intros X. unfold write_all. cbn [with_streams with_fds with_files w_streams w_fds w_files w_names] in G |- *. rewrite G. cbn [bind]. destruct x; [contradiction|reflexivity].
Qed.
Lemma ex_edited : exists w1 w2, step (with_file true true) (MakeInOut Posix 7 true) = Ok (w1, RStream 0) /\
  run w1 [Read 0 1 9 Fine; Write 0 2 [9; 8] Fine; Read 0 0 4 Fine; Destroy 0 Fine] = Ok (w2, [RBytes [2; 3]; RCount 2; RBytes [1; 2; 9; 8]; RDone]) /\ content w2 7 = Some [1; 2; 9; 8].
Proof. do 2 eexists. split; [reflexivity|]. split; reflexivity. Qed.
Lemma ex_not_edited : exists w1, step (with_file true true) (MakeInOut CRuntime 7 true) = Ok (w1, RStream 0).
Proof. eexists. reflexivity. Qed.
Theorem missing w n : content w n = None -> sound w ->
  (exists w1 s, step w (MakeInOut Posix n true) = Ok (w1, RStream s) /\ content w1 n = Some []) /\
  (forall a, a <> Posix -> step w (MakeInOut a n true) = Ok (w, RThrow)).
Proof.
  intros C S. apply (content_none _ _ S) in C. split.
  - cbn [step]. unfold make, sys_open. rewrite C. cbn [inout_flags o_creat]. do 2 eexists. split; [reflexivity|]. unfold content. cbn [with_streams w_names w_files]. rewrite Nat.eqb_refl, nth_error_app2, Nat.sub_diag by lia. reflexivity.
  - intros a A. cbn [step]. unfold make, sys_open. rewrite C. destruct a; try reflexivity. contradiction.
Qed.

(** ** to read *)
Theorem read_in a w n w1 s l : sound w -> step w (MakeIn a n true) = Ok (w1, RStream s) -> Forall (fits a) l -> Forall is_read l ->
  exists d, content w n = Some d /\ (Forall (reads_inside a (Z.of_nat (length d))) l ->
    exists w2 rs, run w1 (map (call s) l ++ [Destroy s Fine]) = Ok (w2, rs ++ [RDone]) /\ accessed d l rs d /\ forall m, m = n \/ separate w m n -> content w2 m = content w m).
Proof.
  intros S E F W. cbn [step] in E. injection E as E. destruct (make_on _ _ _ _ _ _ S E) as (fd & i & d1 & fr & fw & _ & _ & _ & _ & X).
  destruct (content w n) as [d|] eqn:C; [|destruct X as [X _]; discriminate]. exists d. split; [reflexivity|]. intros R.
  destruct (used w w1 a n in_flags s l S E F) as (d0 & O & U).
  { apply Forall_forall. intros c I. rewrite Forall_forall in W. specialize (W c I). destruct c; [destruct W|reflexivity]. }
  rewrite C in O. cbn in O. subst d0. destruct (U R) as (w2 & rs & d2 & E2 & C2 & A2 & M2).
  assert (d2 = d) as ->. { clear - A2 W. induction A2; [reflexivity| |]; inversion W; subst; [contradiction|auto]. }
  exists w2, rs. split; [exact E2|]. split; [exact A2|]. intros m [->|Hm]; [congruence|auto].
Qed.
Lemma ex_read : exists w1, step (with_file true false) (MakeIn Posix 7 true) = Ok (w1, RStream 0) /\ step w1 (Read 0 1 2 Fine) = Ok (w1, RBytes [2; 3]).
Proof. eexists. split; reflexivity. Qed.

(** ** more than a call transfers *)
Theorem large_read w n d w1 s : sound w -> content w n = Some d -> 2147479552 < Z.of_nat (length d) -> step w (MakeIn Posix n true) = Ok (w1, RStream s) ->
  exists x, step w1 (Read s 0 (Z.of_nat (length d)) Fine) = Ok (w1, RBytes x) /\ Z.of_nat (length x) = 2147479552.
Proof.
  intros S C B E. cbn [step] in E. injection E as E. destruct (make_on _ _ _ _ _ _ S E) as (fd & i & d0 & fr & fw & O & _ & _ & _ & X). rewrite C in X. destruct X as (_ & _ & ->). cbn [in_flags o_trunc o_r o_w] in O.
  cbn [step]. rewrite (with_live w1 s _ _ (on_live _ _ _ _ _ _ _ _ _ _ _ O)). unfold read_stream. cbn [s_api s_fd]. unfold sys_pread. rewrite (on_open _ _ _ _ _ _ _ _ _ _ _ O). cbn [d_r negb orb f_data].
  replace (OFF_MAX <? 0) with false by (unfold OFF_MAX; lia). unfold linux_limit. replace (Z.min (Z.of_nat (length d)) 2147479552) with 2147479552 by lia.
  set (x := slice d (Z.to_nat 0) (Z.to_nat 2147479552)). assert (L : Z.of_nat (length x) = 2147479552).
  { destruct (slice_available d 0 2147479552 ltac:(lia) ltac:(lia)) as [L _]. fold x in L. rewrite L. lia. }
  clearbody x. cbn [io_count]. rewrite firstn_all. exists x. split; [reflexivity|exact L].
Qed.
Theorem large_write w n ow w1 s x : sound w -> 2147479552 < Z.of_nat (length x) <= 9223372036854775807 -> step w (MakeOut Posix n ow [] true) = Ok (w1, RStream s) ->
  exists w2, write_all w1 s 0 x Fine = Ok (w2, false) /\ stored w1 s 0 (firstn (Z.to_nat 2147479552) x) w2.
Proof.
  intros S B E. cbn [step] in E. injection E as E. destruct (make_on _ _ _ _ _ _ S E) as (fd & i & d0 & fr & fw & O & _). cbn [out_flags o_r o_w] in O.
  assert (G : exists w2, step w1 (Write s 0 x Fine) = Ok (w2, RCount (Z.to_nat 2147479552))).
  { cbn [step]. rewrite (with_live w1 s _ _ (on_live _ _ _ _ _ _ _ _ _ _ _ O)). unfold write_stream. cbn [s_api s_fd]. unfold sys_pwrite. rewrite (on_open _ _ _ _ _ _ _ _ _ _ _ O). cbn [d_w negb orb].
    replace (OFF_MAX <? _) with false by (unfold OFF_MAX; lia). unfold linux_limit. replace (Z.of_nat (length x) <=? 2147479552) with false by lia. cbn [io_count]. eexists. reflexivity. }
  destruct G as [w2 G]. exists w2. destruct (short_write w1 s _ 0 x Fine w2 _ (on_live _ _ _ _ _ _ _ _ _ _ _ O) ltac:(discriminate) ltac:(lia) G) as [[Q _]|(k & Q & K & T)]; [discriminate|].
  assert (Z.to_nat 2147479552 = k) as Ek by congruence. rewrite <- Ek in T. split; [|exact T]. unfold write_all. rewrite G. cbn [bind]. f_equal. f_equal.
  destruct (Nat.eqb_spec (Z.to_nat 2147479552) (length x)) as [Q'|]; [|reflexivity]. exfalso. apply (f_equal Z.of_nat) in Q'. rewrite Z2Nat.id in Q' by lia. lia.
Qed.
(** such a file *)
Definition big : world := mkWorld (fun n => if (n =? 7)%nat then Some 1%nat else None) [tty; mkFile (repeat 0 (Z.to_nat 2147479553)) true true] std [].
Lemma std_sound (w : world) : w_fds w = std -> (0 < length (w_files w))%nat -> (forall n i, w_names w n = Some i -> (i < length (w_files w))%nat) -> sound w.
Proof.
  intros E L N. split; [exact N|]. rewrite E. intros k d H. do 3 (destruct k as [|k]; [injection H as <-; exact L|]). destruct k; discriminate.
Qed.
Lemma ex_big : sound big /\ exists d, content big 7 = Some d /\ Z.of_nat (length d) = 2147479553 /\ exists w1, step big (MakeIn Posix 7 true) = Ok (w1, RStream 0).
Proof.
  split.
  - apply std_sound; [reflexivity|cbn [big w_files length]; lia|]. intros n i. cbn [big w_names w_files length]. destruct (n =? 7)%nat; [intros H; injection H as <-; lia|discriminate].
  - exists (repeat 0 (Z.to_nat 2147479553)). split; [reflexivity|]. split; [rewrite repeat_length, Z2Nat.id by lia; reflexivity|]. eexists. reflexivity.
Qed.

(** ** what a FILE holds back *)
Lemma lost : exists w1 w2 w3, step no_file (MakeOut CRuntime 7 false [] true) = Ok (w1, RStream 0) /\ write_all w1 0 0 three Fine = Ok (w2, true) /\
  step w2 (Destroy 0 Fail) = Ok (w3, RDone) /\ content w3 7 = Some [].
Proof. do 3 eexists. split; [reflexivity|]. split; [reflexivity|]. split; reflexivity. Qed.
Lemma ex_reported : exists w1 w2, step no_file (MakeOut Posix 7 false [] true) = Ok (w1, RStream 0) /\ write_all w1 0 0 three Fine = Ok (w2, true) /\ content w2 7 = Some three /\
  (exists w3, step w1 (Write 0 0 three (Cut 2)) = Ok (w3, RCount 2) /\ content w3 7 = Some [1; 2]) /\ step w1 (Write 0 0 three Fail) = Ok (w1, RThrow).
Proof. do 2 eexists. split; [reflexivity|]. split; [reflexivity|]. split; [reflexivity|]. split; [eexists; split; reflexivity|reflexivity]. Qed.

(** ** descriptors *)
Definition no_input : world := mkWorld (fun n => if (n =? 7)%nat then Some 1%nat else None) [tty; mkFile three true true] [] [].
Lemma leak : sound no_input /\ exists w1 w2, run no_input [MakeIn Posix 7 true; Destroy 0 Fine] = Ok (w1, [RStream 0; RDone]) /\ taken w1 0 /\ ~ taken no_input 0 /\ (forall s x, ~ live w1 s x) /\
  run w1 [MakeIn CRuntime 7 true; Destroy 1 Fine] = Ok (w2, [RStream 1; RDone]) /\ ~ taken w2 1.
Proof.
  split; [split; [intros n i; cbn; destruct (n =? 7)%nat; [intros H; injection H as <-; lia|discriminate]|intros k d H; destruct k; discriminate]|].
  do 2 eexists. split; [reflexivity|]. split; [eexists; reflexivity|]. split; [intros [d H]; discriminate|]. split; [intros s x H; unfold live in H; destruct s as [|[|s]]; discriminate|].
  split; [reflexivity|]. intros [d H]. discriminate.
Qed.
Lemma ex_begins : begins (with_file true true) /\ exists w, run (with_file true true) [MakeIn Posix 7 true; MakeOut CRuntime 8 false [] true; Destroy 0 Fine; MakeIn Windows 7 true] = Ok (w, [RStream 0; RStream 1; RDone; RStream 2]) /\
  taken w 3 /\ taken w 4 /\ ~ taken w 5.
Proof.
  split; [split; [|split; [reflexivity|eexists; reflexivity]]|].
  - apply std_sound; [reflexivity|cbn; lia|]. intros n i. cbn. destruct (n =? 7)%nat; [intros H; injection H as <-; lia|discriminate].
  - eexists. split; [reflexivity|]. split; [eexists; reflexivity|]. split; [eexists; reflexivity|]. intros [d H]. discriminate.
Qed.
