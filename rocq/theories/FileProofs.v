(** Files: what is written is there, what is read was there. *)
From Verif Require Import Base FileModel FileSpec.
Open Scope Z_scope.

(** ** lists *)
Lemma set_at_length {A} (l : list A) k a : length (set_at l k a) = length l.
Proof. revert k. induction l as [|x l IH]; intros [|k]; cbn; auto. Qed.
Lemma set_at_same {A} (l : list A) k a : (k < length l)%nat -> nth_error (set_at l k a) k = Some a.
Proof. revert k. induction l as [|x l IH]; intros [|k] H; cbn in *; try lia; auto. apply IH. lia. Qed.
Lemma set_at_other {A} (l : list A) k j a : j <> k -> nth_error (set_at l k a) j = nth_error l j.
Proof. revert k j. induction l as [|x l IH]; intros [|k] [|j] H; cbn; try congruence; auto. Qed.
Lemma set_at_eq {A} (l : list A) k a : nth_error l k = Some a -> set_at l k a = l.
Proof. revert k. induction l as [|x l IH]; intros [|k] H; cbn in *; try discriminate; [congruence|]. f_equal. now apply IH. Qed.
Lemma set_at_twice {A} (l : list A) k a b : set_at (set_at l k a) k b = set_at l k b.
Proof. revert k. induction l as [|x l IH]; intros [|k]; cbn; auto. f_equal. apply IH. Qed.
Lemma nth_error_some {A} (l : list A) k a : nth_error l k = Some a -> (k < length l)%nat.
Proof. intros H. apply nth_error_Some. congruence. Qed.
Lemma first_free_le {A} (l : list (option A)) : (first_free l <= length l)%nat.
Proof. induction l as [|[a|] l IH]; cbn; lia. Qed.
Lemma first_free_not {A} (l : list (option A)) d : nth_error l (first_free l) <> Some (Some d).
Proof. induction l as [|[a|] l IH]; cbn; try discriminate. exact IH. Qed.
Lemma take_same {A} (l : list (option A)) a : nth_error (take l a) (first_free l) = Some (Some a).
Proof.
  unfold take. pose proof (first_free_le l). destruct (Nat.ltb_spec (first_free l) (length l)); [now apply set_at_same|].
  rewrite nth_error_app2 by lia. replace (first_free l - length l)%nat with 0%nat by lia. reflexivity.
Qed.
Lemma take_other {A} (l : list (option A)) a k : k <> first_free l -> nth_error (take l a) k = nth_error l k.
Proof.
  intros N. unfold take. pose proof (first_free_le l). destruct (Nat.ltb_spec (first_free l) (length l)); [now apply set_at_other|].
  destruct (Nat.lt_ge_cases k (length l)); [now rewrite nth_error_app1|]. rewrite nth_error_app2 by lia.
  replace (nth_error l k) with (@None (option A)) by (symmetry; apply nth_error_None; lia). apply nth_error_None. cbn. lia.
Qed.

(** ** bytes *)
Lemma nth_repeat0 k n : nth k (repeat 0 n) 0 = 0.
Proof. revert k. induction n as [|n IH]; intros [|k]; cbn; auto. Qed.
Lemma nth_firstn0 (l : bytes) n k : (k < n)%nat -> nth k (firstn n l) 0 = nth k l 0.
Proof. revert n k. induction l as [|x l IH]; intros [|n] [|k] H; cbn; try lia; auto. apply IH. lia. Qed.
Lemma nth_skipn0 (l : bytes) n k : nth k (skipn n l) 0 = nth (n + k) l 0.
Proof. revert n. induction l as [|x l IH]; intros [|n]; cbn; auto. now destruct k. Qed.
Lemma put_at_written d off x : 0 <= off -> written d off x (put_at d (Z.to_nat off) x).
Proof.
  intros O. unfold written, put_at. destruct x as [|x0 x']; [cbn [length Nat.eqb]; split; [reflexivity|]; intros k; now replace ((off <=? Z.of_nat k) && (Z.of_nat k <? off + Z.of_nat 0)) with false by lia|].
  set (x := x0 :: x') in *. assert (X : (0 < length x)%nat) by (cbn; lia). replace ((length x =? 0)%nat) with false by lia. clearbody x. clear x0 x'.
  set (n := Z.to_nat off). assert (L1 : length (firstn n (d ++ repeat 0 (n - length d))) = n) by (rewrite firstn_length, app_length, repeat_length; lia).
  split.
  - rewrite !app_length, L1, skipn_length. lia.
  - intros k. destruct (Nat.lt_ge_cases k n) as [C|C].
    + rewrite app_nth1 by lia. rewrite nth_firstn0 by exact C. replace ((off <=? Z.of_nat k) && _) with false by lia.
      destruct (Nat.lt_ge_cases k (length d)); [now rewrite app_nth1|]. rewrite app_nth2, nth_repeat0 by assumption. now rewrite nth_overflow.
    + rewrite app_nth2, L1 by lia. destruct (Nat.lt_ge_cases (k - n) (length x)) as [C2|C2].
      * rewrite app_nth1 by exact C2. now replace ((off <=? Z.of_nat k) && (Z.of_nat k <? off + Z.of_nat (length x))) with true by lia.
      * rewrite app_nth2 by exact C2. rewrite nth_skipn0. replace ((off <=? Z.of_nat k) && (Z.of_nat k <? off + Z.of_nat (length x))) with false by lia. f_equal. lia.
Qed.
Lemma put_at_grows d n x : (length d <= length (put_at d n x))%nat.
Proof. pose proof (put_at_written d (Z.of_nat n) x ltac:(lia)) as [L _]. rewrite Nat2Z.id in L. destruct (length x =? 0)%nat; lia. Qed.
Lemma slice_available d off size : 0 <= off -> 0 <= size -> available d off size (slice d (Z.to_nat off) (Z.to_nat size)).
Proof.
  intros O S. unfold available, slice. split.
  - rewrite firstn_length, skipn_length. lia.
  - intros k K. rewrite firstn_length in K. rewrite nth_firstn0 by lia. apply nth_skipn0.
Qed.

(** ** one stream on one file *)
Definition waits (a : api) (wr : bool) (wait : option (Z * bytes)) : Prop :=
  match wait with None => True | Some (p, x) => a = CRuntime /\ wr = true /\ 0 <= p /\ p + Z.of_nat (length x) <= OFF_MAX end.
Definition eff (d : bytes) (wait : option (Z * bytes)) : bytes := match wait with None => d | Some (p, x) => put_at d (Z.to_nat p) x end.
Record on (w : world) (s : nat) (a : api) (fd i : nat) (rd wr fr fw : bool) (d : bytes) (wait : option (Z * bytes)) : Prop :=
  mkOn { on_live : live w s (mkStream a fd wait); on_fd : nth_error (w_fds w) fd = Some (Some (mkDesc i rd wr));
         on_file : nth_error (w_files w) i = Some (mkFile d fr fw); on_wait : waits a wr wait }.
Definition frame (w w' : world) (i s : nat) : Prop :=
  w_names w' = w_names w /\ w_fds w' = w_fds w /\ (forall j, j <> i -> nth_error (w_files w') j = nth_error (w_files w) j) /\
  (forall t, t <> s -> nth_error (w_streams w') t = nth_error (w_streams w) t).
Lemma frame_refl w i s : frame w w i s.
Proof. repeat split; auto. Qed.
Lemma frame_trans w w' w'' i s : frame w w' i s -> frame w' w'' i s -> frame w w'' i s.
Proof.
  intros (A1 & A2 & A3 & A4) (B1 & B2 & B3 & B4). split; [congruence|]. split; [congruence|]. split.
  - intros j J. now rewrite B3, A3.
  - intros t T. now rewrite B4, A4.
Qed.
Lemma on_open w s a fd i rd wr fr fw d wait : on w s a fd i rd wr fr fw d wait -> open_file w fd = Some (mkDesc i rd wr, mkFile d fr fw).
Proof. intros [L F D W]. unfold open_file. rewrite F. cbn [d_file]. now rewrite D. Qed.
Lemma with_live {A} w s x (k : stream -> A) : live w s x -> with_stream w s k = Ok (k x).
Proof. intros L. unfold with_stream. now rewrite L. Qed.

(** pwrite of all *)
Lemma pwrite_fine w s a fd i rd fr fw d wait off x limit : on w s a fd i rd true fr fw d wait -> 0 <= off -> off + Z.of_nat (length x) <= OFF_MAX ->
  match limit with None => True | Some l => Z.of_nat (length x) <= l end ->
  exists w', sys_pwrite w fd off x limit Fine = Some (w', length x) /\ on w' s a fd i rd true fr fw (put_at d (Z.to_nat off) x) wait /\ frame w w' i s.
Proof.
  intros O P M L. unfold sys_pwrite. rewrite (on_open _ _ _ _ _ _ _ _ _ _ _ O). cbn [d_w negb orb d_file f_data f_r f_w]. replace (OFF_MAX <? _) with false by lia.
  replace (match limit with None => length x | Some l => if Z.of_nat (length x) <=? l then length x else Z.to_nat l end) with (length x)
    by (destruct limit as [l|]; [now replace (Z.of_nat (length x) <=? l) with true by lia|reflexivity]).
  cbn [io_count]. rewrite firstn_all. eexists. split; [reflexivity|]. destruct O as [A B C D]. split; [split|split; [|split; [|split]]]; cbn; try assumption; try reflexivity.
  - apply set_at_same. now apply nth_error_some in C.
  - intros j J. now apply set_at_other.
Qed.
Lemma flush_fine w s a fd i rd wr fr fw d wait : on w s a fd i rd wr fr fw d wait ->
  exists w', flush w s (mkStream a fd wait) Fine = (w', true) /\ on w' s a fd i rd wr fr fw (eff d wait) None /\ frame w w' i s.
Proof.
  intros O. unfold flush. cbn [s_wait s_fd s_api]. destruct wait as [[p x]|].
  - destruct (on_wait _ _ _ _ _ _ _ _ _ _ _ O) as (-> & -> & P & M). destruct (pwrite_fine w s CRuntime fd i rd fr fw d _ p x None O P M Logic.I) as (w' & E & O' & F).
    rewrite E, Nat.eqb_refl. eexists. split; [reflexivity|]. destruct O' as [A B C D]. split; [split|]; cbn [set_stream with_streams w_fds w_files w_names w_streams waits eff]; try assumption; try exact Logic.I.
    + unfold live. cbn. apply set_at_same. now apply nth_error_some in A.
    + apply (frame_trans _ _ _ _ _ F). split; [reflexivity|]. split; [reflexivity|]. split; [reflexivity|]. intros t T. cbn. now apply set_at_other.
  - exists w. split; [reflexivity|]. split; [exact O|apply frame_refl].
Qed.

Lemma accessed_app d l rs d1 l2 rs2 d2 : accessed d l rs d1 -> accessed d1 l2 rs2 d2 -> accessed d (l ++ l2) (rs ++ rs2) d2.
Proof. induction 1; intros H2; cbn [app]; [exact H2| |]; econstructor; eauto. Qed.

Definition may (rd wr : bool) (c : access) : Prop := match c with AWrite _ _ => wr = true | ARead _ _ => rd = true end.
Lemma step_access w s a fd i rd wr fr fw d wait c : on w s a fd i rd wr fr fw d wait -> fits a c -> may rd wr c -> reads_inside a (Z.of_nat (length (eff d wait))) c ->
  exists w' r d' wait', step w (call s c) = Ok (w', r) /\ on w' s a fd i rd wr fr fw d' wait' /\ frame w w' i s /\ accessed (eff d wait) [c] [r] (eff d' wait') /\ (length (eff d wait) <= length (eff d' wait'))%nat.
Proof.
  intros O F M R. destruct c as [off x|off size]; cbn [call step may fits] in *.
  - subst wr. destruct F as (P & Q & W). rewrite (with_live w s _ _ (on_live _ _ _ _ _ _ _ _ _ _ _ O)). unfold write_stream. cbn [s_api s_fd]. destruct a.
    + assert (wait = None) as -> by (destruct wait as [[]|]; [destruct (on_wait _ _ _ _ _ _ _ _ _ _ _ O) as (E & _); discriminate|reflexivity]).
      destruct (pwrite_fine w s Posix fd i rd fr fw d None off x linux_limit O P Q W) as (w' & E & O' & Fr). rewrite E.
      exists w', (RCount (length x)), (put_at d (Z.to_nat off) x), None. split; [reflexivity|]. split; [exact O'|]. split; [exact Fr|]. cbn [eff]. split; [|apply put_at_grows].
      econstructor; [now apply put_at_written|constructor].
    + destruct (flush_fine _ _ _ _ _ _ _ _ _ _ _ O) as (w1 & E & O1 & F1). rewrite E. cbn [negb orb]. replace (OFF_MAX <? off) with false by (unfold OFF_MAX; lia).
      rewrite (on_open _ _ _ _ _ _ _ _ _ _ _ O1). cbn [d_w]. exists (set_stream w1 s (Some (mkStream CRuntime fd (Some (off, x))))), (RCount (length x)), (eff d wait), (Some (off, x)).
      split; [reflexivity|]. destruct O1 as [A1 B1 C1 D1]. split; [split|split]; cbn [set_stream with_streams w_fds w_files w_names w_streams waits]; try assumption.
      * unfold live. cbn. apply set_at_same. now apply nth_error_some in A1.
      * unfold OFF_MAX in *. auto.
      * apply (frame_trans _ _ _ _ _ F1). split; [reflexivity|]. split; [reflexivity|]. split; [reflexivity|]. intros t T. cbn. now apply set_at_other.
      * cbn [eff]. split; [|apply put_at_grows]. econstructor; [now apply put_at_written|constructor].
    + assert (wait = None) as -> by (destruct wait as [[]|]; [destruct (on_wait _ _ _ _ _ _ _ _ _ _ _ O) as (E & _); discriminate|reflexivity]).
      unfold within, most in W. replace (DWORD_MAX <? Z.of_nat (length x)) with false by (unfold DWORD_MAX; lia).
      destruct (pwrite_fine w s Windows fd i rd fr fw d None off x None O P Q Logic.I) as (w' & E & O' & Fr). rewrite E.
      exists w', (RCount (length x)), (put_at d (Z.to_nat off) x), None. split; [reflexivity|]. split; [exact O'|]. split; [exact Fr|]. cbn [eff]. split; [|apply put_at_grows].
      econstructor; [now apply put_at_written|constructor].
  - subst rd. destruct F as (P & Q & W). rewrite (with_live w s _ _ (on_live _ _ _ _ _ _ _ _ _ _ _ O)). unfold read_stream. cbn [s_api s_fd].
    assert (G : forall w1 d1 limit, on w1 s a fd i true wr fr fw d1 None -> match limit with None => True | Some l => size <= l end ->
      sys_pread w1 fd off size limit Fine = Some (slice d1 (Z.to_nat off) (Z.to_nat size))).
    { intros w1 d1 limit O1 Hl. unfold sys_pread. rewrite (on_open _ _ _ _ _ _ _ _ _ _ _ O1). cbn [d_r negb orb f_data]. replace (OFF_MAX <? off) with false by (unfold OFF_MAX; lia).
      replace (match limit with None => size | Some l => Z.min size l end) with size by (destruct limit; lia). cbn [io_count]. now rewrite firstn_all. }
    destruct a.
    + assert (wait = None) as -> by (destruct wait as [[]|]; [destruct (on_wait _ _ _ _ _ _ _ _ _ _ _ O) as (E & _); discriminate|reflexivity]).
      rewrite (G w d linux_limit O W). exists w, (RBytes (slice d (Z.to_nat off) (Z.to_nat size))), d, None. split; [reflexivity|]. split; [exact O|]. split; [apply frame_refl|]. split; [|lia].
      econstructor; [apply slice_available; lia|constructor].
    + destruct (flush_fine _ _ _ _ _ _ _ _ _ _ _ O) as (w1 & E & O1 & F1). rewrite E. cbn [negb orb]. replace (OFF_MAX <? off) with false by (unfold OFF_MAX; lia).
      rewrite (G w1 _ None O1 Logic.I). exists w1, (RBytes (slice (eff d wait) (Z.to_nat off) (Z.to_nat size))), (eff d wait), None. split; [reflexivity|]. split; [exact O1|]. split; [exact F1|]. split; [|cbn [eff]; lia].
      econstructor; [apply slice_available; lia|constructor].
    + assert (wait = None) as -> by (destruct wait as [[]|]; [destruct (on_wait _ _ _ _ _ _ _ _ _ _ _ O) as (E & _); discriminate|reflexivity]).
      unfold within, most in W. replace (DWORD_MAX <? size) with false by (unfold DWORD_MAX; lia). rewrite (G w d None O Logic.I).
      exists w, (RBytes (slice d (Z.to_nat off) (Z.to_nat size))), d, None. split; [|split; [exact O|split; [apply frame_refl|split; [|lia]]]].
      2: { econstructor; [apply slice_available; lia|constructor]. }
      destruct (slice d (Z.to_nat off) (Z.to_nat size)) as [|z l] eqn:E; [|reflexivity].
      destruct (Z.eqb_spec size 0) as [S0|S0]; [reflexivity|]. exfalso. pose proof (slice_available d off size ltac:(lia) ltac:(lia)) as [L _]. rewrite E in L. cbn [eff reads_inside length] in *. lia.
Qed.
Lemma run_accesses s a fd i rd wr fr fw l : forall w d wait, on w s a fd i rd wr fr fw d wait -> Forall (fits a) l -> Forall (may rd wr) l -> Forall (reads_inside a (Z.of_nat (length (eff d wait)))) l ->
  exists w' rs d' wait', run w (map (call s) l) = Ok (w', rs) /\ on w' s a fd i rd wr fr fw d' wait' /\ frame w w' i s /\ accessed (eff d wait) l rs (eff d' wait').
Proof.
  induction l as [|c l IH]; intros w d wait O F M R.
  - exists w, [], d, wait. split; [reflexivity|]. split; [exact O|]. split; [apply frame_refl|constructor].
  - inversion F as [|? ? F1 F2]; subst. inversion M as [|? ? M1 M2]; subst. inversion R as [|? ? R1 R2]; subst.
    destruct (step_access _ _ _ _ _ _ _ _ _ _ _ c O F1 M1 R1) as (w1 & r & d1 & wait1 & E1 & O1 & Fr1 & A1 & L1).
    destruct (IH w1 d1 wait1 O1 F2 M2) as (w2 & rs & d2 & wait2 & E2 & O2 & Fr2 & A2).
    { apply Forall_forall. intros c' I. rewrite Forall_forall in R2. specialize (R2 c' I). destruct a, c'; cbn in *; lia || exact Logic.I. }
    exists w2, (r :: rs), d2, wait2. split; [|split; [exact O2|split; [exact (frame_trans _ _ _ _ _ Fr1 Fr2)|exact (accessed_app _ [c] [r] _ _ _ _ A1 A2)]]].
    cbn [map run]. rewrite E1. cbn [bind]. rewrite E2. reflexivity.
Qed.
Lemma run_app l1 : forall l2 w, run w (l1 ++ l2) = let* (w1, r1) := run w l1 in let* (w2, r2) := run w1 l2 in Ok (w2, r1 ++ r2).
Proof.
  induction l1 as [|p l1 IH]; intros l2 w; cbn [app run bind].
  - destruct (run w l2) as [[w2 r2]| | |]; reflexivity.
  - destruct (step w p) as [[w1 r]| | |]; cbn [bind]; try reflexivity. rewrite IH. destruct (run w1 l1) as [[w2 r2]| | |]; cbn [bind]; try reflexivity.
    destruct (run w2 l2) as [[w3 r3]| | |]; reflexivity.
Qed.
Lemma destroy_fine w s a fd i rd wr fr fw d wait : on w s a fd i rd wr fr fw d wait ->
  exists w', step w (Destroy s Fine) = Ok (w', RDone) /\ nth_error (w_files w') i = Some (mkFile (eff d wait) fr fw) /\ w_names w' = w_names w /\ (forall j, j <> i -> nth_error (w_files w') j = nth_error (w_files w) j).
Proof.
  intros O. cbn [step]. rewrite (with_live w s _ _ (on_live _ _ _ _ _ _ _ _ _ _ _ O)). eexists. split; [reflexivity|]. unfold destroy_stream. cbn [s_api s_fd].
  assert (G : forall w1 (b : bool), w_files (set_stream (if b then w1 else sys_close w1 fd) s None) = w_files w1 /\ w_names (set_stream (if b then w1 else sys_close w1 fd) s None) = w_names w1) by (intros w1 []; split; reflexivity).
  destruct a.
  - assert (wait = None) as -> by (destruct wait as [[]|]; [destruct (on_wait _ _ _ _ _ _ _ _ _ _ _ O) as (E & _); discriminate|reflexivity]).
    destruct (G w (fd =? 0)%nat) as [-> ->]. split; [apply (on_file _ _ _ _ _ _ _ _ _ _ _ O)|]. auto.
  - destruct (flush_fine _ _ _ _ _ _ _ _ _ _ _ O) as (w1 & E & O1 & (F1 & F2 & F3 & F4)). rewrite E. cbn [fst]. destruct (G w1 false) as [-> ->]. split; [apply (on_file _ _ _ _ _ _ _ _ _ _ _ O1)|]. split; [exact F1|exact F3].
  - assert (wait = None) as -> by (destruct wait as [[]|]; [destruct (on_wait _ _ _ _ _ _ _ _ _ _ _ O) as (E & _); discriminate|reflexivity]).
    destruct (G w false) as [-> ->]. split; [apply (on_file _ _ _ _ _ _ _ _ _ _ _ O)|]. auto.
Qed.

(** ** making a stream *)
Lemma make_on w a n fl w1 s : sound w -> make w a n fl true = (w1, RStream s) ->
  exists fd i d fr fw, on w1 s a fd i (o_r fl) (o_w fl) fr fw d None /\ w_names w1 n = Some i /\
    (forall m, separate w m n -> w_names w1 m = w_names w m /\ w_names w m <> Some i) /\ (forall j, j <> i -> nth_error (w_files w1) j = nth_error (w_files w) j) /\
    match content w n with
    | Some old => (o_creat fl && o_excl fl = false) /\ w_names w n = Some i /\ d = (if o_trunc fl then [] else old)
    | None => o_creat fl = true /\ d = []
    end.
Proof.
  intros [S1 S2]. unfold make, sys_open, content. destruct (w_names w n) as [i|] eqn:N.
  - destruct (nth_error (w_files w) i) as [f|] eqn:E; [|discriminate]. destruct (o_creat fl && o_excl fl) eqn:X; [discriminate|]. destruct (_ || _) eqn:P; [discriminate|]. intros H. injection H as <- <-.
    exists (first_free (w_fds w)), i, (if o_trunc fl then [] else f_data f), (f_r f), (f_w f). cbn [with_streams with_fds with_files w_fds w_files w_names w_streams option_map].
    split; [split|split; [exact N|split; [|split; [|auto]]]]; cbn [with_streams with_fds with_files w_fds w_files w_names w_streams waits].
    + unfold live. cbn [with_streams with_fds with_files w_streams]. rewrite nth_error_app2, Nat.sub_diag by lia. reflexivity.
    + apply take_same.
    + destruct (o_trunc fl); [apply set_at_same; now apply nth_error_some in E|]. rewrite E. now destruct f.
    + exact Logic.I.
    + intros m [D [M|M]]; (split; [reflexivity|]); congruence.
    + intros j J. destruct (o_trunc fl); [now apply set_at_other|reflexivity].
  - destruct (o_creat fl) eqn:C; [|discriminate]. intros H. injection H as <- <-.
    exists (first_free (w_fds w)), (length (w_files w)), [], true, true. cbn [with_streams with_fds with_files w_fds w_files w_names w_streams].
    split; [split|split; [|split; [|split; [|auto]]]]; cbn [with_streams with_fds with_files w_fds w_files w_names w_streams waits].
    + unfold live. cbn [with_streams w_streams]. rewrite nth_error_app2, Nat.sub_diag by lia. reflexivity.
    + apply take_same.
    + rewrite nth_error_app2, Nat.sub_diag by lia. reflexivity.
    + exact Logic.I.
    + now rewrite Nat.eqb_refl.
    + intros m [D M]. replace (m =? n)%nat with false by lia. split; [reflexivity|]. intros E. apply S1 in E. lia.
    + intros j J. destruct (Nat.lt_ge_cases j (length (w_files w))); [now rewrite nth_error_app1|]. rewrite nth_error_app2 by lia.
      replace (nth_error (w_files w) j) with (@None file) by (symmetry; apply nth_error_None; lia). apply nth_error_None. cbn. lia.
Qed.

(** used up to its destruction *)
Lemma used w0 w a n fl s l : sound w0 -> make w0 a n fl true = (w, RStream s) -> Forall (fits a) l -> Forall (may (o_r fl) (o_w fl)) l ->
  exists old, match content w0 n with Some c => old = (if o_trunc fl then [] else c) | None => old = [] end /\ (Forall (reads_inside a (Z.of_nat (length old))) l ->
  exists w2 rs d, run w (map (call s) l ++ [Destroy s Fine]) = Ok (w2, rs ++ [RDone]) /\ content w2 n = Some d /\ accessed old l rs d /\
    forall m, separate w0 m n -> content w2 m = content w0 m).
Proof.
  intros S E F M. destruct (make_on _ _ _ _ _ _ S E) as (fd & i & d0 & fr & fw & O & N & Sep & Fr & C). exists d0. split; [destruct (content w0 n); destruct C as [_ C]; [apply C|exact C]|]. intros R.
  destruct (run_accesses s a fd i (o_r fl) (o_w fl) fr fw l w d0 None O F M R) as (w1 & rs & d1 & wait1 & E1 & O1 & (G1 & G2 & G3 & G4) & A).
  destruct (destroy_fine _ _ _ _ _ _ _ _ _ _ _ O1) as (w2 & E2 & D2 & N2 & Fr2). exists w2, rs, (eff d1 wait1). split.
  - rewrite run_app, E1. cbn [bind run]. rewrite E2. reflexivity.
  - split; [|split; [exact A|]].
    + unfold content. rewrite N2, G1, N, D2. reflexivity.
    + intros m Sm. destruct (Sep m Sm) as [N1 N3]. unfold content. rewrite N2, G1, N1. destruct (w_names w0 m) as [j|]; [|reflexivity].
      assert (j <> i) by congruence. now rewrite Fr2, G3, Fr.
Qed.
