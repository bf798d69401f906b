(** Files: errors, incomplete transfers, descriptors. *)
From Verif Require Import Base FileModel FileSpec FileProofs.
Open Scope Z_scope.

(** ** whatever happens to a transfer *)
Lemma pwrite_any w s x off d limit o w' k : live w s x -> 0 <= off -> sys_pwrite w (s_fd x) off d limit o = Some (w', k) -> (k <= length d)%nat /\ stored w s off (firstn k d) w'.
Proof.
  intros L P. unfold sys_pwrite, open_file. destruct (nth_error (w_fds w) (s_fd x)) as [[e|]|] eqn:E; try discriminate. destruct (nth_error (w_files w) (d_file e)) as [f|] eqn:F; [|discriminate].
  destruct (negb (d_w e) || _); [discriminate|]. set (n := match limit with None => _ | Some l => _ end). assert (N : (n <= length d)%nat) by (unfold n; destruct limit as [l|]; [destruct (Z.leb_spec (Z.of_nat (length d)) l)|]; lia).
  clearbody n. destruct (io_count o n) as [k'|] eqn:K; [|discriminate]. intros H. injection H as <- <-.
  assert (k' <= n)%nat by (destruct o; cbn in K; try discriminate; injection K as <-; lia). split; [lia|].
  exists (d_file e), f, (mkFile (put_at (f_data f) (Z.to_nat off) (firstn k' d)) (f_r f) (f_w f)). split; [exists x, e; auto|]. split; [exact F|]. cbn [with_files w_files w_names f_data].
  split; [apply set_at_same; now apply nth_error_some in F|]. split; [now apply put_at_written|]. split; [reflexivity|]. intros j J. now apply set_at_other.
Qed.
Theorem short_write w s x off d o w' r : live w s x -> s_api x <> CRuntime -> 0 <= off -> step w (Write s off d o) = Ok (w', r) ->
  (r = RThrow /\ w' = w) \/ exists k, r = RCount k /\ (k <= length d)%nat /\ stored w s off (firstn k d) w'.
Proof.
  intros L A P. cbn [step]. rewrite (with_live w s x _ L). intros H. injection H as H. revert H. unfold write_stream. destruct (s_api x); [|contradiction|].
  - destruct (sys_pwrite _ _ _ _ _ _) as [[w1 k]|] eqn:E; intros H; injection H as <- <-; [right|now left]. exists k. split; [reflexivity|]. eapply pwrite_any; eauto.
  - destruct (DWORD_MAX <? _); [intros H; injection H as <- <-; now left|].
    destruct (sys_pwrite _ _ _ _ _ _) as [[w1 k]|] eqn:E; intros H; injection H as <- <-; [right|now left]. exists k. split; [reflexivity|]. eapply pwrite_any; eauto.
Qed.
Theorem reported w s x off d o w' : live w s x -> s_api x <> CRuntime -> 0 <= off -> write_all w s off d o = Ok (w', true) -> stored w s off d w'.
Proof.
  intros L A P. unfold write_all. destruct (step w (Write s off d o)) as [[w1 r]| | |] eqn:E; cbn [bind]; try discriminate. intros H. injection H as <- H.
  destruct (short_write _ _ _ _ _ _ _ _ L A P E) as [[-> ->]|(k & -> & K & S)]; [discriminate|]. apply Nat.eqb_eq in H. subst k. now rewrite firstn_all in S.
Qed.
Theorem short_read w s x off size o w' y : live w s x -> s_api x <> CRuntime -> 0 <= off -> 0 <= size -> step w (Read s off size o) = Ok (w', RBytes y) ->
  w' = w /\ exists i f z, file_of w s i /\ nth_error (w_files w) i = Some f /\ available (f_data f) off size (y ++ z).
Proof.
  intros L A P Q. cbn [step]. rewrite (with_live w s x _ L). intros H. injection H as H. revert H. unfold read_stream.
  assert (G : forall limit, sys_pread w (s_fd x) off size limit o = Some y -> exists i f z, file_of w s i /\ nth_error (w_files w) i = Some f /\ available (f_data f) off size (y ++ z)).
  { intros limit. unfold sys_pread, open_file. destruct (nth_error (w_fds w) (s_fd x)) as [[e|]|] eqn:E; try discriminate. destruct (nth_error (w_files w) (d_file e)) as [f|] eqn:F; [|discriminate].
    destruct (negb (d_r e) || _); [discriminate|]. set (n := match limit with None => size | Some l => _ end). assert (N : n <= size) by (unfold n; destruct limit; lia). clearbody n.
    destruct (io_count o _) as [k|]; [|discriminate]. intros H. injection H as <-.
    exists (d_file e), f, (skipn k (slice (f_data f) (Z.to_nat off) (Z.to_nat n)) ++ skipn (Z.to_nat n) (slice (f_data f) (Z.to_nat off) (Z.to_nat size))). split; [exists x, e; auto|]. split; [exact F|].
    rewrite app_assoc, firstn_skipn. replace (slice (f_data f) (Z.to_nat off) (Z.to_nat n)) with (firstn (Z.to_nat n) (slice (f_data f) (Z.to_nat off) (Z.to_nat size))).
    - rewrite firstn_skipn. now apply slice_available.
    - unfold slice. rewrite firstn_firstn. f_equal. lia. }
  destruct (s_api x); [|contradiction|].
  - intros H. injection H as <- H. split; [reflexivity|]. destruct (sys_pread _ _ _ _ _ _) eqn:E; [|discriminate]. injection H as ->. eapply G; eauto.
  - destruct (DWORD_MAX <? size); [discriminate|]. intros H. injection H as <- H. split; [reflexivity|]. destruct (sys_pread _ _ _ _ _ _) as [[|b l]|] eqn:E; [|injection H as <-; eapply G; eauto|discriminate].
    destruct (size =? 0); [|discriminate]. injection H as <-. eapply G; eauto.
Qed.

(** ** descriptors *)
Definition same (w w' : world) : Prop :=
  w_names w' = w_names w /\ w_fds w' = w_fds w /\ length (w_files w') = length (w_files w) /\
  forall t, option_map (option_map s_fd) (nth_error (w_streams w') t) = option_map (option_map s_fd) (nth_error (w_streams w) t).
Lemma same_refl w : same w w. Proof. repeat split; auto. Qed.
Lemma same_trans w w' w'' : same w w' -> same w' w'' -> same w w''.
Proof. intros (A & B & C & D) (A' & B' & C' & D'). split; [congruence|]. split; [congruence|]. split; [congruence|]. intros t. now rewrite D', D. Qed.
Lemma same_set w s x x' : live w s x -> s_fd x' = s_fd x -> same w (set_stream w s (Some x')).
Proof.
  intros L E. split; [reflexivity|]. split; [reflexivity|]. split; [reflexivity|]. intros t. cbn. destruct (Nat.eq_dec t s) as [->|N]; [|now rewrite set_at_other].
  rewrite L, set_at_same by (now apply nth_error_some in L). cbn. now rewrite E.
Qed.
Lemma same_pwrite w fd off d limit o w' k : sys_pwrite w fd off d limit o = Some (w', k) -> same w w' /\ w_streams w' = w_streams w.
Proof.
  unfold sys_pwrite. destruct (open_file w fd) as [[e f]|]; [|discriminate]. destruct (negb _ || _); [discriminate|]. destruct (io_count _ _); [|discriminate]. intros H. injection H as <- <-.
  split; [|reflexivity]. split; [reflexivity|]. split; [reflexivity|]. split; [cbn; apply set_at_length|reflexivity].
Qed.
Lemma same_flush w s x o : live w s x -> same w (fst (flush w s x o)) /\ exists x', live (fst (flush w s x o)) s x' /\ s_fd x' = s_fd x.
Proof.
  intros L. unfold flush. destruct (s_wait x) as [[p d]|]; [|split; [apply same_refl|eauto]].
  destruct (sys_pwrite _ _ _ _ _ _) as [[w' k]|] eqn:E; [|split; [apply same_refl|eauto]]. apply same_pwrite in E. destruct E as [S T].
  assert (L' : live w' s x) by (unfold live; now rewrite T). destruct (k =? length d)%nat; cbn [fst]; [|split; [exact S|eauto]]. split.
  - apply (same_trans _ _ _ S). now apply same_set with (x := x).
  - eexists. split; [unfold live; cbn; apply set_at_same; now apply nth_error_some in L'|reflexivity].
Qed.
Lemma same_write w s x off d o : live w s x -> same w (fst (write_stream w s x off d o)).
Proof.
  intros L. unfold write_stream. destruct (s_api x).
  - destruct (sys_pwrite _ _ _ _ _ _) as [[w' k]|] eqn:E; [|apply same_refl]. now apply same_pwrite in E.
  - destruct (same_flush w s x o L) as [S (x' & L' & Ex)]. destruct (flush w s x o) as [w1 ok]. cbn [fst] in *. destruct (negb ok || _); [exact S|]. destruct (open_file w1 (s_fd x)) as [[e f]|]; [|exact S].
    destruct (d_w e); [|exact S]. cbn [fst]. apply (same_trans _ _ _ S). apply same_set with (x := x'); [exact L'|now rewrite Ex].
  - destruct (DWORD_MAX <? _); [apply same_refl|]. destruct (sys_pwrite _ _ _ _ _ _) as [[w' k]|] eqn:E; [|apply same_refl]. now apply same_pwrite in E.
Qed.
Lemma same_read w s x off size o : live w s x -> same w (fst (read_stream w s x off size o)).
Proof.
  intros L. unfold read_stream. destruct (s_api x); [apply same_refl| |].
  - destruct (same_flush w s x o L) as [S _]. destruct (flush w s x o) as [w1 ok]. cbn [fst] in *. destruct (negb ok || _); exact S.
  - destruct (DWORD_MAX <? _); apply same_refl.
Qed.

Record held (w0 w : world) : Prop := mkHeld {
  h_sound : sound w;
  h_kept : forall k d, nth_error (w_fds w0) k = Some (Some d) -> nth_error (w_fds w) k = Some (Some d);
  h_live : forall s x, live w s x -> taken w (s_fd x) /\ ~ taken w0 (s_fd x);
  h_one : forall s x s' x', live w s x -> live w s' x' -> s_fd x = s_fd x' -> s = s';
  h_known : forall k, taken w k -> taken w0 k \/ exists s x, live w s x /\ s_fd x = k }.

Lemma same_live w w' s x' : same w w' -> live w' s x' -> exists x, live w s x /\ s_fd x = s_fd x'.
Proof.
  intros (_ & _ & _ & D) L. specialize (D s). unfold live in *. rewrite L in D. cbn in D. destruct (nth_error (w_streams w) s) as [[x|]|]; cbn in D; try discriminate. injection D as D. eauto.
Qed.
Lemma same_sym w w' : same w w' -> same w' w.
Proof. intros (A & B & C & D). repeat split; auto. Qed.
Lemma held_same w0 w w' : held w0 w -> same w w' -> held w0 w'.
Proof.
  intros [S K L O N] M. pose proof M as (A & B & C & D). split.
  - destruct S as [S1 S2]. split; [rewrite A, C; exact S1|rewrite B, C; exact S2].
  - rewrite B. exact K.
  - intros s x' H. destruct (same_live _ _ _ _ M H) as (x & H' & <-). unfold taken. rewrite B. apply (L s x H').
  - intros s x s' x' H H' E. destruct (same_live _ _ _ _ M H) as (y & Hy & Ey). destruct (same_live _ _ _ _ M H') as (y' & Hy' & Ey'). eapply O; eauto. congruence.
  - intros k T. unfold taken in T. rewrite B in T. destruct (N k T) as [G|(s & x & G & E)]; [now left|right]. destruct (same_live _ _ _ _ (same_sym _ _ M) G) as (x' & G' & E'). exists s, x'. split; [exact G'|congruence].
Qed.
(** the system lends a number *)
Lemma held_lend w0 w a e names files : held w0 w -> (forall n i, names n = Some i -> (i < length files)%nat) -> (length (w_files w) <= length files)%nat -> (d_file e < length files)%nat ->
  held w0 (mkWorld names files (take (w_fds w) e) (w_streams w ++ [Some (mkStream a (first_free (w_fds w)) None)])).
Proof.
  intros [[S1 S2] K L O N] HN HF HE. set (fd := first_free (w_fds w)). set (w' := mkWorld _ _ _ _).
  assert (T : nth_error (w_fds w') fd = Some (Some e)) by apply take_same.
  assert (T' : forall k, k <> fd -> nth_error (w_fds w') k = nth_error (w_fds w) k) by (intros k Hk; now apply take_other).
  assert (Free : ~ taken w fd) by (intros [d H]; now apply first_free_not in H).
  assert (New : live w' (length (w_streams w)) (mkStream a fd None)) by (unfold live; cbn; rewrite nth_error_app2, Nat.sub_diag by lia; reflexivity).
  assert (Old : forall s x, live w' s x -> (s = length (w_streams w) /\ x = mkStream a fd None) \/ live w s x).
  { intros s x H. unfold live in H. cbn in H. destruct (Nat.lt_ge_cases s (length (w_streams w))) as [C|C]; [right; unfold live; now rewrite nth_error_app1 in H|left].
    rewrite nth_error_app2 in H by lia. destruct (s - length (w_streams w))%nat as [|k] eqn:E; cbn in H; [injection H as <-; split; [lia|reflexivity]|destruct k; discriminate]. }
  split.
  - split; [exact HN|]. intros k d H. destruct (Nat.eq_dec k fd) as [->|Hk]; [rewrite T in H; injection H as <-; exact HE|]. rewrite T' in H by exact Hk. apply S2 in H. cbn [w' w_files]. lia.
  - intros k d H. rewrite T'; [now apply K|]. intros ->. apply Free. exists d. now apply K.
  - intros s x H. destruct (Old s x H) as [[-> ->]|H'].
    + split; [exists e; exact T|]. cbn [s_fd]. intros [d Hd]. apply Free. exists d. now apply K.
    + destruct (L s x H') as [[d Hd] G]. split; [|exact G]. exists d. rewrite T'; [exact Hd|]. intros E. apply Free. exists d. now rewrite <- E.
  - intros s x s' x' H H' E. destruct (Old s x H) as [[-> ->]|G], (Old s' x' H') as [[-> ->]|G']; [reflexivity| | |exact (O _ _ _ _ G G' E)]; exfalso; apply Free; cbn [s_fd] in E.
    + rewrite E. now apply (L s' x' G').
    + rewrite <- E. now apply (L s x G).
  - intros k [d H]. destruct (Nat.eq_dec k fd) as [->|Hk]; [right; exists (length (w_streams w)), (mkStream a fd None); split; [exact New|reflexivity]|]. rewrite T' in H by exact Hk.
    destruct (N k (ex_intro _ d H)) as [G|(s & x & G & E)]; [now left|right]. exists s, x. split; [|exact E]. unfold live. cbn. rewrite nth_error_app1; [exact G|]. now apply nth_error_some in G.
Qed.
Lemma held_make w0 w a n fl allow : held w0 w -> held w0 (fst (make w a n fl allow)).
Proof.
  intros H. unfold make. destruct allow; [|exact H]. unfold sys_open. destruct (w_names w n) as [i|] eqn:N.
  - destruct (nth_error (w_files w) i) as [f|] eqn:E; [|exact H]. destruct (_ && _); [exact H|]. destruct (_ || _); [exact H|]. cbn [fst].
    set (files := if o_trunc fl then _ else w_files w). assert (F : length files = length (w_files w)) by (unfold files; destruct (o_trunc fl); [apply set_at_length|reflexivity]).
    apply (held_lend w0 w a (mkDesc i (o_r fl) (o_w fl)) (w_names w) files H); rewrite ?F.
    + apply (proj1 (h_sound _ _ H)).
    + lia.
    + cbn. now apply nth_error_some in E.
  - destruct (o_creat fl); [|exact H]. cbn [fst]. apply (held_lend w0 w a (mkDesc (length (w_files w)) (o_r fl) (o_w fl)) (fun m => if (m =? n)%nat then Some (length (w_files w)) else w_names w m) (w_files w ++ [mkFile [] true true])); [exact H| | |].
    + intros m i. rewrite app_length. cbn. destruct (m =? n)%nat; [intros G; injection G as <-; lia|]. intros G. apply (proj1 (h_sound _ _ H)) in G. lia.
    + rewrite app_length. lia.
    + rewrite app_length. cbn. lia.
Qed.
Lemma held_other w0 w x : held w0 w -> held w0 (others1 w x).
Proof.
  intros [[S1 S2] K L O N]. destruct x as [n f|n]; cbn [others1].
  - destruct (w_names w n) as [i|] eqn:E.
    + split; try assumption. split; cbn [with_files w_files w_names w_fds]; rewrite set_at_length; assumption.
    + split; try assumption. split; cbn [w_files w_names w_fds]; rewrite app_length; cbn.
      * intros m i. destruct (m =? n)%nat; [intros G; injection G as <-; lia|]. intros G. apply S1 in G. lia.
      * intros k d G. apply S2 in G. lia.
  - split; try assumption. split; [|exact S2]. cbn [w_names w_files]. intros m i. destruct (m =? n)%nat; [discriminate|]. apply S1.
Qed.
Lemma held_others w0 l : forall w, held w0 w -> held w0 (others w l).
Proof. induction l as [|x l IH]; intros w H; [exact H|]. cbn [others fold_left]. apply IH. now apply held_other. Qed.
Lemma held_destroy w0 w s x o : held w0 w -> taken w0 0 -> live w s x -> held w0 (destroy_stream w s x o).
Proof.
  intros H Z L. unfold destroy_stream. set (w1 := match s_api x with CRuntime => _ | _ => w end).
  assert (M : same w w1) by (unfold w1; destruct (s_api x); try apply same_refl; now apply same_flush).
  assert (L1 : exists x1, live w1 s x1 /\ s_fd x1 = s_fd x) by (destruct (same_live _ _ _ _ (same_sym _ _ M) L) as (x1 & G & E); eauto).
  pose proof (held_same _ _ _ H M) as H1. clearbody w1. clear H M. destruct L1 as (x1 & L1 & Ex). destruct H1 as [[S1 S2] K Lv O N].
  assert (N0 : s_fd x <> 0%nat) by (intros E; apply (proj2 (Lv _ _ L1)); rewrite Ex, E; exact Z).
  set (w2 := match s_api x with Posix => _ | _ => _ end). assert (E2 : w2 = sys_close w1 (s_fd x)) by (unfold w2; destruct (s_api x); [now replace (s_fd x =? 0)%nat with false by lia|reflexivity|reflexivity]).
  rewrite E2. clear w2 E2. set (w2 := set_stream _ s None).
  assert (F : forall k, k <> s_fd x -> nth_error (w_fds w2) k = nth_error (w_fds w1) k) by (intros k Hk; cbn; now apply set_at_other).
  assert (F0 : ~ taken w2 (s_fd x)). { intros [d Hd]. cbn in Hd. destruct (Lv _ _ L1) as [[d1 G] _]. rewrite Ex in G. rewrite set_at_same in Hd by (now apply nth_error_some in G). discriminate. }
  assert (Old : forall t y, live w2 t y -> t <> s /\ live w1 t y).
  { intros t y G. unfold live in *. cbn in G. destruct (Nat.eq_dec t s) as [->|C]; [|split; [exact C|now rewrite set_at_other in G]]. exfalso. rewrite set_at_same in G by (now apply nth_error_some in L1). discriminate. }
  split.
  - split; [exact S1|]. intros k d G. destruct (Nat.eq_dec k (s_fd x)) as [->|C]; [exfalso; apply F0; now exists d|]. rewrite F in G by exact C. now apply S2 in G.
  - intros k d G. rewrite F; [now apply K|]. intros ->. apply (proj2 (Lv _ _ L1)). rewrite Ex. now exists d.
  - intros t y G. destruct (Old t y G) as [C G1]. destruct (Lv t y G1) as [[d T] U]. split; [|exact U]. exists d. rewrite F; [exact T|]. intros E. apply C. eapply O; eauto. congruence.
  - intros t y t' y' G G' E. eapply O; [apply (Old t y G)|apply (Old t' y' G')|exact E].
  - intros k T. assert (C : k <> s_fd x) by (intros ->; exact (F0 T)). destruct T as [d T]. rewrite F in T by exact C. destruct (N k (ex_intro _ d T)) as [G|(t & y & G & E)]; [now left|right].
    exists t, y. split; [|exact E]. unfold live. cbn. rewrite set_at_other; [exact G|]. intros ->. apply C. unfold live in *. congruence.
Qed.
Lemma held_step w0 w p w' r : held w0 w -> taken w0 0 -> step w p = Ok (w', r) -> held w0 w'.
Proof.
  intros H Z. destruct p as [a n ow between allow|a n allow|a n allow|s off d o|s off size o|s o|x]; cbn [step].
  - intros E. injection E as E. replace w' with (fst (make_out w a n ow between allow)) by now rewrite E. unfold make_out. destruct a; try now apply held_make.
    destruct (negb ow && can_read w n); [exact H|]. apply held_make. now apply held_others.
  - intros E. injection E as E. replace w' with (fst (make w a n (inout_flags a) allow)) by now rewrite E. now apply held_make.
  - intros E. injection E as E. replace w' with (fst (make w a n in_flags allow)) by now rewrite E. now apply held_make.
  - unfold with_stream. destruct (nth_error (w_streams w) s) as [[x|]|] eqn:L; try discriminate. intros E. injection E as E. replace w' with (fst (write_stream w s x off d o)) by now rewrite E. eapply held_same; [exact H|]. now apply same_write.
  - unfold with_stream. destruct (nth_error (w_streams w) s) as [[x|]|] eqn:L; try discriminate. intros E. injection E as E. replace w' with (fst (read_stream w s x off size o)) by now rewrite E. eapply held_same; [exact H|]. now apply same_read.
  - unfold with_stream. destruct (nth_error (w_streams w) s) as [[x|]|] eqn:L; try discriminate. intros E. injection E as <- _. now apply held_destroy.
  - intros E. injection E as <- _. now apply held_other.
Qed.
Lemma held_run w0 : taken w0 0 -> forall ops w w' rs, held w0 w -> run w ops = Ok (w', rs) -> held w0 w'.
Proof.
  intros Z. induction ops as [|p ops IH]; intros w w' rs H; cbn [run].
  - intros E. injection E as <- _. exact H.
  - destruct (step w p) as [[w1 r]| | |] eqn:E1; cbn [bind]; try discriminate. destruct (run w1 ops) as [[w2 rs2]| | |] eqn:E2; cbn [bind]; try discriminate. intros E. injection E as <- _.
    eapply IH; [|exact E2]. eapply held_step; eauto.
Qed.
Lemma held_start w : begins w -> held w w.
Proof.
  intros (S & E & _). assert (N : forall s x, ~ live w s x) by (intros s x L; unfold live in L; rewrite E in L; destruct s; discriminate).
  split; [exact S|auto|intros s x L; now apply N in L|intros s x s' x' L; now apply N in L|auto].
Qed.
Theorem descriptors w0 ops w rs : begins w0 -> run w0 ops = Ok (w, rs) ->
  (forall k, taken w k <-> taken w0 k \/ exists s x, live w s x /\ s_fd x = k) /\ (forall s x, live w s x -> exists i, file_of w s i /\ (i < length (w_files w))%nat).
Proof.
  intros B R. pose proof (held_run w0 (proj2 (proj2 B)) ops w0 w rs (held_start w0 B) R) as [S K L O N]. split.
  - intros k. split; [apply N|]. intros [[d H]|(s & x & H & <-)]; [exists d; now apply K|now apply (L s x)].
  - intros s x H. destruct (L s x H) as [[e T] _]. exists (d_file e). split; [exists x, e; auto|]. now apply (proj2 S) in T.
Qed.
