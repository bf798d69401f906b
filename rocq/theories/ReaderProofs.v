(** Proofs about the reader object. *)
From Verif Require Import Base RectModel CodecModel CodecProofs WriterModel CodesModel TextModel TextProofs CoordModel CoordProofs StatModel StatSpec AccessModel EditSpec ReaderModel ReaderSpec.
Open Scope Z_scope.

(** ** Opening again *)
Lemma rrun_cons s q qs : rrun s (q :: qs) = let (s1, a) := rstep s q in let (s2, l) := rrun s1 qs in (s2, a :: l).
Proof. reflexivity. Qed.
Lemma rrun_app s a b : rrun s (a ++ b) = (fst (rrun (fst (rrun s a)) b), snd (rrun s a) ++ snd (rrun (fst (rrun s a)) b)).
Proof.
  revert s. induction a as [|q a IH]; intros s; cbn [app].
  - cbn [rrun fst snd app]. now destruct (rrun s b).
  - rewrite !rrun_cons. destruct (rstep s q) as [s1 r]. rewrite IH. destruct (rrun s1 a) as [s2 l]. cbn [fst snd]. reflexivity.
Qed.
Lemma rrun_length s qs : length (snd (rrun s qs)) = length qs.
Proof.
  revert s. induction qs as [|q qs IH]; intros s; [reflexivity|]. rewrite rrun_cons. destruct (rstep s q) as [s1 r].
  specialize (IH s1). destruct (rrun s1 qs). cbn [snd length] in *. congruence.
Qed.

(** what a successful Open leaves *)
Definition opened_state (h : fheader) (es : list sbe) (u : updater) (a : list attentry) (strict : bool) (f : file) (o : ropts) : rstate :=
  mkR true h es u a (Some (strict, f)) (default_frame (ro_frame o)) (ro_policy o).
Lemma rok_ok {A} s (r : res A) k s' x : rok s r k = (s', Ok x) -> exists a, r = Ok a /\ k a = (s', Ok x).
Proof. destruct r; cbn [rok]; intros E; try discriminate. eauto. Qed.
Lemma reader_open_ok s strict f o s' x : reader_open s strict f o = (s', Ok x) ->
  r_op s = false /\ x = ADone /\ exists h es u a, read_file_header strict f = Ok h /\ read_directory strict (popts_of o) f (fh_dir h) = Ok es
    /\ open_stats es = Ok u /\ (if fh_att h =? 0 then Ok (r_att s) else read_attdir strict f (fh_att h)) = Ok a
    /\ s' = opened_state h es u a strict f o.
Proof.
  unfold reader_open. destruct (r_op s); [discriminate|]. intros E. split; [reflexivity|].
  apply rok_ok in E as (h & Eh & E). apply rok_ok in E as (d & Ed & E). apply rok_ok in E as (a & Ea & E). cbn [r_att r_op r_hdr r_dir r_upd set_hdr set_dir set_att] in *.
  destruct (read_directory strict (popts_of o) f (fh_dir h)) as [es| | |] eqn:E1; try discriminate. cbn [bind] in Ed.
  destruct (open_stats es) as [u| | |] eqn:E2; try discriminate. cbn [bind] in Ed. injection Ed as <-. cbn [fst snd] in E.
  injection E as <- <-. split; [reflexivity|]. exists h, es, u, a. repeat split; assumption.
Qed.
Lemma reader_open_same s strict f o h es u a : r_op s = false -> read_file_header strict f = Ok h ->
  read_directory strict (popts_of o) f (fh_dir h) = Ok es -> open_stats es = Ok u ->
  (if fh_att h =? 0 then Ok (r_att s) else read_attdir strict f (fh_att h)) = Ok a ->
  reader_open s strict f o = (opened_state h es u a strict f o, Ok ADone).
Proof.
  intros E0 E1 E2 E3 E4. unfold reader_open. rewrite E0, E1. cbn [rok]. rewrite E2. cbn [bind]. rewrite E3. cbn [bind rok fst snd].
  cbn [set_hdr set_dir set_att r_att]. rewrite E4. cbn [rok]. reflexivity.
Qed.

(** attachments are remembered only from documents which have some *)
Lemma att_kept s q : r_att (fst (rstep s q)) = r_att s \/
  exists strict f o h a, q = ROpen strict f o /\ read_file_header strict f = Ok h /\ fh_att h <> 0 /\ read_attdir strict f (fh_att h) = Ok a /\ r_att (fst (rstep s q)) = a.
Proof.
  destruct q; cbn [rstep]; try (left; destruct (r_op s || _); reflexivity); try (left; destruct (r_op s); reflexivity).
  unfold reader_open. destruct (r_op s); [now left|]. destruct (read_file_header strict f) as [h| | |] eqn:Eh; cbn [rok fst]; try now left.
  destruct (let* es := read_directory strict (popts_of o) f (fh_dir h) in let* u := open_stats es in Ok (es, u)) as [d| | |]; cbn [rok fst]; try now left.
  cbn [set_hdr set_dir r_att]. destruct (fh_att h =? 0) eqn:E0; cbn [rok fst]; [now left|].
  destruct (read_attdir strict f (fh_att h)) as [a| | |] eqn:Ea; cbn [rok fst]; try now left.
  right. exists strict, f, o, h, a. repeat split; trivial. lia.
Qed.
Lemma att_none h : Forall (fun q => match q with ROpen b g _ => carries b g = false | _ => True end) h -> r_att (fst (rrun reader0 h)) = [].
Proof.
  assert (G : forall h s, r_att s = [] -> Forall (fun q => match q with ROpen b g _ => carries b g = false | _ => True end) h -> r_att (fst (rrun s h)) = []).
  { clear h. induction h as [|q h IH]; intros s E0 F; [exact E0|]. rewrite rrun_cons. destruct (rstep s q) as [s1 r] eqn:Es.
    inversion F as [|? ? F1 F2]; subst. specialize (IH s1). destruct (rrun s1 h) as [s2 l] eqn:Er. cbn [fst] in *. apply IH; [|assumption].
    destruct (att_kept s q) as [E|(strict & f & o & hd & a & -> & Eh & Ha & Ea & E)]; rewrite Es in E; cbn [fst] in E; [congruence|].
    rewrite E. unfold carries in F1. rewrite Eh, Ea in F1. destruct (fh_att hd =? 0) eqn:E1; [lia|]. destruct a; [reflexivity|discriminate]. }
  apply G. reflexivity.
Qed.

Lemma open_reset s : r_op s = false -> forall strict f o h, read_file_header strict f = Ok h -> fh_att h <> 0 \/ r_att s = [] ->
  snd (rstep s (ROpen strict f o)) = Ok ADone -> rstep s (ROpen strict f o) = rstep reader0 (ROpen strict f o).
Proof.
  intros E0 strict f o h Eh Ha E. cbn [rstep] in *. destruct (reader_open s strict f o) as [s' r] eqn:Er. cbn [snd] in E. subst r.
  apply reader_open_ok in Er as (_ & _ & h' & es & u & a & Eh' & E1 & E2 & E3 & ->). symmetry.
  apply reader_open_same; trivial. cbn [r_att reader0]. replace h' with h in * by congruence.
  destruct (fh_att h =? 0) eqn:Z0; [|assumption]. destruct Ha as [Ha|Ha]; [lia|]. congruence.
Qed.
Lemma reopen_fresh : forall h strict f o hd qs,
  let s := fst (rrun reader0 h) in
  snd (rstep s (ROpen strict f o)) = Ok ADone -> read_file_header strict f = Ok hd ->
  fh_att hd <> 0 \/ Forall (fun q => match q with ROpen b g _ => carries b g = false | _ => True end) h ->
  snd (rrun s (ROpen strict f o :: qs)) = snd (rrun reader0 (ROpen strict f o :: qs)).
Proof.
  intros h strict f o hd qs s E Eh Ha. rewrite !rrun_cons.
  assert (E0 : r_op s = false) by (cbn [rstep] in E; destruct (reader_open s strict f o) eqn:Er; cbn [snd] in E; subst; now apply reader_open_ok in Er).
  rewrite (open_reset s E0 strict f o hd Eh); [reflexivity| |assumption]. destruct Ha as [Ha|Ha]; [now left|right; now apply att_none].
Qed.

(** equal but for the attachments *)
Definition near (s t : rstate) : Prop :=
  r_op s = r_op t /\ r_hdr s = r_hdr t /\ r_dir s = r_dir t /\ r_upd s = r_upd t /\ r_stream s = r_stream t /\ r_frame s = r_frame t /\ r_policy s = r_policy t.
Lemma near_open s t strict f o : near s t -> near (fst (reader_open s strict f o)) (fst (reader_open t strict f o)) /\
  snd (reader_open s strict f o) = snd (reader_open t strict f o).
Proof.
  intros (E1 & E2 & E3 & E4 & E5 & E6 & E7). unfold reader_open. rewrite <- E1.
  destruct (r_op s) eqn:Eo; [split; [unfold near; cbn [r_op r_hdr r_dir r_upd r_stream r_frame r_policy set_hdr set_dir set_att fst snd]; repeat split; congruence|reflexivity]|].
  destruct (read_file_header strict f) as [h| | |]; cbn [rok fst snd]; try (split; [unfold near; cbn [r_op r_hdr r_dir r_upd r_stream r_frame r_policy set_hdr set_dir set_att fst snd]; repeat split; congruence|reflexivity]).
  destruct (let* es := read_directory strict (popts_of o) f (fh_dir h) in let* u := open_stats es in Ok (es, u)) as [d| | |]; cbn [rok fst snd];
    try (split; [unfold near; cbn [r_op r_hdr r_dir r_upd r_stream r_frame r_policy set_hdr set_dir set_att fst snd]; repeat split; congruence|reflexivity]).
  cbn [set_hdr set_dir r_att]. destruct (fh_att h =? 0).
  - cbn [rok fst snd]. split; [repeat split|reflexivity].
  - destruct (read_attdir strict f (fh_att h)) as [a| | |]; cbn [rok fst snd]; (split; [unfold near; cbn [r_op r_hdr r_dir r_upd r_stream r_frame r_policy set_hdr set_dir set_att fst snd]; repeat split; congruence|reflexivity]).
Qed.
Lemma near_step s t q : near s t -> about_attachments q = false -> near (fst (rstep s q)) (fst (rstep t q)) /\ snd (rstep s q) = snd (rstep t q).
Proof.
  intros N A. destruct q; cbn [rstep about_attachments] in *; try discriminate; try now apply near_open.
  all: destruct N as (E1 & E2 & E3 & E4 & E5 & E6 & E7); rewrite <- E1.
  1: { destruct (r_op s) eqn:Eo; (split; [unfold near; cbn [r_op r_hdr r_dir r_upd r_stream r_frame r_policy set_hdr set_dir set_att fst snd]; repeat split; congruence|reflexivity]). }
  all: cbn [unchecked]; rewrite ?orb_true_r, ?orb_false_r; try (destruct (r_op s) eqn:Eo); cbn [fst snd]; (split; [unfold near; cbn [r_op r_hdr r_dir r_upd r_stream r_frame r_policy set_hdr set_dir set_att fst snd]; repeat split; congruence|]); try reflexivity.
  all: cbn [query]; rewrite <- ?E2, <- ?E3, <- ?E4, <- ?E5, <- ?E6, <- ?E7; reflexivity.
Qed.
Lemma near_run s t qs : near s t -> forallb (fun q => negb (about_attachments q)) qs = true -> snd (rrun s qs) = snd (rrun t qs).
Proof.
  revert s t. induction qs as [|q qs IH]; intros s t N A; [reflexivity|]. cbn [forallb] in A. apply andb_prop in A as [A1 A2].
  destruct (near_step s t q N) as (N' & E); [now destruct (about_attachments q)|]. rewrite !rrun_cons.
  destruct (rstep s q) as [s1 a1], (rstep t q) as [t1 b1]. cbn [fst snd] in *. subst b1. specialize (IH s1 t1 N' A2).
  destruct (rrun s1 qs), (rrun t1 qs). cbn [snd] in *. congruence.
Qed.
Lemma reopen_sub_blocks : forall h strict f o qs,
  let s := fst (rrun reader0 h) in
  snd (rstep s (ROpen strict f o)) = Ok ADone -> snd (rstep reader0 (ROpen strict f o)) = Ok ADone ->
  forallb (fun q => negb (about_attachments q)) qs = true ->
  snd (rrun s (ROpen strict f o :: qs)) = snd (rrun reader0 (ROpen strict f o :: qs)).
Proof.
  intros h strict f o qs s E Ef A. rewrite !rrun_cons. cbn [rstep] in *.
  destruct (reader_open s strict f o) as [s1 r1] eqn:E1, (reader_open reader0 strict f o) as [s2 r2] eqn:E2. cbn [snd] in *. subst r1 r2.
  apply reader_open_ok in E1 as (_ & _ & h1 & es1 & u1 & a1 & A1 & A2 & A3 & _ & ->). apply reader_open_ok in E2 as (_ & _ & h2 & es2 & u2 & a2 & B1 & B2 & B3 & _ & ->).
  replace h2 with h1 in * by congruence. replace es2 with es1 in * by congruence. replace u2 with u1 in * by congruence.
  assert (N : near (opened_state h1 es1 u1 a1 strict f o) (opened_state h1 es1 u1 a2 strict f o)) by repeat split.
  pose proof (near_run _ _ qs N A) as R. destruct (rrun (opened_state h1 es1 u1 a1 strict f o) qs), (rrun (opened_state h1 es1 u1 a2 strict f o) qs). cbn [snd] in *. congruence.
Qed.

(** ** A closed reader *)
Lemma rok_inv {A} s (r : res A) k s' y : rok s r k = (s', y) -> s' = s \/ exists a, r = Ok a /\ k a = (s', y).
Proof. destruct r; cbn [rok]; intros E; [right; eauto|left; congruence|left; congruence|left; congruence]. Qed.
Lemma open_fails s strict f o s' r : reader_open s strict f o = (s', r) -> (forall x, r <> Ok x) -> r_op s' = r_op s.
Proof.
  unfold reader_open. destruct (r_op s) eqn:E0; [intros E _; congruence|]. intros E N.
  apply rok_inv in E as [->|(h & _ & E)]; [assumption|]. apply rok_inv in E as [->|(d & _ & E)]; [assumption|].
  apply rok_inv in E as [->|(a & _ & E)]; [assumption|]. injection E as <- <-. now destruct (N ADone).
Qed.
Lemma open_tracked qs : forall s, r_op (fst (rrun s qs)) = is_open (r_op s) qs (snd (rrun s qs)).
Proof.
  induction qs as [|q qs IH]; intros s; [reflexivity|]. rewrite rrun_cons. destruct (rstep s q) as [s1 r] eqn:E. specialize (IH s1).
  destruct (rrun s1 qs) as [s2 l] eqn:E2. cbn [fst snd is_open] in *. rewrite IH. f_equal.
  destruct q; cbn [rstep] in E; try (destruct (r_op s || _); injection E as <- <-; reflexivity).
  - destruct r.
    + apply reader_open_ok in E as (_ & _ & h & es & u & x & _ & _ & _ & _ & ->). reflexivity.
    + apply open_fails in E; [exact E|discriminate].
    + apply open_fails in E; [exact E|discriminate].
    + apply open_fails in E; [exact E|discriminate].
  - destruct (r_op s) eqn:E0; injection E as <- <-; [reflexivity|assumption].
Qed.
Lemma closed_refuses : forall h q,
  is_open false h (snd (rrun reader0 h)) = false -> (match q with ROpen _ _ _ | RInfo _ | RTransform _ _ _ => False | _ => True end) ->
  rstep (fst (rrun reader0 h)) q = (fst (rrun reader0 h), Throw).
Proof.
  intros h q E Q. pose proof (open_tracked h reader0) as T. cbn [r_op reader0] in T. rewrite E in T.
  destruct q; try contradiction; cbn [rstep unchecked]; rewrite T; reflexivity.
Qed.
Lemma open_refuses_open : forall h strict f o,
  is_open false h (snd (rrun reader0 h)) = true -> rstep (fst (rrun reader0 h)) (ROpen strict f o) = (fst (rrun reader0 h), Throw).
Proof.
  intros h strict f o E. pose proof (open_tracked h reader0) as T. cbn [r_op reader0] in T. rewrite E in T.
  cbn [rstep]. unfold reader_open. now rewrite T.
Qed.
