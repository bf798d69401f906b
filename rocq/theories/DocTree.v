(** Lemmas: editing a node found or created by a path, as a recursive function; what other paths lead to stays; saving and loading. *)
From Coq Require Import String.
From Verif Require Import Base TextModel TextSpec TextProofs XmlModel XmlSpec XmlProofs XmlValues XmlPaths PugiModel PugiSpec PugiProofs PugiTree PugiRound PugiBuild DocModel.
Open Scope Z_scope.

Definition spec := (str * list (str * str))%type.
Fixpoint on_first (p : xml -> bool) (mk : xml) (f : xml -> res xml) (kids : list xml) : res (list xml) :=
  match kids with
  | [] => let* c := f mk in Ok [c]
  | k :: ks => if p k then let* c := f k in Ok (c :: ks) else let* r := on_first p mk f ks in Ok (k :: r)
  end.
Fixpoint put (f : xml -> res xml) (sts : list spec) (n : xml) : res xml :=
  match sts with
  | [] => f n
  | (k, ats) :: sts' => match n with
                        | Elem nm at_ kids => let* ks := on_first (matches k ats) (Elem k ats []) (put f sts') kids in Ok (Elem nm at_ ks)
                        | _ => UB
                        end
  end.
(** the first match at every step *)
Fixpoint follow (sts : list spec) (n : xml) : option xml :=
  match sts with
  | [] => Some n
  | (k, ats) :: sts' => match find (matches k ats) (kids_of n) with Some c => follow sts' c | None => None end
  end.

(** ** the functions of the code *)
Definition edit (p : str) (f : xml -> res xml) (n : xml) : res xml :=
  match get_or_create p n with
  | (n', Ok h) => change_at h f n'
  | (_, Throw) => Throw
  | (_, UB) => UB
  | (_, OutOfFuel) => OutOfFuel
  end.
Lemma write_edit p v n : write p v n = edit p (set_value v) n.
Proof. reflexivity. Qed.
Lemma on_first_place p mk f kids :
  on_first p mk f kids =
  let '(i, kids') := match find_index p kids with Some i => (i, kids) | None => (length kids, kids ++ [mk]) end in
  let* c := f (nth i kids' dummy) in Ok (upd kids' i c).
Proof.
  induction kids as [|k ks IH]; cbn [on_first find_index length app]; [cbn [nth upd]; destruct (f mk); reflexivity|].
  destruct (p k); [reflexivity|]. rewrite IH. destruct (find_index p ks) as [i|]; cbn [nth upd app length];
    match goal with |- bind (bind (f ?x) _) _ = _ => destruct (f x); reflexivity end.
Qed.
Lemma nth_error_upd {A} : forall (l : list A) i a, (i < length l)%nat -> nth_error (upd l i a) i = Some a.
Proof. induction l as [|x l IH]; intros [|i] a H; cbn in *; try lia; [reflexivity|]. apply IH. lia. Qed.
Lemma upd_upd {A} : forall (l : list A) i a b, upd (upd l i a) i b = upd l i b.
Proof. induction l as [|x l IH]; intros [|i] a b; cbn; [reflexivity..|]. now rewrite IH. Qed.
Lemma matches_is_elem k ats c : matches k ats c = true -> is_element c.
Proof. now destruct c. Qed.
Lemma create_put f : forall toks sts n, Forall2 (fun k st => create_spec k = Ok st) toks sts -> is_element n ->
  match create_path toks n with
  | (n', Ok h) => change_at h f n'
  | (_, Throw) => Throw
  | (_, UB) => UB
  | (_, OutOfFuel) => OutOfFuel
  end = put f sts n.
Proof.
  induction toks as [|k ks IH]; intros sts n H E; inversion H as [|? [name ats] ? sts' C H']; subst; [reflexivity|].
  destruct n as [nm at_ kids| |]; try easy. rewrite (create_step _ _ _ _ _ _ _ C). cbn [put]. rewrite on_first_place. unfold place.
  set (ik := match find_index (matches name ats) kids with Some i => _ | None => _ end).
  assert (L : let '(i, kids') := ik in (i < length kids')%nat /\ is_element (nth i kids' dummy)).
  { subst ik. destruct (find_index (matches name ats) kids) as [i|] eqn:F.
    - destruct (find_index_some _ _ _ F) as (c & H1 & H2 & _). split; [apply nth_error_Some; congruence|].
      rewrite (nth_error_nth _ _ dummy H1). now apply matches_is_elem in H2.
    - rewrite app_length. cbn [length]. split; [lia|]. rewrite app_nth2, Nat.sub_diag by lia. exact I. }
  destruct ik as [i kids']. destruct L as (L & X). specialize (IH sts' (nth i kids' dummy) H' X). rewrite <- IH.
  destruct (create_path ks (nth i kids' dummy)) as [c' [h| | |]]; cbn [bind]; try reflexivity. cbn [change_at].
  rewrite (nth_error_upd _ _ _ L). destruct (change_at h f c'); cbn [bind]; try reflexivity. now rewrite upd_upd.
Qed.
Lemma edit_put p f toks sts n : path_tokens p = Ok toks -> Forall2 (fun k st => create_spec k = Ok st) toks sts -> is_element n ->
  edit p f n = put f sts n.
Proof. intros T H E. unfold edit, get_or_create. rewrite T. now apply create_put. Qed.

(** ** one step *)
Lemma on_first_inv p mk f kids r : on_first p mk f kids = Ok r -> exists a c c' b, Forall (fun k => p k = false) a /\ f c = Ok c' /\ r = a ++ c' :: b /\
  ((kids = a ++ c :: b /\ p c = true) \/ (kids = a /\ c = mk /\ b = [])).
Proof.
  revert r. induction kids as [|k ks IH]; intros r H; cbn [on_first] in H.
  - destruct (f mk) as [c'| | |] eqn:F; cbn [bind] in H; try discriminate. injection H as <-. exists [], mk, c', []. repeat split; auto.
  - destruct (p k) eqn:P.
    + destruct (f k) as [c'| | |] eqn:F; cbn [bind] in H; try discriminate. injection H as <-. exists [], k, c', ks. repeat split; auto.
    + destruct (on_first p mk f ks) as [r'| | |]; cbn [bind] in H; try discriminate. injection H as <-.
      destruct (IH r' eq_refl) as (a & c & c' & b & H1 & H2 & -> & H3). exists (k :: a), c, c', b. split; [now constructor|]. split; [exact H2|]. split; [reflexivity|].
      destruct H3 as [[-> X]|(-> & -> & ->)]; [left|right]; auto.
Qed.
Lemma put_inv f k ats sts n n' : put f ((k, ats) :: sts) n = Ok n' -> exists nm at_ kids a c c' b,
  n = Elem nm at_ kids /\ n' = Elem nm at_ (a ++ c' :: b) /\ Forall (fun x => matches k ats x = false) a /\ put f sts c = Ok c' /\
  ((kids = a ++ c :: b /\ matches k ats c = true) \/ (kids = a /\ c = Elem k ats [] /\ b = [])).
Proof.
  cbn [put]. destruct n as [nm at_ kids| |]; try discriminate. intros H.
  destruct (on_first _ _ _ kids) as [ks| | |] eqn:F; cbn [bind] in H; try discriminate. injection H as <-.
  destruct (on_first_inv _ _ _ _ _ F) as (a & c & c' & b & H1 & H2 & -> & H3). exists nm, at_, kids, a, c, c', b. auto.
Qed.
(** names and attributes stay *)
Definition steady (f : xml -> res xml) : Prop := forall a b, f a = Ok b -> kind_of b = kind_of a.
Lemma put_kind f sts n n' : steady f -> put f sts n = Ok n' -> kind_of n' = kind_of n.
Proof.
  intros S H. destruct sts as [|[k ats] sts]; [now apply S|]. apply put_inv in H.
  destruct H as (nm & at_ & kids & a & c & c' & b & -> & -> & _). reflexivity.
Qed.
Lemma matches_kind k ats a b : kind_of a = kind_of b -> matches k ats a = matches k ats b.
Proof. destruct a, b; cbn; intros H; try discriminate; [|reflexivity..]. injection H as -> ->. reflexivity. Qed.
(** a new element has what it was made with *)
Definition distinct (st : spec) : Prop := NoDup (map fst (snd st)).
Lemma matches_new k ats ks : NoDup (map fst ats) -> matches k ats (Elem k ats ks) = true.
Proof.
  intros N. cbn [matches]. rewrite str_eqb_refl. cbn [andb]. apply forallb_forall. intros [k0 v] I.
  assert (G : attr_of ats k0 = Some v); [|now rewrite G, str_eqb_refl].
  induction ats as [|[k1 v1] ats IH]; [easy|]. cbn [map fst] in N. inversion N as [|? ? N1 N2]; subst. cbn [attr_of]. destruct I as [E|I].
  - injection E as -> ->. now rewrite str_eqb_refl.
  - destruct (str_eqb k1 k0) eqn:E; [|now apply IH]. apply str_eqb_eq in E. subst. exfalso. apply N1. apply (in_map fst) in I. exact I.
Qed.

Lemma find_skip (p : xml -> bool) a l : Forall (fun x => p x = false) a -> find p (a ++ l) = find p l.
Proof. induction 1 as [|x a H _ IH]; [reflexivity|]. cbn [app find]. now rewrite H. Qed.
Lemma filter_skip (p : xml -> bool) a l : Forall (fun x => p x = false) a -> filter p (a ++ l) = filter p l.
Proof. induction 1 as [|x a H _ IH]; [reflexivity|]. cbn [app filter]. now rewrite H. Qed.
(** the node is where the path leads *)
Lemma put_same f sts : steady f -> Forall distinct sts -> forall n n', put f sts n = Ok n' ->
  exists c c', follow sts n' = Some c' /\ f c = Ok c' /\ (follow sts n = Some c \/ follow sts n = None /\ sts <> [] /\ kids_of c = []).
Proof.
  intros S. induction sts as [|[k ats] sts IH]; intros D n n' H; [exists n, n'; cbn [follow]; auto|].
  inversion D as [|? ? D1 D2]; subst. pose proof H as H0. apply put_inv in H.
  destruct H as (nm & at_ & kids & a & c & c' & b & -> & -> & A & P & X). pose proof (put_kind f sts c c' S P) as K.
  destruct (IH D2 c c' P) as (d & d' & F1 & F2 & F3). exists d, d'. cbn [follow kids_of]. rewrite find_skip by exact A. cbn [find].
  assert (M : matches k ats c = true) by (destruct X as [[_ M]|(_ & -> & _)]; [exact M|now apply matches_new]).
  rewrite (matches_kind k ats c' c K), M. split; [exact F1|]. split; [exact F2|].
  destruct X as [[-> _]|(-> & -> & ->)].
  - rewrite find_skip by exact A. cbn [find]. rewrite M. destruct F3 as [F3|(F3 & _ & F4)]; [now left|right; repeat split; auto; discriminate].
  - right. assert (N : find (matches k ats) a = None) by (rewrite <- (app_nil_r a), find_skip by exact A; reflexivity). rewrite N.
    split; [reflexivity|]. split; [discriminate|]. destruct F3 as [F3|(_ & _ & F4)]; [|exact F4].
    destruct sts as [|[k2 ats2] sts]; cbn [follow kids_of find] in F3; [now injection F3 as <-|discriminate].
Qed.
(** when the editing goes through *)
Lemma put_total f sts : forall n, is_element n -> (forall c, follow sts n = Some c -> exists c', f c = Ok c') ->
  (forall nm ats, exists c', f (Elem nm ats []) = Ok c') -> exists n', put f sts n = Ok n'.
Proof.
  induction sts as [|[k ats] sts IH]; intros n E H G; [now apply H|]. destruct n as [nm at_ kids| |]; try easy.
  cbn [put follow kids_of] in *. assert (X : exists r, on_first (matches k ats) (Elem k ats []) (put f sts) kids = Ok r).
  { induction kids as [|c ks IHk]; cbn [on_first find] in *.
    - destruct (IH (Elem k ats []) I) as (c' & ->); [|exact G|eexists; reflexivity].
      intros c F. destruct sts as [|[k2 ats2] sts]; cbn in F; [injection F as <-; apply G|discriminate].
    - destruct (matches k ats c) eqn:M.
      + destruct (IH c (matches_is_elem _ _ _ M) H G) as (c' & ->). eexists; reflexivity.
      + destruct (IHk I H) as (r & ->). eexists; reflexivity. }
  destruct X as (r & ->). eexists; reflexivity.
Qed.

(** ** what other paths lead to *)
Definition excl (s q : spec) : Prop := forall c, matches (fst s) (snd s) c = true -> matches (fst q) (snd q) c = false.
Fixpoint separate (sts qs : list spec) : Prop :=
  match sts, qs with s :: sts', q :: qs' => excl s q \/ separate sts' qs' | _, _ => False end.
Lemma put_other f sts : steady f -> Forall distinct sts -> forall qs n n', separate sts qs -> put f sts n = Ok n' ->
  follow qs n' = follow qs n /\ select qs n' = select qs n.
Proof.
  intros S. induction sts as [|[k ats] sts IH]; intros D [|[q qats] qs] n n' X H; try easy. inversion D as [|? ? D1 D2]; subst.
  apply put_inv in H. destruct H as (nm & at_ & kids & a & c & c' & b & -> & -> & A & P & Y). pose proof (put_kind f sts c c' S P) as K.
  assert (M : matches k ats c = true) by (destruct Y as [[_ M]|(_ & -> & _)]; [exact M|now apply matches_new]).
  cbn [follow select kids_of]. pose proof (matches_kind q qats c' c K) as Q.
  assert (G : match find (matches q qats) (a ++ c' :: b) with Some x => follow qs x | None => None end =
              match find (matches q qats) (a ++ c :: b) with Some x => follow qs x | None => None end /\
              flat_map (select qs) (filter (matches q qats) (a ++ c' :: b)) = flat_map (select qs) (filter (matches q qats) (a ++ c :: b))).
  { destruct X as [X|X].
    - specialize (X c M). cbn [fst snd] in X. rewrite X in Q. split.
      + clear -Q X. induction a as [|x a IH]; cbn [app find]; [now rewrite Q, X|]. destruct (matches q qats x); [reflexivity|exact IH].
      + rewrite !filter_app. cbn [filter]. now rewrite Q, X.
    - destruct (IH D2 qs c c' X P) as (I1 & I2). split.
      + clear -Q I1. induction a as [|x a IH]; cbn [app find]; [rewrite Q; destruct (matches q qats c); [exact I1|reflexivity]|]. destruct (matches q qats x); [reflexivity|exact IH].
      + rewrite !filter_app, !flat_map_app. cbn [filter]. rewrite Q. destruct (matches q qats c); cbn [flat_map]; [now rewrite I2|reflexivity]. }
  destruct G as (G1 & G2). destruct Y as [[-> _]|(-> & -> & ->)]; [now split|].
  assert (Z : excl (k, ats) (q, qats) \/ (forall ks, ks = [] -> follow qs (Elem k ats ks) = None /\ select qs (Elem k ats ks) = [])).
  { destruct X as [X|X]; [now left|right]. intros ks ->. destruct qs as [|[q2 qa2] qs]; [destruct sts; easy|]. now split. }
  rewrite G1, G2. rewrite filter_app, flat_map_app. cbn [filter]. destruct (matches q qats (Elem k ats [])) eqn:E.
  - destruct Z as [Z|Z]; [specialize (Z _ M); cbn [fst snd] in Z; congruence|]. destruct (Z [] eq_refl) as (Z1 & Z2). cbn [flat_map]. rewrite Z2, !app_nil_r.
    split; [|reflexivity]. clear -E Z1. induction a as [|x a IH]; cbn [app find]; [now rewrite E|]. destruct (matches q qats x); [reflexivity|exact IH].
  - cbn [flat_map]. rewrite !app_nil_r. split; [|reflexivity]. clear -E. induction a as [|x a IH]; cbn [app find]; [now rewrite E|]. destruct (matches q qats x); [reflexivity|exact IH].
Qed.
(** the first selected one *)
Lemma follow_select sts : forall n c, follow sts n = Some c -> hd_error (select sts n) = Some c.
Proof.
  induction sts as [|[k ats] sts IH]; intros n c H; [exact H|]. cbn [follow select] in *.
  destruct (find (matches k ats) (kids_of n)) as [x|] eqn:F; [|discriminate].
  assert (E : exists l, filter (matches k ats) (kids_of n) = x :: l).
  { clear -F. induction (kids_of n) as [|y l IH]; cbn [find filter] in *; [discriminate|]. destruct (matches k ats y); [injection F as ->; eauto|auto]. }
  destruct E as (l & ->). cbn [flat_map]. specialize (IH x c H). destruct (select sts x); [discriminate|]. exact IH.
Qed.
Lemma names_differ a b : str_eqb a b = false -> forall x y, excl (a, x) (b, y).
Proof.
  intros H x y c. cbn [fst snd]. destruct c as [nm ats ks| |]; cbn [matches]; try discriminate. intros M. apply andb_prop in M. destruct M as (M & _).
  apply str_eqb_eq in M. subst. now rewrite H.
Qed.
Lemma values_differ a b k x y : str_eqb x y = false -> excl (a, [(k, x)]) (b, [(k, y)]).
Proof.
  intros H c. cbn [fst snd]. destruct c as [nm ats ks| |]; cbn [matches forallb]; try discriminate. destruct (attr_of ats k) as [w|]; [|now rewrite andb_comm].
  rewrite !andb_true_r. intros M. apply andb_prop in M. destruct M as (_ & M). apply str_eqb_eq in M. subst. rewrite H. now rewrite andb_comm.
Qed.
Lemma follow_app a : forall b n, follow (a ++ b) n = match follow a n with Some c => follow b c | None => None end.
Proof. induction a as [|[k ats] a IH]; intros b n; [reflexivity|]. cbn [app follow]. destruct (find _ _); [apply IH|reflexivity]. Qed.
Lemma select_app a : forall b n, select (a ++ b) n = flat_map (select b) (select a n).
Proof.
  induction a as [|[k ats] a IH]; intros b n; [cbn [app select flat_map]; now rewrite app_nil_r|]. cbn [app select].
  induction (filter (matches k ats) (kids_of n)) as [|x l IHl]; [reflexivity|]. cbn [flat_map]. rewrite flat_map_app, IH. now f_equal.
Qed.
Definition plainly (names : list str) : list spec := map (fun k => (k, [])) names.
Lemma descend_follow names : forall n, descend names n = follow (plainly names) n.
Proof. induction names as [|k ks IH]; intros n; [reflexivity|]. cbn [plainly map follow descend]. unfold child. destruct (find _ _); [apply IH|reflexivity]. Qed.

(** ** saving and loading *)
Lemma kept_find k ats t : Forall (fun x => matches k ats x = false) (kept t).
Proof. unfold kept. destruct (blank t); repeat constructor. Qed.
Lemma sections_find k ats ps : Forall (fun x => matches k ats x = false) (map (fun p => CData (line_ends p)) ps).
Proof. induction ps; constructor; auto. Qed.
Lemma matches_settle k ats n : matches k ats (settle n) = matches k ats n.
Proof. destruct n; [rewrite settle_elem|..]; reflexivity. Qed.
Lemma filter_settles k ats ks : forall t, filter (matches k ats) (settles t ks) = map settle (filter (matches k ats) ks).
Proof.
  induction ks as [|x ks IH]; intros t; cbn [settles filter map].
  - rewrite <- (app_nil_r (kept t)), filter_skip by apply kept_find. reflexivity.
  - destruct x as [nm at_ kk|s|s].
    + rewrite filter_skip by apply kept_find. cbn [filter]. rewrite matches_settle. destruct (matches k ats _); cbn [map]; now rewrite IH.
    + rewrite IH. reflexivity.
    + rewrite filter_skip by apply kept_find. rewrite filter_skip by apply sections_find. rewrite IH. reflexivity.
Qed.
Lemma find_filter (p : xml -> bool) l : find p l = hd_error (filter p l).
Proof. induction l as [|x l IH]; [reflexivity|]. cbn [find filter]. destruct (p x); [reflexivity|exact IH]. Qed.
Lemma find_settles k ats ks t : find (matches k ats) (settles t ks) = option_map settle (find (matches k ats) ks).
Proof. rewrite !find_filter, filter_settles. now destruct (filter _ ks). Qed.
Lemma kids_settle n : is_element n -> kids_of (settle n) = settles [] (kids_of n).
Proof. destruct n; intros E; try destruct E. now rewrite settle_elem. Qed.
Lemma follow_settle sts : forall n, is_element n -> follow sts (settle n) = option_map settle (follow sts n).
Proof.
  induction sts as [|[k ats] sts IH]; intros n E; [reflexivity|]. cbn [follow]. rewrite (kids_settle n E), find_settles.
  destruct (find (matches k ats) (kids_of n)) as [c|] eqn:F; [|reflexivity]. cbn [option_map]. apply IH. apply find_some in F. destruct F as (_ & F). now apply matches_is_elem in F.
Qed.
Lemma select_settle sts : forall n, is_element n -> select sts (settle n) = map settle (select sts n).
Proof.
  induction sts as [|[k ats] sts IH]; intros n E; [reflexivity|]. cbn [select]. rewrite (kids_settle n E), filter_settles.
  assert (A : Forall is_element (filter (matches k ats) (kids_of n))) by (apply Forall_forall; intros c I; apply filter_In in I; destruct I as (_ & I); now apply (matches_is_elem k ats)).
  induction A as [|c l C _ IHl]; [reflexivity|]. cbn [map flat_map]. rewrite map_app, IH by exact C. now f_equal.
Qed.
(** names *)
Definition named_spec (st : spec) : Prop := proper_name (fst st) /\ Forall attr_named (snd st).
Lemma put_named f sts : (forall a b, named a -> f a = Ok b -> named b) -> Forall named_spec sts -> forall n n', named n -> put f sts n = Ok n' -> named n'.
Proof.
  intros G. induction sts as [|[k ats] sts IH]; intros N n n' H P; [now apply (G n)|]. inversion N as [|? ? [N1 N2] N3]; subst. cbn [fst snd] in *.
  apply put_inv in P. destruct P as (nm & at_ & kids & a & c & c' & b & -> & -> & A & P & Y). apply named_elem in H. destruct H as (H1 & H2 & H3).
  apply named_elem. split; [exact H1|]. split; [exact H2|]. destruct Y as [[-> _]|(-> & -> & ->)].
  - apply Forall_app in H3. destruct H3 as (H3 & H4). inversion H4; subst. apply Forall_app. split; [exact H3|]. constructor; [now apply (IH N3 c)|assumption].
  - apply Forall_app. split; [exact H3|]. constructor; [|constructor]. apply (IH N3 (Elem k ats [])); [|exact P]. apply named_elem. split; [exact N1|]. split; [exact N2|constructor].
Qed.
Lemma set_value_named v a b : chars v -> named a -> set_value v a = Ok b -> named b.
Proof.
  intros V N H. destruct a as [nm ats kids|s|s]; cbn [set_value] in H; try discriminate. destruct (existsb is_elem kids); [discriminate|]. injection H as <-.
  apply named_elem in N. destruct N as (N1 & N2 & N3). apply named_elem. split; [exact N1|]. split; [exact N2|].
  destruct (find_index is_text kids); [now apply Forall_upd|]. apply Forall_app. split; [exact N3|]. now constructor.
Qed.
Lemma set_value_steady v : steady (set_value v).
Proof. intros a b. apply set_value_kind. Qed.
