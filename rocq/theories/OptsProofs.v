(** Compression options as text: proofs. *)
From Coq Require Import String.
From Verif Require Import Base CodesModel TextModel TextProofs XmlModel XmlProofs OptsModel OptsSpec.
Open Scope Z_scope.
Local Notation len := List.length.

(** ** the matcher *)
Inductive mt : re -> str -> list str -> Prop :=
| mt_one p c : p c = true -> mt (One p) [c] []
| mt_many p u : forallb p u = true -> mt (Many p) u []
| mt_seq a b u v cu cv : mt a u cu -> mt b v cv -> mt (Seq a b) (u ++ v) (cu ++ cv)
| mt_maybe0 a : mt (Maybe a) [] []
| mt_maybe1 a u cu : mt a u cu -> mt (Maybe a) u cu
| mt_rep0 a : mt (Rep a) [] []
| mt_rep1 a u v cu cv : u <> [] -> mt a u cu -> mt (Rep a) v cv -> mt (Rep a) (u ++ v) (cu ++ cv)
| mt_group a u cu : mt a u cu -> mt (Group a) u (cu ++ [u]).

Section Match.
  Context {A : Type}.
  Lemma orelse_some (a b : option A) x : orelse a b = Some x -> a = Some x \/ b = Some x.
  Proof using. destruct a; cbn; auto. Qed.
  Lemma orelse_none (a b : option A) : orelse a b = None -> a = None /\ b = None.
  Proof using. destruct a; cbn; [discriminate|auto]. Qed.
  Lemma many_sound p s : forall (k : str -> option A) x, many p s k = Some x -> exists u v, s = u ++ v /\ forallb p u = true /\ k v = Some x.
  Proof using.
    induction s as [|c s IH]; cbn [many]; intros k x H; [exists [], []; auto|].
    destruct (p c) eqn:P; [|exists [], (c :: s); auto]. destruct (orelse_some _ _ _ H) as [E|E]; [|exists [], (c :: s); auto].
    destruct (IH _ _ E) as (u & v & -> & F & K). exists (c :: u), v. cbn [forallb app]. rewrite P. auto.
  Qed.
  Lemma many_complete p u : forall v (k : str -> option A), forallb p u = true -> k v <> None -> many p (u ++ v) k <> None.
  Proof using.
    induction u as [|c u IH]; intros v k F K.
    - cbn [app]. destruct v as [|c v]; cbn [many]; [exact K|]. destruct (p c); [|exact K]. intros E. now apply orelse_none in E as [_ E].
    - cbn [forallb] in F. apply andb_true_iff in F as [P F]. cbn [app many]. rewrite P. intros E. apply orelse_none in E as [E _]. exact (IH v k F K E).
  Qed.
  Definition sound_at (r : re) : Prop := forall s cs (k : cont) (x : A), rmatch r s cs k = Some x ->
    exists u v cu, s = u ++ v /\ mt r u cu /\ k v (cs ++ cu) = Some x.
  Definition complete_at (r : re) : Prop := forall u cu, mt r u cu -> forall v cs (k : @cont A), k v (cs ++ cu) <> None -> rmatch r (u ++ v) cs k <> None.
  Lemma rep_sound a : sound_at a -> forall n s cs (k : cont) (x : A), rep n (rmatch a) s cs k = Some x ->
    exists u v cu, s = u ++ v /\ mt (Rep a) u cu /\ k v (cs ++ cu) = Some x.
  Proof using.
    intros S. induction n as [|n IH]; intros s cs k x; cbn [rep].
    - intros H. exists [], s, []. rewrite app_nil_r. repeat split; [constructor|exact H].
    - intros H. destruct (orelse_some _ _ _ H) as [E|E]; [|exists [], s, []; rewrite app_nil_r; repeat split; [constructor|exact E]].
      destruct (S _ _ _ _ E) as (u & v & cu & -> & M & K). destruct (Nat.ltb_spec (len v) (len (u ++ v))) as [L|L]; [|discriminate].
      destruct (IH _ _ _ _ K) as (u' & v' & cu' & -> & M' & K'). exists (u ++ u'), v', (cu ++ cu'). rewrite !app_assoc in *. split; [reflexivity|].
      split; [|exact K']. apply mt_rep1; try assumption. intros ->. cbn [app len] in L. lia.
  Qed.
  Lemma rmatch_sound r : sound_at r.
  Proof using.
    induction r as [p|p|a IHa b IHb|a IHa|a IHa|a IHa]; intros s cs k x; cbn [rmatch].
    - destruct s as [|c s]; [discriminate|]. destruct (p c) eqn:P; [|discriminate]. intros K. exists [c], s, []. rewrite app_nil_r. repeat split; [now constructor|exact K].
    - intros H. destruct (many_sound _ _ _ _ H) as (u & v & -> & F & K). exists u, v, []. rewrite app_nil_r. repeat split; [now constructor|exact K].
    - intros H. destruct (IHa _ _ _ _ H) as (u & v & cu & -> & M & K). destruct (IHb _ _ _ _ K) as (u' & v' & cu' & -> & M' & K').
      exists (u ++ u'), v', (cu ++ cu'). rewrite !app_assoc in *. repeat split; [now constructor|exact K'].
    - intros H. destruct (orelse_some _ _ _ H) as [E|E]; [|exists [], s, []; rewrite app_nil_r; repeat split; [constructor|exact E]].
      destruct (IHa _ _ _ _ E) as (u & v & cu & -> & M & K). exists u, v, cu. repeat split; [now constructor|exact K].
    - apply (rep_sound a IHa).
    - intros H. destruct (IHa _ _ _ _ H) as (u & v & cu & -> & M & K). exists u, v, (cu ++ [u]). split; [reflexivity|]. split; [now constructor|].
      rewrite app_length in K. replace (len u + len v - len v)%nat with (len u) in K by lia. rewrite firstn_app, firstn_all, Nat.sub_diag in K.
      cbn [firstn] in K. rewrite app_nil_r in K. now rewrite app_assoc.
  Qed.
  Lemma rep_complete a : complete_at a -> forall u cu, mt (Rep a) u cu -> forall n v cs (k : @cont A), (len u <= n)%nat -> k v (cs ++ cu) <> None -> rep n (rmatch a) (u ++ v) cs k <> None.
  Proof using.
    intros C u cu M. remember (Rep a) as r eqn:E. induction M as [ | | | | |b|b u w cu cw N M _ M' IH| ]; try discriminate.
    - intros n v cs k _ K. rewrite app_nil_r in K. cbn [app]. destruct n as [|n]; cbn [rep]; [exact K|]. intros X. now apply orelse_none in X as [_ X].
    - injection E as ->. intros n v cs k L K. rewrite app_length in L. assert (0 < len u)%nat by (destruct u; [contradiction|cbn [len]; lia]).
      destruct n as [|n]; [lia|]. cbn [rep]. intros X. apply orelse_none in X as [X _]. revert X. rewrite <- app_assoc. apply (C u cu M).
      destruct (Nat.ltb_spec (len (w ++ v)) (len (u ++ w ++ v))) as [B|B]; [|rewrite !app_length in B; lia]. apply IH; [reflexivity|lia|]. now rewrite <- app_assoc.
  Qed.
  Lemma rmatch_complete r : complete_at r.
  Proof using.
    induction r as [p|p|a IHa b IHb|a IHa|a IHa|a IHa]; intros u cu M v cs k K; cbn [rmatch].
    - inversion M; subst. cbn [app]. rewrite app_nil_r in K. now rewrite H0.
    - inversion M; subst. rewrite app_nil_r in K. now apply many_complete.
    - inversion M; subst. rewrite <- app_assoc. eapply IHa; [eassumption|]. eapply IHb; [eassumption|]. now rewrite <- app_assoc.
    - inversion M; subst.
      + cbn [app]. rewrite app_nil_r in K. intros X. now apply orelse_none in X as [_ X].
      + intros X. apply orelse_none in X as [X _]. revert X. eapply IHa; eassumption.
    - apply (rep_complete a IHa u cu M); [rewrite app_length; lia|exact K].
    - inversion M; subst. eapply IHa; [eassumption|]. rewrite app_length. replace (len u + len v - len v)%nat with (len u) by lia.
      rewrite firstn_app, firstn_all, Nat.sub_diag. cbn [firstn]. rewrite app_nil_r. now rewrite <- app_assoc.
  Qed.
End Match.
Lemma match_sound r s cs : regex_match r s = Some cs -> mt r s cs.
Proof.
  unfold regex_match. intros H. destruct (rmatch_sound r _ _ _ _ H) as (u & v & cu & -> & M & K). destruct v; [|discriminate]. injection K as <-. now rewrite app_nil_r.
Qed.
Lemma match_complete r s cs : mt r s cs -> exists cs', regex_match r s = Some cs'.
Proof.
  intros M. destruct (regex_match r s) as [c|] eqn:E; [now exists c|]. exfalso. revert E. unfold regex_match. rewrite <- (app_nil_r s).
  apply (rmatch_complete r s cs M). discriminate.
Qed.

(** ** characters *)
Lemma is_space_spec c : is_space c = true <-> space_char c.
Proof. unfold is_space, space_char. lia. Qed.
Lemma is_alnum_spec c : is_alnum c = true <-> alnum_char c.
Proof. unfold is_alnum, is_letter, is_digit, alnum_char. lia. Qed.
Lemma is_val_spec c : is_val c = true <-> alnum_char c \/ c = 46 \/ c = 43 \/ c = 45.
Proof. unfold is_val. rewrite <- is_alnum_spec. destruct (is_alnum c); cbn [orb]; lia. Qed.
Lemma blank_spec s : forallb is_space s = true <-> blank s.
Proof. unfold blank. rewrite forallb_forall, Forall_forall. setoid_rewrite is_space_spec. reflexivity. Qed.
Lemma name_spec s : forallb is_alnum s = true <-> name s.
Proof. unfold name. rewrite forallb_forall, Forall_forall. setoid_rewrite is_alnum_spec. reflexivity. Qed.
Lemma value_spec s : forallb is_val s = true <-> value s.
Proof. unfold value. rewrite forallb_forall, Forall_forall. setoid_rewrite is_val_spec. reflexivity. Qed.

Lemma mt_sp u cu : mt sp u cu <-> blank u /\ cu = [].
Proof. unfold sp. split; [intros M; inversion M; subst; split; [now apply blank_spec|reflexivity]|]. intros [B ->]. constructor. now apply blank_spec. Qed.
Lemma mt_ch x u cu : mt (ch x) u cu <-> u = [x] /\ cu = [].
Proof. unfold ch. split; [intros M; inversion M; subst; split; [f_equal; lia|reflexivity]|]. intros [-> ->]. constructor. lia. Qed.
Lemma mt_name u cu : mt (Many is_alnum) u cu <-> name u /\ cu = [].
Proof. split; [intros M; inversion M; subst; split; [now apply name_spec|reflexivity]|]. intros [B ->]. constructor. now apply name_spec. Qed.
Lemma mt_value u cu : mt (Many is_val) u cu <-> value u /\ cu = [].
Proof. split; [intros M; inversion M; subst; split; [now apply value_spec|reflexivity]|]. intros [B ->]. constructor. now apply value_spec. Qed.
Lemma mt_Seq a b s cs : mt (Seq a b) s cs <-> exists u v cu cv, s = u ++ v /\ cs = cu ++ cv /\ mt a u cu /\ mt b v cv.
Proof. split; [intros M; inversion M; subst; eauto 10|]. intros (u & v & cu & cv & -> & -> & M & M'). now constructor. Qed.
Lemma mt_Group a s cs : mt (Group a) s cs <-> exists cu, cs = cu ++ [s] /\ mt a s cu.
Proof. split; [intros M; inversion M; subst; eauto|]. intros (cu & -> & M). now constructor. Qed.

(** ** one pair *)
Lemma pair_sound s cs : mt re_pair s cs -> exists k v, cs = [k; v] /\ spelled (k, v) s.
Proof.
  unfold re_pair. repeat (setoid_rewrite mt_Seq || setoid_rewrite mt_Group || setoid_rewrite mt_sp || setoid_rewrite mt_ch || setoid_rewrite mt_name || setoid_rewrite mt_value).
  intros (a & r1 & c1 & c1' & -> & -> & [A ->] & k & r2 & c2 & c2' & -> & -> & (c2'' & -> & K & ->) & b & r3 & c3 & c3' & -> & -> & [B ->] &
    e & r4 & c4 & c4' & -> & -> & [-> ->] & c & r5 & c5 & c5' & -> & -> & [C ->] & v & d & c6 & c6' & -> & -> & (c6'' & -> & V & ->) & [D ->]).
  exists k, v. split; [reflexivity|]. split; [exact K|]. split; [exact V|]. exists a, b, c, d. auto 10.
Qed.
Lemma pair_complete kv s : spelled kv s -> mt re_pair s [fst kv; snd kv].
Proof.
  intros (K & V & a & b & c & d & A & B & C & D & ->). destruct kv as [k v]. cbn [fst snd] in *.
  change [k; v] with ([] ++ ([] ++ [k]) ++ [] ++ [] ++ [] ++ ([] ++ [v]) ++ ([] : list str)). unfold re_pair.
  repeat (apply mt_seq); try (apply mt_sp; auto); try (apply mt_ch; auto); try (apply mt_group); try (apply mt_name; auto); try (apply mt_value; auto).
Qed.

Definition solid (s : str) : str := filter (fun c => negb (is_space c)) s.
Lemma solid_app a b : solid (a ++ b) = solid a ++ solid b.
Proof. apply filter_app. Qed.
Lemma solid_blank s : blank s -> solid s = [].
Proof. unfold blank, solid. induction 1 as [|c s H _ IH]; [reflexivity|]. cbn [filter]. apply is_space_spec in H. rewrite H. exact IH. Qed.
Lemma solid_value s : value s -> solid s = s.
Proof.
  unfold value, solid. induction 1 as [|c s H _ IH]; [reflexivity|]. cbn [filter]. replace (is_space c) with false; [cbn [negb]; now rewrite IH|].
  symmetry. apply not_true_iff_false. intros E. apply is_space_spec in E. unfold alnum_char, space_char in *. lia.
Qed.
Lemma name_value s : name s -> value s.
Proof. unfold name, value. apply Forall_impl. auto. Qed.
Lemma solid_name s : name s -> solid s = s.
Proof. intros H. apply solid_value, name_value, H. Qed.

(** a separator which occurs in neither part *)
Lemma sep_unique (x : Z) : forall a b a' b', ~ In x a -> ~ In x a' -> a ++ x :: b = a' ++ x :: b' -> a = a' /\ b = b'.
Proof.
  induction a as [|c a IH]; intros b [|c' a'] b' N N' E; cbn [app] in E.
  - injection E as <-. auto.
  - injection E as -> _. exfalso. apply N'. now left.
  - injection E as -> _. exfalso. apply N. now left.
  - injection E as <- E. destruct (IH b a' b') as [-> ->]; [intros X; apply N; now right|intros X; apply N'; now right|exact E|auto].
Qed.
Lemma blank_not x s : ~ space_char x -> blank s -> ~ In x s.
Proof. unfold blank. rewrite Forall_forall. intros N H I. exact (N (H x I)). Qed.
Lemma name_not x s : ~ alnum_char x -> name s -> ~ In x s.
Proof. unfold name. rewrite Forall_forall. intros N H I. exact (N (H x I)). Qed.
Lemma value_not x s : ~ (alnum_char x \/ x = 46 \/ x = 43 \/ x = 45) -> value s -> ~ In x s.
Proof. unfold value. rewrite Forall_forall. intros N H I. exact (N (H x I)). Qed.
Lemma not_app (x : Z) a b : ~ In x a -> ~ In x b -> ~ In x (a ++ b).
Proof. rewrite in_app_iff. tauto. Qed.
Lemma spelled_unique kv kv' s : spelled kv s -> spelled kv' s -> kv = kv'.
Proof.
  intros (K & V & a & b & c & d & A & B & C & D & E) (K' & V' & a' & b' & c' & d' & A' & B' & C' & D' & E').
  destruct kv as [k v], kv' as [k' v']. cbn [fst snd] in *. rewrite E in E'. clear E.
  assert (X : (a ++ k ++ b) ++ 61 :: (c ++ v ++ d) = (a' ++ k' ++ b') ++ 61 :: (c' ++ v' ++ d')) by (rewrite <- !app_assoc; exact E').
  apply sep_unique in X; try (repeat apply not_app; (apply blank_not; [unfold space_char; lia|assumption]) || (apply name_not; [unfold alnum_char; lia|assumption])).
  destruct X as [X Y]. apply (f_equal solid) in X, Y. rewrite !solid_app, (solid_blank a), (solid_blank b), (solid_blank a'), (solid_blank b'), (solid_name k), (solid_name k'), !app_nil_r in X by assumption.
  rewrite !solid_app, (solid_blank c), (solid_blank d), (solid_blank c'), (solid_blank d'), (solid_value v), (solid_value v'), !app_nil_r in Y by assumption. cbn [app] in X, Y. congruence.
Qed.
Lemma pair_match s kv : spelled kv s -> regex_match re_pair s = Some [fst kv; snd kv].
Proof.
  intros S. destruct (match_complete _ _ _ (pair_complete _ _ S)) as (cs & E). pose proof (pair_sound _ _ (match_sound _ _ _ E)) as (k & v & -> & S').
  rewrite (spelled_unique _ _ _ S S'). exact E.
Qed.
Lemma pair_no_match s : (forall kv, ~ spelled kv s) -> regex_match re_pair s = None.
Proof.
  intros N. destruct (regex_match re_pair s) as [cs|] eqn:E; [|reflexivity]. destruct (pair_sound _ _ (match_sound _ _ _ E)) as (k & v & _ & S). now apply N in S.
Qed.
Lemma blank_no_pair s : blank s -> forall kv, ~ spelled kv s.
Proof.
  intros B kv (_ & _ & a & b & c & d & _ & _ & _ & _ & ->). apply (blank_not 61) in B; [|unfold space_char; lia]. apply B. rewrite !in_app_iff. cbn. tauto.
Qed.

(** ** all pairs *)
Lemma parts_from_app u : forall cur v, ~ In 59 u -> parts_from cur (u ++ v) = parts_from (cur ++ u) v.
Proof.
  induction u as [|c u IH]; intros cur v N; [now rewrite app_nil_r|]. cbn [app parts_from]. replace (c =? 59) with false.
  - rewrite IH; [now rewrite <- app_assoc|]. intros X. apply N. now right.
  - symmetry. apply Z.eqb_neq. intros ->. apply N. now left.
Qed.
Lemma getline_spec parts tail : Forall (fun p => ~ In 59 p) parts -> ~ In 59 tail ->
  getline_parts (concat (map (fun p => p ++ [59]) parts) ++ tail) = parts ++ (match tail with [] => [] | _ => [tail] end).
Proof.
  intros F N. unfold getline_parts. induction F as [|p parts H _ IH].
  - cbn [map concat app]. rewrite <- (app_nil_r tail) at 1. rewrite parts_from_app by exact N. cbn [app parts_from]. reflexivity.
  - cbn [map concat]. rewrite <- !app_assoc. rewrite parts_from_app by exact H. cbn [app parts_from]. now rewrite IH.
Qed.
Lemma spelled_no_sep kv s : spelled kv s -> ~ In 59 s.
Proof.
  intros (K & V & a & b & c & d & A & B & C & D & ->). repeat apply not_app; try (apply blank_not; [unfold space_char; lia|assumption]).
  - apply name_not; [unfold alnum_char; lia|assumption].
  - cbn. lia.
  - apply value_not; [unfold alnum_char; lia|assumption].
Qed.
Lemma spelled_front kv s a : blank a -> spelled kv s -> spelled kv (a ++ s).
Proof.
  intros A (K & V & a' & b & c & d & A' & B & C & D & ->). split; [exact K|]. split; [exact V|]. exists (a ++ a'), b, c, d.
  split; [now apply Forall_app|]. rewrite <- app_assoc. auto.
Qed.
Lemma spelled_back kv s a : blank a -> spelled kv s -> spelled kv (s ++ a).
Proof.
  intros A (K & V & a' & b & c & d & A' & B & C & D & ->). split; [exact K|]. split; [exact V|]. exists a', b, c, (d ++ a).
  split; [exact A'|]. split; [exact B|]. split; [exact C|]. split; [now apply Forall_app|]. rewrite <- !app_assoc. reflexivity.
Qed.

(** what the list of pairs does *)
Fixpoint put_items (p : params) (l : list (str * str)) : option params :=
  match l with
  | [] => Some p
  | kv :: r => match put_pair p (fst kv) (snd kv) with Some p' => put_items p' r | None => None end
  end.
Lemma put_items_app l : forall p l', put_items p (l ++ l') = match put_items p l with Some p' => put_items p' l' | None => None end.
Proof. induction l as [|kv l IH]; intros p l'; [reflexivity|]. cbn [app put_items]. destruct (put_pair _ _ _); [apply IH|reflexivity]. Qed.
Lemma put_parts_spelled items parts : Forall2 spelled items parts -> forall p rest, put_parts p (parts ++ rest) =
  match put_items p items with Some p' => put_parts p' rest | None => None end.
Proof.
  induction 1 as [|kv s items parts H _ IH]; intros p rest; [reflexivity|]. cbn [app put_parts put_items]. rewrite (pair_match _ _ H).
  destruct (put_pair _ _ _); [apply IH|reflexivity].
Qed.
(** the parameters as a text: spelled pairs, each with a semicolon, and a rest *)
Definition body (t : str) (items : list (str * str)) : Prop :=
  exists parts tail front, Forall2 spelled front parts /\ t = concat (map (fun p => p ++ [59]) parts) ++ tail /\
    (blank tail /\ items = front \/ exists kv, spelled kv tail /\ items = front ++ [kv]).
Lemma tail_no_sep tail front items : (blank tail /\ items = front \/ exists kv, spelled kv tail /\ items = front ++ [kv]) -> ~ In 59 tail.
Proof. intros [[B _]|(kv & S & _)]; [apply blank_not; [unfold space_char; lia|exact B]|exact (spelled_no_sep _ _ S)]. Qed.
Lemma parts_no_sep front parts : Forall2 spelled front parts -> Forall (fun p => ~ In 59 p) parts.
Proof. induction 1; constructor; [eapply spelled_no_sep; eassumption|assumption]. Qed.
Lemma body_puts t items p : body t items -> put_parts p (getline_parts t) = put_items p items.
Proof.
  intros (parts & tail & front & F & -> & T). rewrite getline_spec; [|exact (parts_no_sep _ _ F)|exact (tail_no_sep _ _ _ T)].
  rewrite (put_parts_spelled _ _ F). destruct T as [[B ->]|(kv & S & ->)].
  - destruct (put_items p front) as [q|]; [|reflexivity]. destruct tail as [|c tail]; [reflexivity|]. cbn [put_parts]. rewrite pair_no_match; [reflexivity|now apply blank_no_pair].
  - rewrite put_items_app. destruct (put_items p front) as [q|]; [|reflexivity]. destruct tail as [|c tail].
    + exfalso. destruct S as (_ & _ & a & b & c & d & _ & _ & _ & _ & E). apply (f_equal (@List.length Z)) in E. rewrite !app_length in E. cbn [List.length] in E. lia.
    + cbn [put_parts put_items]. rewrite (pair_match _ _ S). now destruct (put_pair _ _ _).
Qed.
Lemma concat_tail_unique parts : forall tail parts' tail', Forall (fun p => ~ In 59 p) parts -> Forall (fun p => ~ In 59 p) parts' -> ~ In 59 tail -> ~ In 59 tail' ->
  concat (map (fun p => p ++ [59]) parts) ++ tail = concat (map (fun p => p ++ [59]) parts') ++ tail' -> parts = parts' /\ tail = tail'.
Proof.
  induction parts as [|p parts IH]; intros tail [|p' parts'] tail' F F' N N' E; cbn [map concat app] in E.
  - auto.
  - exfalso. apply N. rewrite E. rewrite <- !app_assoc. rewrite in_app_iff. right. now left.
  - exfalso. apply N'. rewrite <- E. rewrite <- !app_assoc. rewrite in_app_iff. right. now left.
  - rewrite <- !app_assoc in E. inversion F; inversion F'; subst. cbn [app] in E. apply sep_unique in E; try assumption. destruct E as [-> E].
    destruct (IH tail parts' tail') as [-> ->]; auto.
Qed.
Lemma Forall2_spelled_unique front parts : Forall2 spelled front parts -> forall front', Forall2 spelled front' parts -> front = front'.
Proof. induction 1 as [|kv s f p H _ IH]; intros f' H'; inversion H'; subst; [reflexivity|]. f_equal; [eapply spelled_unique; eassumption|now apply IH]. Qed.
Lemma body_unique t items items' : body t items -> body t items' -> items = items'.
Proof.
  intros (parts & tail & front & F & -> & T) (parts' & tail' & front' & F' & E & T').
  apply concat_tail_unique in E; try (eapply parts_no_sep; eassumption); try (eapply tail_no_sep; eassumption). destruct E as [-> ->].
  pose proof (Forall2_spelled_unique _ _ F _ F') as <-. destruct T as [[B ->]|(kv & S & ->)], T' as [[B' ->]|(kv' & S' & ->)]; try reflexivity.
  - exfalso. exact (blank_no_pair _ B _ S').
  - exfalso. exact (blank_no_pair _ B' _ S).
  - now rewrite (spelled_unique _ _ _ S S').
Qed.
Lemma body_front a t items : blank a -> body t items -> body (a ++ t) items.
Proof.
  intros A (parts & tail & front & F & -> & T). destruct F as [|kv s front parts H F].
  - cbn [map concat app]. exists [], (a ++ tail), []. split; [constructor|]. split; [reflexivity|]. destruct T as [[B ->]|(kv & S & ->)].
    + left. split; [now apply Forall_app|reflexivity].
    + right. exists kv. split; [now apply spelled_front|reflexivity].
  - exists ((a ++ s) :: parts), tail, (kv :: front). split; [constructor; [now apply spelled_front|exact F]|]. split; [cbn [map concat]; now rewrite <- !app_assoc|exact T].
Qed.
Lemma body_back a t items : blank a -> body t items -> body (t ++ a) items.
Proof.
  intros A (parts & tail & front & F & -> & T). exists parts, (tail ++ a), front. split; [exact F|]. split; [now rewrite <- app_assoc|].
  destruct T as [[B ->]|(kv & S & ->)]; [left; split; [now apply Forall_app|reflexivity]|right; exists kv; split; [now apply spelled_back|reflexivity]].
Qed.

(** ** the whole text *)
Lemma item_body u cu : mt (re_item_body (Seq sp (ch 59))) u cu -> cu = [] /\ exists kv s, spelled kv s /\ u = s ++ [59].
Proof.
  unfold re_item_body. repeat (setoid_rewrite mt_Seq || setoid_rewrite mt_sp || setoid_rewrite mt_ch || setoid_rewrite mt_name || setoid_rewrite mt_value).
  intros (a & r1 & c1 & c1' & -> & -> & [A ->] & k & r2 & c2 & c2' & -> & -> & [K ->] & b & r3 & c3 & c3' & -> & -> & [B ->] &
    e & r4 & c4 & c4' & -> & -> & [-> ->] & c & r5 & c5 & c5' & -> & -> & [C ->] & v & r6 & c6 & c6' & -> & -> & [V ->] & d & z & c7 & c7' & -> & -> & [D ->] & [-> ->]).
  split; [reflexivity|]. exists (k, v), (a ++ k ++ b ++ [61] ++ c ++ v ++ d). split; [|now rewrite <- !app_assoc].
  split; [exact K|]. split; [exact V|]. exists a, b, c, d. auto 10.
Qed.
Lemma body_item kv s : spelled kv s -> mt (re_item_body (Seq sp (ch 59))) (s ++ [59]) [].
Proof.
  intros (K & V & a & b & c & d & A & B & C & D & ->). destruct kv as [k v]. cbn [fst snd] in *. rewrite <- !app_assoc. unfold re_item_body.
  change (@nil str) with ([] ++ [] ++ [] ++ [] ++ [] ++ [] ++ [] ++ ([] : list str)).
  repeat (apply mt_seq); try (apply mt_sp; auto); try (apply mt_ch; auto); try (apply mt_name; auto); try (apply mt_value; auto).
Qed.
Lemma last_body u cu : mt re_last u cu -> cu = [] /\ exists kv, spelled kv u.
Proof.
  unfold re_last. repeat (setoid_rewrite mt_Seq || setoid_rewrite mt_sp || setoid_rewrite mt_ch || setoid_rewrite mt_name || setoid_rewrite mt_value).
  intros (a & r1 & c1 & c1' & -> & -> & [A ->] & k & r2 & c2 & c2' & -> & -> & [K ->] & b & r3 & c3 & c3' & -> & -> & [B ->] &
    e & r4 & c4 & c4' & -> & -> & [-> ->] & c & v & c5 & c5' & -> & -> & [C ->] & [V ->]).
  split; [reflexivity|]. exists (k, v). split; [exact K|]. split; [exact V|]. exists a, b, c, []. rewrite app_nil_r. repeat split; try assumption. constructor.
Qed.
(** a spelled pair without the white space behind it *)
Lemma body_last kv s : spelled kv s -> exists u d, s = u ++ d /\ blank d /\ mt re_last u [].
Proof.
  intros (K & V & a & b & c & d & A & B & C & D & ->). destruct kv as [k v]. cbn [fst snd] in *.
  exists (a ++ k ++ b ++ [61] ++ c ++ v), d. split; [now rewrite <- !app_assoc|]. split; [exact D|]. unfold re_last.
  change (@nil str) with ([] ++ [] ++ [] ++ [] ++ [] ++ ([] : list str)).
  repeat (apply mt_seq); try (apply mt_sp; auto); try (apply mt_ch; auto); try (apply mt_name; auto); try (apply mt_value; auto).
Qed.
Lemma rep_items u cu : mt (Rep (re_item_body (Seq sp (ch 59)))) u cu -> cu = [] /\ exists front parts, Forall2 spelled front parts /\ u = concat (map (fun p => p ++ [59]) parts).
Proof.
  intros M. remember (Rep _) as r eqn:E. induction M as [ | | | | |b|b u w cu cw N M _ M' IH| ]; try discriminate.
  - split; [reflexivity|]. exists [], []. split; [constructor|reflexivity].
  - injection E as ->. destruct (item_body _ _ M) as (-> & kv & s & S & ->). destruct (IH eq_refl) as (-> & f & p & F & ->). split; [reflexivity|].
    exists (kv :: f), (s :: p). split; [now constructor|reflexivity].
Qed.
Lemma items_rep front parts : Forall2 spelled front parts -> mt (Rep (re_item_body (Seq sp (ch 59)))) (concat (map (fun p => p ++ [59]) parts)) [].
Proof.
  induction 1 as [|kv s f p S _ IH]; [constructor|]. cbn [map concat]. change (@nil str) with ([] ++ ([] : list str)). apply mt_rep1; [|exact (body_item _ _ S)|exact IH].
  destruct s; discriminate.
Qed.
Lemma options_sound s cs : mt re_options s cs -> exists m ps a b c d items, cs = [m; ps] /\ name m /\ m <> [] /\ blank a /\ blank b /\ blank c /\ blank d /\
  s = a ++ m ++ b ++ [58] ++ c ++ ps ++ d /\ body ps items.
Proof.
  unfold re_options. rewrite mt_Seq. intros (a & r1 & c1 & c1' & -> & -> & M1 & H). apply mt_sp in M1 as [A ->].
  rewrite mt_Seq in H. destruct H as (m & r2 & c2 & c2' & -> & -> & M2 & H). apply mt_Group in M2 as (c2'' & -> & M2). rewrite mt_Seq in M2.
  destruct M2 as (m1 & m2 & q1 & q2 & -> & -> & M3 & M4). apply mt_name in M4 as [M4 ->]. inversion M3 as [? y P| | | | | | | ]; subst. clear M3.
  rewrite mt_Seq in H. destruct H as (b & r3 & c3 & c3' & -> & -> & M5 & H). apply mt_sp in M5 as [B ->].
  rewrite mt_Seq in H. destruct H as (e & r4 & c4 & c4' & -> & -> & M6 & H). apply mt_ch in M6 as [-> ->].
  rewrite mt_Seq in H. destruct H as (c & r5 & c5 & c5' & -> & -> & M7 & H). apply mt_sp in M7 as [C ->].
  rewrite mt_Seq in H. destruct H as (ps & d & c6 & c6' & -> & -> & M8 & M9). apply mt_sp in M9 as [D ->].
  apply mt_Group in M8 as (c8 & -> & M8). rewrite mt_Seq in M8. destruct M8 as (u & v & cu & cv & -> & -> & MU & MV).
  destruct (rep_items _ _ MU) as (-> & f & p & F & ->).
  inversion MV as [ | | | |? ? ? ML| | | ]; subst.
  - exists ([y] ++ m2), (concat (map (fun p => p ++ [59]) p) ++ []), a, b, c, d, f.
    split; [reflexivity|]. split; [constructor; [now apply is_alnum_spec|exact M4]|]. split; [discriminate|]. do 4 (split; [assumption|]). split; [reflexivity|].
    exists p, [], f. split; [exact F|]. split; [reflexivity|]. left. split; [constructor|reflexivity].
  - destruct (last_body _ _ ML) as (-> & kv & S). exists ([y] ++ m2), (concat (map (fun p => p ++ [59]) p) ++ v), a, b, c, d, (f ++ [kv]).
    split; [reflexivity|]. split; [constructor; [now apply is_alnum_spec|exact M4]|]. split; [discriminate|]. do 4 (split; [assumption|]). split; [reflexivity|].
    exists p, v, f. split; [exact F|]. split; [reflexivity|]. right. now exists kv.
Qed.
Lemma options_complete s m items : options_text s m items -> exists cs, mt re_options s cs.
Proof.
  intros (N & NN & a & b & parts & tail & front & A & B & F & -> & T). unfold re_options.
  assert (G : exists ps d, tail = ps ++ d /\ blank d /\ mt (Maybe re_last) ps []).
  { destruct T as [[BT _]|(kv & S & _)]; [exists [], tail; repeat split; [exact BT|constructor]|]. destruct (body_last _ _ S) as (u & d & -> & D & M). exists u, d. repeat split; [exact D|now constructor]. }
  destruct G as (ps & d & -> & D & M). destruct m as [|x m]; [contradiction|]. inversion N; subst.
  eexists. apply mt_seq; [apply mt_sp; split; [exact A|reflexivity]|].
  apply mt_seq; [apply mt_group; change (x :: m) with ([x] ++ m); apply mt_seq; [constructor; now apply is_alnum_spec|apply mt_name; split; [assumption|reflexivity]]|].
  apply mt_seq; [apply mt_sp; split; [exact B|reflexivity]|]. apply mt_seq; [apply mt_ch; split; reflexivity|].
  change (concat (map (fun p => p ++ [59]) parts) ++ ps ++ d) with ([] ++ concat (map (fun p => p ++ [59]) parts) ++ ps ++ d).
  apply mt_seq; [apply mt_sp; split; [constructor|reflexivity]|]. rewrite app_assoc.
  apply mt_seq; [apply mt_group; apply mt_seq; [exact (items_rep _ _ F)|exact M]|apply mt_sp; split; [exact D|reflexivity]].
Qed.

(** the text in terms of method and parameters *)
Lemma text_body s m items : options_text s m items <-> name m /\ m <> [] /\ exists a b t, blank a /\ blank b /\ s = a ++ m ++ b ++ [58] ++ t /\ body t items.
Proof.
  split.
  - intros (N & NN & a & b & parts & tail & front & A & B & F & E & T). split; [exact N|]. split; [exact NN|]. exists a, b, (concat (map (fun p => p ++ [59]) parts) ++ tail).
    split; [exact A|]. split; [exact B|]. split; [exact E|]. exists parts, tail, front. auto.
  - intros (N & NN & a & b & t & A & B & E & (parts & tail & front & F & Et & T)). split; [exact N|]. split; [exact NN|]. exists a, b, parts, tail, front. subst t. auto 10.
Qed.
Theorem match_text s m items : options_text s m items -> exists ps, regex_match re_options s = Some [m; ps] /\ body ps items.
Proof.
  intros H. destruct (options_complete _ _ _ H) as (cs & M). destruct (match_complete _ _ _ M) as (cs' & E). exists (nth 1 cs' []).
  destruct (options_sound _ _ (match_sound _ _ _ E)) as (m' & ps & a' & b' & c' & d' & items' & -> & N' & NN' & A' & B' & C' & D' & S' & BD').
  apply text_body in H. destruct H as (N & NN & a & b & t & A & B & S & BD). rewrite S in S'.
  assert (X : (a ++ m ++ b) ++ 58 :: t = (a' ++ m' ++ b') ++ 58 :: (c' ++ ps ++ d')) by (rewrite <- !app_assoc; exact S').
  apply sep_unique in X; try (repeat apply not_app; (apply blank_not; [unfold space_char; lia|assumption]) || (apply name_not; [unfold alnum_char; lia|assumption])).
  destruct X as [X Y]. apply (f_equal solid) in X. rewrite !solid_app, (solid_blank a), (solid_blank b), (solid_blank a'), (solid_blank b'), (solid_name m), (solid_name m'), !app_nil_r in X by assumption.
  cbn [app] in X. subst m'. cbn [nth]. split; [exact E|]. assert (BY : body (c' ++ ps ++ d') items') by (apply body_front; [exact C'|]; apply body_back; assumption).
  rewrite <- Y in BY. now rewrite (body_unique _ _ _ BD BY).
Qed.
Theorem no_text s : (forall m items, ~ options_text s m items) -> regex_match re_options s = None.
Proof.
  intros H. destruct (regex_match re_options s) as [cs|] eqn:E; [|reflexivity]. exfalso.
  destruct (options_sound _ _ (match_sound _ _ _ E)) as (m & ps & a & b & c & d & items & -> & N & NN & A & B & C & D & S & BD). apply (H m items). apply text_body.
  split; [exact N|]. split; [exact NN|]. exists a, b, (c ++ ps ++ d). split; [exact A|]. split; [exact B|]. split; [exact S|]. apply body_front; [exact C|]. now apply body_back.
Qed.

(** ** words and numbers *)
Lemma upper_same x y : upper x = upper y <-> same_letter x y.
Proof. unfold upper, same_letter. destruct ((97 <=? x) && (x <=? 122)) eqn:A, ((97 <=? y) && (y <=? 122)) eqn:B; lia. Qed.
Lemma icase_spec a b : icase a b = true <-> same_word a b.
Proof.
  unfold icase, same_word. rewrite str_eqb_eq. revert b. induction a as [|x a IH]; intros [|y b]; cbn [map]; split; intros H; try discriminate; try constructor; try (inversion H; fail); try reflexivity.
  - injection H as H _. now apply upper_same.
  - injection H as _ H. now apply IH.
  - inversion H; subst. f_equal; [now apply upper_same|now apply IH].
Qed.
Lemma same_sym a b : same_word a b -> same_word b a.
Proof. intros H. apply icase_spec. apply icase_spec in H. unfold icase in *. apply str_eqb_eq in H. apply str_eqb_eq. now symmetry. Qed.
Lemma digits_spec s : forallb is_digit s = true <-> Forall (fun c => 48 <= c <= 57) s.
Proof. rewrite forallb_forall, Forall_forall. unfold is_digit. split; intros H x X; specialize (H x X); cbv beta in *; lia. Qed.
Lemma span_split p s : forall a b, span p s = (a, b) -> s = a ++ b /\ forallb p a = true.
Proof.
  induction s as [|c s IH]; cbn [span]; intros a b E; [injection E as <- <-; auto|]. destruct (p c) eqn:P; [|injection E as <- <-; auto].
  destruct (span p s) as [u v]. injection E as <- <-. destruct (IH u v eq_refl) as [-> F]. cbn [forallb app]. now rewrite P.
Qed.
Lemma span_all p s : forallb p s = true -> span p s = (s, []).
Proof. induction s as [|c s IH]; cbn [span forallb]; [reflexivity|]. intros H. apply andb_true_iff in H as [-> H]. now rewrite (IH H). Qed.
Lemma span_none p c s : p c = false -> span p (c :: s) = ([], c :: s).
Proof. cbn [span]. now intros ->. Qed.
Lemma stoi_int v n : int_text v n -> stoi v = Some (n, []).
Proof.
  intros (sg & ds & -> & N & D & S & R). pose proof (proj2 (digits_spec ds) D) as D'. unfold stoi. destruct ds as [|c ds]; [contradiction|].
  assert (DC : 48 <= c <= 57) by (inversion D; assumption).
  assert (SD : span is_digit (c :: ds) = (c :: ds, [])) by (apply span_all; exact D'). assert (I : in_i32b n = true) by (unfold in_i32b, INT_MIN, INT_MAX; lia).
  destruct S as [[-> E]|[[->| ->] E]]; cbn [app].
  - rewrite span_none by reflexivity. cbn [snd skip_sign Z.eqb Pos.eqb]. rewrite SD. rewrite <- E. now rewrite I.
  - rewrite span_none by (unfold is_space; lia). cbn [snd skip_sign]. replace (c =? 45) with false by lia. replace (c =? 43) with false by lia. rewrite SD, <- E, I. reflexivity.
  - rewrite span_none by reflexivity. cbn [snd skip_sign Z.eqb Pos.eqb]. rewrite SD. rewrite <- E. now rewrite I.
Qed.
Lemma stoi_only v n : value v -> stoi v = Some (n, []) -> int_text v n.
Proof.
  intros V. unfold stoi. assert (SP : span is_space v = ([], v)).
  { destruct v as [|c v]; [reflexivity|]. apply span_none. inversion V; subst. apply not_true_iff_false. intros E. apply is_space_spec in E. unfold alnum_char, space_char in *. lia. }
  rewrite SP. cbn [snd]. clear SP. destruct (skip_sign v) as [neg r] eqn:SS. destruct (span is_digit r) as [ds rest] eqn:S. apply span_split in S as [E F].
  destruct ds as [|c ds]; [discriminate|]. set (x := if neg then - dval (c :: ds) else dval (c :: ds)). destruct (in_i32b x) eqn:I; [|discriminate].
  intros H. injection H as <- ->. rewrite app_nil_r in E. subst r.
  assert (R : - 2 ^ 31 <= x < 2 ^ 31) by (unfold in_i32b, INT_MIN, INT_MAX in I; lia).
  assert (X : exists sg, v = sg ++ (c :: ds) /\ (sg = [45] /\ x = - dval (c :: ds) \/ (sg = [] \/ sg = [43]) /\ x = dval (c :: ds))).
  { unfold skip_sign in SS. destruct v as [|y v]; [discriminate|]. destruct (y =? 45) eqn:A; [|destruct (y =? 43) eqn:B].
    - injection SS as <- ->. exists [45]. cbn [app]. split; [f_equal; lia|]. left. now split.
    - injection SS as <- ->. exists [43]. cbn [app]. split; [f_equal; lia|]. right. split; [now right|reflexivity].
    - injection SS as <- -> ->. exists []. split; [reflexivity|]. right. split; [now left|reflexivity]. }
  destruct X as (sg & -> & X). exists sg, (c :: ds). split; [reflexivity|]. split; [discriminate|]. split; [now apply digits_spec|]. split; [exact X|exact R].
Qed.

(** ** the meaning *)
Lemma level_not_pack k : icase k (txt "ExplicitLevel") = true -> icase k (txt "PreProcess") = false.
Proof. unfold icase. intros H. apply str_eqb_eq in H. rewrite H. reflexivity. Qed.
Lemma put_sound items : Forall (fun kv => value (snd kv)) items -> forall p q, put_items p items = Some q ->
  levels_ok items /\
  ((exists n, level_of items (Some n) /\ p_level q = Some n) \/ (level_of items None /\ p_level q = p_level p)) /\
  (p_pack q = true <-> p_pack p = true \/ exists kv, In kv items /\ pack_item kv).
Proof.
  induction 1 as [|[k v] items V _ IH]; intros p q; cbn [put_items fst snd].
  - intros E. injection E as <-. split; [now intros ? []|]. split; [right; split; [now intros ? []|reflexivity]|]. split; [auto|intros [H|(kv & [] & _)]; exact H].
  - cbn [snd] in V. unfold put_pair. destruct (icase k (txt "ExplicitLevel")) eqn:L.
    + destruct (stoi v) as [[n [|? ?]]|] eqn:S; try discriminate. intros E. destruct (IH _ _ E) as (A & B & C). clear IH. cbn [p_pack] in C.
      pose proof (stoi_only _ _ V S) as IT. pose proof (proj1 (icase_spec _ _) L) as LK. split; [|split].
      * intros kv [<-|X] Y; [now exists n|exact (A kv X Y)].
      * left. destruct B as [(m & (b & kv & a & -> & B1 & B2 & B3) & BL)|[B1 BL]].
        -- exists m. split; [|exact BL]. exists ((k, v) :: b), kv, a. auto.
        -- exists n. split; [|now rewrite BL]. exists [], (k, v), items. auto.
      * rewrite C. split; [intros [P|(kv & X & Y)]; [now left|right; exists kv; split; [now right|exact Y]]|].
        intros [P|(kv & [<-|X] & Y)]; [now left| |right; exists kv; auto]. exfalso. destruct Y as [Y _]. cbn [fst] in Y. apply icase_spec in Y. rewrite (level_not_pack k L) in Y. discriminate.
    + assert (NL : ~ level_key k) by (intros X; apply icase_spec in X; congruence).
      assert (G : forall p', p_level p' = p_level p -> (p_pack p' = true <-> p_pack p = true \/ pack_item (k, v)) -> put_items p' items = Some q ->
        levels_ok ((k, v) :: items) /\ ((exists n, level_of ((k, v) :: items) (Some n) /\ p_level q = Some n) \/ level_of ((k, v) :: items) None /\ p_level q = p_level p) /\
        (p_pack q = true <-> p_pack p = true \/ exists kv, In kv ((k, v) :: items) /\ pack_item kv)).
      { intros p' HL HP E. destruct (IH _ _ E) as (A & B & C). clear IH. split; [|split].
        - intros kv [<-|X] Y; [contradiction|exact (A kv X Y)].
        - destruct B as [(m & (b & kv & a & -> & B1 & B2 & B3) & BL)|[B1 BL]].
          + left. exists m. split; [|exact BL]. exists ((k, v) :: b), kv, a. auto.
          + right. split; [|congruence]. intros kv [<-|X]; [exact NL|exact (B1 kv X)].
        - rewrite C, HP. split; [intros [[P|Y]|(kv & X & Y)]; [now left|right; exists (k, v); split; [now left|exact Y]|right; exists kv; split; [now right|exact Y]]|].
          intros [P|(kv & [<-|X] & Y)]; [now left; left|now left; right|right; exists kv; auto]. }
      destruct (icase k (txt "PreProcess")) eqn:PK; [destruct (icase v (txt "HiLoByteUnpack")) eqn:PV|].
      * apply G; [reflexivity|]. cbn [p_pack]. split; [intros _; right; split; now apply icase_spec|reflexivity].
      * apply G; [reflexivity|]. split; [auto|]. intros [P|[_ Y]]; [exact P|]. cbn [snd] in Y. apply icase_spec in Y. congruence.
      * apply G; [reflexivity|]. split; [auto|]. intros [P|[Y _]]; [exact P|]. cbn [fst] in Y. apply icase_spec in Y. congruence.
Qed.
Lemma put_complete items : levels_ok items -> forall p, exists q, put_items p items = Some q.
Proof.
  induction items as [|[k v] items IH]; intros L p; [now exists p|]. cbn [put_items fst snd]. specialize (IH (fun kv X => L kv (or_intror X))). unfold put_pair.
  destruct (icase k (txt "ExplicitLevel")) eqn:E.
  - destruct (L (k, v) (or_introl eq_refl)) as (n & I); [now apply icase_spec|]. cbn [snd] in I. rewrite (stoi_int _ _ I). apply IH.
  - destruct (icase k (txt "PreProcess")); [destruct (icase v (txt "HiLoByteUnpack"))|]; apply IH.
Qed.
Lemma level_unique items l l' : level_of items l -> level_of items l' -> l = l'.
Proof.
  destruct l as [n|], l' as [n'|]; cbn [level_of].
  - intros (b & kv & a & -> & K & I & N) (b' & kv' & a' & E & K' & I' & N').
    assert (X : a = a' /\ kv = kv').
    { clear I I'. revert b' E. induction b as [|x b IH]; intros [|x' b'] E; cbn [app] in E.
      - injection E as -> ->. auto.
      - injection E as -> E. exfalso. apply (N kv'); [|exact K']. rewrite E. apply in_or_app. right. now left.
      - injection E as -> E. exfalso. apply (N' kv); [|exact K]. rewrite <- E. apply in_or_app. right. now left.
      - injection E as -> E. exact (IH b' E). }
    destruct X as [_ ->]. apply stoi_int in I, I'. congruence.
  - intros (b & kv & a & -> & K & _) N. exfalso. apply (N kv); [apply in_or_app; right; now left|exact K].
  - intros N (b & kv & a & -> & K & _). exfalso. apply (N kv); [apply in_or_app; right; now left|exact K].
  - reflexivity.
Qed.
Lemma mode_spec m c : try_mode m = Some c <-> c <> CompInvalid /\ same_word m (mode_word c).
Proof.
  assert (D : forall c, c <> CompInvalid -> mode_word c = informal c) by (intros []; try reflexivity; contradiction).
  assert (U : forall c c', c <> CompInvalid -> c' <> CompInvalid -> same_word m (informal c) -> same_word m (informal c') -> c = c').
  { intros a a' N N' H H'. apply icase_spec in H, H'. unfold icase in *. apply str_eqb_eq in H, H'. rewrite H in H'.
    destruct a, a'; try reflexivity; try contradiction; exfalso; vm_compute in H'; discriminate. }
  unfold try_mode. split.
  - intros H. apply find_some in H as [I H]. assert (N : c <> CompInvalid) by (cbn in I; intuition (subst; discriminate)). split; [exact N|]. rewrite (D c N). apply same_sym, icase_spec, H.
  - intros [N H]. rewrite (D c N) in H. destruct (find _ _) as [c'|] eqn:F.
    + apply find_some in F as [I F]. assert (N' : c' <> CompInvalid) by (cbn in I; intuition (subst; discriminate)). f_equal. apply U; try assumption. apply same_sym, icase_spec, F.
    + exfalso. assert (X : In c [UnCompressed; Jpg; JpgXr; Zstd0; Zstd1]) by (destruct c; cbn; tauto). pose proof (find_none _ _ F c X) as Y. cbv beta in Y.
      apply same_sym, icase_spec in H. congruence.
Qed.
Lemma text_values s m items : options_text s m items -> Forall (fun kv => value (snd kv)) items.
Proof.
  intros (_ & _ & a & b & parts & tail & front & _ & _ & F & _ & T).
  assert (X : Forall (fun kv => value (snd kv)) front) by (clear T; induction F as [|kv s' f p S _ IH]; [constructor|constructor; [apply S|exact IH]]).
  destruct T as [[_ ->]|(kv & S & ->)]; [exact X|]. apply Forall_app. split; [exact X|]. constructor; [apply S|constructor].
Qed.
Theorem parse_iff s c p : parse_options s = Ok (c, p) <-> meaning s c (p_level p) (p_pack p).
Proof.
  split.
  - unfold parse_options. destruct (regex_match re_options s) as [[|m [|ps [|? ?]]]|] eqn:E; try discriminate.
    destruct (try_mode m) as [c'|] eqn:M; [|discriminate]. destruct (put_parts _ _) as [p'|] eqn:P; [|discriminate]. intros H. injection H as -> ->.
    destruct (options_sound _ _ (match_sound _ _ _ E)) as (m' & ps' & a & b & x & d & items & Ec & N & NN & A & B & C & D & S & BD). injection Ec as <- <-.
    assert (OT : options_text s m items).
    { apply text_body. split; [exact N|]. split; [exact NN|]. exists a, b, (x ++ ps ++ d). split; [exact A|]. split; [exact B|]. split; [exact S|]. apply body_front; [exact C|]. now apply body_back. }
    rewrite (body_puts _ _ _ BD) in P. destruct (put_sound _ (text_values _ _ _ OT) _ _ P) as (L1 & L2 & L3). apply mode_spec in M as [M1 M2].
    exists m, items. split; [exact OT|]. split; [exact M1|]. split; [exact M2|]. split; [exact L1|]. split.
    + destruct L2 as [(n & L2 & ->)|[L2 ->]]; exact L2.
    + rewrite L3. cbn [p_pack]. split; [intros [X|X]; [discriminate|exact X]|auto].
  - intros (m & items & OT & N & W & L & LV & PK). destruct (match_text _ _ _ OT) as (ps & E & BD). unfold parse_options. rewrite E.
    rewrite (proj2 (mode_spec m c) (conj N W)). rewrite (body_puts _ _ _ BD). destruct (put_complete items L (mkP None false)) as (q & Q). rewrite Q.
    destruct (put_sound _ (text_values _ _ _ OT) _ _ Q) as (_ & L2 & L3). f_equal. f_equal. destruct p as [l pk], q as [l' pk']. cbn [p_level p_pack] in *. f_equal.
    + destruct L2 as [(n & L2 & ->)|[L2 ->]]; exact (level_unique _ _ _ L2 LV).
    + destruct pk, pk'; try reflexivity; [apply L3; right; now apply PK|]. symmetry. apply PK. destruct (proj1 L3 eq_refl) as [X|X]; [discriminate|exact X].
Qed.
Theorem parse_total s : (exists c p, parse_options s = Ok (c, p)) \/ parse_options s = Throw.
Proof.
  unfold parse_options. destruct (regex_match re_options s) as [[|m [|ps [|? ?]]]|]; auto. destruct (try_mode m); auto. destruct (put_parts _ _); eauto.
Qed.
