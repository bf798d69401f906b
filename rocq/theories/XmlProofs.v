(** Lemmas about paths and nodes of the metadata XML. *)
From Coq Require Import String.
From Verif Require Import Base TextModel TextProofs XmlModel XmlSpec.
Open Scope Z_scope.

Lemma str_eqb_eq a b : str_eqb a b = true <-> a = b.
Proof. unfold str_eqb. destruct (list_eq_dec Z.eq_dec a b); split; congruence. Qed.
Lemma str_eqb_refl a : str_eqb a a = true.
Proof. now apply str_eqb_eq. Qed.

(** ** lists *)
Lemma find_index_some {A} (p : A -> bool) l : forall i, find_index p l = Some i ->
  exists a, nth_error l i = Some a /\ p a = true /\ forall j b, (j < i)%nat -> nth_error l j = Some b -> p b = false.
Proof.
  induction l as [|a l IH]; intros i H; cbn in H; [discriminate|].
  destruct (p a) eqn:E.
  - injection H as <-. exists a. cbn. split; [reflexivity|split; [exact E|]]. intros j b Hj _. lia.
  - destruct (find_index p l) as [i0|]; [|discriminate]. injection H as <-. destruct (IH i0 eq_refl) as (b & H1 & H2 & H3).
    exists b. cbn. split; [exact H1|split; [exact H2|]]. intros [|j] b' Hj; cbn; [congruence|]. apply H3. lia.
Qed.
Lemma find_index_none {A} (p : A -> bool) l : find_index p l = None -> forall a, In a l -> p a = false.
Proof.
  induction l as [|a l IH]; cbn; intros H b Hb; [easy|]. destruct (p a) eqn:E; [discriminate|].
  destruct (find_index p l); [discriminate|]. destruct Hb as [<-|Hb]; [exact E|now apply IH].
Qed.
Lemma find_index_first {A} (p : A -> bool) l : forall i a, nth_error l i = Some a -> p a = true ->
  (forall j b, (j < i)%nat -> nth_error l j = Some b -> p b = false) -> find_index p l = Some i.
Proof.
  induction l as [|x l IH]; intros [|i] a Ha Hp Hj; cbn in *; try discriminate.
  - injection Ha as ->. now rewrite Hp.
  - rewrite (Hj 0%nat x) by (reflexivity || lia). rewrite (IH i a Ha Hp); [reflexivity|].
    intros j b Hl Hb. apply (Hj (S j) b); [lia|exact Hb].
Qed.
Lemma nth_error_upd {A} (l : list A) : forall i a j,
  nth_error (upd l i a) j = if (i =? j)%nat then (if (j <? length l)%nat then Some a else None) else nth_error l j.
Proof.
  induction l as [|x l IH]; intros i a j.
  - cbn. destruct j, i; cbn; try reflexivity. now destruct (i =? j)%nat.
  - destruct i as [|i], j as [|j]; cbn [upd nth_error Nat.eqb length]; try reflexivity. rewrite IH. reflexivity.
Qed.
Lemma upd_same {A} (l : list A) : forall i a, nth_error l i = Some a -> upd l i a = l.
Proof. induction l as [|x l IH]; intros [|i] a H; cbn in *; try discriminate; [now injection H as ->|now rewrite IH]. Qed.

(** ** node_at *)
Lemma node_at_app a : forall b t, node_at (a ++ b) t = match node_at a t with Some n => node_at b n | None => None end.
Proof.
  induction a as [|i a IH]; intros b t; cbn; [reflexivity|]. destruct (nth_error (kids_of t) i); [apply IH|reflexivity].
Qed.

(** ** keys of attribute maps *)
Lemma ltb_irrefl a : str_ltb a a = false.
Proof. induction a as [|x a IH]; cbn; [reflexivity|]. replace (x <? x) with false by lia. exact IH. Qed.
Lemma ltb_trans a : forall b c, str_ltb a b = true -> str_ltb b c = true -> str_ltb a c = true.
Proof.
  induction a as [|x a IH]; intros [|y b] [|z c]; cbn; try congruence; auto.
  destruct (x <? y) eqn:E1, (y <? z) eqn:E2; intros.
  - replace (x <? z) with true by lia. reflexivity.
  - destruct (z <? y) eqn:E3; [discriminate|]. replace (x <? z) with true by lia. reflexivity.
  - destruct (y <? x) eqn:E3; [discriminate|]. replace (x <? z) with true by lia. reflexivity.
  - destruct (y <? x) eqn:E3; [discriminate|]. destruct (z <? y) eqn:E4; [discriminate|].
    replace (x <? z) with false by lia. replace (z <? x) with false by lia. now apply (IH b).
Qed.
Lemma ltb_total a : forall b, a <> b -> str_ltb a b = false -> str_ltb b a = true.
Proof.
  induction a as [|x a IH]; intros [|y b]; cbn; try congruence.
  destruct (x <? y) eqn:E1; [discriminate|]. destruct (y <? x) eqn:E2; [reflexivity|].
  intros N H. apply IH; [|exact H]. intros ->. apply N. f_equal. lia.
Qed.
Fixpoint keys_from (lo : option str) (m : list (str * str)) : Prop :=
  match m with
  | [] => True
  | (k, _) :: m' => match lo with Some l => str_ltb l k = true | None => True end /\ keys_from (Some k) m'
  end.
Lemma insert_from m : forall lo k v, keys_from lo m -> match lo with Some l => str_ltb l k = true | None => True end ->
  keys_from lo (map_insert m k v).
Proof.
  induction m as [|[k' v'] m IH]; intros lo k v H L; cbn [map_insert]; [now cbn|].
  destruct H as [H1 H2]. destruct (str_eqb k k') eqn:E; [now split|].
  destruct (str_ltb k k') eqn:E2; cbn; [auto|]. split; [exact H1|]. apply IH; [exact H2|].
  apply ltb_total; [|exact E2]. intros ->. rewrite str_eqb_refl in E. discriminate.
Qed.
Lemma from_above m : forall l k, keys_from (Some l) m -> In k (map fst m) -> str_ltb l k = true.
Proof.
  induction m as [|[k' v'] m IH]; intros l k H Hk; [easy|]. destruct H as [H1 H2]. destruct Hk as [<-|Hk]; [exact H1|].
  apply (ltb_trans l k' k); [exact H1|]. now apply IH.
Qed.
Lemma from_nodup m : forall lo, keys_from lo m -> NoDup (map fst m).
Proof.
  induction m as [|[k v] m IH]; intros lo H; cbn; [constructor|]. destruct H as [_ H]. constructor; [|now apply (IH (Some k))].
  intros Hi. pose proof (from_above m k k H Hi) as L. rewrite ltb_irrefl in L. discriminate.
Qed.
Lemma parse_pairs_from l : forall m m', keys_from None m -> parse_pairs l m = Ok m' -> keys_from None m'.
Proof.
  induction l as [|s l IH]; intros m m' H E; cbn in E; [now injection E as <-|].
  destruct (parse_pair s) as [[k v]|]; [|discriminate]. apply (IH (map_insert m k v)); [|exact E]. now apply insert_from.
Qed.
Lemma parse_attributes_nodup s ats : parse_attributes s = Ok ats -> NoDup (map fst ats).
Proof. intros H. apply (from_nodup ats None). now apply (parse_pairs_from _ [] ats) in H. Qed.
Lemma attr_of_in ats : NoDup (map fst ats) -> forall k v, In (k, v) ats -> attr_of ats k = Some v.
Proof.
  induction ats as [|[k' v'] ats IH]; intros N k v Hi; [easy|]. cbn in N. inversion N as [|? ? N1 N2]; subst. cbn [attr_of].
  destruct Hi as [E|Hi].
  - injection E as -> ->. now rewrite str_eqb_refl.
  - destruct (str_eqb k' k) eqn:E; [|now apply IH]. apply str_eqb_eq in E. subst. exfalso. apply N1.
    apply in_map_iff. now exists (k, v).
Qed.

(** ** matching a child *)
Lemma matches_has name ats n : matches name ats n = true <-> has name ats n.
Proof.
  unfold has. destruct n as [nm at_ kids|s|s]; cbn [matches].
  - rewrite andb_true_iff, str_eqb_eq, forallb_forall. split.
    + intros [-> H]. exists at_, kids. split; [reflexivity|]. intros k v Hi. specialize (H _ Hi). cbn in H.
      destruct (attr_of at_ k) as [w|]; [|discriminate]. apply str_eqb_eq in H. now subst.
    + intros (a & k0 & E & H). injection E as -> -> ->. split; [reflexivity|]. intros [k v] Hi. rewrite (H k v Hi). apply str_eqb_refl.
  - split; [discriminate|]. intros (? & ? & E & _). discriminate.
  - split; [discriminate|]. intros (? & ? & E & _). discriminate.
Qed.
Definition kind_of (n : xml) : option (str * list (str * str)) := match n with Elem nm ats _ => Some (nm, ats) | _ => None end.
Lemma matches_kind name ats a b : kind_of a = kind_of b -> matches name ats a = matches name ats b.
Proof. destruct a, b; cbn; intros H; try discriminate; try reflexivity. injection H as -> ->. reflexivity. Qed.

(** ** a path which can be created is not an index *)
Lemma tokens_chars d s : forall cur t c, In t (tokens_at d s cur) -> In c t -> In c cur \/ In c s.
Proof.
  induction s as [|x s IH]; intros cur t c Ht Hc; cbn in Ht.
  - destruct Ht as [<-|[]]. now left.
  - destruct (d x).
    + destruct Ht as [<-|Ht]; [now left|]. destruct (IH _ _ _ Ht Hc) as [[]|H]. right. now right.
    + destruct (IH _ _ _ Ht Hc) as [H|H]; [|right; now right]. apply in_app_iff in H. destruct H as [H|[<-|[]]]; [now left|right; now left].
Qed.
Lemma tokens_cons d s cur : exists t l, tokens_at d s cur = t :: l.
Proof.
  revert cur. induction s as [|x s IH]; intros cur; cbn; [eauto|]. destruct (d x); [eauto|apply IH].
Qed.
Lemma parse_pair_eq s k v : parse_pair s = Some (k, v) -> s = k ++ 61 :: v /\ k <> [] /\ ~ In 61 k.
Proof.
  unfold parse_pair. destruct (span (fun c => negb (c =? 61)) s) as [a r] eqn:E. apply span_spec in E. destruct E as (-> & Ha & Hr).
  destruct a as [|x a]; [discriminate|]. destruct r as [|y r]; [discriminate|]. intros H. injection H as <- <-.
  cbn in Hr. replace y with 61 by lia. split; [reflexivity|]. split; [discriminate|]. intros Hi.
  rewrite Forall_forall in Ha. specialize (Ha 61 Hi). cbn in Ha. discriminate.
Qed.
Lemma index_no_equal s i : index_spec s = Some i -> ~ In 61 s.
Proof.
  unfold index_spec. destruct (span is_space s) as [w r] eqn:E. cbn [snd].
  destruct (span is_digit r) as [ds r2] eqn:E2. destruct (span is_space r2) as [w2 r3] eqn:E3. cbn [snd].
  apply span_spec in E. apply span_spec in E2. apply span_spec in E3.
  destruct E as (-> & H1 & _), E2 as (-> & H2 & _), E3 as (-> & H3 & _).
  destruct ds as [|d ds]; [discriminate|]. destruct r3; [|discriminate]. intros _ Hi.
  rewrite Forall_forall in H1, H2, H3. rewrite !in_app_iff in Hi. destruct Hi as [Hi|[Hi|[Hi|[]]]].
  - specialize (H1 _ Hi). discriminate.
  - specialize (H2 _ Hi). discriminate.
  - specialize (H3 _ Hi). discriminate.
Qed.
Lemma no_equal_throws s : ~ In 61 s -> parse_attributes s = Throw.
Proof.
  intros N. unfold parse_attributes, tokens. destruct (tokens_cons (fun c => (c =? 44) || (c =? 59)) s []) as (t & l & E).
  rewrite E. cbn. destruct (parse_pair t) as [[k v]|] eqn:P; [|reflexivity]. exfalso. apply parse_pair_eq in P. destruct P as (-> & _).
  apply N. destruct (tokens_chars (fun c => (c =? 44) || (c =? 59)) s [] (k ++ 61 :: v) 61) as [[]|H].
  - rewrite E. now left.
  - apply in_app_iff. right. now left.
  - exact H.
Qed.
Lemma create_find tok name ats kids : create_spec tok = Ok (name, ats) ->
  find_step tok kids = Ok (find_index (matches name ats) kids).
Proof.
  unfold create_spec, find_step. destruct (parse_step tok) as [[nm [sp|]]|]; [| |discriminate].
  - destruct (index_spec sp) as [i|] eqn:E.
    + rewrite (no_equal_throws sp) by (now apply (index_no_equal sp i)). discriminate.
    + destruct (parse_attributes sp); cbn; try discriminate. intros H. now injection H as <- <-.
  - intros H. now injection H as <- <-.
Qed.
Lemma create_spec_nodup tok name ats : create_spec tok = Ok (name, ats) -> NoDup (map fst ats).
Proof.
  unfold create_spec. destruct (parse_step tok) as [[nm [sp|]]|]; [| |discriminate].
  - destruct (parse_attributes sp) as [a| | |] eqn:E; cbn; try discriminate. intros H. injection H as <- <-. now apply (parse_attributes_nodup sp).
  - intros H. injection H as <- <-. constructor.
Qed.
Lemma matches_new name ats kids : NoDup (map fst ats) -> matches name ats (Elem name ats kids) = true.
Proof. intros N. apply matches_has. exists ats, kids. split; [reflexivity|]. intros k v. now apply attr_of_in. Qed.

(** ** creating *)
(** the step of create_path: index and children *)
Definition place (name : str) (ats : list (str * str)) (kids : list xml) : nat * list xml :=
  match find_index (matches name ats) kids with Some i => (i, kids) | None => (length kids, kids ++ [Elem name ats []]) end.
Lemma place_ok name ats kids i kids' : NoDup (map fst ats) -> place name ats kids = (i, kids') ->
  exists c, nth_error kids' i = Some c /\ (i < length kids')%nat /\ matches name ats c = true /\
    (forall j b, (j < i)%nat -> nth_error kids' j = Some b -> matches name ats b = false) /\
    ((kids' = kids) \/ (kids' = kids ++ [c] /\ i = length kids /\ c = Elem name ats [])).
Proof.
  unfold place. intros N E. destruct (find_index (matches name ats) kids) as [i0|] eqn:F; injection E as <- <-.
  - destruct (find_index_some _ _ _ F) as (c & H1 & H2 & H3). exists c. split; [exact H1|]. split.
    + apply nth_error_Some. congruence.
    + auto.
  - exists (Elem name ats []). split.
    + rewrite nth_error_app2 by lia. now rewrite Nat.sub_diag.
    + split; [rewrite app_length; cbn; lia|]. split; [now apply matches_new|]. split.
      * intros j b Hj Hb. rewrite nth_error_app1 in Hb by lia. apply (find_index_none _ _ F). now apply nth_error_In in Hb.
      * right. auto.
Qed.
Lemma create_step k ks nm at_ kids name ats : create_spec k = Ok (name, ats) ->
  create_path (k :: ks) (Elem nm at_ kids) =
  let '(i, kids') := place name ats kids in
  let '(c', r) := create_path ks (nth i kids' dummy) in
  (Elem nm at_ (upd kids' i c'), let* h := r in Ok (i :: h)).
Proof. intros E. cbn [create_path]. rewrite E. reflexivity. Qed.

Lemma create_kind toks : forall n, kind_of (fst (create_path toks n)) = kind_of n.
Proof.
  destruct toks as [|k ks]; intros n; [reflexivity|]. destruct n as [nm at_ kids|s|s]; cbn [create_path].
  - destruct (create_spec k) as [[name ats]| | |]; try reflexivity.
    destruct (match find_index (matches name ats) kids with Some i => (i, kids) | None => (length kids, kids ++ [Elem name ats []]) end) as [i kids'].
    destruct (create_path ks (nth i kids' dummy)). reflexivity.
  - destruct (create_spec k); reflexivity.
  - destruct (create_spec k); reflexivity.
Qed.

Lemma nth_of_error {A} (l : list A) i c d : nth_error l i = Some c -> nth i l d = c.
Proof. intros H. now apply nth_error_nth. Qed.

Lemma create_ok_inv k ks n n' h : create_path (k :: ks) n = (n', Ok h) ->
  exists nm at_ kids name ats i kids' c c' h',
    n = Elem nm at_ kids /\ create_spec k = Ok (name, ats) /\ place name ats kids = (i, kids') /\ nth_error kids' i = Some c /\
    create_path ks c = (c', Ok h') /\ n' = Elem nm at_ (upd kids' i c') /\ h = i :: h'.
Proof.
  intros H. destruct n as [nm at_ kids|s|s]; [|cbn in H; destruct (create_spec k); discriminate|cbn in H; destruct (create_spec k); discriminate].
  destruct (create_spec k) as [[name ats]| | |] eqn:E; try (cbn in H; rewrite E in H; discriminate).
  rewrite (create_step _ _ _ _ _ _ _ E) in H. destruct (place name ats kids) as [i kids'] eqn:P.
  destruct (place_ok _ _ _ _ _ (create_spec_nodup _ _ _ E) P) as (c & H1 & _).
  rewrite (nth_of_error _ _ _ _ H1) in H. destruct (create_path ks c) as [c' r] eqn:F. destruct r as [h'| | |]; try discriminate.
  injection H as <- <-. exists nm, at_, kids, name, ats, i, kids', c, c', h'. auto 10.
Qed.

Lemma create_then_find toks : forall n n' h, create_path toks n = (n', Ok h) -> find_path toks n' = Ok (Some h).
Proof.
  induction toks as [|k ks IH]; intros n n' h H; [now injection H as <- <-|].
  destruct (create_ok_inv _ _ _ _ _ H) as (nm & at_ & kids & name & ats & i & kids' & c & c' & h' & -> & E & P & Hc & F & -> & ->).
  destruct (place_ok _ _ _ _ _ (create_spec_nodup _ _ _ E) P) as (c0 & H1 & H2 & H3 & H4 & _).
  rewrite Hc in H1. injection H1 as <-.
  assert (K : kind_of c' = kind_of c) by (pose proof (create_kind ks c) as K; rewrite F in K; exact K).
  cbn [find_path kids_of]. rewrite (create_find k name ats _ E).
  rewrite (find_index_first (matches name ats) (upd kids' i c') i c').
  - cbn [bind]. rewrite (nth_of_error (upd kids' i c') i c').
    + rewrite (IH c c' h' F). reflexivity.
    + rewrite nth_error_upd, Nat.eqb_refl. replace (i <? length kids')%nat with true by lia. reflexivity.
  - rewrite nth_error_upd, Nat.eqb_refl. replace (i <? length kids')%nat with true by lia. reflexivity.
  - now rewrite (matches_kind name ats c' c).
  - intros j b Hj Hb. rewrite nth_error_upd in Hb. replace (i =? j)%nat with false in Hb by lia. now apply (H4 j).
Qed.

(** all specifiers of the path can be created *)
Definition creatable (toks : list str) : Prop := Forall (fun k => exists s, create_spec k = Ok s) toks.
Lemma create_creatable toks : forall n n' h, create_path toks n = (n', Ok h) -> creatable toks.
Proof.
  induction toks as [|k ks IH]; intros n n' h H; [constructor|].
  destruct (create_ok_inv _ _ _ _ _ H) as (nm & at_ & kids & name & ats & i & kids' & c & c' & h' & -> & E & P & Hc & F & -> & ->).
  constructor; [eauto|]. now apply (IH c c' h').
Qed.
Lemma create_found toks : forall n h, creatable toks -> find_path toks n = Ok (Some h) -> create_path toks n = (n, Ok h).
Proof.
  induction toks as [|k ks IH]; intros n h C H; [now injection H as <-|].
  inversion C as [|? ? [[name ats] E] C2]; subst. cbn [find_path] in H. rewrite (create_find k name ats _ E) in H. cbn [bind] in H.
  destruct (find_index (matches name ats) (kids_of n)) as [i|] eqn:F; [|discriminate].
  destruct (find_path ks (nth i (kids_of n) dummy)) as [[h'|]| | |] eqn:G; try discriminate. injection H as <-.
  destruct (find_index_some _ _ _ F) as (c & H1 & H2 & H3).
  destruct n as [nm at_ kids|s|s]; [|destruct i; discriminate|destruct i; discriminate]. cbn [kids_of] in *.
  rewrite (create_step _ _ _ _ _ _ _ E). unfold place. rewrite F. rewrite (nth_of_error _ _ _ _ H1) in *.
  rewrite (IH c h' C2 G). cbn [bind]. now rewrite (upd_same kids i c H1).
Qed.

(** ** what creating changes *)
Lemma label_cons i h n : label_at (i :: h) n = match nth_error (kids_of n) i with Some c => label_at h c | None => None end.
Proof. unfold label_at. cbn [node_at]. now destruct (nth_error (kids_of n) i). Qed.
Lemma place_kids name ats kids i kids' j : place name ats kids = (i, kids') -> forall c, nth_error kids j = Some c -> nth_error kids' j = Some c.
Proof.
  unfold place. intros E c H. destruct (find_index (matches name ats) kids); injection E as <- <-; [exact H|].
  rewrite nth_error_app1; [exact H|]. apply nth_error_Some. congruence.
Qed.

Lemma create_labels toks : forall n k l, label_at k n = Some l -> label_at k (fst (create_path toks n)) = Some l.
Proof.
  induction toks as [|t ts IH]; intros n k l H; [exact H|].
  destruct n as [nm at_ kids|s|s]; [|cbn [create_path]; destruct (create_spec t); exact H|cbn [create_path]; destruct (create_spec t); exact H].
  destruct (create_spec t) as [[name ats]| | |] eqn:E; try (cbn [create_path]; rewrite E; exact H).
  rewrite (create_step _ _ _ _ _ _ _ E). destruct (place name ats kids) as [i kids'] eqn:P.
  destruct (place_ok _ _ _ _ _ (create_spec_nodup _ _ _ E) P) as (c & H1 & H2 & _).
  rewrite (nth_of_error _ _ _ _ H1). destruct (create_path ts c) as [c' r] eqn:F. cbn [fst].
  destruct k as [|j k]; [exact H|]. rewrite label_cons in *. cbn [kids_of] in *. rewrite nth_error_upd.
  destruct (nth_error kids j) as [b|] eqn:B; [|discriminate]. pose proof (place_kids _ _ _ _ _ j P b B) as B'.
  destruct (i =? j)%nat eqn:Q; [|now rewrite B'].
  apply Nat.eqb_eq in Q. subst j. replace (i <? length kids')%nat with true by lia. rewrite H1 in B'. injection B' as ->.
  pose proof (IH b k l H) as R. now rewrite F in R.
Qed.

Lemma create_only toks : forall n n' h, create_path toks n = (n', Ok h) ->
  forall k, label_at k n = None -> label_at k n' <> None -> prefix k h.
Proof.
  induction toks as [|t ts IH]; intros n n' h H k L L'; [injection H as <- <-; now rewrite L in L'|].
  destruct (create_ok_inv _ _ _ _ _ H) as (nm & at_ & kids & name & ats & i & kids' & c & c' & h' & -> & E & P & Hc & F & -> & ->).
  destruct k as [|j k]; [now exists (i :: h')|]. rewrite label_cons in *. cbn [kids_of] in *. rewrite nth_error_upd in L'.
  destruct (place_ok _ _ _ _ _ (create_spec_nodup _ _ _ E) P) as (c0 & H1 & H2 & H3 & H4 & H5).
  rewrite Hc in H1. injection H1 as <-.
  destruct (i =? j)%nat eqn:Q.
  - apply Nat.eqb_eq in Q. subst j. replace (i <? length kids')%nat with true in L' by lia.
    destruct H5 as [-> | (-> & -> & ->)].
    + rewrite Hc in L. destruct (IH c c' h' F k L L') as [r ->]. now exists r.
    + destruct k as [|k0 k]; [now exists h'|]. destruct (IH _ _ _ F (k0 :: k)) as [r ->].
      * rewrite label_cons. now destruct k0.
      * exact L'.
      * now exists r.
  - destruct H5 as [-> | (-> & -> & ->)].
    + now destruct (nth_error kids j).
    + destruct (Nat.lt_ge_cases j (length kids)) as [Hj|Hj].
      * rewrite nth_error_app1 in L' by lia. now destruct (nth_error kids j).
      * rewrite (proj2 (nth_error_None (kids ++ [Elem name ats []]) j)) in L'; [easy|]. rewrite app_length. cbn.
        apply Nat.eqb_neq in Q. lia.
Qed.

Theorem create_all p t t' h : get_or_create p t = (t', Ok h) ->
  get_child_node p t' = Ok (Some h) /\ only_adds t t' h /\ get_or_create p t' = (t', Ok h) /\
  (get_child_node p t <> Ok None -> t' = t).
Proof.
  unfold get_or_create, get_child_node. destruct (path_tokens p) as [toks| | |]; cbn [bind]; intros H; try discriminate.
  pose proof (create_then_find _ _ _ _ H) as F. pose proof (create_creatable _ _ _ _ H) as C. repeat split.
  - exact F.
  - intros k l L. pose proof (create_labels toks t k l L) as R. now rewrite H in R.
  - intros k L L'. now apply (create_only toks t t' h).
  - now apply create_found.
  - intros N.
    assert (G : exists o, find_path toks t = Ok o).
    { clear - C. revert t. induction C as [|k ks [[name ats] E] C IH]; intros t; [now exists (Some [])|].
      cbn [find_path]. rewrite (create_find k name ats _ E). cbn [bind].
      destruct (find_index (matches name ats) (kids_of t)) as [i|]; [|now exists None].
      destruct (IH (nth i (kids_of t) dummy)) as [o ->]. cbn. eauto. }
    destruct G as [[h0|] G]; [|now rewrite G in N]. pose proof (create_found toks t h0 C G) as R. rewrite H in R. now injection R.
Qed.
