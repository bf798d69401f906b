(** Lemmas: values and attributes of nodes, sequences of writes. *)
From Coq Require Import String.
From Verif Require Import Base TextModel TextProofs XmlModel XmlSpec XmlProofs.
Open Scope Z_scope.

(** ** kinds at positions determine what paths find *)
Definition kind_at (h : list nat) (n : xml) : option (option (str * list (str * str))) := option_map kind_of (node_at h n).
Definition keeps (n n' : xml) : Prop := forall h k, kind_at h n = Some k -> kind_at h n' = Some k.
Lemma kind_cons i h n : kind_at (i :: h) n = match nth_error (kids_of n) i with Some c => kind_at h c | None => None end.
Proof. unfold kind_at. cbn [node_at]. now destruct (nth_error (kids_of n) i). Qed.
Lemma keeps_kid n n' i c : keeps n n' -> nth_error (kids_of n) i = Some c ->
  exists c', nth_error (kids_of n') i = Some c' /\ keeps c c' /\ kind_of c' = kind_of c.
Proof.
  intros K H. pose proof (K [i] (kind_of c)) as K1. rewrite !kind_cons, H in K1. specialize (K1 eq_refl).
  destruct (nth_error (kids_of n') i) as [c'|] eqn:E; [|discriminate]. exists c'. split; [reflexivity|]. split.
  - intros h k Hk. pose proof (K (i :: h) k) as K2. rewrite !kind_cons, H, E in K2. auto.
  - cbn in K1. congruence.
Qed.
Lemma keeps_refl n : keeps n n.
Proof. intros h k H. exact H. Qed.
Lemma keeps_trans a b c : keeps a b -> keeps b c -> keeps a c.
Proof. intros H1 H2 h k H. auto. Qed.

Lemma find_index_keeps p n n' i : (forall a b, kind_of a = kind_of b -> p a = p b) -> keeps n n' ->
  find_index p (kids_of n) = Some i -> find_index p (kids_of n') = Some i.
Proof.
  intros P K H. destruct (find_index_some _ _ _ H) as (c & H1 & H2 & H3).
  destruct (keeps_kid n n' i c K H1) as (c' & E & _ & Kc). apply (find_index_first p _ i c' E).
  - now rewrite (P c' c Kc).
  - intros j b Hj Hb. assert (L : (j < length (kids_of n))%nat) by (apply Nat.lt_trans with i; [exact Hj|]; apply nth_error_Some; congruence).
    apply nth_error_Some in L. destruct (nth_error (kids_of n) j) as [b0|] eqn:B; [|easy].
    destruct (keeps_kid n n' j b0 K B) as (b' & E' & _ & Kb). rewrite Hb in E'. injection E' as <-. rewrite (P b b0 Kb). now apply (H3 j).
Qed.
Lemma find_nth_keeps p : (forall a b, kind_of a = kind_of b -> p a = p b) -> forall l l' m i,
  (forall j c, nth_error l j = Some c -> exists c', nth_error l' j = Some c' /\ kind_of c' = kind_of c) ->
  find_nth p m l = Some i -> find_nth p m l' = Some i.
Proof.
  intros P. induction l as [|a l IH]; intros l' m i K H; cbn in H; [discriminate|].
  destruct (K 0%nat a eq_refl) as (a' & Ea & Ka). destruct l' as [|a0 l']; [discriminate|]. cbn in Ea. injection Ea as ->.
  assert (K' : forall j c, nth_error l j = Some c -> exists c', nth_error l' j = Some c' /\ kind_of c' = kind_of c) by (intros j c; apply (K (S j) c)).
  cbn [find_nth]. rewrite (P a' a Ka). destruct (p a).
  - destruct (m =? 0); [exact H|]. destruct (find_nth p (m - 1) l) as [j|] eqn:F; [|discriminate].
    now rewrite (IH l' (m - 1) j K' F).
  - destruct (find_nth p m l) as [j|] eqn:F; [|discriminate]. now rewrite (IH l' m j K' F).
Qed.
Lemma find_step_keeps tok n n' i : keeps n n' -> find_step tok (kids_of n) = Ok (Some i) -> find_step tok (kids_of n') = Ok (Some i).
Proof.
  intros K. unfold find_step. destruct (parse_step tok) as [[name [sp|]]|]; [| |discriminate].
  - destruct (index_spec sp) as [m|].
    + destruct (UINT_MAX <? m); [discriminate|]. intros H. injection H as H. f_equal. revert H. apply find_nth_keeps.
      * intros a b. apply matches_kind.
      * intros j c Hc. destruct (keeps_kid n n' j c K Hc) as (c' & E & _ & Kc). eauto.
    + destruct (parse_attributes sp); cbn [bind]; try discriminate. intros H. injection H as H. f_equal. revert H.
      apply find_index_keeps; [intros a0 b; apply matches_kind|exact K].
  - intros H. injection H as H. f_equal. revert H. apply find_index_keeps; [intros a b; apply matches_kind|exact K].
Qed.
Lemma find_nth_some p l : forall m i, find_nth p m l = Some i -> exists c, nth_error l i = Some c.
Proof.
  induction l as [|a l IH]; intros m i H; cbn in H; [discriminate|]. destruct (p a).
  - destruct (m =? 0); [injection H as <-; now exists a|]. destruct (find_nth p (m - 1) l) as [j|] eqn:F; [|discriminate].
    injection H as <-. now apply (IH (m - 1)).
  - destruct (find_nth p m l) as [j|] eqn:F; [|discriminate]. injection H as <-. now apply (IH m).
Qed.
Lemma find_step_some tok l i : find_step tok l = Ok (Some i) -> exists c, nth_error l i = Some c.
Proof.
  unfold find_step. destruct (parse_step tok) as [[name [sp|]]|]; [| |discriminate].
  - destruct (index_spec sp) as [m|].
    + destruct (UINT_MAX <? m); [discriminate|]. intros H. injection H as H. now apply find_nth_some in H.
    + destruct (parse_attributes sp); cbn [bind]; try discriminate. intros H. injection H as H.
      destruct (find_index_some _ _ _ H) as (c & H1 & _). eauto.
  - intros H. injection H as H. destruct (find_index_some _ _ _ H) as (c & H1 & _). eauto.
Qed.
Lemma find_path_keeps toks : forall n n' h, keeps n n' -> find_path toks n = Ok (Some h) -> find_path toks n' = Ok (Some h).
Proof.
  induction toks as [|k ks IH]; intros n n' h K H; [exact H|]. cbn [find_path] in *.
  destruct (find_step k (kids_of n)) as [[i|]| | |] eqn:F; cbn [bind] in H; try discriminate.
  rewrite (find_step_keeps k n n' i K F). cbn [bind].
  destruct (find_step_some _ _ _ F) as (c & Hc). destruct (keeps_kid n n' i c K Hc) as (c' & Hc' & Kc & _).
  rewrite (nth_of_error _ _ _ _ Hc) in H. rewrite (nth_of_error _ _ _ _ Hc').
  destruct (find_path ks c) as [[h'|]| | |] eqn:G; cbn [bind] in H; try discriminate. rewrite (IH c c' h' Kc G). exact H.
Qed.
Lemma find_path_node toks : forall n h, find_path toks n = Ok (Some h) -> exists c, node_at h n = Some c.
Proof.
  induction toks as [|k ks IH]; intros n h H; cbn [find_path] in H; [injection H as <-; now exists n|].
  destruct (find_step k (kids_of n)) as [[i|]| | |] eqn:F; cbn [bind] in H; try discriminate.
  destruct (find_step_some _ _ _ F) as (c & Hc). rewrite (nth_of_error _ _ _ _ Hc) in H.
  destruct (find_path ks c) as [[h'|]| | |] eqn:G; cbn [bind] in H; try discriminate. injection H as <-.
  cbn [node_at]. rewrite Hc. now apply (IH c).
Qed.

Lemma label_kind h n l : label_at h n = Some l -> kind_at h n = Some (match l with LElem nm ats => Some (nm, ats) | _ => None end).
Proof. unfold label_at, kind_at. destruct (node_at h n) as [[nm ats ks|s|s]|]; cbn; intros H; try discriminate; injection H as <-; reflexivity. Qed.
Lemma create_keeps toks n : keeps n (fst (create_path toks n)).
Proof.
  intros h k H. unfold kind_at in H. destruct (node_at h n) as [c|] eqn:E; [|discriminate]. cbn in H. injection H as <-.
  assert (L : label_at h n = Some (label_of c)) by (unfold label_at; now rewrite E).
  rewrite (label_kind h _ (label_of c)); [now destruct c|]. now apply create_labels.
Qed.

(** ** changing one node *)
Lemma change_at_ok f h : forall n n', change_at h f n = Ok n' ->
  exists c c', node_at h n = Some c /\ f c = Ok c' /\ node_at h n' = Some c'.
Proof.
  induction h as [|i h IH]; intros n n' H; cbn [change_at] in H; [exists n, n'; auto|].
  destruct n as [nm ats kids|s|s]; try discriminate. destruct (nth_error kids i) as [c|] eqn:E; [|discriminate].
  destruct (change_at h f c) as [c'| | |] eqn:F; cbn [bind] in H; try discriminate. injection H as <-.
  destruct (IH c c' F) as (a & a' & H1 & H2 & H3). exists a, a'. cbn [node_at kids_of]. rewrite E, nth_error_upd, Nat.eqb_refl.
  assert (L : (i < length kids)%nat) by (apply nth_error_Some; congruence). replace (i <? length kids)%nat with true by lia. auto.
Qed.
Lemma change_at_kind f h n n' : (forall a b, f a = Ok b -> kind_of b = kind_of a) -> change_at h f n = Ok n' -> kind_of n' = kind_of n.
Proof.
  intros P. destruct h as [|i h]; cbn [change_at]; [apply P|]. destruct n as [nm ats kids|s|s]; try discriminate.
  destruct (nth_error kids i) as [c|]; [|discriminate]. destruct (change_at h f c); cbn [bind]; try discriminate. intros H. injection H as <-. reflexivity.
Qed.
(** a node elsewhere keeps everything but what is below it *)
Lemma change_elsewhere f h : forall n n' k, change_at h f n = Ok n' -> ~ prefix h k ->
  match node_at k n, node_at k n' with
  | Some a, Some b => label_of a = label_of b /\ length (kids_of a) = length (kids_of b)
  | None, None => True
  | _, _ => False
  end.
Proof.
  induction h as [|i h IH]; intros n n' k H N; [exfalso; apply N; now exists k|].
  cbn [change_at] in H. destruct n as [nm ats kids|s|s]; try discriminate. destruct (nth_error kids i) as [c|] eqn:E; [|discriminate].
  destruct (change_at h f c) as [c'| | |] eqn:F; cbn [bind] in H; try discriminate. injection H as <-.
  destruct k as [|j k]; cbn [node_at kids_of].
  - split; [reflexivity|]. cbn [kids_of]. now rewrite upd_length.
  - rewrite nth_error_upd. destruct (i =? j)%nat eqn:Q.
    + apply Nat.eqb_eq in Q. subst j. rewrite E. assert (L : (i < length kids)%nat) by (apply nth_error_Some; congruence).
      replace (i <? length kids)%nat with true by lia. apply (IH c c' k F). intros [r ->]. apply N. now exists r.
    + destruct (nth_error kids j) as [b|]; [|exact I]. destruct (node_at k b) as [a|]; auto.
Qed.

(** ** values *)
Lemma child_value_kinds l : forall l', Forall2 (fun a b => label_of a = label_of b) l l' -> child_value l = child_value l'.
Proof.
  induction l as [|a l IH]; intros l' H; inversion H as [|? b ? l2 E H2]; subst; [reflexivity|].
  destruct a as [nm ats ks|[|x s]|[|x s]], b as [nm' ats' ks'|[|x' s']|[|x' s']]; cbn in E; try discriminate; cbn [child_value];
    try (now apply IH); congruence.
Qed.
Lemma value_kinds a b : Forall2 (fun a b => label_of a = label_of b) (kids_of a) (kids_of b) -> try_get_value a = try_get_value b.
Proof.
  unfold try_get_value. intros H. rewrite (child_value_kinds _ _ H). destruct H as [|x y l l' E H]; [reflexivity|].
  destruct x, y; cbn in E; try discriminate; reflexivity.
Qed.
Lemma child_value_elems l ks : forallb is_elem ks = true -> child_value (l ++ ks) = child_value l.
Proof.
  intros H. induction l as [|a l IH]; cbn [app child_value].
  - induction ks as [|k ks IH]; [reflexivity|]. cbn in H. destruct k; [|discriminate|discriminate]. cbn [child_value]. now apply IH.
  - destruct a as [nm ats kk|[|x s]|[|x s]]; auto.
Qed.

(** the kids of a node after creating a path: the same kids (up to what is below them), then new elements *)
Lemma create_kids toks : forall n h c, node_at h n = Some c ->
  exists c' ks ms, node_at h (fst (create_path toks n)) = Some c' /\ kind_of c' = kind_of c /\ kids_of c' = ks ++ ms /\
    Forall2 (fun a b => label_of a = label_of b) (kids_of c) ks /\ forallb is_elem ms = true.
Proof.
  assert (R : forall l, Forall2 (fun a b : xml => label_of a = label_of b) l l) by (induction l; constructor; auto).
  induction toks as [|t ts IH]; intros n h c H.
  { exists c, (kids_of c), []. cbn. rewrite app_nil_r. auto. }
  assert (T : fst (create_path (t :: ts) n) = n -> exists c' ks ms, node_at h (fst (create_path (t :: ts) n)) = Some c' /\
    kind_of c' = kind_of c /\ kids_of c' = ks ++ ms /\ Forall2 (fun a b => label_of a = label_of b) (kids_of c) ks /\ forallb is_elem ms = true).
  { intros ->. exists c, (kids_of c), []. rewrite app_nil_r. auto. }
  destruct n as [nm at_ kids|s|s]; [|apply T; cbn [create_path]; now destruct (create_spec t)|apply T; cbn [create_path]; now destruct (create_spec t)].
  destruct (create_spec t) as [[name ats]| | |] eqn:E; try (apply T; cbn [create_path]; rewrite E; reflexivity). clear T.
  rewrite (create_step _ _ _ _ _ _ _ E). destruct (place name ats kids) as [i kids'] eqn:P.
  destruct (place_ok _ _ _ _ _ (create_spec_nodup _ _ _ E) P) as (d & H1 & H2 & _ & _ & H5).
  rewrite (nth_of_error _ _ _ _ H1). destruct (create_path ts d) as [d' r] eqn:F. cbn [fst].
  assert (Kd : kind_of d' = kind_of d) by (pose proof (create_kind ts d) as K; now rewrite F in K).
  assert (Ld : label_of d' = label_of d).
  { pose proof (create_labels ts d [] (label_of d) eq_refl) as L. rewrite F in L. cbn in L. now injection L. }
  assert (U : forall l j, nth_error l j = Some d -> Forall2 (fun a b => label_of a = label_of b) l (upd l j d')).
  { induction l as [|x l IHl]; intros [|j] Hj; cbn in Hj; try discriminate; cbn [upd]; constructor; auto. now injection Hj as ->. }
  destruct h as [|j h].
  - cbn in H. injection H as <-. eexists. cbn [node_at kids_of].
    destruct H5 as [-> | (-> & -> & ->)].
    + exists (upd kids i d'), []. rewrite app_nil_r. split; [reflexivity|]. auto.
    + exists kids, [d']. split; [reflexivity|]. split; [reflexivity|]. split.
      * cbn [kids_of]. clear. induction kids as [|x l IHl]; cbn; [reflexivity|now rewrite IHl].
      * split; [apply R|]. cbn. destruct d'; [reflexivity|discriminate|discriminate].
  - cbn [node_at kids_of] in *. rewrite nth_error_upd. destruct (nth_error kids j) as [b|] eqn:B; [|discriminate].
    pose proof (place_kids _ _ _ _ _ j P b B) as B'. destruct (i =? j)%nat eqn:Q.
    + apply Nat.eqb_eq in Q. subst j. replace (i <? length kids')%nat with true by lia. rewrite H1 in B'. injection B' as ->.
      pose proof (IH b h c H) as R2. rewrite F in R2. exact R2.
    + rewrite B'. rewrite H. exists c, (kids_of c), []. rewrite app_nil_r. auto.
Qed.
Lemma create_value toks n h v : value_at h n = Some v -> value_at h (fst (create_path toks n)) = Some v.
Proof.
  unfold value_at. destruct (node_at h n) as [c|] eqn:E; [|discriminate]. intros H.
  destruct (create_kids toks n h c E) as (c' & ks & ms & -> & _ & Hk & HF & He).
  unfold try_get_value in *. rewrite Hk, child_value_elems by exact He. rewrite <- (child_value_kinds _ _ HF).
  destruct HF as [|x y l l' L HF]; [discriminate|]. cbn [app]. destruct x, y; cbn in L; try discriminate; try discriminate H. exact H.
Qed.
Lemma create_tidy toks n : tidy n -> tidy (fst (create_path toks n)).
Proof.
  revert n. induction toks as [|t ts IH]; intros n T; [exact T|].
  destruct n as [nm at_ kids|s|s]; [|cbn [create_path]; destruct (create_spec t); exact T|cbn [create_path]; destruct (create_spec t); exact T].
  destruct (create_spec t) as [[name ats]| | |] eqn:E; try (cbn [create_path]; rewrite E; exact T).
  rewrite (create_step _ _ _ _ _ _ _ E). destruct (place name ats kids) as [i kids'] eqn:P.
  destruct (place_ok _ _ _ _ _ (create_spec_nodup _ _ _ E) P) as (d & H1 & H2 & Hm & _ & H5).
  rewrite (nth_of_error _ _ _ _ H1). destruct (create_path ts d) as [d' r] eqn:F. cbn [fst].
  assert (Kd : kind_of d' = kind_of d) by (pose proof (create_kind ts d) as K; now rewrite F in K).
  assert (Ed : is_elem d = true) by (destruct d; [reflexivity|discriminate|discriminate]).
  assert (Ed' : is_elem d' = true) by (destruct d, d'; try discriminate; reflexivity).
  assert (Td : tidy d).
  { destruct H5 as [-> | (_ & _ & ->)].
    - intros h n Hn. apply (T (i :: h) n). cbn [node_at kids_of]. now rewrite H1.
    - intros h n Hn. destruct h as [|[|j] h]; try discriminate. cbn in Hn. injection Hn as <-. cbn. split; [intros s []|cbn; lia]. }
  assert (Td' : tidy d') by (pose proof (IH d Td) as R; now rewrite F in R).
  assert (T0 : tidy_kids kids') .
  { pose proof (T [] (Elem nm at_ kids) eq_refl) as T0. cbn [kids_of] in T0. destruct H5 as [-> | (-> & _ & ->)]; [exact T0|].
    destruct T0 as [Ta Tb]. split.
    - intros s Hs. apply in_app_iff in Hs. destruct Hs as [Hs|[Hs|[]]]; [now apply (Ta s)|discriminate].
    - rewrite filter_app. cbn. now rewrite app_nil_r. }
  intros h n Hn. destruct h as [|j h].
  - cbn in Hn. injection Hn as <-. cbn [kids_of]. clear - T0 H1 Ed Ed'. destruct T0 as [Ta Tb]. split.
    + intros s Hs. apply In_nth_error in Hs. destruct Hs as [j Hj]. rewrite nth_error_upd in Hj. destruct (i =? j)%nat.
      * destruct (j <? length kids')%nat; [|discriminate]. injection Hj as ->. discriminate.
      * apply (Ta s). now apply nth_error_In in Hj.
    + replace (filter is_text (upd kids' i d')) with (filter is_text kids'); [exact Tb|]. clear Ta Tb. revert i H1.
      induction kids' as [|x l IHl]; intros [|i] H1; cbn in H1; try discriminate; cbn [upd filter].
      * injection H1 as ->. destruct d; try discriminate. destruct d'; try discriminate. reflexivity.
      * now rewrite (IHl i H1).
  - cbn [node_at kids_of] in Hn. rewrite nth_error_upd in Hn. destruct (i =? j)%nat eqn:Q.
    + destruct (j <? length kids')%nat; [|discriminate]. now apply (Td' h n).
    + destruct H5 as [-> | (-> & -> & ->)].
      * apply (T (j :: h) n). exact Hn.
      * destruct (Nat.lt_ge_cases j (length kids)) as [Hj|Hj].
        -- rewrite nth_error_app1 in Hn by lia. now apply (T (j :: h) n).
        -- rewrite (proj2 (nth_error_None (kids ++ [Elem name ats []]) j)) in Hn; [discriminate|]. rewrite app_length. cbn.
           apply Nat.eqb_neq in Q. lia.
Qed.

(** ** SetValue *)
Lemma set_value_kind v a b : set_value v a = Ok b -> kind_of b = kind_of a.
Proof.
  destruct a as [nm ats kids|s|s]; cbn; try discriminate. destruct (existsb is_elem kids); [discriminate|]. intros H. injection H as <-. reflexivity.
Qed.
Lemma set_value_keeps v a b : set_value v a = Ok b -> keeps a b.
Proof.
  intros H h k Hk. pose proof (set_value_kind v a b H) as K. destruct h as [|i h].
  - unfold kind_at in *. cbn in *. congruence.
  - destruct a as [nm ats kids|s|s]; cbn in H; try discriminate. destruct (existsb is_elem kids) eqn:E; [discriminate|]. injection H as <-.
    rewrite kind_cons in *. cbn [kids_of] in *. destruct (nth_error kids i) as [c|] eqn:C; [|discriminate].
    assert (NE : is_elem c = false).
    { destruct (is_elem c) eqn:X; [|reflexivity]. apply Bool.not_true_iff_false in E. exfalso. apply E. apply existsb_exists.
      exists c. split; [now apply nth_error_In in C|exact X]. }
    destruct (find_index is_text kids) as [j|] eqn:F.
    + rewrite nth_error_upd. destruct (j =? i)%nat eqn:Q; [|now rewrite C].
      apply Nat.eqb_eq in Q. subst j. assert (L : (i < length kids)%nat) by (apply nth_error_Some; congruence).
      replace (i <? length kids)%nat with true by lia. destruct h as [|x h].
      * unfold kind_at in *. cbn in *. destruct c; [discriminate|exact Hk|exact Hk].
      * exfalso. destruct c; [discriminate| |]; unfold kind_at in Hk; cbn in Hk; destruct x; discriminate.
    + rewrite nth_error_app1; [now rewrite C|]. apply nth_error_Some. congruence.
Qed.
Lemma change_keeps f h : (forall a b, f a = Ok b -> keeps a b) -> forall n n', change_at h f n = Ok n' -> keeps n n'.
Proof.
  intros P. induction h as [|i h IH]; intros n n' H; cbn [change_at] in H; [now apply P|].
  destruct n as [nm ats kids|s|s]; try discriminate. destruct (nth_error kids i) as [c|] eqn:E; [|discriminate].
  destruct (change_at h f c) as [c'| | |] eqn:F; cbn [bind] in H; try discriminate. injection H as <-.
  intros k x Hx. destruct k as [|j k]; [exact Hx|]. rewrite kind_cons in *. cbn [kids_of] in *. rewrite nth_error_upd.
  destruct (i =? j)%nat eqn:Q; [|exact Hx]. apply Nat.eqb_eq in Q. subst j. rewrite E in Hx.
  assert (L : (i < length kids)%nat) by (apply nth_error_Some; congruence). replace (i <? length kids)%nat with true by lia. now apply (IH c c' F).
Qed.
(** the kids which are neither elements nor CDATA, at most one text *)
Lemma tidy_no_elem kids : tidy_kids kids -> existsb is_elem kids = false -> kids = [] \/ exists s, kids = [Text s].
Proof.
  intros [H1 H2] H3. destruct kids as [|a [|b l]]; [now left| |].
  - right. destruct a as [nm ats ks|s|s]; [discriminate|now exists s|]. exfalso. apply (H1 s). now left.
  - exfalso. destruct a as [nm ats ks|s|s]; [discriminate| |apply (H1 s); now left].
    destruct b as [nm ats ks|s'|s']; [discriminate| |apply (H1 s'); right; now left]. cbn in H2. lia.
Qed.
Lemma set_value_get v a b : tidy_kids (kids_of a) -> set_value v a = Ok b -> try_get_value b = Some v.
Proof.
  intros T H. destruct a as [nm ats kids|s|s]; cbn in H; try discriminate. destruct (existsb is_elem kids) eqn:E; [discriminate|].
  injection H as <-. cbn [kids_of] in T. destruct (tidy_no_elem kids T E) as [-> | [s ->]]; destruct v; reflexivity.
Qed.
Lemma set_value_tidy v a b : tidy_kids (kids_of a) -> set_value v a = Ok b -> kids_of b = [Text v].
Proof.
  intros T H. destruct a as [nm ats kids|s|s]; cbn in H; try discriminate. destruct (existsb is_elem kids) eqn:E; [discriminate|].
  injection H as <-. cbn [kids_of] in T. destruct (tidy_no_elem kids T E) as [-> | [s ->]]; reflexivity.
Qed.
Lemma change_tidy v h : forall n n', tidy n -> change_at h (set_value v) n = Ok n' -> tidy n'.
Proof.
  induction h as [|i h IH]; intros n n' T H; cbn [change_at] in H.
  - pose proof (set_value_tidy v n n' (T [] n eq_refl) H) as K. intros k c Hc. destruct k as [|[|j] k]; cbn [node_at] in Hc.
    + injection Hc as <-. rewrite K. split; [intros s [X|[]]; discriminate|cbn; lia].
    + rewrite K in Hc. cbn in Hc. destruct k as [|[|x] k]; cbn in Hc; try discriminate. injection Hc as <-. cbn. split; [intros s []|cbn; lia].
    + rewrite K in Hc. cbn in Hc. destruct j; discriminate.
  - destruct n as [nm ats kids|s|s]; try discriminate. destruct (nth_error kids i) as [c|] eqn:E; [|discriminate].
    destruct (change_at h (set_value v) c) as [c'| | |] eqn:F; cbn [bind] in H; try discriminate. injection H as <-.
    assert (Tc : tidy c) by (intros k x Hx; apply (T (i :: k) x); cbn [node_at kids_of]; now rewrite E).
    pose proof (IH c c' Tc F) as Tc'.
    assert (Kc : kind_of c' = kind_of c) by (apply (change_at_kind (set_value v) h); [apply set_value_kind|exact F]).
    assert (Ec : is_elem c = true).
    { destruct h as [|x h]; cbn [change_at] in F; destruct c; cbn in F; try discriminate; reflexivity. }
    pose proof (T [] (Elem nm ats kids) eq_refl) as T0. cbn [kids_of] in T0.
    intros k x Hx. destruct k as [|j k].
    + cbn in Hx. injection Hx as <-. cbn [kids_of]. destruct T0 as [Ta Tb]. split.
      * intros s Hs. apply In_nth_error in Hs. destruct Hs as [j Hj]. rewrite nth_error_upd in Hj. destruct (i =? j)%nat.
        -- destruct (j <? length kids)%nat; [|discriminate]. injection Hj as ->. destruct c; discriminate.
        -- apply (Ta s). now apply nth_error_In in Hj.
      * replace (filter is_text (upd kids i c')) with (filter is_text kids); [exact Tb|]. clear - E Kc Ec. revert i E.
        induction kids as [|y l IHl]; intros [|i] E; cbn in E; try discriminate; cbn [upd filter].
        -- injection E as ->. destruct c, c'; try discriminate. reflexivity.
        -- now rewrite (IHl i E).
    + cbn [node_at kids_of] in Hx. rewrite nth_error_upd in Hx. destruct (i =? j)%nat.
      * destruct (j <? length kids)%nat; [|discriminate]. now apply (Tc' k x).
      * now apply (T (j :: k) x).
Qed.
(** values of the other nodes *)
Lemma set_value_other v a b k : set_value v a = Ok b -> k <> [] -> value_at k a = None /\ value_at k b = None.
Proof.
  intros H N. destruct k as [|i k]; [easy|]. clear N.
  assert (L : forall kids, existsb is_elem kids = false -> match nth_error kids i with Some c => match node_at k c with Some d => try_get_value d | None => None end | None => None end = None).
  { intros kids E. destruct (nth_error kids i) as [c|] eqn:C; [|reflexivity].
    assert (NE : is_elem c = false).
    { destruct (is_elem c) eqn:X; [|reflexivity]. apply Bool.not_true_iff_false in E. exfalso. apply E. apply existsb_exists.
      exists c. split; [now apply nth_error_In in C|exact X]. }
    destruct c; [discriminate| |]; destruct k as [|[|x] k]; reflexivity. }
  destruct a as [nm ats kids|s|s]; cbn in H; try discriminate. destruct (existsb is_elem kids) eqn:E; [discriminate|]. injection H as <-.
  unfold value_at. cbn [node_at kids_of]. specialize (L kids E) as L1.
  assert (L2 : existsb is_elem (match find_index is_text kids with Some j => upd kids j (Text v) | None => kids ++ [Text v] end) = false).
  { apply Bool.not_true_iff_false. intros X. apply existsb_exists in X. destruct X as (c & Hc & X).
    assert (Hin : In c kids \/ c = Text v).
    { destruct (find_index is_text kids) as [j|].
      - apply In_nth_error in Hc. destruct Hc as [m Hm]. rewrite nth_error_upd in Hm. destruct (j =? m)%nat.
        + destruct (m <? length kids)%nat; [|discriminate]. injection Hm as <-. now right.
        + left. now apply nth_error_In in Hm.
      - apply in_app_iff in Hc. destruct Hc as [Hc|[<-|[]]]; auto. }
    destruct Hin as [Hin| ->]; [|discriminate]. apply Bool.not_true_iff_false in E. apply E. apply existsb_exists. now exists c. }
  specialize (L _ L2). split.
  - destruct (nth_error kids i) as [c|]; [|reflexivity]. exact L1.
  - destruct (nth_error _ i) as [c|]; [|reflexivity]. exact L.
Qed.
Lemma change_value_other v h : forall n n' k, change_at h (set_value v) n = Ok n' -> k <> h -> value_at k n' = value_at k n.
Proof.
  induction h as [|i h IH]; intros n n' k H N; cbn [change_at] in H.
  - destruct (set_value_other v n n' k H N) as [-> ->]. reflexivity.
  - destruct n as [nm ats kids|s|s]; try discriminate. destruct (nth_error kids i) as [c|] eqn:E; [|discriminate].
    destruct (change_at h (set_value v) c) as [c'| | |] eqn:F; cbn [bind] in H; try discriminate. injection H as <-.
    assert (Kc : kind_of c' = kind_of c) by (apply (change_at_kind (set_value v) h); [apply set_value_kind|exact F]).
    assert (Ec : is_elem c = true).
    { destruct h as [|x h]; cbn [change_at] in F; destruct c; cbn in F; try discriminate; reflexivity. }
    destruct k as [|j k].
    + unfold value_at. cbn [node_at]. apply value_kinds. cbn [kids_of]. clear - E Kc Ec. revert i E.
      assert (R : forall l, Forall2 (fun a b : xml => label_of a = label_of b) l l) by (induction l; constructor; auto).
      induction kids as [|y l IHl]; intros [|i] E; cbn in E; try discriminate; cbn [upd]; constructor; auto.
      injection E as ->. destruct c, c'; try discriminate. cbn in *. congruence.
    + unfold value_at. cbn [node_at kids_of]. rewrite nth_error_upd. destruct (i =? j)%nat eqn:Q; [|reflexivity].
      apply Nat.eqb_eq in Q. subst j. rewrite E. assert (L : (i < length kids)%nat) by (apply nth_error_Some; congruence).
      replace (i <? length kids)%nat with true by lia. apply (IH c c' k F). intros ->. now apply N.
Qed.

(** ** writes *)
Lemma write_inv p v t t' : write p v t = Ok t' -> exists toks t1 h, path_tokens p = Ok toks /\ create_path toks t = (t1, Ok h) /\
  change_at h (set_value v) t1 = Ok t'.
Proof.
  unfold write, get_or_create. destruct (path_tokens p) as [toks| | |]; try discriminate.
  destruct (create_path toks t) as [t1 [h| | |]] eqn:E; try discriminate. intros H. exists toks, t1, h. auto.
Qed.
Theorem write_all p v t t' : tidy t -> write p v t = Ok t' ->
  tidy t' /\ keeps t t' /\ exists h, get_child_node p t' = Ok (Some h) /\ value_at h t' = Some v /\
    forall k, k <> h -> forall w, value_at k t = Some w -> value_at k t' = Some w.
Proof.
  intros T H. destruct (write_inv p v t t' H) as (toks & t1 & h & E & C & S).
  assert (T1 : tidy t1) by (pose proof (create_tidy toks t T) as X; now rewrite C in X).
  assert (K1 : keeps t t1) by (pose proof (create_keeps toks t) as X; now rewrite C in X).
  assert (K2 : keeps t1 t') by (apply (change_keeps (set_value v) h); [apply set_value_keeps|exact S]).
  split; [now apply (change_tidy v h t1)|]. split; [now apply (keeps_trans t t1)|].
  exists h. split; [|split].
  - unfold get_child_node. rewrite E. cbn [bind]. apply (find_path_keeps toks t1 t' h K2). now apply (create_then_find toks t).
  - destruct (change_at_ok _ _ _ _ S) as (c & c' & H1 & H2 & H3). unfold value_at. rewrite H3.
    apply (set_value_get v c c'); [now apply (T1 h c)|exact H2].
  - intros k N w Hw. rewrite (change_value_other v h t1 t' k S N). pose proof (create_value toks t k w Hw) as X. now rewrite C in X.
Qed.
Lemma read_value p t : read p t = (let* o := get_child_node p t in Ok (match o with Some h => value_at h t | None => None end)).
Proof. reflexivity. Qed.
Lemma find_child_keeps p t t' h : keeps t t' -> get_child_node p t = Ok (Some h) -> get_child_node p t' = Ok (Some h).
Proof.
  intros K. unfold get_child_node. destruct (path_tokens p); cbn [bind]; try discriminate. now apply find_path_keeps.
Qed.
Lemma writes_keep ws : forall t t', tidy t -> writes ws t = Ok t' -> tidy t' /\ keeps t t'.
Proof.
  induction ws as [|[p v] ws IH]; intros t t' T H; cbn [writes] in H; [injection H as <-; split; [exact T|apply keeps_refl]|].
  destruct (write p v t) as [t1| | |] eqn:W; cbn [bind] in H; try discriminate.
  destruct (write_all p v t t1 T W) as (T1 & K1 & _). destruct (IH t1 t' T1 H) as (T2 & K2). split; [exact T2|now apply (keeps_trans t t1)].
Qed.
Lemma writes_value ws : forall t t' h w, tidy t -> writes ws t = Ok t' -> value_at h t = Some w ->
  (forall q u, In (q, u) ws -> get_child_node q t' <> Ok (Some h)) -> value_at h t' = Some w.
Proof.
  induction ws as [|[p v] ws IH]; intros t t' h w T H V N; cbn [writes] in H; [now injection H as <-|].
  destruct (write p v t) as [t1| | |] eqn:W; cbn [bind] in H; try discriminate.
  destruct (write_all p v t t1 T W) as (T1 & K1 & h1 & G & _ & O). destruct (writes_keep ws t1 t' T1 H) as (T2 & K2).
  apply (IH t1 t' h w T1 H); [|intros q u Hq; apply (N q u); now right].
  apply O; [|exact V]. intros ->. apply (N p v); [now left|]. now apply (find_child_keeps p t1 t').
Qed.
Theorem last_write ws1 p v ws2 t t' : tidy t -> writes (ws1 ++ (p, v) :: ws2) t = Ok t' ->
  (forall q u, In (q, u) ws2 -> get_child_node q t' <> get_child_node p t') -> read p t' = Ok (Some v).
Proof.
  revert t. induction ws1 as [|[p1 v1] ws1 IH]; intros t T H N; cbn [app writes] in H.
  - destruct (write p v t) as [t1| | |] eqn:W; cbn [bind] in H; try discriminate.
    destruct (write_all p v t t1 T W) as (T1 & K1 & h & G & V & _). destruct (writes_keep ws2 t1 t' T1 H) as (T2 & K2).
    pose proof (find_child_keeps p t1 t' h K2 G) as G'. rewrite read_value, G'. cbn [bind].
    rewrite (writes_value ws2 t1 t' h v T1 H V); [reflexivity|]. intros q u Hq. rewrite <- G'. now apply (N q u).
  - destruct (write p1 v1 t) as [t1| | |] eqn:W; cbn [bind] in H; try discriminate.
    destruct (write_all p1 v1 t t1 T W) as (T1 & _). now apply (IH t1).
Qed.
