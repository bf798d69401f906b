(** Attachments of a document are told apart by identifier, name and type: the writer and the editor in place. *)
From Coq Require Import Permutation.
From Verif Require Import Base StatModel CodecModel MemProofs CodecProofs WriterModel WriterProofs WriterSpec ReadProofs WriterInv WriterFin WriterOpen WriterMain WriterLimits WriterExamples
  EditModel EditSpec EditSeg EditStore EditInv EditSteps EditRun EditMain EditOpen EditExamples.
Open Scope Z_scope.

(** Pairwise distinct; an attachment as a reader sees it *)
Definition distinct (l : list attinfo) : Prop := ForallOrdPairs (fun a b => same_attachment a b = false) l.
Definition as_att (e : attentry) : attinfo := mkAtt (ae_guid e) (ae_type e) (ae_name e) [].
Definition att_sizes (o : wop) : Prop := match o with OpAtt a => length (at_guid a) = 16%nat /\ length (at_type a) = 8%nat /\ length (at_name a) = 80%nat | _ => True end.

(** ** The writer *)
Definition tracks (s : wstate) (l : list attinfo) : Prop :=
  Forall2 (fun e a => ae_guid e = at_guid a /\ ae_type e = at_type a /\ ae_name e = at_name a /\ att_ok a) (w_atts s) l.
Lemma tracks_dups s l a p : tracks s l -> att_ok a ->
  existsb (fun x => att_same_id x (att_entry p a)) (w_atts s) = existsb (fun x => same_attachment x a) l.
Proof.
  intros T (A1 & A2 & A3). induction T as [|e x l1 l2 (E1 & E2 & E3 & B1 & B2 & B3) T IH]; [reflexivity|]. cbn [existsb]. rewrite IH. f_equal.
  unfold att_same_id, same_attachment, att_entry. cbn [ae_guid ae_name ae_type]. rewrite E1, E2, E3, !cstr_cstring by congruence. reflexivity.
Qed.
Lemma kept_atts s o ws s' r : (match o with OpAtt _ => False | _ => True end) -> wstep s o = (ws, s', r) -> w_atts s' = w_atts s.
Proof.
  destruct o as [a slot|a|xml att]; intros O; [|destruct O|]; cbn [wstep].
  - destruct (negb (sub_args_ok a)); [injection 1 as <- <- <-; reflexivity|]. destruct slot as [k|]; [|injection 1 as <- <- <-; reflexivity].
    destruct (snd (write_subblock (w_next s) a)); injection 1 as <- <- <-; reflexivity.
  - destruct (snd (write_metadata (w_meta s) (w_next s) xml att)) as [x| | |]; cbv zeta; try (destruct x); injection 1 as <- <- <-; reflexivity.
Qed.
Lemma tracks_step s l o ws s' r : tracks s l -> att_sizes o -> wstep s o = (ws, s', r) ->
  tracks s' (l ++ attached [o] [r]) /\
  match o with OpAtt a => if existsb (fun x => same_attachment x a) l then (ws, s', r) = ([], s, Throw) else r = Ok tt | _ => True end.
Proof.
  intros T O H. destruct o as [a slot|a|xml att].
  - split; [|exact I]. replace (attached [OpSub a slot] [r]) with (@nil attinfo) by (destruct r; reflexivity). rewrite app_nil_r. unfold tracks. now rewrite (kept_atts s (OpSub a slot) ws s' r I H).
  - pose proof (tracks_dups s l a (w_next s) T O) as D.
    destruct (wstep_att s a ws s' r O H) as [(-> & -> & ->)|(-> & bss & _ & _ & ->)].
    + split; [cbn [attached]; now rewrite app_nil_r|]. cbn [wstep] in H. change (mkAttEntry (at_guid a) (at_type a) (at_name a) (w_next s)) with (att_entry (w_next s) a) in H. rewrite D in H.
      destruct (existsb (fun x => same_attachment x a) l); [reflexivity|]. exfalso.
      destruct (write_attachment_spec (w_next s) a O) as (b & E & _). rewrite E in H. discriminate H.
    + split.
      * cbn [attached]. unfold tracks in *. cbn [w_atts]. apply Forall2_app; [assumption|]. constructor; [|constructor]. repeat split; apply O.
      * cbn [wstep] in H. change (mkAttEntry (at_guid a) (at_type a) (at_name a) (w_next s)) with (att_entry (w_next s) a) in H. rewrite D in H.
        destruct (existsb (fun x => same_attachment x a) l); [discriminate H|reflexivity].
  - split; [|exact I]. replace (attached [OpMeta xml att] [r]) with (@nil attinfo) by (destruct r; reflexivity). rewrite app_nil_r. unfold tracks. now rewrite (kept_atts s (OpMeta xml att) ws s' r I H).
Qed.
Lemma pairs_snoc {A} (R : A -> A -> Prop) l x : ForallOrdPairs R l -> Forall (fun y => R y x) l -> ForallOrdPairs R (l ++ [x]).
Proof.
  induction 1 as [|y l H1 H2 IH]; intros F; cbn [app]; [constructor; constructor|]. inversion F; subst. constructor; [|now apply IH].
  apply Forall_app. split; [assumption|]. constructor; [assumption|constructor].
Qed.
Lemma attached_cons o ops r rs : attached (o :: ops) (r :: rs) = attached [o] [r] ++ attached ops rs.
Proof. destruct o, r; reflexivity. Qed.
Lemma existsb_none {A} (f : A -> bool) l : existsb f l = false -> Forall (fun x => f x = false) l.
Proof. induction l as [|x l IH]; cbn; [constructor|]. intros H. apply orb_false_elim in H as [H1 H2]. constructor; auto. Qed.
Lemma tracks_run ops : forall s l ws s' rs, tracks s l -> distinct l -> Forall att_sizes ops -> wrun s ops = (ws, s', rs) ->
  tracks s' (l ++ attached ops rs) /\ distinct (l ++ attached ops rs).
Proof.
  induction ops as [|o ops IH]; intros s l ws s' rs T D F; cbn [wrun].
  - injection 1 as <- <- <-. cbn [attached]. rewrite app_nil_r. tauto.
  - inversion F as [|? ? F1 F2]; subst. destruct (wstep s o) as [[w1 s1] r] eqn:E1. destruct (wrun s1 ops) as [[w2 s2] rs2] eqn:E2. injection 1 as <- <- <-.
    destruct (tracks_step s l o w1 s1 r T F1 E1) as [T1 R1]. rewrite attached_cons, app_assoc. eapply IH; [exact T1| |exact F2|exact E2].
    destruct o as [a slot|a|xml att]; try (replace (attached _ [r]) with (@nil attinfo) by (destruct r; reflexivity); now rewrite app_nil_r).
    destruct (existsb (fun x => same_attachment x a) l) eqn:Ex; [injection R1 as -> -> ->; cbn [attached]; now rewrite app_nil_r|]. subst r. cbn [attached].
    apply pairs_snoc; [assumption|]. now apply existsb_none.
Qed.
Lemma create_atts i ws s : creation_ok i -> create i = (ws, s) -> w_atts s = [].
Proof. intros C E. apply (create_spec i ws s); [exact C|exact E]. Qed.
Lemma identity_step : forall i ops a ws0 s0 ws1 s1 rs,
  creation_ok i -> Forall att_sizes (OpAtt a :: ops) -> create i = (ws0, s0) -> wrun s0 ops = (ws1, s1, rs) ->
  if existsb (fun x => same_attachment x a) (attached ops rs) then wstep s1 (OpAtt a) = ([], s1, Throw)
  else exists ws s2, wstep s1 (OpAtt a) = (ws, s2, Ok tt).
Proof.
  intros i ops a ws0 s0 ws1 s1 rs C F E1 E2. inversion F as [|? ? F1 F2]; subst.
  assert (T : tracks s0 []) by (unfold tracks; rewrite (create_atts _ _ _ C E1); constructor).
  destruct (tracks_run ops s0 [] ws1 s1 rs T (FOP_nil _) F2 E2) as [T1 _]. cbn [app] in T1.
  destruct (wstep s1 (OpAtt a)) as [[w s2] r] eqn:E. destruct (tracks_step s1 _ _ _ _ _ T1 F1 E) as [_ R].
  destruct (existsb (fun x => same_attachment x a) (attached ops rs)); [exact R|]. subst r. eauto.
Qed.
Lemma identity_session : forall i ops ws rs r, creation_ok i -> Forall att_sizes ops -> session i ops = (ws, rs, r) -> distinct (attached ops rs).
Proof.
  intros i ops ws rs r C F. unfold session. destruct (create i) as [w0 s0] eqn:E1. destruct (wrun s0 ops) as [[w1 s1] rs1] eqn:E2. injection 1 as _ <- _.
  assert (T : tracks s0 []) by (unfold tracks; rewrite (create_atts _ _ _ C E1); constructor).
  apply (tracks_run ops s0 [] w1 s1 rs1 T (FOP_nil _) F E2).
Qed.

(** What a reader sees: the name is cut to 79 characters *)
Lemma cut_cstring (n : bytes) : length n = 80%nat -> In 0 n -> cstring (upd n 79 0) = cstring n.
Proof.
  assert (G : forall k (n : bytes), length n = S k -> In 0 n -> cstring (upd n k 0) = cstring n).
  { induction k as [|k IH]; intros [|c l] L I; cbn [length] in L; try discriminate.
    - destruct l; [|discriminate L]. destruct I as [<-|[]]. reflexivity.
    - cbn [upd cstring]. destruct (c =? 0) eqn:E; [reflexivity|]. f_equal. apply IH; [congruence|]. destruct I as [->|I]; [discriminate E|assumption]. }
  intros L I. now apply G.
Qed.
Lemma same_seen a b e f : at_guid a = ae_guid e /\ at_type a = ae_type e /\ cstring (ae_name e) = cstring (at_name a) ->
  at_guid b = ae_guid f /\ at_type b = ae_type f /\ cstring (ae_name f) = cstring (at_name b) -> same_attachment (as_att e) (as_att f) = same_attachment a b.
Proof. intros (A1 & A2 & A3) (B1 & B2 & B3). unfold same_attachment, as_att. cbn [at_guid at_name at_type]. rewrite A1, A2, A3, B1, B2, B3. reflexivity. Qed.
Lemma pairs_transfer {A B} (R : A -> A -> Prop) (S : B -> B -> Prop) (Q : A -> B -> Prop) : (forall a b x y, Q a x -> Q b y -> R a b -> S x y) ->
  forall l m, Forall2 Q l m -> ForallOrdPairs R l -> ForallOrdPairs S m.
Proof.
  intros H l m F. induction F as [|a x l m F1 F2 IH]; intros D; [constructor|]. inversion D as [|? ? D1 D2]; subst. constructor; [|auto].
  clear -H F1 F2 D1. induction F2; [constructor|]. inversion D1; subst. constructor; eauto.
Qed.
Lemma identity_reopened : forall m0 strict po i ops ws rs r,
  session i ops = (ws, rs, r) -> creation_ok i -> Forall (request_ok INT_MAX) ops ->
  file_size ws < 2 ^ 63 -> Z.of_nat (length ops) <= INT_MAX -> strict = false \/ added ops rs <> [] ->
  Forall (fun a => Z.of_nat (length (at_data a)) <= INT_MAX /\ In 0 (at_name a)) (attached ops rs) ->
  match wi_ratt i with Some k => (if k =? 0 then 10 else k) <= Z.of_nat (length (attached ops rs)) | None => True end ->
  exists o, open_file strict po (file_of m0 ws) = Ok o /\ length (op_atts o) = length (attached ops rs) /\ distinct (map as_att (op_atts o)).
Proof.
  intros m0 strict po i ops ws rs r H1 H2 H3 H4 H5 H6 H7 H8.
  destruct (session_attachments m0 strict po i ops ws rs r H1 H2 H3 H4 H5 H6) as (o & O & M & _); [eapply Forall_impl; [|exact H7]; cbn beta; tauto|exact H8|].
  exists o. split; [exact O|]. assert (L : length (op_atts o) = length (attached ops rs)) by (apply (f_equal (@length _)) in M; now rewrite !map_length in M). split; [exact L|].
  assert (Sz : Forall att_sizes ops) by (eapply Forall_impl; [|exact H3]; intros [| |]; cbn; tauto).
  pose proof (identity_session i ops ws rs r H2 Sz H1) as D.
  assert (Ak : Forall att_ok (attached ops rs)).
  { clear -Sz. revert rs. induction ops as [|x ops IH]; intros rs; [constructor|]. inversion Sz; subst. destruct rs as [|y rs]; [destruct x; constructor|].
    rewrite attached_cons. apply Forall_app. split; [|auto]. destruct x, y; cbn [attached]; constructor; trivial. }
  assert (Q : Forall2 (fun a x => exists e, x = as_att e /\ at_guid a = ae_guid e /\ at_type a = ae_type e /\ cstring (ae_name e) = cstring (at_name a)) (attached ops rs) (map as_att (op_atts o))).
  { clear -M H7 Ak. revert M H7 Ak. generalize (attached ops rs) as l. induction (op_atts o) as [|e es IH]; intros [|a l] M H7 Ak; try discriminate M; [constructor|].
    cbn [map] in M. injection M as M1 M2 M3 M4 M5. inversion H7 as [|? ? [_ N] H8]; subst. inversion Ak as [|? ? (A1 & A2 & A3) Ak']; subst.
    constructor; [|apply IH; assumption]. exists e. repeat split; try congruence. rewrite M3. now apply cut_cstring. }
  eapply (pairs_transfer _ _ _ ) with (3 := D); [|exact Q]. cbn beta. intros a b x y (e & -> & A) (f & -> & B) E. rewrite (same_seen a b e f A B). exact E.
Qed.

(** ** Editing in place *)
Lemma discard_in {A} k (l : list (Z * A)) : exists p, map snd (discard k l) = map snd (filter p l).
Proof. eexists. reflexivity. Qed.
Lemma pairs_filter {A B} (g : A -> B) (R : B -> B -> Prop) p l : ForallOrdPairs R (map g l) -> ForallOrdPairs R (map g (filter p l)).
Proof.
  induction l as [|x l IH]; cbn [map filter]; intros D; [exact D|]. inversion D as [|? ? D1 D2]; subst. destruct (p x); [|auto]. cbn [map]. constructor; [|auto].
  clear -D1. induction l as [|y l IH]; cbn [filter map] in *; [constructor|]. inversion D1; subst. destruct (p y); [constructor|]; auto.
Qed.
Definition keeps_identities (o : eop) : Prop := match o with EReplaceAtt _ _ => False | EAddAtt a => In 0 (at_name a) | _ => True end.
Definition named (d : doc) : Prop := Forall (fun v => In 0 (at_name (snd v)) /\ length (at_name (snd v)) = 80%nat) (d_atts d).
Lemma identity_dstep d o : distinct (map snd (d_atts d)) -> named d -> keeps_identities o -> edit_ok o ->
  distinct (map snd (d_atts (fst (dstep d o)))) /\ named (fst (dstep d o)).
Proof.
  intros D N K O. destruct o as [a|k a|k|a|k a|k|xml att]; cbn [dstep keeps_identities edit_ok] in *.
  - destruct (_ && _); cbn [fst d_atts]; tauto.
  - destruct (lookup k (d_subs d)); cbn [fst d_atts]; tauto.
  - destruct (lookup k (d_subs d)); cbn [fst d_atts]; tauto.
  - destruct (existsb (fun v => same_attachment (snd v) a) (d_atts d)) eqn:E; cbn [fst]; [tauto|]. unfold named. cbn [d_atts]. split.
    + rewrite map_app. apply pairs_snoc; [assumption|]. apply Forall_map. now apply existsb_none.
    + apply Forall_app. split; [exact N|]. constructor; [|constructor]. cbn [snd]. split; [assumption|apply O].
  - destruct K.
  - destruct (lookup k (d_atts d)); cbn [fst]; [|tauto]. unfold named. cbn [d_atts]. split; [now apply pairs_filter|].
    apply Forall_forall. intros x I. apply filter_In in I as [I _]. unfold named in N. rewrite Forall_forall in N. auto.
  - cbn [fst d_atts]. tauto.
Qed.
Lemma identity_drun os : forall d, distinct (map snd (d_atts d)) -> named d -> Forall keeps_identities os -> Forall edit_ok os ->
  distinct (map snd (d_atts (fst (drun d os)))) /\ named (fst (drun d os)).
Proof.
  induction os as [|o os IH]; intros d D N K O; cbn [drun]; [tauto|]. inversion K; inversion O; subst. destruct (identity_dstep d o) as [D1 N1]; trivial.
  destruct (dstep d o) as [d1 b]. cbn [fst] in *. specialize (IH d1 D1 N1). destruct (drun d1 os) as [d2 bs]. cbn [fst] in *. auto.
Qed.
Lemma number_snd {A} (l : list A) : forall k, map snd (number k l) = l.
Proof. induction l as [|x l IH]; intros k; cbn [number map snd]; [reflexivity|]. now rewrite IH. Qed.
Lemma identity_kept d : distinct (map snd (d_atts d)) -> named d -> distinct (map snd (d_atts (reopened d))).
Proof.
  intros D N. unfold reopened. cbn [d_atts]. rewrite number_snd, <- map_map.
  refine (pairs_transfer _ _ (fun a x => same_attachment a = same_attachment x /\ forall c, same_attachment c a = same_attachment c x) _ _ _ _ D).
  - intros a b x y [A1 A2] [B1 B2] E. rewrite <- A1, <- B2. exact E.
  - unfold named in N. induction (d_atts d) as [|v l IH]; [constructor|]. inversion N as [|? ? [N1 N2] N3]; subst. cbn [map]. constructor; [|apply IH; [now inversion D|assumption]].
    split.
    + unfold same_attachment, cut_name. cbn [at_guid at_name at_type]. rewrite cut_cstring by assumption. reflexivity.
    + intros c. unfold same_attachment, cut_name. cbn [at_guid at_name at_type]. rewrite cut_cstring by assumption. reflexivity.
Qed.
Lemma document_named strict f h d : document strict f h d -> reopened d = d -> named d.
Proof.
  intros (es & ats & _ & _ & _ & _ & _ & H & _) E. unfold named. rewrite <- E. unfold reopened. cbn [d_atts].
  set (P := fun v : Z * attinfo => In 0 (at_name (snd v)) /\ length (at_name (snd v)) = 80%nat).
  assert (L : Forall (fun v => length (at_name v) = 80%nat) (map snd (d_atts d))) by (clear -H; induction H; constructor; tauto).
  clear -L. generalize 0 as k. revert L. induction (d_atts d) as [|v l IH]; intros L k; cbn [map number]; [constructor|].
  inversion L; subst. constructor; [|now apply IH]. unfold P. cbn [snd cut_name at_name]. rewrite upd_length. split; [|assumption].
  rewrite <- (nth_upd_eq (at_name (snd v)) 79 0 0) at 1; [apply nth_In; rewrite upd_length|]; lia.
Qed.
Lemma identity_edit : forall strict force guid f h d os,
  document strict f h d -> reopened d = d -> length guid = 16%nat -> Forall edit_ok os -> no_growth d os -> close_safe f h d os ->
  (strict = false \/ d_subs (fst (drun d os)) <> []) -> counts_fit (fst (drun d os)) ->
  distinct (map snd (d_atts d)) -> Forall keeps_identities os ->
  exists f' rs r, edit strict force guid f os = Ok (f', rs, r)
    /\ (f_size f' < 2 ^ 63 -> exists h' d', document strict f' h' d' /\ distinct (map snd (d_atts d'))).
Proof.
  intros strict force guid f h d os A B C D E F G H I J. destruct (edit_document strict force guid f h d os A B C D E F G H) as (f' & rs & r & K & L).
  exists f', rs, r. split; [exact K|]. intros Sz. destruct (L Sz) as (_ & _ & h' & M & _). exists h', (reopened (fst (drun d os))). split; [exact M|].
  destruct (identity_drun os d I (document_named _ _ _ _ A B) J D) as [P Q]. now apply identity_kept.
Qed.

(** ** Witnesses *)
Definition long_name (c : Z) : attinfo := mkAtt (repeat 1 16) (repeat 65 8) (repeat 66 79 ++ [c]) [c].
Definition twin_ops : list wop := [OpSub ex_sub1 (Some 0%nat); OpAtt (long_name 67); OpAtt (long_name 68)].
Definition twin_info : winfo := mkWInfo (repeat 7 16) None None None.
Definition seen_atts (ws : list wr) : res (list attinfo) := let* o := open_file false popts_lax (file_of m_zero ws) in Ok (map as_att (op_atts o)).
Lemma twins : exists ws a b, session twin_info twin_ops = (ws, [Ok tt; Ok tt; Ok tt], Ok tt) /\ same_attachment (long_name 67) (long_name 68) = false
  /\ seen_atts ws = Ok [a; b] /\ same_attachment a b = true.
Proof.
  destruct (session twin_info twin_ops) as [[ws rs] r] eqn:E. exists ws.
  assert (E1 : rs = [Ok tt; Ok tt; Ok tt]) by (change rs with (snd (fst (ws, rs, r))); rewrite <- E; vm_compute; reflexivity).
  assert (E2 : r = Ok tt) by (change r with (snd (ws, rs, r)); rewrite <- E; vm_compute; reflexivity).
  assert (E3 : match seen_atts ws with Ok [a; b] => same_attachment a b | _ => false end = true) by (change ws with (fst (fst (ws, rs, r))); rewrite <- E; vm_compute; reflexivity).
  destruct (seen_atts ws) as [[|a [|b [|? ?]]]| | |]; try discriminate E3. exists a, b. rewrite E1, E2. repeat (split; [reflexivity|]). exact E3.
Qed.
Lemma distinct_two l : match l with [a; b] => negb (same_attachment a b) | _ => false end = true -> distinct l.
Proof.
  destruct l as [|a [|b [|? ?]]]; try discriminate. intros H. constructor; [constructor; [|constructor]|constructor; [constructor|constructor]].
  now destruct (same_attachment a b).
Qed.
Lemma replaced_twin : exists a b, edit false false (repeat 9 16) file2 [EReplaceAtt 1 (ex_att 1)] = Ok (edited file2 [EReplaceAtt 1 (ex_att 1)], [Ok tt], Ok tt)
  /\ distinct (map snd (d_atts doc2))
  /\ (let* o := open_file false popts_lax (edited file2 [EReplaceAtt 1 (ex_att 1)]) in Ok (map as_att (op_atts o))) = Ok [a; b] /\ same_attachment a b = true.
Proof.
  eexists _, _. split; [apply edited_eq; vm_compute; reflexivity|]. split; [|split; [vm_compute; reflexivity|vm_compute; reflexivity]].
  apply distinct_two. vm_compute. reflexivity.
Qed.
