(** Proofs about the functions of the C API and their arguments: an analysis of the programs which is sound, applied to all of them. *)
From Verif Require Import Base ArgModel ArgSpec.
Open Scope Z_scope.

Definition mem (i : nat) (l : list nat) : bool := existsb (Nat.eqb i) l.
Definition subset (a b : list nat) : bool := forallb (fun i => mem i b) a.
Definition hollow_free (w : list (nat * stored_kind)) : bool := forallb (fun e => match snd e with SHollow => false | _ => true end) w.
Definition only_null (w : list (nat * stored_kind)) : bool := forallb (fun e => match snd e with SNullHandle => true | _ => false end) w.
(** [nn]: arguments known not to be null; [gd]: handles known to be good; [w]: what has been written *)
Fixpoint check (f : func) (p : prog) (nn gd : list nat) (w : list (nat * stored_kind)) : bool :=
  match p with
  | Ret OK => subset (f_required f) nn && subset (f_handles f) gd && subset (f_outputs f) (map fst w) && hollow_free w
  | Ret InvArg => only_null w
  | Ret _ => subset (f_required f) nn && only_null w
  | IfNull l p q => check f p nn gd w && check f q (l ++ nn) gd w
  | IfAllNull l p q => check f p nn gd w && check f q nn gd w
  | IfInvalid i p q => mem i nn && check f p nn gd w && check f q nn (i :: gd) w
  | Use i p => mem i gd && check f p nn gd w
  | Read i p => mem i nn && check f p nn gd w
  | Write i k p => mem i nn && check f p nn gd (w ++ [(i, k)])
  | Choose l => (fix all (l : list prog) : bool := match l with [] => true | p :: l' => check f p nn gd w && all l' end) l
  | UseNothing => false
  end.
Lemma mem_iff i l : mem i l = true <-> In i l.
Proof. unfold mem. rewrite existsb_exists. split; [intros (x & A & B); apply Nat.eqb_eq in B as ->; exact A|intros H; exists i; split; [exact H|apply Nat.eqb_refl]]. Qed.
Lemma subset_iff a b : subset a b = true <-> forall i, In i a -> In i b.
Proof. unfold subset. rewrite forallb_forall. split; intros H i A; [apply mem_iff|apply mem_iff]; now apply H. Qed.
Lemma check_choose f l nn gd w : check f (Choose l) nn gd w = true -> forall p, In p l -> check f p nn gd w = true.
Proof.
  cbn [check]. induction l as [|q l IH]; intros H p I; [destruct I|]. apply andb_prop in H as (A & B). destruct I as [<-|I]; [exact A|now apply IH].
Qed.
(** what may come out *)
Definition fine (f : func) (a : list aval) (o : outcome) : Prop :=
  match o with
  | Crash => False
  | Returned e w =>
      (e <> InvArg -> forall i, In i (f_required f) -> arg a i <> Null) /\
      (e = OK -> (forall i, In i (f_handles f) -> arg a i = Good) /\ (forall i, In i (f_outputs f) -> exists k, In (i, k) w) /\ (forall i, ~ In (i, SHollow) w)) /\
      (e <> OK -> forall i k, In (i, k) w -> k = SNullHandle)
  end.
Lemma hollow_free_iff w : hollow_free w = true -> forall i, ~ In (i, SHollow) w.
Proof. unfold hollow_free. rewrite forallb_forall. intros H i I. apply H in I. discriminate I. Qed.
Lemma only_null_iff w : only_null w = true -> forall i k, In (i, k) w -> k = SNullHandle.
Proof. unfold only_null. rewrite forallb_forall. intros H i k I. apply H in I. cbn in I. now destruct k. Qed.
Theorem check_sound f a p w o : runs a p w o -> (forall i, arg a i <> Hollow) -> forall nn gd, (forall i, In i nn -> arg a i <> Null) -> (forall i, In i gd -> arg a i = Good) ->
  check f p nn gd w = true -> fine f a o.
Proof.
  intros R H0. induction R; intros nn gd N G C.
  - assert (X : e <> OK -> (e <> InvArg -> subset (f_required f) nn = true) /\ only_null w = true).
    { intros E. destruct e; try congruence; cbn [check] in C; try (apply andb_prop in C as (C1 & C2); split; [intros _; exact C1|exact C2]). split; [congruence|exact C]. }
    cbn [fine]. destruct e; try (destruct (X ltac:(discriminate)) as (X1 & X2); split; [intros E i I; apply N; revert I; apply subset_iff; now apply X1|];
      split; [discriminate|intros _; now apply only_null_iff]).
    cbn [check] in C. apply andb_prop in C as (C & C4). apply andb_prop in C as (C & C3). apply andb_prop in C as (C1 & C2).
    rewrite subset_iff in C1, C2, C3. split; [intros _ i I; now apply N, C1|]. split; [|congruence]. intros _. split; [intros i I; now apply G, C2|].
    split; [|now apply hollow_free_iff]. intros i I. apply C3, in_map_iff in I as ((j & k) & E & I). cbn in E. subst j. now exists k.
  - cbn [check] in C. apply andb_prop in C as (C1 & C2). now apply (IHR nn gd).
  - cbn [check] in C. apply andb_prop in C as (C1 & C2). apply (IHR (l ++ nn) gd); try assumption. intros i I. apply in_app_or in I as [I|I]; [|now apply N].
    intros E. assert (X : existsb (fun i => is_nullp (arg a i)) l = true) by (apply existsb_exists; exists i; split; [exact I|now rewrite E]). congruence.
  - cbn [check] in C. apply andb_prop in C as (C1 & C2). now apply (IHR nn gd).
  - cbn [check] in C. apply andb_prop in C as (C1 & C2). now apply (IHR nn gd).
  - cbn [check] in C. apply andb_prop in C as (C & C2). apply andb_prop in C as (C0 & C1). apply mem_iff in C0. now apply N in C0.
  - cbn [check] in C. apply andb_prop in C as (C & C2). apply andb_prop in C as (C0 & C1). now apply (IHR nn gd).
  - cbn [check] in C. apply andb_prop in C as (C & C2). apply andb_prop in C as (C0 & C1). apply (IHR nn (i :: gd)); try assumption.
    intros j [<-|J]; [|now apply G]. destruct H as [H|H]; [now apply H0 in H|exact H].
  - cbn [check] in C. apply andb_prop in C as (C0 & C1). apply mem_iff in C0. now apply G in C0.
  - cbn [check] in C. apply andb_prop in C as (C0 & C1). now apply (IHR nn gd).
  - cbn [check] in C. apply andb_prop in C as (C0 & C1). apply mem_iff in C0. now apply N in C0.
  - cbn [check] in C. apply andb_prop in C as (C0 & C1). now apply (IHR nn gd).
  - cbn [check] in C. apply andb_prop in C as (C0 & C1). apply mem_iff in C0. now apply N in C0.
  - cbn [check] in C. apply andb_prop in C as (C0 & C1). now apply (IHR nn gd).
  - apply (IHR nn gd); try assumption. now apply (check_choose f l).
  - discriminate C.
Qed.
Lemma no_hollow a : ~ In Hollow a -> forall i, arg a i <> Hollow.
Proof. intros H i E. unfold arg in E. destruct (Nat.lt_ge_cases i (length a)) as [L|L]; [apply H; rewrite <- E; now apply nth_In|rewrite nth_overflow in E by assumption; discriminate E]. Qed.
Lemma checked f : check f (f_prog f) [] [] [] = true -> well_behaved f.
Proof.
  intros C. assert (F : forall a o, ~ In Hollow a -> call f a o -> fine f a o).
  { intros a o H R. refine (check_sound f a _ _ o R (no_hollow a H) [] [] _ _ C); intros i []. }
  split; [|split; [|split]].
  - intros a T H R. exact (F a Crash H R).
  - intros a e w i T H I E R. destruct (F a _ H R) as (X & _). destruct e; try reflexivity; exfalso; now apply (X ltac:(discriminate) i I).
  - intros a w T H R. destruct (F a _ H R) as (_ & X & _). now apply X.
  - intros a e w T H R N. destruct (F a _ H R) as (_ & _ & X). now apply X.
Qed.
Theorem sound_functions_behave : Forall well_behaved sound_functions.
Proof.
  apply Forall_forall. intros f I. apply checked. revert f I. apply forallb_forall. vm_compute. reflexivity.
Qed.

(** ** the other functions, if nothing which is needed is null *)
Definition behaves_given (f : func) : Prop := forall a o, ~ In Hollow a -> (forall i, In i (f_required f) -> arg a i <> Null) -> call f a o -> fine f a o.
Lemma checked_given f : check f (f_prog f) (f_required f) [] [] = true -> behaves_given f.
Proof. intros C a o H N R. refine (check_sound f a _ _ o R (no_hollow a H) (f_required f) [] N _ C). intros i []. Qed.
Lemma check_more f p : forall nn nn' gd gd' w, (forall i, In i nn -> In i nn') -> (forall i, In i gd -> In i gd') -> check f p nn gd w = true -> check f p nn' gd' w = true.
Proof.
  assert (S1 : forall a b c, (forall i, In i b -> In i c) -> subset a b = true -> subset a c = true) by (intros a b c H; rewrite !subset_iff; auto).
  assert (M1 : forall i b c, (forall i, In i b -> In i c) -> mem i b = true -> mem i c = true) by (intros i b c H; rewrite !mem_iff; auto).
  revert p. fix IH 1. intros p nn nn' gd gd' w N G. destruct p as [e|l p q|l p q|i p q|i p|i p|i k p|l|]; cbn [check].
  - intros C. destruct e; repeat (apply andb_prop in C as (C & ?)); rewrite ?andb_true_iff; try (split; [now apply (S1 _ nn)|assumption]); try assumption.
    split; [split; [split; [now apply (S1 _ nn)|now apply (S1 _ gd)]|assumption]|assumption].
  - intros C. apply andb_prop in C as (C1 & C2). rewrite (IH p nn nn' gd gd' w N G C1). rewrite (IH q (l ++ nn) (l ++ nn') gd gd' w); [reflexivity| |exact G|exact C2].
    intros i I. apply in_app_or in I as [I|I]; apply in_or_app; auto.
  - intros C. apply andb_prop in C as (C1 & C2). now rewrite (IH p nn nn' gd gd' w N G C1), (IH q nn nn' gd gd' w N G C2).
  - intros C. apply andb_prop in C as (C & C2). apply andb_prop in C as (C0 & C1). rewrite (M1 i nn nn' N C0), (IH p nn nn' gd gd' w N G C1).
    rewrite (IH q nn nn' (i :: gd) (i :: gd') w N); [reflexivity| |exact C2]. intros j [<-|J]; [now left|right; auto].
  - intros C. apply andb_prop in C as (C0 & C1). now rewrite (M1 i gd gd' G C0), (IH p nn nn' gd gd' w N G C1).
  - intros C. apply andb_prop in C as (C0 & C1). now rewrite (M1 i nn nn' N C0), (IH p nn nn' gd gd' w N G C1).
  - intros C. apply andb_prop in C as (C0 & C1). now rewrite (M1 i nn nn' N C0), (IH p nn nn' gd gd' _ N G C1).
  - revert l. fix IHl 1. intros [|p l] C; [reflexivity|]. apply andb_prop in C as (C1 & C2). rewrite (IH p nn nn' gd gd' w N G C1). exact (IHl l C2).
  - discriminate.
Qed.
(** composing: any number of bitmaps *)
Lemma over_bitmaps_check f q n : forall i nn gd w, subset (f_required f) nn = true -> only_null w = true -> (forall j, In j (seq i n) -> In j nn) ->
  (forall gd', (forall j, In j (seq i n) -> In j gd') -> check f q nn gd' w = true) -> check f (over_bitmaps n i q) nn gd w = true.
Proof.
  induction n as [|n IH]; intros i nn gd w R W S1 Q; cbn [over_bitmaps].
  - apply Q. intros j [].
  - cbn [check]. rewrite R, W. rewrite (proj2 (mem_iff i nn)) by (apply S1; now left). cbn [andb].
    assert (X : forall gd0, In i gd0 -> check f (over_bitmaps n (S i) q) nn gd0 w = true).
    { clear gd. revert i nn w R W S1 Q IH. intros i nn w R W S1 Q IH gd0 I0.
      assert (Y : forall m k gd1, (forall j, In j (seq i (S n)) -> In j (seq k m) \/ In j gd1) -> (forall j, In j (seq k m) -> In j nn) -> check f (over_bitmaps m k q) nn gd1 w = true).
      { clear IH gd0 I0. induction m as [|m IHm]; intros k gd1 A B; cbn [over_bitmaps].
        - apply Q. intros j J. destruct (A j J) as [[]|J']. exact J'.
        - cbn [check]. rewrite R, W. rewrite (proj2 (mem_iff k nn)) by (apply B; now left). cbn [andb]. apply IHm; [|intros j J; apply B; now right].
          intros j J. destruct (A j J) as [[<-|J']|J']; [right; now left|now left|right; now right]. }
      apply Y; [|intros j J; apply S1; now right]. intros j [<-|J]; [now right|now left]. }
    apply X. now left.
Qed.
Lemma use_bitmaps_check f q n : forall i nn gd w, (forall j, In j (seq i n) -> In j gd) -> check f q nn gd w = true -> check f (use_bitmaps n i q) nn gd w = true.
Proof.
  induction n as [|n IH]; intros i nn gd w G Q; cbn [use_bitmaps]; [exact Q|]. cbn [check]. rewrite (proj2 (mem_iff i gd)) by (apply G; now left). cbn [andb].
  apply IH; [|exact Q]. intros j J. apply G. now right.
Qed.
Lemma composition_given n : behaves_given (f_CompositorDoMultiChannelComposition n).
Proof.
  apply checked_given. set (f := f_CompositorDoMultiChannelComposition n). change (f_prog f) with
    (Choose [Ret InvArg; IfNull [0; 1; 2]%nat (Ret InvArg) (Read 0 (Read 1 (over_bitmaps n 3 (use_bitmaps n 3 (may_throw [Write 2 SHandle (Ret OK)])))))]).
  change (f_required f) with (seq 0 (3 + n)). cbn [check andb only_null forallb seq Nat.add app mem existsb Nat.eqb orb].
  rewrite andb_true_r. set (nn := (0 :: 1 :: 2 :: 0 :: 1 :: 2 :: seq 3 n)%nat).
  assert (RQ : subset (f_required f) nn = true) by (apply subset_iff; intros i I; change (f_required f) with (0 :: 1 :: 2 :: seq 3 n)%nat in I; unfold nn; cbn [In] in *; tauto).
  apply over_bitmaps_check; try assumption; try reflexivity.
  - intros j J. unfold nn. cbn [In]. tauto.
  - intros gd' G. apply use_bitmaps_check; [exact G|]. unfold may_throw. cbn [app check]. rewrite RQ.
    change (f_handles f) with (seq 3 n). rewrite (proj2 (subset_iff (seq 3 n) gd')) by exact G. reflexivity.
Qed.
Theorem others_behave n : Forall behaves_given
  [f_ReaderGetMetadataSegment; f_ReaderReadAttachment; f_CreateInputStream; f_MetadataSegmentGetMetadataAsXml; f_CompositorDoMultiChannelComposition n].
Proof.
  repeat (apply Forall_cons; [first [apply composition_given|apply checked_given; vm_compute; reflexivity]|]). constructor.
Qed.

(** ** crashes *)
Theorem crashes :
  call f_ReaderGetMetadataSegment [Good; Null] Crash /\ call f_ReaderReadAttachment [Null; Good] Crash /\ call f_ReaderReadAttachment [Good; Null] Crash /\
  call f_CreateInputStream [Good; Null; Null; Good] Crash /\ call f_MetadataSegmentGetMetadataAsXml [Good; Null] Crash /\
  call (f_CompositorDoMultiChannelComposition 1) [Good; Good; Good; Null] Crash /\ call f_CompositorFillOutCompositionChannelInfoInterop [Good; Good] Crash.
Proof.
  unfold call. repeat split.
  - apply r_not_null; [reflexivity|]. apply r_valid; [now right|]. apply r_use; [reflexivity|]. eapply r_choose; [right; now left|]. now apply r_write_null.
  - apply r_not_all; [reflexivity|]. now apply r_cast_null.
  - apply r_not_all; [reflexivity|]. apply r_valid; [now right|]. apply r_use; [reflexivity|]. eapply r_choose; [now left|]. now apply r_write_null.
  - apply r_not_null; [reflexivity|]. apply r_null; [reflexivity|]. apply r_read; [discriminate|]. now apply r_read_null.
  - apply r_not_null; [reflexivity|]. apply r_valid; [now right|]. apply r_use; [reflexivity|]. eapply r_choose; [right; right; now left|]. now apply r_write_null.
  - eapply r_choose; [right; now left|]. apply r_not_null; [reflexivity|]. apply r_read; [discriminate|]. apply r_read; [discriminate|]. now apply r_cast_null.
  - apply r_not_null; [reflexivity|]. apply r_valid; [now right|]. apply r_write; [discriminate|]. apply r_use; [reflexivity|]. eapply r_choose; [right; now left|]. apply r_nothing.
Qed.
(** success without a result, or with a handle which makes the next call crash *)
Theorem empty_handed :
  call f_CziDocumentInfoGetDimensionInfo [Good; Good] (Returned OK []) /\
  call f_CziDocumentInfoGetDisplaySettings [Good; Good] (Returned OK [(1%nat, SHollow)]) /\
  (forall o, call f_DisplaySettingsGetChannelDisplaySettings [Hollow; Good] o -> o = Crash).
Proof.
  unfold call. split; [|split].
  - apply r_not_null; [reflexivity|]. apply r_valid; [now right|]. apply r_use; [reflexivity|]. eapply r_choose; [right; right; now left|]. apply r_ret.
  - apply r_not_null; [reflexivity|]. apply r_valid; [now right|]. apply r_use; [reflexivity|]. eapply r_choose; [right; now left|]. apply r_write; [discriminate|]. apply r_ret.
  - intros o R. inversion R as [| |l p q w o' X Y| | | | | | | | | | | | |]; subst; [discriminate|]. inversion Y as [| | | | |i p q w E|i p q w o1 E Z|i p q w o1 E Z| | | | | | | |]; subst.
    + discriminate.
    + discriminate.
    + inversion Z as [| | | | | | | |i p w U|i p w o2 U V| | | | | |]; subst; [reflexivity|discriminate].
Qed.
Lemma others_given n f : In f [f_ReaderGetMetadataSegment; f_ReaderReadAttachment; f_CreateInputStream; f_MetadataSegmentGetMetadataAsXml; f_CompositorDoMultiChannelComposition n] ->
  forall a o, ~ In Hollow a -> (forall i, In i (f_required f) -> arg a i <> Null) -> call f a o ->
  exists e w, o = Returned e w /\
    (e = OK -> (forall i, In i (f_handles f) -> arg a i = Good) /\ (forall i, In i (f_outputs f) -> exists k, In (i, k) w) /\ (forall i, ~ In (i, SHollow) w)) /\
    (e <> OK -> forall i k, In (i, k) w -> k = SNullHandle).
Proof.
  intros I a o H N R. pose proof (proj1 (Forall_forall _ _) (others_behave n) f I a o H N R) as F. destruct o as [|e w]; [destruct F|].
  exists e, w. split; [reflexivity|exact (proj2 F)].
Qed.
