(** Proofs about coordinates: comparison, enumeration, validation, selection. *)
From Coq Require Import FinFun.
From Verif Require Import Base RectModel TextModel TextProofs CoordModel CoordSpec.

(** ** Comparison *)
Lemma compare_from_range ds a b : compare_from ds a b = -1 \/ compare_from ds a b = 0 \/ compare_from ds a b = 1.
Proof.
  induction ds as [|d ds IH]; cbn [compare_from]; [auto|].
  destruct (tget a d), (tget b d); auto. destruct (_ <? _); [auto|]. destruct (_ <? _); auto.
Qed.

Lemma compare_from_antisym ds a b : compare_from ds b a = - compare_from ds a b.
Proof.
  induction ds as [|d ds IH]; cbn [compare_from]; [reflexivity|].
  destruct (tget a d) as [x|], (tget b d) as [y|]; auto.
  destruct (Z.ltb_spec x y), (Z.ltb_spec y x); try lia; auto.
Qed.

Lemma compare_from_zero ds a b : compare_from ds a b = 0 <-> forall d, In d ds -> tget a d = tget b d.
Proof.
  induction ds as [|d ds IH]; cbn [compare_from]; [split; [intros _ d []|auto]|].
  split.
  - intros H d' [<-|I].
    + destruct (tget a d) as [x|], (tget b d) as [y|]; try lia; [|reflexivity].
      destruct (Z.ltb_spec y x); [lia|]. destruct (Z.ltb_spec x y); [lia|]. f_equal; lia.
    + apply IH; [|assumption]. destruct (tget a d) as [x|], (tget b d) as [y|]; try lia.
      destruct (Z.ltb_spec y x); [lia|]. destruct (Z.ltb_spec x y); [lia|]. exact H.
  - intros H. rewrite (H d) by now left. assert (IH' : compare_from ds a b = 0) by (apply IH; intros; apply H; now right).
    destruct (tget b d); [|exact IH']. now rewrite Z.ltb_irrefl.
Qed.

Lemma compare_from_trans ds a b c :
  compare_from ds a b <= 0 -> compare_from ds b c <= 0 -> compare_from ds a c <= 0.
Proof.
  induction ds as [|d ds IH]; cbn [compare_from]; [lia|].
  destruct (tget a d) as [x|], (tget b d) as [y|], (tget c d) as [z|]; try lia; auto.
  destruct (Z.ltb_spec y x); [lia|]. destruct (Z.ltb_spec z y); [lia|].
  destruct (Z.ltb_spec z x); [lia|].
  destruct (Z.ltb_spec x y), (Z.ltb_spec y z), (Z.ltb_spec x z); try lia; auto.
Qed.

Theorem compare_zero a b : table9 a -> table9 b -> (compare a b = 0 <-> a = b).
Proof.
  intros Ha Hb. unfold compare. rewrite compare_from_zero. split; [|intros ->; reflexivity].
  intros H. now apply table_ext.
Qed.

(** ** Enumeration *)

(** tuples of values for a list of intervals, the first component running fastest *)
Definition range (st : Z) (n : nat) : list Z := map (fun i => st + Z.of_nat i) (seq 0 n).
Fixpoint tuples (bs : list (Z * Z)) : list (list Z) :=
  match bs with
  | [] => [[]]
  | (st, sz) :: r => flat_map (fun t => map (fun v => v :: t) (range st (Z.to_nat sz))) (tuples r)
  end.

Fixpoint succ (bs : list (Z * Z)) (t : list Z) : option (list Z) :=
  match bs, t with
  | (st, sz) :: r, v :: t' =>
    if v <? st + sz - 1 then Some (v + 1 :: t')
    else match succ r t' with
         | None => None
         | Some t'' => Some (st :: t'')
         end
  | _, _ => None
  end.

Inductive chain {A} (nx : A -> option A) : list A -> Prop :=
| chain_last x : nx x = None -> chain nx [x]
| chain_more x y l : nx x = Some y -> chain nx (y :: l) -> chain nx (x :: y :: l).

Lemma range_S st n : range st (S n) = st :: range (st + 1) n.
Proof.
  unfold range. cbn [seq map]. f_equal; [lia|]. rewrite <- seq_shift, map_map. apply map_ext. intros; lia.
Qed.

Lemma in_range st n v : In v (range st n) <-> st <= v < st + Z.of_nat n.
Proof.
  unfold range. rewrite in_map_iff. split.
  - intros (i & <- & I). apply in_seq in I. lia.
  - intros H. exists (Z.to_nat (v - st)). split; [lia|]. apply in_seq. lia.
Qed.

Lemma range_nodup st n : NoDup (range st n).
Proof.
  unfold range. apply Injective_map_NoDup; [|apply seq_NoDup]. intros x y H. lia.
Qed.

Lemma chain_run st sz r t rest : 1 <= sz ->
  (match succ r t with
   | None => rest = []
   | Some t' => exists rest', rest = (st :: t') :: rest' /\ chain (succ ((st, sz) :: r)) rest
   end) ->
  forall n v, v + Z.of_nat n = st + sz - 1 -> 
  chain (succ ((st, sz) :: r)) (map (fun v => v :: t) (range v (S n)) ++ rest).
Proof.
  intros Hsz Hrest. induction n as [|n IH]; intros v Hv.
  - unfold range. cbn [seq map app]. replace (v + Z.of_nat 0) with v by lia.
    destruct (succ r t) as [t'|] eqn:E.
    + destruct Hrest as (rest' & -> & C). apply chain_more; [|exact C].
      cbn [succ]. destruct (Z.ltb_spec v (st + sz - 1)); [lia|]. now rewrite E.
    + subst rest. apply chain_last. cbn [succ]. destruct (Z.ltb_spec v (st + sz - 1)); [lia|]. now rewrite E.
  - rewrite range_S. cbn [map app]. specialize (IH (v + 1) ltac:(lia)).
    rewrite range_S in IH |- *. cbn [map app] in IH |- *.
    apply chain_more; [|exact IH]. cbn [succ]. destruct (Z.ltb_spec v (st + sz - 1)); [reflexivity|lia].
Qed.

Lemma chain_flat st sz r L : 1 <= sz -> chain (succ r) L ->
  chain (succ ((st, sz) :: r)) (flat_map (fun t => map (fun v => v :: t) (range st (Z.to_nat sz))) L).
Proof.
  intros Hsz H. set (bl := fun t => map (fun v => v :: t) (range st (Z.to_nat sz))).
  assert (Eb : forall t, bl t = map (fun v => v :: t) (range st (S (Z.to_nat (sz - 1))))).
  { intros t. unfold bl. do 2 f_equal. lia. }
  induction H as [x Hx|x y l Hx Hc IH]; cbn [flat_map].
  - rewrite Eb. apply chain_run; [assumption|now rewrite Hx|lia].
  - rewrite Eb. apply chain_run; [assumption| |lia]. rewrite Hx.
    cbn [flat_map] in IH. exists (map (fun v => v :: y) (range (st + 1) (Z.to_nat (sz - 1))) ++ flat_map bl l).
    split; [|exact IH]. rewrite Eb, range_S. reflexivity.
Qed.

Lemma tuples_chain bs : Forall (fun p => 1 <= snd p) bs -> chain (succ bs) (tuples bs).
Proof.
  induction 1 as [|[st sz] r Hs Hr IH]; cbn [tuples].
  - apply chain_last. reflexivity.
  - now apply chain_flat.
Qed.

Lemma tuples_head bs : Forall (fun p => 1 <= snd p) bs -> exists l, tuples bs = map fst bs :: l.
Proof.
  induction 1 as [|[st sz] r Hs Hr (l & IH)]; cbn [tuples map fst].
  - now exists [].
  - rewrite IH. cbn [flat_map snd] in *. replace (Z.to_nat sz) with (S (Z.to_nat (sz - 1))) by lia.
    rewrite range_S. cbn [map app]. eexists. reflexivity.
Qed.

Lemma in_tuples bs : forall t, In t (tuples bs) <->
  Forall2 (fun p v => fst p <= v < fst p + Z.max 0 (snd p)) bs t.
Proof.
  induction bs as [|[st sz] r IH]; intros t; cbn [tuples].
  - split; [intros [<-|[]]; constructor|]. inversion 1. now left.
  - rewrite in_flat_map. split.
    + intros (t' & I & J). apply in_map_iff in J. destruct J as (v & <- & J). apply in_range in J.
      constructor; [cbn [fst snd]; lia|now apply IH].
    + inversion 1 as [|? v ? t' Hv Ht]; subst. cbn [fst snd] in Hv. exists t'. split; [now apply IH|].
      apply in_map_iff. exists v. split; [reflexivity|]. apply in_range. lia.
Qed.

Lemma Forall2_len {A B} (R : A -> B -> Prop) l l' : Forall2 R l l' -> length l = length l'.
Proof. induction 1; cbn [length]; congruence. Qed.

Lemma nodup_app {A} (l1 l2 : list A) : NoDup l1 -> NoDup l2 -> (forall x, In x l1 -> ~ In x l2) -> NoDup (l1 ++ l2).
Proof.
  induction 1 as [|x l H1 H2 IH]; intros N D; [assumption|]. cbn [app]. constructor.
  - intros C. apply in_app_or in C. destruct C as [C|C]; [contradiction|]. apply (D x); [now left|assumption].
  - apply IH; [assumption|]. intros y I. apply D. now right.
Qed.

Lemma NoDup_flat {A B} (f : A -> list B) l : NoDup l -> (forall x, In x l -> NoDup (f x)) ->
  (forall x y z, In x l -> In y l -> In z (f x) -> In z (f y) -> x = y) -> NoDup (flat_map f l).
Proof.
  induction 1 as [|x l Hx Hl IH]; intros H1 H2; cbn [flat_map]; [constructor|].
  apply nodup_app.
  - apply H1. now left.
  - apply IH; intros; [apply H1; now right|apply (H2 x0 y z); auto; now right].
  - intros z Hz C. apply in_flat_map in C. destruct C as (y & Iy & Iz).
    assert (x = y) by (apply (H2 x y z); auto; [now left|now right]). subst. contradiction.
Qed.

Lemma tuples_nodup bs : NoDup (tuples bs).
Proof.
  induction bs as [|[st sz] r IH]; cbn [tuples]; [repeat constructor; intros []|].
  apply NoDup_flat; [assumption| |].
  - intros t _. apply Injective_map_NoDup; [|apply range_nodup]. intros x y H. congruence.
  - intros x y z _ _ Hx Hy. apply in_map_iff in Hx. apply in_map_iff in Hy.
    destruct Hx as (a & <- & _). destruct Hy as (b & H & _). congruence.
Qed.

(** coordinates from tuples *)
Fixpoint mk (ds t : list Z) : coord :=
  match ds, t with
  | d :: ds', v :: t' => tset (mk ds' t') d v
  | _, _ => empty_table
  end.

Lemma mk_length ds : forall t, incl ds dims -> length (mk ds t) = 9%nat.
Proof.
  induction ds as [|d ds IH]; intros t H; [reflexivity|].
  destruct t as [|v t]; [reflexivity|]. cbn [mk].
  apply tset_length; [apply IH; intros x Hx; apply H; now right|apply H; now left].
Qed.

Fixpoint assoc (ds t : list Z) (d : Z) : option Z :=
  match ds, t with
  | x :: ds', v :: t' => if x =? d then Some v else assoc ds' t' d
  | _, _ => None
  end.

Lemma tget_mk ds : forall t d, incl ds dims -> In d dims -> tget (mk ds t) d = assoc ds t d.
Proof.
  induction ds as [|x ds IH]; intros t d H I; [now apply tget_empty|].
  destruct t as [|v t]; [now apply tget_empty|]. cbn [mk assoc].
  assert (incl ds dims) by (intros y Hy; apply H; now right).
  rewrite tget_tset; [|now apply mk_length|apply H; now left|assumption].
  destruct (x =? d); [reflexivity|]. now apply IH.
Qed.

Lemma assoc_app ds1 : forall t1 ds2 t2 d, length ds1 = length t1 ->
  assoc (ds1 ++ ds2) (t1 ++ t2) d = match assoc ds1 t1 d with Some v => Some v | None => assoc ds2 t2 d end.
Proof.
  induction ds1 as [|x ds1 IH]; intros [|v t1] ds2 t2 d H; try discriminate H; [reflexivity|].
  cbn [app assoc]. destruct (x =? d); [reflexivity|]. apply IH. now injection H.
Qed.

Lemma assoc_notin ds : forall t d, ~ In d ds -> assoc ds t d = None.
Proof.
  induction ds as [|x ds IH]; intros t d H; [reflexivity|]. destruct t; [reflexivity|]. cbn [assoc].
  destruct (Z.eqb_spec x d); [exfalso; apply H; now left|]. apply IH. intros I. apply H. now right.
Qed.

Lemma assoc_in ds : forall t d, length ds = length t -> In d ds -> assoc ds t d <> None.
Proof.
  induction ds as [|x ds IH]; intros t d H J; [destruct J|]. destruct t; [discriminate H|]. cbn [assoc].
  destruct J as [->|I].
  - now rewrite Z.eqb_refl.
  - destruct (x =? d); [discriminate|]. apply IH; [now injection H|assumption].
Qed.

Definition intervals (b : bounds) (ds : list Z) : list (Z * Z) :=
  map (fun d => match tget b d with Some p => p | None => (0, 0) end) ds.
Definition starts (b : bounds) (ds : list Z) : list Z := map fst (intervals b ds).

Lemma reset_spec b ds js : forall t, incl ds dims -> NoDup ds -> length ds = length t ->
  incl js ds -> (forall d, In d ds -> tget b d <> None) ->
  let c := fold_left (fun c j => match tget b j with Some (m, _) => tset c j m | None => c end) js (mk ds t) in
  length c = 9%nat /\
  (forall d, In d dims -> tget c d = if in_dec Z.eq_dec d js then assoc ds (starts b ds) d else assoc ds t d).
Proof.
  intros t Hi Hn Hl Hj Hb.
  assert (As : forall j m sz, In j ds -> tget b j = Some (m, sz) -> assoc ds (starts b ds) j = Some m).
  { clear -Hn. intros j m sz I E. unfold starts, intervals. induction ds as [|x ds IH]; [destruct I|].
    inversion Hn; subst. cbn [map assoc]. destruct (Z.eqb_spec x j) as [->|N]; [now rewrite E|].
    apply IH; [assumption|]. destruct I; [contradiction|assumption]. }
  induction js as [|j js IH] using rev_ind.
  - cbn [fold_left]. split; [now apply mk_length|]. intros d Hd. destruct (in_dec Z.eq_dec d []) as [[]|].
    now apply tget_mk.
  - rewrite fold_left_app. cbn [fold_left].
    assert (Hj' : incl js ds) by (intros x Hx; apply Hj, in_or_app; now left).
    assert (Ij : In j ds) by (apply Hj, in_or_app; right; now left).
    destruct (IH Hj') as [L T]. cbv zeta in *.
    destruct (tget b j) as [[m sz]|] eqn:E; [|exfalso; now apply (Hb j)].
    split; [apply tset_length; [assumption|now apply Hi]|].
    intros d Hd. rewrite tget_tset by (auto). rewrite T by assumption.
    destruct (Z.eqb_spec j d) as [->|N].
    + destruct (in_dec Z.eq_dec d (js ++ [d])) as [_|N]; [|exfalso; apply N, in_or_app; right; now left].
      symmetry. now apply (As d m sz).
    + destruct (in_dec Z.eq_dec d js) as [I|I], (in_dec Z.eq_dec d (js ++ [j])) as [I'|I']; try reflexivity.
      * exfalso. apply I', in_or_app. now left.
      * exfalso. apply in_app_or in I'. destruct I' as [I'|[I'|[]]]; contradiction.
Qed.

Lemma odometer_spec b : forall todo done t,
  NoDup (done ++ todo) -> incl (done ++ todo) dims ->
  (forall d, In d (done ++ todo) -> exists st sz, tget b d = Some (st, sz) /\ 1 <= sz /\ in_i32 st /\ in_i32 (st + sz)) ->
  todo <> [] -> length todo = length t ->
  Forall2 (fun p v => fst p <= v < fst p + Z.max 0 (snd p)) (intervals b todo) t ->
  odometer b done todo (mk (done ++ todo) (starts b done ++ t)) =
    Ok (option_map (fun t' => mk (done ++ todo) (starts b done ++ t')) (succ (intervals b todo) t)).
Proof.
  induction todo as [|d todo IH]; intros done t Hn Hi Hb Hne Hl Hf; [contradiction|].
  destruct t as [|v t]; [discriminate Hl|].
  assert (Id : In d (done ++ d :: todo)) by (apply in_or_app; right; now left).
  destruct (Hb d Id) as (st & sz & E & B1 & B2 & B3).
  assert (Ls : length done = length (starts b done)) by (unfold starts, intervals; now rewrite !map_length).
  assert (Nd : ~ In d done).
  { intros I. apply NoDup_remove_2 in Hn. apply Hn, in_or_app. now left. }
  assert (Gv : tget (mk (done ++ d :: todo) (starts b done ++ v :: t)) d = Some v).
  { rewrite tget_mk by auto. rewrite assoc_app by assumption. rewrite assoc_notin by assumption.
    cbn [assoc]. now rewrite Z.eqb_refl. }
  cbn [odometer]. rewrite E, Gv.
  assert (C1 : chk (st + sz) = Ok (st + sz)) by (unfold chk; apply in_i32b_spec in B3; now rewrite B3).
  rewrite C1. cbn [bind].
  assert (C2 : chk (st + sz - 1) = Ok (st + sz - 1)).
  { unfold chk. assert (X : in_i32 (st + sz - 1)) by (unfold in_i32, INT_MIN, INT_MAX in *; lia).
    apply in_i32b_spec in X. now rewrite X. }
  rewrite C2. cbn [bind].
  cbn [intervals map] in Hf. rewrite E in Hf. inversion Hf as [|? ? ? ? Hv Hf']; subst. cbn [fst snd] in Hv.
  cbn [intervals map]. rewrite E. fold (intervals b todo). cbn [succ].
  destruct (Z.ltb_spec v (st + sz - 1)) as [L|L].
  - assert (C3 : chk (v + 1) = Ok (v + 1)).
    { unfold chk. assert (X : in_i32 (v + 1)) by (unfold in_i32, INT_MIN, INT_MAX in *; lia).
      apply in_i32b_spec in X. now rewrite X. }
    rewrite C3. cbn [bind option_map]. do 2 f_equal.
    apply table_ext.
    + apply tset_length; [now apply mk_length|now apply Hi].
    + now apply mk_length.
    + intros d' Hd'. rewrite tget_tset by (auto; now apply mk_length). rewrite !tget_mk by auto.
      rewrite !assoc_app by assumption. cbn [assoc].
      destruct (Z.eqb_spec d d') as [->|N]; [now rewrite assoc_notin|reflexivity].
  - destruct todo as [|d2 todo].
    + destruct t as [|? t]; [|discriminate Hl]. reflexivity.
    + set (todo' := d2 :: todo) in *.
      destruct (reset_spec b (done ++ d :: todo') (done ++ [d]) (starts b done ++ v :: t)) as [Lr Tr]; auto.
      { rewrite !app_length, Ls, Hl. reflexivity. }
      { intros x Hx. apply in_app_or in Hx. apply in_or_app. destruct Hx as [Hx|[<-|[]]]; [now left|right; now left]. }
      { intros x Hx. destruct (Hb x Hx) as (a & c & Ex & _). congruence. }
      cbv zeta in Tr. set (c' := fold_left _ (done ++ [d]) _) in *.
      assert (Ec : c' = mk (done ++ d :: todo') (starts b done ++ st :: t)).
      { apply table_ext; [assumption|now apply mk_length|]. intros x Hx. rewrite Tr by assumption.
        rewrite tget_mk by auto. destruct (in_dec Z.eq_dec x (done ++ [d])) as [I|I].
        - assert (Es : starts b (done ++ d :: todo') = (starts b done ++ [st]) ++ starts b todo').
          { unfold starts, intervals. rewrite !map_app. cbn [map]. rewrite E. cbn [fst]. rewrite <- app_assoc. reflexivity. }
          rewrite Es. replace (done ++ d :: todo') with ((done ++ [d]) ++ todo') by (rewrite <- app_assoc; reflexivity).
          replace (starts b done ++ st :: t) with ((starts b done ++ [st]) ++ t) by (rewrite <- app_assoc; reflexivity).
          assert (Ll : length (done ++ [d]) = length (starts b done ++ [st])) by (rewrite !app_length; cbn [length]; lia).
          rewrite (assoc_app (done ++ [d]) (starts b done ++ [st]) todo' (starts b todo')) by assumption.
          rewrite (assoc_app (done ++ [d]) (starts b done ++ [st]) todo' t) by assumption.
          destruct (assoc (done ++ [d]) (starts b done ++ [st]) x) eqn:Ea; [reflexivity|].
          exfalso. revert Ea. apply assoc_in; [rewrite !app_length; cbn [length]; lia|assumption].
        - rewrite !assoc_app by assumption. cbn [assoc]. destruct (Z.eqb_spec d x) as [->|N]; [|reflexivity].
          exfalso. apply I, in_or_app. right. now left. }
      rewrite Ec.
      assert (Eq1 : done ++ d :: todo' = (done ++ [d]) ++ todo') by (rewrite <- app_assoc; reflexivity).
      assert (Es : starts b (done ++ [d]) = starts b done ++ [st]).
      { unfold starts, intervals. rewrite !map_app. cbn [map]. now rewrite E. }
      replace (starts b done ++ st :: t) with (starts b (done ++ [d]) ++ t) by (rewrite Es, <- app_assoc; reflexivity).
      rewrite Eq1.
      rewrite IH; [| now rewrite <- Eq1 | now rewrite <- Eq1 | now rewrite <- Eq1 | discriminate | now injection Hl | assumption].
      destruct (succ (intervals b todo') t) as [t'|]; [|reflexivity].
      cbn [option_map]. rewrite Es, <- (app_assoc (starts b done)). reflexivity.
Qed.

Lemma enum_loop_chain b ds f L : ds <> [] -> NoDup ds -> incl ds dims ->
  (forall d, In d ds -> exists st sz, tget b d = Some (st, sz) /\ 1 <= sz /\ in_i32 st /\ in_i32 (st + sz)) ->
  chain (succ (intervals b ds)) L ->
  Forall (fun t => length ds = length t /\
           Forall2 (fun p v => fst p <= v < fst p + Z.max 0 (snd p)) (intervals b ds) t) L ->
  forall fuel k, (length L <= fuel)%nat ->
  match L with
  | [] => True
  | t :: _ => enum_loop fuel f b ds k (mk ds t) = Ok (until_false f k (map (mk ds) L))
  end.
Proof.
  intros Hne Hn Hi Hb C. induction C as [x Hx|x y l Hx Hc IH]; intros Hf fuel k Hl.
  - inversion Hf as [|? ? [F1 F2] _]; subst. destruct fuel; [cbn [length] in Hl; lia|].
    cbn [enum_loop map until_false]. destruct (f k (mk ds x)); [|reflexivity]. cbn [negb].
    pose proof (odometer_spec b ds [] x Hn Hi Hb Hne F1 F2) as O. cbn [app starts intervals map] in O.
    rewrite O, Hx. reflexivity.
  - inversion Hf as [|? ? [F1 F2] Hf']; subst. destruct fuel; [cbn [length] in Hl; lia|].
    cbn [enum_loop]. change (map (mk ds) (x :: y :: l)) with (mk ds x :: map (mk ds) (y :: l)). cbn [until_false].
    destruct (f k (mk ds x)); [|reflexivity]. cbn [negb].
    pose proof (odometer_spec b ds [] x Hn Hi Hb Hne F1 F2) as O. cbn [app starts intervals map] in O.
    rewrite O, Hx. cbn [option_map bind].
    rewrite (IH Hf' fuel (k + 1)) by (cbn [length] in Hl |- *; lia). cbn [bind].
    destruct (until_false f (k + 1) (map (mk ds) (y :: l))). reflexivity.
Qed.

Lemma valid_dims_spec {A} (b : table A) : incl (valid_dims b) dims /\ NoDup (valid_dims b) /\
  forall d, In d dims -> (In d (valid_dims b) <-> tget b d <> None).
Proof.
  unfold valid_dims. split; [intros x Hx; apply filter_In in Hx; tauto|].
  split; [apply NoDup_filter, dims_nodup|].
  intros d Hd. rewrite filter_In. destruct (tget b d); intuition congruence.
Qed.

Lemma first_coord_mk b : table9 b -> first_coord b = mk (valid_dims b) (starts b (valid_dims b)).
Proof.
  intros L. destruct (valid_dims_spec b) as (V1 & V2 & V3).
  apply table_ext.
  - unfold first_coord. now rewrite map_length.
  - now apply mk_length.
  - intros d Hd. rewrite tget_mk by assumption.
    assert (Ef : tget (first_coord b) d = match tget b d with Some (st, _) => Some st | None => None end).
    { unfold tget, first_coord. rewrite <- (map_nth (fun o : option (Z * Z) => match o with Some (st, _) => Some st | None => None end)). reflexivity. }
    rewrite Ef. destruct (tget b d) as [[st sz]|] eqn:E.
    + assert (I : In d (valid_dims b)) by (apply V3; [assumption|congruence]).
      clear -V2 I E. unfold starts, intervals. induction (valid_dims b) as [|x l IH]; [destruct I|].
      inversion V2; subst. cbn [map assoc]. destruct (Z.eqb_spec x d) as [->|N]; [now rewrite E|].
      apply IH; [assumption|]. destruct I; [contradiction|assumption].
    + symmetry. apply assoc_notin. intros I. apply V3 in I; [contradiction|assumption].
Qed.

Lemma mk_assoc_inj ds : forall t t', NoDup ds -> incl ds dims -> length ds = length t -> length ds = length t' ->
  mk ds t = mk ds t' -> t = t'.
Proof.
  intros t t' Hn Hi Hl Hl' E.
  assert (A : forall d, In d ds -> assoc ds t d = assoc ds t' d).
  { intros d I. rewrite <- !tget_mk by auto. now rewrite E. }
  clear E Hi. revert t t' Hl Hl' A. induction ds as [|x ds IH]; intros [|v t] [|v' t'] Hl Hl' A; try discriminate; [reflexivity|].
  inversion Hn; subst. assert (E : v = v').
  { specialize (A x (or_introl eq_refl)). cbn [assoc] in A. rewrite Z.eqb_refl in A. congruence. }
  subst v'. f_equal. apply IH; [assumption|now injection Hl|now injection Hl'|].
  intros d I. specialize (A d (or_intror I)). cbn [assoc] in A. destruct (Z.eqb_spec x d) as [->|]; [contradiction|assumption].
Qed.

Lemma mk_surj ds c : incl ds dims -> NoDup ds -> table9 c -> (forall d, In d dims -> tget c d <> None <-> In d ds) ->
  exists t, length ds = length t /\ c = mk ds t /\ Forall2 (fun d v => tget c d = Some v) ds t.
Proof.
  intros Hi Hn Lc Hv.
  assert (X : forall ds', incl ds' ds -> exists t, Forall2 (fun d v => tget c d = Some v) ds' t).
  { induction ds' as [|d ds' IH]; intros Hin; [exists []; constructor|].
    destruct IH as (t & Ht); [intros x Hx; apply Hin; now right|].
    destruct (tget c d) as [v|] eqn:E; [exists (v :: t); now constructor|].
    exfalso. assert (I : In d ds) by (apply Hin; now left). apply (Hv d) in I; [contradiction|now apply Hi]. }
  destruct (X ds (incl_refl _)) as (t & Ht). exists t. pose proof (Forall2_len _ _ _ Ht) as Lt.
  split; [assumption|]. split; [|assumption].
  apply table_ext; [assumption|now apply mk_length|]. intros d Hd. rewrite tget_mk by assumption.
  destruct (in_dec Z.eq_dec d ds) as [I|I].
  - clear -Ht I Hn. induction Ht as [|x v ds t E Ht IH]; [destruct I|]. cbn [assoc]. inversion Hn; subst.
    destruct (Z.eqb_spec x d) as [->|N]; [assumption|]. apply IH; [assumption|]. destruct I; [contradiction|assumption].
  - rewrite assoc_notin by assumption. destruct (tget c d) eqn:E; [|reflexivity].
    exfalso. apply I, Hv; [assumption|congruence].
Qed.

Lemma enum_all_unfold fuel b f : valid_dims b <> [] ->
  enum_all_coordinates fuel b f = enum_loop fuel f b (valid_dims b) 0 (first_coord b).
Proof. intros H. unfold enum_all_coordinates. now destruct (valid_dims b). Qed.

Theorem enum_all_exact b : box_ok b -> valid_dims b <> [] ->
  exists L, NoDup L /\ (forall c, In c L <-> in_box b c) /\
    forall f fuel, (length L <= fuel)%nat -> enum_all_coordinates fuel b f = Ok (until_false f 0 L).
Proof.
  intros [Lb Hb] Hne. destruct (valid_dims_spec b) as (V1 & V2 & V3).
  set (ds := valid_dims b) in *.
  assert (Hb' : forall d, In d ds -> exists st sz, tget b d = Some (st, sz) /\ 1 <= sz /\ in_i32 st /\ in_i32 (st + sz)).
  { intros d I. assert (Hd := V1 d I). destruct (tget b d) as [[st sz]|] eqn:E; [|apply V3 in I; [contradiction|assumption]].
    exists st, sz. split; [reflexivity|]. now apply (Hb d). }
  assert (Hs : Forall (fun p => 1 <= snd p) (intervals b ds)).
  { apply Forall_forall. intros p I. apply in_map_iff in I. destruct I as (d & <- & I).
    destruct (Hb' d I) as (st & sz & -> & B & _). exact B. }
  exists (map (mk ds) (tuples (intervals b ds))).
  assert (Tl : forall t, In t (tuples (intervals b ds)) -> length ds = length t).
  { intros t I. apply in_tuples in I. apply Forall2_len in I. unfold intervals in I. now rewrite map_length in I. }
  split; [|split].
  - pose proof (tuples_nodup (intervals b ds)) as N.
    assert (Hinj : forall x y, In x (tuples (intervals b ds)) -> In y (tuples (intervals b ds)) -> mk ds x = mk ds y -> x = y).
    { intros x y Ix Iy. apply mk_assoc_inj; auto. }
    clear -N Hinj. induction (tuples (intervals b ds)) as [|x l IH]; cbn [map]; [constructor|].
    inversion N; subst. constructor.
    + intros C. apply in_map_iff in C. destruct C as (y & E & Iy).
      assert (y = x) by (apply Hinj; auto; [now right|now left]). subst. contradiction.
    + apply IH; [assumption|]. intros; apply Hinj; auto; now right.
  - intros c. rewrite in_map_iff. split.
    + intros (t & <- & I). pose proof (Tl t I) as Lt. apply in_tuples in I. split; [now apply mk_length|].
      intros d Hd. rewrite tget_mk by assumption.
      destruct (in_dec Z.eq_dec d ds) as [J|J].
      * destruct (Hb' d J) as (st & sz & E & B & _). rewrite E.
        clear -I J E B V2. revert t I. induction ds as [|x l IH]; intros t I; [destruct J|].
        inversion V2; subst. cbn [intervals map] in I. inversion I as [|? v ? t' Hv Ht]; subst. cbn [assoc].
        destruct (Z.eqb_spec x d) as [->|N].
        -- rewrite E in Hv. cbn [fst snd] in Hv. lia.
        -- apply IH; auto. destruct J; [contradiction|assumption].
      * rewrite assoc_notin by assumption. destruct (tget b d) as [[st sz]|] eqn:E; [|trivial].
        exfalso. apply J, V3; [assumption|congruence].
    + intros [Lc Hc].
      assert (Hd : forall d, In d dims -> tget c d <> None <-> In d ds).
      { intros d Hd. rewrite V3 by assumption. specialize (Hc d Hd).
        destruct (tget b d) as [[st sz]|], (tget c d); intuition congruence. }
      destruct (mk_surj ds c V1 V2 Lc Hd) as (t & Lt & E & F). exists t. split; [now symmetry|].
      apply in_tuples. unfold intervals. clear -F Hc V1. induction F as [|d v l t E F IH]; cbn [map]; constructor.
      * specialize (Hc d (V1 d (or_introl eq_refl))). rewrite E in Hc.
        destruct (tget b d) as [[st sz]|]; [cbn [fst snd]; lia|destruct Hc].
      * apply IH. intros x Hx. apply V1. now right.
  - intros f fuel Hl. rewrite map_length in Hl. rewrite enum_all_unfold by assumption.
    rewrite first_coord_mk by assumption. fold ds.
    pose proof (tuples_chain _ Hs) as C. destruct (tuples_head _ Hs) as (l & El).
    assert (Fo : Forall (fun t => length ds = length t /\
       Forall2 (fun p v => fst p <= v < fst p + Z.max 0 (snd p)) (intervals b ds) t) (tuples (intervals b ds))).
    { apply Forall_forall. intros t I. split; [now apply Tl|now apply in_tuples]. }
    pose proof (enum_loop_chain b ds f (tuples (intervals b ds)) Hne V2 V1 Hb' C Fo fuel 0 Hl) as R.
    change (starts b ds) with (map fst (intervals b ds)). rewrite El in R |- *. exact R.
Qed.

(** ** Validation *)
Lemma chk_ok z : in_i32 z -> chk z = Ok z.
Proof. intros H. unfold chk. apply in_i32b_spec in H. now rewrite H. Qed.

(** bounds as a document has them *)
Definition bounds_wf (b : bounds) : Prop :=
  forall d st sz, In d dims -> tget b d = Some (st, sz) -> in_i32 (st + sz).

Lemma check_plane_from_spec ds b c : incl ds dims -> bounds_wf b ->
  check_plane_from ds b c = Ok tt /\
    (forall d, In d ds -> match tget b d, tget c d with
                          | Some (st, sz), Some v => st <= v < st + sz
                          | Some (_, sz), None => sz <= 1
                          | None, Some _ => False
                          | None, None => True
                          end)
  \/ check_plane_from ds b c = Throw /\
    (exists d, In d ds /\ match tget b d, tget c d with
                          | Some (st, sz), Some v => ~ (st <= v < st + sz)
                          | Some (_, sz), None => 1 < sz
                          | None, Some _ => True
                          | None, None => False
                          end).
Proof.
  intros Hi Hw. induction ds as [|d ds IH]; [left; split; [reflexivity|intros d []]|].
  assert (Hd : In d dims) by (apply Hi; now left).
  specialize (IH ltac:(intros x Hx; apply Hi; now right)). cbn [check_plane_from].
  assert (Pass : (match tget b d, tget c d with
                          | Some (st, sz), Some v => st <= v < st + sz
                          | Some (_, sz), None => sz <= 1
                          | None, Some _ => False
                          | None, None => True
                          end) ->
    check_plane_from ds b c = Ok tt /\
    (forall d', In d' (d :: ds) -> match tget b d', tget c d' with
                          | Some (st, sz), Some v => st <= v < st + sz
                          | Some (_, sz), None => sz <= 1
                          | None, Some _ => False
                          | None, None => True
                          end)
  \/ check_plane_from ds b c = Throw /\
    (exists d', In d' (d :: ds) /\ match tget b d', tget c d' with
                          | Some (st, sz), Some v => ~ (st <= v < st + sz)
                          | Some (_, sz), None => 1 < sz
                          | None, Some _ => True
                          | None, None => False
                          end)).
  { intros H. destruct IH as [[E A]|[E (d' & I & A)]].
    - left. split; [assumption|]. intros d' [<-|J]; [exact H|exact (A d' J)].
    - right. split; [assumption|]. exists d'. split; [now right|assumption]. }
  destruct (tget b d) as [[st sz]|] eqn:Eb, (tget c d) as [v|] eqn:Ec.
  - destruct (Z.ltb_spec v st) as [L|L].
    + right. split; [reflexivity|]. exists d. split; [now left|]. rewrite Eb, Ec. lia.
    + rewrite chk_ok by (apply (Hw d st sz); auto). cbn [bind]. destruct (Z.leb_spec (st + sz) v).
      * right. split; [reflexivity|]. exists d. split; [now left|]. rewrite Eb, Ec. lia.
      * apply Pass. lia.
  - destruct (Z.ltb_spec 1 sz).
    + right. split; [reflexivity|]. exists d. split; [now left|]. rewrite Eb, Ec. lia.
    + apply Pass. lia.
  - right. split; [reflexivity|]. exists d. split; [now left|]. rewrite Eb, Ec. exact I.
  - apply Pass. exact I.
Qed.

Theorem check_plane_spec b c : bounds_wf b ->
  (check_plane b c = Ok tt \/ check_plane b c = Throw) /\
  (check_plane b c = Ok tt <->
     tget c 5 = None /\
     forall d, In d dims -> d <> 5 ->
       match tget b d, tget c d with
       | Some (st, sz), Some v => st <= v < st + sz
       | Some (_, sz), None => sz <= 1
       | None, Some _ => False
       | None, None => True
       end).
Proof.
  intros Hw. unfold check_plane. destruct (tget c 5) as [s|] eqn:E5.
  - split; [now right|]. split; [discriminate|]. intros [H _]. discriminate H.
  - assert (Hi : incl plane_dims dims) by (intros x Hx; unfold plane_dims, dims in *; cbn in Hx |- *; tauto).
    destruct (check_plane_from_spec plane_dims b c Hi Hw) as [[E A]|[E (d & I & A)]]; rewrite E.
    + split; [now left|]. split; [|reflexivity]. intros _. split; [reflexivity|].
      intros d Hd N. apply A. unfold plane_dims, dims in *. cbn in Hd |- *. intuition congruence.
    + split; [now right|]. split; [discriminate|]. intros [_ H]. exfalso.
      specialize (H d (Hi d I)). assert (N : d <> 5) by (unfold plane_dims in I; cbn in I; intros ->; intuition congruence).
      specialize (H N). destruct (tget b d) as [[st sz]|], (tget c d); try tauto; try lia.
Qed.

Lemma check_dims_spec ds b c : forall cnt, incl ds dims -> bounds_wf b ->
  match check_dims ds b c cnt with
  | Ok (inr n) => n = cnt + Z.of_nat (length (filter (fun d => match tget b d with Some _ => true | None => false end) ds)) /\
       (forall d st sz, In d ds -> tget b d = Some (st, sz) -> exists v, tget c d = Some v /\ st <= v < st + sz)
  | Ok (inl CkInsufficient) => exists d, In d ds /\ tget b d <> None /\ tget c d = None
  | Ok (inl CkOutOfBounds) => exists d st sz v, In d ds /\ tget b d = Some (st, sz) /\ tget c d = Some v /\ ~ (st <= v < st + sz)
  | _ => False
  end.
Proof.
  induction ds as [|d ds IH]; intros cnt Hi Hw; [cbn; split; [lia|intros d st sz []]|].
  assert (Hd : In d dims) by (apply Hi; now left).
  assert (Hi' : incl ds dims) by (intros x Hx; apply Hi; now right).
  cbn [check_dims filter].
  destruct (tget b d) as [[st sz]|] eqn:Eb.
  - destruct (tget c d) as [v|] eqn:Ec.
    + destruct (Z.leb_spec st v) as [L|L]; cbn [negb].
      * rewrite chk_ok by (apply (Hw d st sz); auto). cbn [bind]. destruct (Z.ltb_spec v (st + sz)) as [L2|L2]; cbn [negb].
        -- specialize (IH (cnt + 1) Hi' Hw). destruct (check_dims ds b c (cnt + 1)) as [[[| | |]|n]| | |]; try contradiction.
           ++ destruct IH as (d' & s' & z' & v' & I & R). exists d', s', z', v'. split; [now right|assumption].
           ++ destruct IH as (d' & I & R). exists d'. split; [now right|assumption].
           ++ destruct IH as [-> A]. split; [cbn [length]; lia|]. intros d' s' z' [<-|I] E.
              ** exists v. split; [assumption|]. assert (s' = st /\ z' = sz) as [-> ->] by (split; congruence). lia.
              ** now apply (A d').
        -- exists d, st, sz, v. split; [now left|]. split; [assumption|]. split; [assumption|lia].
      * exists d, st, sz, v. split; [now left|]. split; [assumption|]. split; [assumption|lia].
    + exists d. split; [now left|]. split; [congruence|assumption].
  - specialize (IH cnt Hi' Hw). destruct (check_dims ds b c cnt) as [[[| | |]|n]| | |]; try contradiction.
    + destruct IH as (d' & s' & z' & v' & I & R). exists d', s', z', v'. split; [now right|assumption].
    + destruct IH as (d' & I & R). exists d'. split; [now right|assumption].
    + destruct IH as [-> A]. split; [reflexivity|]. intros d' s' z' [<-|I] E; [congruence|now apply (A d' s' z')].
Qed.

(** counting: if the valid dimensions of [b] are among those of [c] and there
    are equally many, they are the same *)
Lemma same_dims b c : (forall d : Z, In d dims -> tget (A := Z * Z) b d <> None -> tget (A := Z) c d <> None) ->
  length (valid_dims b) = length (valid_dims c) ->
  forall d, In d dims -> (tget c d <> None <-> tget b d <> None).
Proof.
  intros H L d Hd. split; [|now apply H]. intros Hc.
  destruct (valid_dims_spec b) as (B1 & B2 & B3). destruct (valid_dims_spec c) as (C1 & C2 & C3).
  apply B3; [assumption|].
  assert (incl (valid_dims c) (valid_dims b)).
  { apply NoDup_length_incl; [assumption|lia|]. intros x Hx. apply C3; [now apply B1|]. apply H; [now apply B1|].
    apply B3; [now apply B1|assumption]. }
  apply H0. now apply C3.
Qed.

Theorem check_coordinate_spec b mrange c m : bounds_wf b -> table9 c ->
  (exists r, check_coordinate (Some b) mrange c m = Ok r) /\
  (check_coordinate (Some b) mrange c m = Ok CkOk <->
     in_box b c /\ (forall lo hi, mrange = Some (lo, hi) -> exists v, m = Some v /\ lo <= v <= hi)).
Proof.
  intros Hw Lc. unfold check_coordinate.
  pose proof (check_dims_spec dims b c 0 (incl_refl _) Hw) as H. rewrite Z.add_0_l in H.
  fold (valid_dims b) in H.
  destruct (check_dims dims b c 0) as [[[| | |]|n]| | |]; try contradiction; cbn [bind].
  - split; [eauto|]. split; [discriminate|]. intros [[_ B] _]. exfalso.
    destruct H as (d & st & sz & v & I & E & E' & N). specialize (B d I). rewrite E, E' in B. contradiction.
  - split; [eauto|]. split; [discriminate|]. intros [[_ B] _]. exfalso.
    destruct H as (d & I & E & E'). specialize (B d I). rewrite E' in B. destruct (tget b d) as [[st sz]|]; [destruct B|contradiction].
  - destruct H as [-> A].
    assert (Hd : forall d, In d dims -> tget b d <> None -> tget c d <> None).
    { intros d Hd N. destruct (tget b d) as [[st sz]|] eqn:E; [|contradiction]. destruct (A d st sz Hd E) as (v & -> & _). discriminate. }
    destruct (Z.eqb_spec (Z.of_nat (length (valid_dims b))) (Z.of_nat (length (valid_dims c)))) as [Eq|Ne]; cbn [negb].
    + assert (Box : in_box b c).
      { split; [assumption|]. intros d I. pose proof (same_dims b c Hd ltac:(lia) d I) as S.
        destruct (tget b d) as [[st sz]|] eqn:E.
        - destruct (A d st sz I E) as (v & -> & R). exact R.
        - destruct (tget c d) eqn:Ec; [|trivial]. destruct S as [S _]. apply S; congruence. }
      destruct mrange as [[lo hi]|].
      * destruct m as [v|].
        -- destruct ((lo <=? v) && (v <=? hi)) eqn:R.
           ++ split; [eauto|]. split; [|reflexivity]. intros _. split; [assumption|].
              intros lo' hi' [= <- <-]. exists v. split; [reflexivity|lia].
           ++ split; [eauto|]. split; [discriminate|]. intros [_ M]. destruct (M lo hi eq_refl) as (v' & [= <-] & ?). lia.
        -- split; [eauto|]. split; [discriminate|]. intros [_ M]. destruct (M lo hi eq_refl) as (v' & [=] & _).
      * split; [eauto|]. split; [|reflexivity]. intros _. split; [assumption|]. intros lo hi [=].
    + split; [eauto|]. split; [discriminate|]. intros [[_ B] _]. exfalso. apply Ne. f_equal.
      f_equal. unfold valid_dims. apply filter_ext_in. intros d I. specialize (B d I).
      destruct (tget b d) as [[st sz]|], (tget c d); (reflexivity || destruct B).
Qed.

(** ** Selection *)
Lemma compare_coordinate_spec p c : compare_coordinate p c = true <-> in_plane p c.
Proof.
  unfold compare_coordinate, in_plane. induction dims as [|d ds IH]; cbn [compare_coordinate_from].
  - split; [intros _ d v []|reflexivity].
  - destruct (tget p d) as [x|] eqn:E.
    + destruct (tget c d) as [y|] eqn:E'.
      * destruct (Z.eqb_spec x y) as [->|N].
        -- rewrite IH. split; [|intros H d' v I; apply H; now right].
           intros H d' v [<-|I] G; [congruence|now apply H].
        -- split; [discriminate|]. intros H. specialize (H d x (or_introl eq_refl) E). congruence.
      * split; [discriminate|]. intros H. specialize (H d x (or_introl eq_refl) E). congruence.
    + rewrite IH. split; [|intros H d' v I; apply H; now right].
      intros H d' v [<-|I] G; [congruence|now apply H].
Qed.

Lemma do_intersect_spec a b : do_intersect a b = true <-> share_point a b.
Proof.
  unfold do_intersect, intersect, share_point.
  destruct ((Z.max (rx a) (rx b) <=? Z.min (rx a + rw a) (rx b + rw b)) &&
            (Z.max (ry a) (ry b) <=? Z.min (ry a + rh a) (ry b + rh b))) eqn:E; cbn [rw rh].
  - split.
    + intros H. exists (Z.max (rx a) (rx b)), (Z.max (ry a) (ry b)). lia.
    + intros (x & y & H). lia.
  - split; [discriminate|]. intros (x & y & H). lia.
Qed.

Lemma on_layer0_spec i : 0 <= rw (sb_rect i) <= INT_MAX -> 0 <= rh (sb_rect i) <= INT_MAX ->
  (on_layer0 i = true <-> sb_pw i = rw (sb_rect i) /\ sb_ph i = rh (sb_rect i)).
Proof.
  unfold on_layer0, u32, INT_MAX. intros H1 H2. change (2 ^ 32) with 4294967296.
  rewrite !Z.mod_small by lia. lia.
Qed.

(** the matching entries with their index, in directory order *)
Definition indexed {A} (k : Z) (l : list A) : list (Z * A) := combine (map (fun i => k + Z.of_nat i) (seq 0 (length l))) l.

Lemma indexed_cons {A} k (x : A) l : indexed k (x :: l) = (k, x) :: indexed (k + 1) l.
Proof.
  unfold indexed. cbn [length seq map combine]. f_equal; [f_equal; lia|].
  f_equal. rewrite <- seq_shift, map_map. apply map_ext. intros; lia.
Qed.

(** walk a list of calls until the functor says stop *)
Fixpoint calls {A} (f : Z -> A -> bool) (l : list (Z * A)) : list (Z * A) :=
  match l with
  | [] => []
  | (k, x) :: l' => if f k x then (k, x) :: calls f l' else [(k, x)]
  end.

Theorem enum_subset_exact plane roi only0 f l : forall k,
  enum_subset plane roi only0 f k l =
  calls f (filter (fun x => selected plane roi only0 (snd x)) (indexed k l)).
Proof.
  induction l as [|i l IH]; intros k; [reflexivity|].
  rewrite indexed_cons. cbn [enum_subset filter snd].
  destruct (selected plane roi only0 i); [|apply IH]. cbn [calls].
  destruct (f k i); [now rewrite IH|reflexivity].
Qed.

Lemma selected_spec plane roi only0 i : 0 <= rw (sb_rect i) <= INT_MAX -> 0 <= rh (sb_rect i) <= INT_MAX ->
  (selected plane roi only0 i = true <->
   (only0 = true -> sb_pw i = rw (sb_rect i) /\ sb_ph i = rh (sb_rect i))
   /\ (forall p, plane = Some p -> in_plane p (sb_coord i)) /\ (forall r, roi = Some r -> share_point r (sb_rect i))).
Proof.
  intros H1 H2. unfold selected. rewrite !andb_true_iff, orb_true_iff, negb_true_iff, (on_layer0_spec i H1 H2). split.
  - intros [[H3 H4] H5]. split; [|split].
    + intros ->. destruct H3 as [H3|H3]; [discriminate|assumption].
    + intros p ->. now apply compare_coordinate_spec.
    + intros r ->. now apply do_intersect_spec.
  - intros (H3 & H4 & H5). split; [split|].
    + destruct only0; [right; auto|now left].
    + destruct plane as [p|]; [|reflexivity]. apply compare_coordinate_spec. now apply H4.
    + destruct roi as [r|]; [|reflexivity]. apply do_intersect_spec. now apply H5.
Qed.
