(** Proofs for PropHost, continued: what is written and read. *)
From Coq Require Import String.
From Verif Require Import Base HostModel HostSpec HostProofs HostProofs2.
Open Scope Z_scope.

Lemma place_bound l nm o n : place l nm = Some (o, n) -> (o + n <= size l)%nat.
Proof.
  revert o n. induction l as [|[x p] l IH]; cbn [place size]; intros o n H; [discriminate|].
  destruct (String.eqb x nm); [injection H as <- <-; lia|]. destruct (place l nm) as [[o' n']|]; [|discriminate].
  cbn [option_map] in H. injection H as <- <-. specialize (IH _ _ eq_refl). lia.
Qed.
Lemma part_shift (pre z : bytes) a n : part (pre ++ z) (List.length pre + a) n = part z a n.
Proof. unfold part. rewrite skipn_app, skipn_all2 by lia. cbn [app]. do 2 f_equal. lia. Qed.
Lemma part_front (x post : bytes) a n : (a + n <= List.length x)%nat -> part (x ++ post) a n = part x a n.
Proof.
  intros H. unfold part. rewrite skipn_app. rewrite firstn_app. rewrite skipn_length.
  replace (n - (List.length x - a))%nat with 0%nat by lia. cbn [firstn]. apply app_nil_r.
Qed.
Lemma member_shift h l (pre x post : bytes) nm : List.length x = size l -> member h (List.length pre) l (pre ++ x ++ post) nm = member h 0 l x nm.
Proof.
  intros L. unfold member. destruct (place l nm) as [[o n]|] eqn:P; [|reflexivity]. apply place_bound in P. f_equal.
  rewrite part_shift. apply part_front. cbn [Nat.add]. lia.
Qed.
Lemma chars_shift l (pre x post : bytes) nm : List.length x = size l -> chars (List.length pre) l (pre ++ x ++ post) nm = chars 0 l x nm.
Proof.
  intros L. unfold chars. destruct (place l nm) as [[o n]|] eqn:P; [|reflexivity]. apply place_bound in P.
  rewrite part_shift. apply part_front. cbn [Nat.add]. lia.
Qed.

(** ** One structure *)
Lemma good_one l ms (x : bytes) : good (l, ms) = true -> List.length x = size l -> Forall is_byte x ->
  exists y : bytes, List.length y = size l /\ Forall is_byte y /\
    (forall pre post : bytes, convert Big (List.length pre) l ms (pre ++ x ++ post) = pre ++ y ++ post) /\
    (forall nm n, In (nm, Int n) l -> member Big 0 l y nm = member Little 0 l x nm) /\
    (forall nm n, In (nm, Chars n) l -> chars 0 l y nm = chars 0 l x nm).
Proof.
  intros G LX B. apply good_ok in G as (ND & NM & AW & C).
  destruct (pieces l x B) as (cs & post & L & E); [lia|].
  assert (post = []) as ->. { apply (f_equal (@List.length byte)) in E. rewrite app_length in E. pose proof (laid_size _ _ L) as S. destruct post; [reflexivity|]. cbn [List.length] in E. lia. }
  rewrite app_nil_r in E. subst x. exists (cat (map (flip ms) cs)).
  assert (FO : forall c : chunk, fst (flip ms c) = fst c /\ List.length (snd (flip ms c)) = List.length (snd c)).
  { intros [w b]. unfold flip. cbn [fst snd]. destruct (inb w ms); [now rewrite rev_length|auto]. }
  split; [exact (laid_size _ _ (laid_flip _ _ ms L))|]. split.
  { pose proof (laid_flip _ _ ms L) as LF. revert LF. generalize (map (flip ms) cs). clear. intros cs LF. induction LF as [|f c l cs (_ & _ & E3) LF IH]; [constructor|]. cbn [cat flat_map]. apply Forall_app. now split. }
  split; [intros pre post; now apply convert_flip|]. split.
  - intros nm n I. destruct (member_part Big l cs nm n [] [] L I ND) as (bs & IB & LB & BB & H).
    specialize (H (flip ms) FO [] []). cbn [List.length app] in H. rewrite app_nil_r in H. rewrite H.
    destruct (member_part Little l cs nm n [] [] L I ND) as (bs' & IB' & LB' & BB' & H').
    specialize (H' (fun c => c) (fun c => conj eq_refl eq_refl) [] []). cbn [List.length app snd] in H'. rewrite map_id, app_nil_r in H'. rewrite H'.
    assert (bs' = bs) as ->.
    { assert (NC : NoDup (map fst cs)).
      { replace (map fst cs) with (map fst l); [exact ND|]. clear -L. induction L as [|f c l cs (E & _) L IH]; [reflexivity|cbn [map]; now rewrite E, IH]. }
      clear -NC IB IB'. induction cs as [|[w b] cs IH]; [contradiction|]. cbn [map fst] in NC. apply NoDup_cons_iff in NC as [NI NC].
      destruct IB as [IB|IB], IB' as [IB'|IB'].
      - congruence. - injection IB as -> ->. exfalso. apply NI, in_map_iff. now exists (nm, bs').
      - injection IB' as -> ->. exfalso. apply NI, in_map_iff. now exists (nm, bs). - now apply IH. }
    unfold flip. cbn [fst snd]. unfold complete in C. rewrite forallb_forall in C. specialize (C _ I). cbn [fst snd] in C. rewrite C. cbn [load].
    f_equal. apply rev_involutive.
  - intros nm n I. destruct (chars_part l cs nm n L I ND) as (bs & IB & LB & H).
    pose proof (H (flip ms) FO [] []) as H1. pose proof (H (fun c => c) (fun c => conj eq_refl eq_refl) [] []) as H2.
    cbn [List.length app snd] in H1, H2. rewrite map_id in H2. rewrite app_nil_r in H1, H2. rewrite H1, H2.
    unfold flip. cbn [fst snd]. unfold complete in C. rewrite forallb_forall in C. specialize (C _ I). cbn [fst snd] in C. apply Bool.negb_true_iff in C. now rewrite C.
Qed.
Lemma is_good l ms : In (l, ms) structures -> good (l, ms) = true.
Proof. intros I. pose proof all_good as G. rewrite forallb_forall in G. exact (G _ I). Qed.
Lemma dv_good : good (entry_dv, m_entry_dv) = true. Proof. vm_compute. reflexivity. Qed.
Lemma sb_good : good (subblock_segment, m_subblock) = true. Proof. vm_compute. reflexivity. Qed.

(** ** Dimensions *)
Lemma dim_of_shift h (pre x post : bytes) : List.length x = 20%nat -> dim_of h (List.length pre) (pre ++ x ++ post) = dim_of h 0 x.
Proof. intros L. unfold dim_of. now rewrite !member_shift, chars_shift by exact L. Qed.
Lemma dims_read k : forall x : bytes, List.length x = (k * 20)%nat -> Forall is_byte x ->
  exists y : bytes, (forall pre post : bytes, convert_dims Big (List.length pre) k (pre ++ x ++ post) = pre ++ y ++ post) /\
    (forall pre pre' post post' : bytes, dims_of Big (List.length pre) k (pre ++ y ++ post) = dims_of Little (List.length pre') k (pre' ++ x ++ post')).
Proof.
  induction k as [|k IH]; intros x L B.
  - destruct x; [|discriminate L]. exists []. split; reflexivity.
  - rewrite <- (firstn_skipn 20 x) in B. apply Forall_app in B as [B1 B2].
    assert (L1 : List.length (firstn 20 x) = 20%nat) by (apply firstn_length_le; lia).
    destruct (good_one _ _ (firstn 20 x) dim_good L1 B1) as (y1 & LY & BY & C & M & H).
    destruct (IH (skipn 20 x)) as (y2 & C2 & D2); [rewrite skipn_length; lia|exact B2|].
    exists (y1 ++ y2). split.
    + intros pre post. cbn [convert_dims]. rewrite <- (firstn_skipn 20 x) at 1. rewrite <- !app_assoc. rewrite C.
      replace (List.length pre + 20)%nat with (List.length (pre ++ y1)) by (rewrite app_length, LY; reflexivity).
      rewrite app_assoc, C2. now rewrite <- !app_assoc.
    + intros pre pre' post post'. cbn [dims_of]. rewrite <- (firstn_skipn 20 x) at 1 2. rewrite <- !app_assoc. f_equal.
      * rewrite !dim_of_shift by assumption. unfold dim_of. rewrite (H "Dimension"%string 4%nat) by (cbn; auto).
        rewrite (M "Start"%string 4%nat), (M "Size"%string 4%nat), (M "StoredSize"%string 4%nat) by (cbn; auto 8). reflexivity.
      * replace (List.length pre + 20)%nat with (List.length (pre ++ y1)) by (rewrite app_length, LY; reflexivity).
        replace (List.length pre' + 20)%nat with (List.length (pre' ++ firstn 20 x)) by (rewrite app_length, L1; reflexivity).
        rewrite !(app_assoc pre), !(app_assoc pre'). apply D2.
Qed.

(** ** Entries which are read *)
Lemma dims_little pos k mem : convert_dims Little pos k mem = mem.
Proof. revert pos mem. induction k as [|k IH]; intros pos mem; [reflexivity|]. cbn [convert_dims]. rewrite convert_little. apply IH. Qed.
Lemma parse_same k : forall bs : bytes, Forall is_byte bs -> parse_entries Big k bs = parse_entries Little k bs.
Proof.
  induction k as [|k IH]; intros bs B; [reflexivity|]. cbn [parse_entries]. destruct bs as [|d [|v r]]; try reflexivity.
  destruct ((d =? 68) && (v =? 86)).
  2: { destruct ((d =? 68) && (v =? 69)); [reflexivity|]. apply IH. inversion_clear B as [|? ? _ B']. now inversion_clear B'. }
  destruct (List.length r <? 30)%nat eqn:LR; [reflexivity|]. apply Nat.ltb_ge in LR.
  set (bs := d :: v :: r) in *. assert (LB : (32 <= List.length bs)%nat) by (subst bs; cbn [List.length]; lia).
  assert (L1 : List.length (firstn 32 bs) = size entry_dv) by (apply firstn_length_le; exact LB).
  assert (B1 : Forall is_byte (firstn 32 bs)) by (rewrite <- (firstn_skipn 32 bs) in B; apply Forall_app in B; apply B).
  destruct (good_one _ _ (firstn 32 bs) dv_good L1 B1) as (y & LY & BY & C & M & H).
  specialize (C [] []). cbn [List.length app] in C. rewrite !app_nil_r in C. rewrite C. rewrite !convert_little.
  rewrite (M "DimensionCount"%string 4%nat) by (cbn; auto 10).
  rewrite (M "PixelType"%string 4%nat), (M "FilePosition"%string 8%nat), (M "Compression"%string 4%nat) by (cbn; auto 10).
  rewrite (H "_spare"%string 6%nat) by (cbn; auto 10).
  set (n := s32 (member Little 0 entry_dv (firstn 32 bs) "DimensionCount")).
  destruct ((n <? 0) || (40 <? n)); [reflexivity|].
  destruct (List.length r - 30 <? Z.to_nat n * 20)%nat eqn:LD; [reflexivity|]. apply Nat.ltb_ge in LD.
  assert (LP : List.length (part bs 32 (Z.to_nat n * 20)) = (Z.to_nat n * 20)%nat).
  { unfold part. apply firstn_length_le. rewrite skipn_length. subst bs. cbn [List.length]. lia. }
  assert (BP : Forall is_byte (part bs 32 (Z.to_nat n * 20))).
  { unfold part. rewrite <- (firstn_skipn 32 bs) in B. apply Forall_app in B as [_ B]. rewrite <- (firstn_skipn (Z.to_nat n * 20) (skipn 32 bs)) in B. apply Forall_app in B. apply B. }
  destruct (dims_read _ _ LP BP) as (z & CZ & DZ). specialize (CZ [] []). specialize (DZ [] [] [] []). cbn [List.length app] in CZ, DZ. rewrite !app_nil_r in CZ, DZ.
  rewrite CZ, DZ, dims_little. rewrite IH; [reflexivity|].
  rewrite <- (firstn_skipn (32 + Z.to_nat n * 20) bs) in B. apply Forall_app in B. apply B.
Qed.

(** ** The types of a sub-block *)
Lemma types_same (file : bytes) : Forall is_byte file -> (80 <= List.length file)%nat -> part file 48 2 <> [68; 69] -> subblock_types Big file = subblock_types Little file.
Proof.
  intros B L N.
  assert (E : file = firstn 48 file ++ firstn 32 (skipn 48 file) ++ skipn 32 (skipn 48 file)) by (now rewrite !firstn_skipn).
  set (x := firstn 48 file) in *. set (e := firstn 32 (skipn 48 file)) in *. set (post := skipn 32 (skipn 48 file)) in *.
  assert (LX : List.length x = size subblock_segment) by (apply firstn_length_le; cbn; lia).
  assert (LE : List.length e = size entry_dv) by (apply firstn_length_le; rewrite skipn_length; cbn; lia).
  assert (BX : Forall is_byte x /\ Forall is_byte e). { rewrite E in B. apply Forall_app in B as [B1 B2]. apply Forall_app in B2. tauto. }
  destruct BX as [BX BE]. clearbody x e post. subst file.
  destruct (good_one _ _ x sb_good LX BX) as (y & LY & BY & C & M & H).
  destruct (good_one _ _ e dv_good LE BE) as (f & LF & BF & C' & M' & H').
  unfold subblock_types. rewrite !convert_little. specialize (C [] (e ++ post)). cbn [List.length app] in C. rewrite C.
  assert (EY : List.length y = 48%nat) by exact LY. assert (EX : List.length x = 48%nat) by exact LX.
  assert (SY : forall nm, chars 48 entry_dv (y ++ e ++ post) nm = chars 0 entry_dv e nm) by (intros nm; rewrite <- EY; now apply chars_shift).
  assert (SX : forall nm, chars 48 entry_dv (x ++ e ++ post) nm = chars 0 entry_dv e nm) by (intros nm; rewrite <- EX; now apply chars_shift).
  assert (MX : forall nm, member Little 48 entry_dv (x ++ e ++ post) nm = member Little 0 entry_dv e nm) by (intros nm; rewrite <- EX; now apply member_shift).
  assert (MY : forall nm, member Big 48 entry_dv (y ++ f ++ post) nm = member Big 0 entry_dv f nm) by (intros nm; rewrite <- EY; now apply member_shift).
  specialize (C' y post). rewrite EY in C'.
  rewrite SY, SX. destruct (chars 0 entry_dv e "SchemaType") as [|d [|v [|? ?]]] eqn:ES; try reflexivity.
  destruct ((d =? 68) && (v =? 86)) eqn:DV.
  - rewrite C', !MY, !MX. now rewrite (M' "PixelType"%string 4%nat), (M' "Compression"%string 4%nat) by (cbn; auto 10).
  - destruct ((d =? 68) && (v =? 69)) eqn:DE; [|reflexivity]. exfalso. apply N. replace [68; 69] with [d; v] by (f_equal; [lia|f_equal; lia]). rewrite <- ES.
    exact (SX "SchemaType"%string).
Qed.
