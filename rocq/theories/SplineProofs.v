(** Splines through control points: proofs. *)
From Coq Require Import QArith Qabs Lqa Lia List.
From Verif Require Import Base SplineModel SplineSpec.
Import ListNotations.
Open Scope Q_scope.

Lemma Qltb_iff a b : Qltb a b = true <-> a < b.
Proof. unfold Qltb. rewrite negb_true_iff. destruct (Qle_bool b a) eqn:E; split; intros H; try discriminate; try reflexivity.
  - apply Qle_bool_iff in E. lra.
  - destruct (Qlt_le_dec a b) as [L|L]; [exact L|]. apply Qle_bool_iff in L. congruence.
Qed.
Lemma Qltb_false a b : Qltb a b = false <-> b <= a.
Proof. destruct (Qltb a b) eqn:E; split; intros H; try discriminate; try reflexivity.
  - apply Qltb_iff in E. lra.
  - destruct (Qlt_le_dec a b) as [L|L]; [|exact L]. apply Qltb_iff in L. congruence.
Qed.
Lemma at_least_id h : 1 # 1000 <= h -> at_least h = h.
Proof. intros H. unfold at_least. rewrite (proj2 (Qltb_false _ _)); [reflexivity|]. rewrite Qabs_pos by lra. exact H. Qed.
Lemma not_tiny h : 1 # 1000 <= h -> Qltb (Qabs h) (1 # 10000000) = false.
Proof. intros H. apply Qltb_false. rewrite Qabs_pos by lra. lra. Qed.

(** ** the equations *)
Notation row := (Q * Q * Q)%type.
Fixpoint eqs (op xp : Q) (s : list row) (x : list Q) : Prop :=
  match s, x with
  | r :: s', v :: x' => op * xp + row_d r * v + row_o r * hd 0 x' == row_r r /\ eqs (row_o r) v s' x'
  | [], [] => True
  | _, _ => False
  end.

Definition term (f : nat -> Q) (x : list Q) (k j : nat) : Q := if (k <=? j)%nat then f j * nth (j - k) x 0 else 0.
Lemma term_cons f v x k j : (k <> j)%nat -> term f (v :: x) k j = term f x (S k) j.
Proof.
  intros H. unfold term. destruct (k <=? j)%nat eqn:A, (S k <=? j)%nat eqn:B; try reflexivity; try (apply Nat.leb_le in A || apply Nat.leb_gt in A); try (apply Nat.leb_le in B || apply Nat.leb_gt in B); try lia.
  destruct (j - k)%nat as [|m] eqn:E; [lia|]. cbn [nth]. replace (j - S k)%nat with m by lia. reflexivity.
Qed.
Lemma term_here f v x k : term f (v :: x) k k = f k * v.
Proof. unfold term. rewrite Nat.leb_refl, Nat.sub_diag. reflexivity. Qed.
Lemma term_past f x k j : (j < k)%nat -> term f x k j = 0.
Proof. intros H. unfold term. destruct (k <=? j)%nat eqn:A; [apply Nat.leb_le in A; lia|reflexivity]. Qed.
(** the product of a row which is zero outside of i - 1, i, i + 1 *)
Lemma dot_tri f i : (forall j, (S j < i \/ S i < j)%nat -> f j == 0) -> forall x k,
  dot (map f (seq k (length x))) x == match i with O => 0 | S i' => term f x k i' end + term f x k i + term f x k (S i).
Proof.
  intros HF. assert (Nil : forall k j, term f [] k j == 0).
  { intros k j. unfold term. destruct (k <=? j)%nat; [|reflexivity]. destruct (j - k)%nat; apply Qmult_0_r. }
  induction x as [|v x IH]; intros k; cbn [length seq map dot].
  - destruct i; rewrite !Nil; reflexivity.
  - rewrite IH. destruct i as [|i'].
    + destruct (Nat.eq_dec k 0) as [->|N0]; [rewrite term_here, (term_past f x 1 0), (term_cons f v x 0 1) by lia; ring|].
      rewrite (term_cons f v x k 0) by lia. destruct (Nat.eq_dec k 1) as [->|N1]; [rewrite term_here, (term_past f x 2 1) by lia; ring|].
      rewrite (term_cons f v x k 1) by lia. rewrite (HF k) by lia. ring.
    + destruct (Nat.eq_dec k i') as [->|N0]; [rewrite term_here, (term_past f x (S i') i'), (term_cons f v x i' (S i')), (term_cons f v x i' (S (S i'))) by lia; ring|].
      rewrite (term_cons f v x k i') by lia. destruct (Nat.eq_dec k (S i')) as [->|N1]; [rewrite term_here, (term_past f x (S (S i')) (S i')), (term_cons f v x (S i') (S (S i'))) by lia; ring|].
      rewrite (term_cons f v x k (S i')) by lia. destruct (Nat.eq_dec k (S (S i'))) as [->|N2]; [rewrite term_here, (term_past f x (S (S (S i'))) (S (S i'))) by lia; ring|].
      rewrite (term_cons f v x k (S (S i'))) by lia. rewrite (HF k) by lia. ring.
Qed.
Lemma row_dot s x i : length x = length s -> (i < length s)%nat ->
  dot (map (entry s i) (seq 0 (length s))) x ==
  match i with O => 0 | S i' => row_o (nth i' s row0) * nth i' x 0 end + row_d (nth i s row0) * nth i x 0 + row_o (nth i s row0) * nth (S i) x 0.
Proof.
  intros L Hi. rewrite <- L. rewrite (dot_tri _ i).
  - unfold term. cbn [Nat.leb]. rewrite !Nat.sub_0_r.
    assert (E1 : entry s i i = row_d (nth i s row0)) by (unfold entry; now rewrite Nat.eqb_refl).
    assert (E2 : entry s i (S i) = row_o (nth i s row0)).
    { unfold entry. destruct (i =? S i)%nat eqn:A; [apply Nat.eqb_eq in A; lia|]. now rewrite Nat.eqb_refl. }
    rewrite E1, E2. destruct i as [|i']; [reflexivity|].
    assert (E3 : entry s (S i') i' = row_o (nth i' s row0)).
    { unfold entry. destruct (S i' =? i')%nat eqn:A; [apply Nat.eqb_eq in A; lia|]. destruct (i' =? S (S i'))%nat eqn:B; [apply Nat.eqb_eq in B; lia|]. now rewrite Nat.eqb_refl. }
    rewrite E3, Nat.sub_0_r. reflexivity.
  - intros j Hj. unfold entry. destruct (i =? j)%nat eqn:A; [apply Nat.eqb_eq in A; lia|]. destruct (j =? S i)%nat eqn:B; [apply Nat.eqb_eq in B; lia|].
    destruct (i =? S j)%nat eqn:C; [apply Nat.eqb_eq in C; lia|]. reflexivity.
Qed.
Lemma eqs_index s : forall op xp x, eqs op xp s x <-> length x = length s /\ forall i, (i < length s)%nat ->
  match i with O => op * xp | S i' => row_o (nth i' s row0) * nth i' x 0 end + row_d (nth i s row0) * nth i x 0 + row_o (nth i s row0) * nth (S i) x 0 == row_r (nth i s row0).
Proof.
  induction s as [|r s IH]; intros op xp x; cbn [eqs length].
  - destruct x; cbn [length]; split; intros H; try contradiction; try tauto.
    + split; [reflexivity|]. intros i Hi. lia.
    + destruct H as [H _]. discriminate.
  - destruct x as [|v x]; cbn [length]; [split; [contradiction|intros [H _]; discriminate]|]. rewrite IH. split.
    + intros (E & L & H). split; [now rewrite L|]. intros [|i] Hi; cbn [nth].
      * rewrite <- E. destruct x as [|y x]; cbn [hd nth]; reflexivity.
      * specialize (H i ltac:(lia)). destruct i as [|i']; cbn [nth] in *; exact H.
    + intros (L & H). split; [|split; [congruence|]].
      * specialize (H 0%nat ltac:(lia)). cbn [nth] in H. rewrite <- H. destruct x as [|y x]; cbn [hd nth]; reflexivity.
      * intros i Hi. specialize (H (S i) ltac:(lia)). cbn [nth] in H. destruct i as [|i']; cbn [nth] in *; exact H.
Qed.
Lemma Forall2_nth {A B} (P : A -> B -> Prop) da db a b : Forall2 P a b <-> length a = length b /\ forall i, (i < length a)%nat -> P (nth i a da) (nth i b db).
Proof.
  split.
  - induction 1 as [|x y a b H F [L IH]]; [split; [reflexivity|intros i Hi; cbn in Hi; lia]|]. split; [cbn; now rewrite L|].
    intros [|i] Hi; cbn [nth]; [exact H|apply IH; cbn in Hi; lia].
  - revert b. induction a as [|x a IH]; intros [|y b] [L H]; try discriminate; constructor; [apply (H 0%nat); cbn; lia|].
    apply IH. split; [now injection L|]. intros i Hi. apply (H (S i)). cbn. lia.
Qed.
Lemma solves_eqs s x : solves (matrix s) (map row_r s) x <-> eqs 0 0 s x.
Proof.
  unfold solves. rewrite eqs_index, map_length. rewrite (Forall2_nth _ [] 0). unfold matrix. rewrite !map_length, seq_length.
  assert (N : forall i, (i < length s)%nat -> nth i (map (fun i => map (entry s i) (seq 0 (length s))) (seq 0 (length s))) [] = map (entry s i) (seq 0 (length s))).
  { intros i Hi. set (g := fun i => map (entry s i) (seq 0 (length s))). rewrite (nth_indep _ [] (g 0%nat)) by (rewrite map_length, seq_length; exact Hi).
    rewrite map_nth, seq_nth by exact Hi. reflexivity. }
  assert (R : forall i, nth i (map row_r s) 0 = row_r (nth i s row0)) by (intros i; change 0 with (row_r row0); apply map_nth).
  split.
  - intros (L & _ & H). split; [exact L|]. intros i Hi. specialize (H i Hi). rewrite N, R, (row_dot s x i L Hi) in H by exact Hi. rewrite <- H. destruct i; ring.
  - intros (L & H). split; [exact L|]. split; [reflexivity|]. intros i Hi. rewrite N, R, (row_dot s x i L Hi) by exact Hi. rewrite <- (H i Hi). destruct i; ring.
Qed.

(** ** rows of points which are apart *)
Fixpoint dominant (op : Q) (s : list row) : Prop :=
  match s with
  | [] => True
  | r :: s' => 0 < op /\ 0 < row_o r /\ row_d r == 2 * (op + row_o r) /\ dominant (row_o r) s'
  end.
Lemma rows_dominant l : forall p0 p1, apart (p0 :: p1 :: l) -> dominant (fst p1 - fst p0) (rows (fst p1 - fst p0) (snd p1 - snd p0) (p1 :: l)).
Proof.
  induction l as [|p2 l IH]; intros p0 p1 [H0 H]; [exact I|]. pose proof H as [H1 _]. cbn [rows dominant]. unfold row_o, row_d. cbn [fst snd].
  rewrite (at_least_id (fst p2 - fst p1)) by exact H1. split; [lra|]. split; [lra|]. split; [reflexivity|]. apply (IH p1 p2 H).
Qed.
(** the first unknown is determined by the one before it *)
Lemma first_unknown s : forall op, dominant op s -> exists al be, 0 <= be <= 1 /\
  (forall xp x, eqs op xp s x -> hd 0 x == al - be * xp) /\ (forall xp, exists x, eqs op xp s x).
Proof.
  induction s as [|r s IH]; intros op D.
  - exists 0, 0. split; [lra|]. split; [|intros xp; exists []; exact I]. intros xp [|v x] H; [cbn [hd]; ring|contradiction].
  - destruct D as (P & O & E & D). destruct (IH _ D) as (al & be & [B0 B1] & U & X). set (o := row_o r) in *.
    assert (OB : o * be <= o). { rewrite <- (Qmult_1_r o) at 2. rewrite !(Qmult_comm o). apply Qmult_le_compat_r; lra. }
    set (den := row_d r - o * be). assert (DP : op <= den) by (unfold den; rewrite E; lra). assert (D0 : ~ den == 0) by lra.
    exists ((row_r r - o * al) / den), (op / den). split; [split|split].
    + apply Qle_shift_div_l; lra.
    + apply Qle_shift_div_r; lra.
    + intros xp [|v x] HH; [contradiction|]; destruct HH as [HE HX]; fold o in HE, HX. cbn [hd]. rewrite (U v x HX) in HE.
      assert (G : den * v == row_r r - o * al - op * xp) by (unfold den; lra).
      setoid_replace v with (den * v / den) by (field; exact D0). rewrite G. field. exact D0.
    + intros xp. set (v := (row_r r - o * al - op * xp) / den). destruct (X v) as [x HX]. exists (v :: x). cbn [eqs]. fold o. split; [|exact HX].
      rewrite (U v x HX). assert (G : den * v == row_r r - o * al - op * xp) by (unfold v; field; exact D0). unfold den in G. lra.
Qed.
Lemma eqs_xp s : forall op xp xq x, xp == xq -> eqs op xp s x -> eqs op xq s x.
Proof. destruct s as [|r s]; intros op xp xq [|v x] E H; try exact H. destruct H as [A B]. split; [|exact B]. now rewrite <- E. Qed.
Lemma eqs_unique s : forall op xp x y, dominant op s -> eqs op xp s x -> eqs op xp s y -> Forall2 Qeq x y.
Proof.
  induction s as [|r s IH]; intros op xp [|v x] [|u y] D HX HY; try contradiction; constructor.
  - destruct (first_unknown _ _ D) as (al & be & _ & U & _). pose proof (U xp _ HX) as A. pose proof (U xp _ HY) as B. cbn [hd] in A, B. now rewrite A, B.
  - assert (E : v == u). { destruct (first_unknown _ _ D) as (al & be & _ & U & _). pose proof (U xp _ HX) as A. pose proof (U xp _ HY) as B. cbn [hd] in A, B. now rewrite A, B. }
    destruct D as (_ & _ & _ & D). destruct HX as [_ HX], HY as [_ HY]. apply (IH _ u x y D); [now apply (eqs_xp _ _ v)|exact HY].
Qed.

(** ** the coefficients *)
Lemma resolve_smooth l : forall p0 p1 xi sol, apart (p0 :: p1 :: l) ->
  eqs (fst p1 - fst p0) xi (rows (fst p1 - fst p0) (snd p1 - snd p0) (p1 :: l)) sol ->
  smooth (p0 :: p1 :: l) (resolve xi sol (p0 :: p1 :: l)) /\ length (resolve xi sol (p0 :: p1 :: l)) = S (length l) /\
  (exists c cs, resolve xi sol (p0 :: p1 :: l) = c :: cs /\ cb c = xi /\ cd c = snd p0 /\
     cc c == (snd p1 - snd p0) / (fst p1 - fst p0) - (fst p1 - fst p0) * (hd 0 sol + 2 * xi) / 3).
Proof.
  induction l as [|p2 l IH]; intros p0 p1 xi sol HA HE; pose proof HA as [H0 HA']; set (h := fst p1 - fst p0) in *; set (dy := snd p1 - snd p0) in *; assert (HN : ~ h == 0) by lra.
  - cbn [rows] in HE. destruct sol as [|? ?]; [|contradiction]. cbn [resolve]. fold h dy. rewrite not_tiny by exact H0. cbn [smooth fst snd length]. fold h.
    split; [|split; [reflexivity|]].
    + unfold poly, bend; cbn [ca cb cc cd]. split; [ring|]. split; [|split; [|exact I]].
      * setoid_replace (snd p1) with (dy + snd p0) by (unfold dy; ring). field. exact HN.
      * field. exact HN.
    + eexists _, _. split; [reflexivity|]. cbn [cb cd cc hd]. split; [reflexivity|]. split; [reflexivity|]. reflexivity.
  - cbn [rows] in HE. pose proof HA' as [H1 _]. rewrite (at_least_id (fst p2 - fst p1)) in HE by exact H1. rewrite (at_least_id h) in HE by exact H0.
    destruct sol as [|v sol]; [contradiction|]. destruct HE as [HE HR]. cbn [hd]. unfold row_d, row_o, row_r in HE, HR. cbn [fst snd] in HE, HR.
    destruct (IH p1 p2 v sol HA' HR) as (S & L & c' & cs & Ec & Cb & Cd & Cc). cbv zeta in *.
    assert (RE : resolve xi (v :: sol) (p0 :: p1 :: p2 :: l) =
      (let '(a, c) := if Qltb (Qabs h) (1 # 10000000) then (0, 0) else ((v - xi) / (3 * h), dy / h - h * (v + 2 * xi) / 3) in mkCoeffs a xi c (snd p0) :: resolve v sol (p1 :: p2 :: l))) by reflexivity.
    rewrite not_tiny in RE by exact H0. rewrite RE.
    split; [|split; [cbn [length]; now rewrite L|]].
    + cbn [smooth]. fold h. rewrite Ec in *. split; [unfold poly; cbn [ca cb cc cd]; ring|]. split.
      { unfold poly; cbn [ca cb cc cd]. setoid_replace (snd p1) with (dy + snd p0) by (unfold dy; ring). field. exact HN. }
      split; [|exact S]. unfold slope, bend. cbn [ca cb cc cd]. rewrite Cb. set (h1 := fst p2 - fst p1) in *. set (dy1 := snd p2 - snd p1) in *. split.
      * setoid_replace (3 * ca c' * 0 * 0 + 2 * v * 0 + cc c') with (cc c') by ring. rewrite Cc.
        assert (HN1 : ~ h1 == 0) by lra. set (Q1 := dy1 / h1) in *. set (Q0 := dy / h) in *. assert (E3 : 3 * ((v - xi) / (3 * h)) * h * h == (v - xi) * h) by (field; exact HN).
        rewrite E3. unfold Qdiv. change (/ 3) with (1 # 3). lra.
      * setoid_replace (6 * ca c' * 0 + 2 * v) with (2 * v) by ring. field. exact HN.
    + eexists _, _. split; [reflexivity|]. cbn [cb cd cc]. split; [reflexivity|]. split; [reflexivity|]. reflexivity.
Qed.

Lemma eqs_length s : forall op xp x, eqs op xp s x -> length x = length s.
Proof. intros. now apply eqs_index in H. Qed.
Lemma coefficients_natural solve p0 p1 l : solver_ok solve -> apart (p0 :: p1 :: l) ->
  exists cs, spline_coefficients solve (p0 :: p1 :: l) = Ok cs /\ natural_spline (p0 :: p1 :: l) cs /\ length cs = S (length l).
Proof.
  intros HS HA. unfold spline_coefficients. set (s := rows (fst p1 - fst p0) (snd p1 - snd p0) (p1 :: l)). pose proof (rows_dominant l p0 p1 HA) as D. fold s in D.
  destruct (first_unknown s _ D) as (al & be & _ & _ & X). destruct (X 0) as [x HX].
  assert (Z : forall y, eqs (fst p1 - fst p0) 0 s y <-> eqs 0 0 s y) by (intros y; rewrite !eqs_index; split; intros [L H]; (split; [exact L|]); intros [|i] Hi; specialize (H _ Hi); cbn [nth] in *; rewrite <- H; ring).
  assert (SV : solves (matrix s) (map row_r s) (solve (matrix s) (map row_r s))) by (apply HS; exists x; apply solves_eqs, Z, HX).
  apply solves_eqs in SV. pose proof (eqs_length _ _ _ _ SV) as L. rewrite <- L, firstn_all. apply Z in SV.
  destruct (resolve_smooth l p0 p1 0 _ HA SV) as (S & LC & c & cs & E & Cb & _ & _). cbv zeta in E.
  eexists. split; [reflexivity|]. split; [split; [exact S|]|exact LC]. rewrite E. unfold bend. rewrite Cb. ring.
Qed.

(** ** there is only one natural spline *)
Lemma piece_facts c h y0 y1 b' : 0 < h -> poly c 0 == y0 -> poly c h == y1 -> bend c h == 2 * b' ->
  cd c == y0 /\ ca c == (b' - cb c) / (3 * h) /\ cc c == (y1 - y0) / h - h * (b' + 2 * cb c) / 3.
Proof.
  unfold poly, bend. intros H P0 P1 B. assert (D : cd c == y0) by (rewrite <- P0; ring). assert (HN : ~ h == 0) by lra.
  assert (A : ca c == (b' - cb c) / (3 * h)).
  { assert (X : 3 * ca c * h == b' - cb c) by lra. rewrite <- X. field. exact HN. }
  split; [exact D|]. split; [exact A|]. rewrite D in P1. rewrite <- P1, A. field. exact HN.
Qed.
Definition next_b (cs : list coeffs) : Q := hd 0 (map cb cs).
Lemma smooth_bend p0 p1 l c cs : smooth (p0 :: p1 :: l) (c :: cs) -> bend c (fst p1 - fst p0) == 2 * next_b cs.
Proof. intros (_ & _ & H & _). destruct cs as [|c' cs]; [rewrite H; unfold next_b; cbn [map hd]; ring|]. destruct H as [_ H]. rewrite H. unfold bend, next_b. cbn [map hd]. ring. Qed.
Lemma smooth_eqs l : forall p0 p1 c cs, apart (p0 :: p1 :: l) -> smooth (p0 :: p1 :: l) (c :: cs) ->
  eqs (fst p1 - fst p0) (cb c) (rows (fst p1 - fst p0) (snd p1 - snd p0) (p1 :: l)) (map cb cs).
Proof.
  induction l as [|p2 l IH]; intros p0 p1 c cs HA HS.
  - destruct HS as (_ & _ & _ & S). destruct cs; [exact I|contradiction].
  - pose proof HA as [H0 HA']. pose proof HA' as [H1 _]. pose proof (smooth_bend _ _ _ _ _ HS) as B0. destruct HS as (P0 & P1 & C & S).
    destruct cs as [|c' cs]; [contradiction|]. pose proof (smooth_bend _ _ _ _ _ S) as B1. pose proof (IH p1 p2 c' cs HA' S) as E. destruct S as (P2 & P3 & _ & _).
    cbn [rows]. rewrite (at_least_id (fst p2 - fst p1)) by exact H1. rewrite (at_least_id (fst p1 - fst p0)) by exact H0. cbn [map eqs]. unfold row_d, row_o, row_r. cbn [fst snd]. split; [|exact E].
    destruct C as [C _]. change (next_b (c' :: cs)) with (cb c') in B0.
    set (h := fst p1 - fst p0) in *. set (h1 := fst p2 - fst p1) in *.
    destruct (piece_facts c h _ _ _ ltac:(lra) P0 P1 B0) as (_ & A0 & C0). destruct (piece_facts c' h1 _ _ _ ltac:(lra) P2 P3 B1) as (_ & A1 & C1).
    fold (next_b cs). unfold slope in C. set (d0 := (snd p1 - snd p0) / h) in *. set (d1 := (snd p2 - snd p1) / h1) in *.
    assert (X : 3 * ca c * h == cb c' - cb c) by (unfold bend in B0; lra).
    assert (Y : 3 * ca c * h * h == (cb c' - cb c) * h) by (rewrite X; reflexivity).
    rewrite C0, C1 in C. unfold Qdiv in C. change (/ 3) with (1 # 3) in C. lra.
Qed.
Lemma smooth_same l : forall cs cs', apart l -> smooth l cs -> smooth l cs' -> Forall2 Qeq (map cb cs) (map cb cs') -> Forall2 same_coeffs cs cs'.
Proof.
  induction l as [|p0 l IH]; intros cs cs' HA HS HS' HB; [contradiction|]. destruct l as [|p1 l].
  - destruct cs, cs'; try contradiction. constructor.
  - destruct cs as [|c cs], cs' as [|c' cs']; try contradiction. inversion HB; subst. constructor.
    + pose proof HA as [H0 _]. pose proof (smooth_bend _ _ _ _ _ HS) as B. pose proof (smooth_bend _ _ _ _ _ HS') as B'. destruct HS as (P0 & P1 & _), HS' as (P0' & P1' & _).
      assert (HP : 0 < fst p1 - fst p0) by lra. destruct (piece_facts c _ _ _ _ HP P0 P1 B) as (D & A & C). destruct (piece_facts c' _ _ _ _ HP P0' P1' B') as (D' & A' & C').
      assert (N : next_b cs == next_b cs'). { unfold next_b. match goal with H : Forall2 Qeq (map cb cs) _ |- _ => destruct H; [reflexivity|assumption] end. }
      unfold same_coeffs. rewrite A, C, D, A', C', D', N. match goal with H : cb c == cb c' |- _ => rewrite H end. repeat split; reflexivity.
    + destruct HA as [_ HA], HS as (_ & _ & _ & HS), HS' as (_ & _ & _ & HS'). now apply IH.
Qed.
Lemma natural_unique l cs cs' : apart l -> natural_spline l cs -> natural_spline l cs' -> Forall2 same_coeffs cs cs'.
Proof.
  intros HA [HS HB] [HS' HB']. destruct cs as [|c cs], cs' as [|c' cs']; try contradiction. destruct l as [|p0 [|p1 l]]; try contradiction.
  apply (smooth_same _ _ _ HA HS HS'). assert (E : cb c == 0) by (unfold bend in HB; lra). assert (E' : cb c' == 0) by (unfold bend in HB'; lra).
  cbn [map]. constructor; [now rewrite E, E'|]. pose proof (smooth_eqs _ _ _ _ _ HA HS) as X. pose proof (smooth_eqs _ _ _ _ _ HA HS') as Y.
  apply (eqs_unique _ _ _ _ _ (rows_dominant _ _ _ HA) (eqs_xp _ _ _ _ _ E X) (eqs_xp _ _ _ _ _ E' Y)).
Qed.

(** ** the curve *)
Lemma value_poly x c : value_of x c == poly c x.
Proof. unfold value_of, poly. cbn [fold_left fst]. ring. Qed.
Lemma index_of_split x a : forall i index s b, fst s < x -> Forall (fun t => x <= fst t) b -> index_of x i index (a ++ s :: b) = (i + length a)%nat.
Proof.
  assert (T : forall b i index, Forall (fun t : Q * coeffs => x <= fst t) b -> index_of x i index b = index).
  { induction b as [|t b IH]; intros i index F; [reflexivity|]. inversion F; subst. cbn [index_of]. rewrite (proj2 (Qltb_false _ _)) by assumption. now apply IH. }
  induction a as [|t a IH]; intros i index s b HS F; cbn [app index_of length].
  - rewrite (proj2 (Qltb_iff _ _)) by exact HS. rewrite T by exact F. lia.
  - rewrite IH by assumption. lia.
Qed.
Lemma index_of_none x b : forall i index, Forall (fun t : Q * coeffs => x <= fst t) b -> index_of x i index b = index.
Proof. induction b as [|t b IH]; intros i index F; [reflexivity|]. inversion F; subst. cbn [index_of]. rewrite (proj2 (Qltb_false _ _)) by assumption. now apply IH. Qed.

(** pieces of a spline with their positions: [k]-th *)
Lemma apart_later l : forall i j p q, apart l -> (i < j)%nat -> nth_error l i = Some p -> nth_error l j = Some q -> fst p < fst q.
Proof.
  induction l as [|p0 l IH]; intros [|i] [|j] p q HA L Hi Hj; try lia; try discriminate; cbn [nth_error] in *.
  - injection Hi as <-. destruct l as [|p1 l]; [now destruct j|]. destruct HA as [H HA]. destruct j as [|j]; [cbn in Hj; injection Hj as <-; lra|].
    specialize (IH 0%nat (S j) p1 q HA ltac:(lia) eq_refl Hj). lra.
  - destruct l as [|p1 l]; [now destruct i|]. destruct HA as [_ HA]. now apply (IH i j p q HA ltac:(lia)).
Qed.
Lemma smooth_nth l : forall cs k p0 p1 c, smooth l cs -> nth_error l k = Some p0 -> nth_error l (S k) = Some p1 -> nth_error cs k = Some c -> poly c 0 == snd p0 /\ poly c (fst p1 - fst p0) == snd p1.
Proof.
  induction l as [|a l IH]; intros cs k p0 p1 c HS H0 H1 HC; [now destruct k|]. destruct l as [|b l]; [destruct k as [|[|k]]; discriminate|].
  destruct cs as [|c0 cs]; [contradiction|]. destruct HS as (P0 & P1 & _ & HS). destruct k as [|k]; cbn [nth_error] in *.
  - injection H0 as <-. injection H1 as <-. injection HC as <-. now split.
  - now apply (IH cs k p0 p1 c HS).
Qed.
Lemma smooth_length l : forall cs, smooth l cs -> length l = S (length cs).
Proof. induction l as [|a l IH]; intros cs H; [contradiction|]. destruct l as [|b l]; [destruct cs; [reflexivity|contradiction]|]. destruct cs as [|c cs]; [contradiction|]. destruct H as (_ & _ & _ & H). cbn [length] in *. now rewrite (IH _ H). Qed.
Lemma combine_nth_error {A B} (a : list A) : forall (b : list B) k, nth_error (combine a b) k = match nth_error a k, nth_error b k with Some x, Some y => Some (x, y) | _, _ => None end.
Proof. induction a as [|x a IH]; intros [|y b] [|k]; cbn [combine nth_error]; try reflexivity; [now destruct (nth_error a k)|apply IH]. Qed.
Lemma poly_proper c x y : x == y -> poly c x == poly c y.
Proof. intros E. unfold poly. now rewrite E. Qed.

Section Curve.
  Variable l : list point.
  Variable cs : list coeffs.
  Hypothesis HA : apart l.
  Hypothesis HS : smooth l cs.
  Let d := combine (map fst l) cs.
  Lemma d_nth k : nth_error d k = match nth_error l k, nth_error cs k with Some p, Some c => Some (fst p, c) | _, _ => None end.
  Proof. unfold d. rewrite combine_nth_error, nth_error_map. unfold point in *. destruct (@nth_error (Q * Q) l k); reflexivity. Qed.
  Lemma later k p0 x : nth_error l k = Some p0 -> x <= fst p0 -> Forall (fun t => x <= fst t) (skipn k d).
  Proof.
    intros H0 HX. apply Forall_forall. intros t HI. apply In_nth_error in HI. destruct HI as [m HM].
    assert (E : nth_error d (k + m) = Some t). { rewrite <- (firstn_skipn k d) in HM |- *. rewrite firstn_skipn in HM. destruct (le_lt_dec (length d) k) as [L|L]; [rewrite skipn_all2 in HM by exact L; now destruct m|].
      rewrite nth_error_app2 by (rewrite firstn_length_le; lia). rewrite firstn_length_le by lia. replace (k + m - k)%nat with m by lia. exact HM. }
    rewrite d_nth in E. destruct (nth_error l (k + m)) as [q|] eqn:Q; [|discriminate]. destruct (nth_error cs (k + m)); [|discriminate]. injection E as <-. cbn [fst].
    destruct m as [|m]; [rewrite Nat.add_0_r in Q; replace q with p0 by congruence; exact HX|]. pose proof (apart_later l k (k + S m) p0 q HA ltac:(lia) H0 Q). lra.
  Qed.
  Lemma d_length : length d = length cs.
  Proof. pose proof (smooth_length _ _ HS) as L. unfold d. rewrite combine_length, map_length. unfold point in *. lia. Qed.
  Lemma curve_piece k p0 p1 c x : nth_error l k = Some p0 -> nth_error l (S k) = Some p1 -> nth_error cs k = Some c ->
    0 <= x <= 1 -> fst p0 <= x <= fst p1 -> exists v, curve d x = Ok v /\ v == poly c (x - fst p0).
  Proof.
    intros H0 H1 HC [X0 X1] [L U]. unfold curve. rewrite (proj2 (Qltb_false x 0)), (proj2 (Qltb_false 1 x)) by assumption. cbn [orb].
    assert (DK : nth_error d k = Some (fst p0, c)) by (rewrite d_nth, H0, HC; reflexivity).
    assert (LT : Forall (fun t => x <= fst t) (skipn (S k) d)) by (now apply (later (S k) p1)).
    assert (SP : forall k s, nth_error d k = Some s -> d = firstn k d ++ s :: skipn (S k) d).
    { intros j s HJ. apply nth_error_split in HJ. destruct HJ as (a & b & E & <-). rewrite E. rewrite firstn_app, firstn_all, Nat.sub_diag. cbn [firstn]. rewrite app_nil_r.
      rewrite skipn_app, skipn_all2 by lia. replace (S (length a) - length a)%nat with 1%nat by lia. reflexivity. }
    assert (LE : forall k s, nth_error d k = Some s -> length (firstn k d) = k). { intros j s HJ. apply firstn_length_le. apply Nat.lt_le_incl, nth_error_Some. congruence. }
    destruct (Qlt_le_dec (fst p0) x) as [G|G].
    - assert (I : index_of x 0 0 d = k). { rewrite (SP k _ DK). rewrite (index_of_split x (firstn k d) 0 0 (fst p0, c) _ G LT). now rewrite (LE k _ DK). }
      rewrite I, DK. cbn [fst snd]. eexists. split; [reflexivity|]. apply value_poly.
    - assert (E : x == fst p0) by lra. destruct k as [|k].
      + assert (I : index_of x 0 0 d = 0%nat). { apply index_of_none. apply (later 0 p0 x H0). lra. }
        rewrite I, DK. cbn [fst snd]. eexists. split; [reflexivity|]. apply value_poly.
      + destruct (nth_error l k) as [q|] eqn:Q; [|apply nth_error_None in Q; assert (nth_error l (S k) <> None) by congruence; apply nth_error_Some in H; lia].
        destruct (nth_error cs k) as [cq|] eqn:CQ; [|apply nth_error_None in CQ; assert (nth_error cs (S k) <> None) by congruence; apply nth_error_Some in H; lia].
        assert (DQ : nth_error d k = Some (fst q, cq)) by (rewrite d_nth, Q, CQ; reflexivity).
        pose proof (apart_later l k (S k) q p0 HA ltac:(lia) Q H0) as QL.
        assert (I : index_of x 0 0 d = k). { rewrite (SP k _ DQ). rewrite (index_of_split x (firstn k d) 0 0 (fst q, cq)); [now rewrite (LE k _ DQ)|cbn [fst]; lra|]. apply (later (S k) p0 x H0). lra. }
        rewrite I, DQ. cbn [fst snd]. eexists. split; [reflexivity|]. rewrite value_poly, (poly_proper _ _ _ (Qplus_comp _ _ E _ _ (Qeq_refl (- fst q)))).
        change (fst p0 + - fst q) with (fst p0 - fst q). destruct (smooth_nth l cs k q p0 cq HS Q H0 CQ) as [_ ->]. destruct (smooth_nth l cs (S k) p0 p1 c HS H0 H1 HC) as [<- _].
        apply poly_proper. rewrite E. ring.
  Qed.
End Curve.

Lemma combine_app_short {A B} (a a' : list A) : forall (b : list B), length a = length b -> combine (a ++ a') b = combine a b.
Proof. induction a as [|x a IH]; intros [|y b] L; try discriminate; cbn [app combine]; [destruct a'; reflexivity|]. f_equal. apply IH. now injection L. Qed.
Lemma with_ends_cons pts : exists p1 l, with_ends pts = (0, 0) :: p1 :: l /\ length l = length pts.
Proof. destruct pts as [|p pts]; cbn [with_ends app]; eexists _, _; (split; [reflexivity|]); [reflexivity|]. rewrite app_length. unfold point in *. cbn [length]. lia. Qed.
Lemma nth_first pts : nth_error (with_ends pts) 0 = Some (0, 0).
Proof. reflexivity. Qed.
Lemma nth_last pts : nth_error (with_ends pts) (S (length pts)) = Some (1, 1).
Proof. cbn [with_ends nth_error]. rewrite nth_error_app2 by lia. now rewrite Nat.sub_diag. Qed.

Theorem spline_data_ok solve pts : solver_ok solve -> apart (with_ends pts) ->
  exists l, spline_data solve pts = Ok l /\ map fst l = 0 :: map fst pts /\ natural_spline (with_ends pts) (map snd l) /\
    (forall k p0 p1 s, nth_error (with_ends pts) k = Some p0 -> nth_error (with_ends pts) (S k) = Some p1 -> nth_error l k = Some s ->
      forall x, fst p0 <= x <= fst p1 -> exists v, curve l x = Ok v /\ v == poly (snd s) (x - fst p0)) /\
    (forall p, In p (with_ends pts) -> exists v, curve l (fst p) = Ok v /\ v == snd p).
Proof.
  intros HS HA. destruct (with_ends_cons pts) as (p1 & t & E & LT). assert (C : exists cs, spline_coefficients solve (with_ends pts) = Ok cs /\ natural_spline (with_ends pts) cs /\ length cs = S (length t)).
  { rewrite E in *. now apply coefficients_natural. }
  destruct C as (cs & EC & NS & LC). unfold spline_data. rewrite EC. cbn [bind]. set (l := combine (0 :: map fst pts) cs).
  assert (LL : length (0 :: map fst pts) = length cs) by (cbn [length]; rewrite map_length; unfold point in *; lia).
  assert (ED : l = combine (map fst (with_ends pts)) cs). { unfold l, with_ends. cbn [map fst]. rewrite map_app. rewrite app_comm_cons. now rewrite combine_app_short. }
  assert (CP : forall a b, @length Q a = @length coeffs b -> map fst (combine a b) = a /\ map snd (combine a b) = b).
  { induction a as [|x a IH]; intros [|y b] L; try discriminate; [split; reflexivity|]. destruct (IH b ltac:(now injection L)) as [A B]. cbn. now rewrite A, B. }
  destruct (CP _ _ LL) as [M1 M2]. fold l in M1, M2. exists l. split; [reflexivity|]. split; [exact M1|]. split; [now rewrite M2|].
  assert (R : forall k p, nth_error (with_ends pts) k = Some p -> 0 <= fst p <= 1).
  { intros k p H. split.
    - destruct k as [|k]; [injection H as <-; cbn [fst]; lra|]. pose proof (apart_later _ 0 (S k) _ _ HA ltac:(unfold point in *; lia) (nth_first pts) H) as X. cbn [fst] in X. lra.
    - assert (K : (k < length (with_ends pts))%nat) by (apply nth_error_Some; congruence). rewrite E in K. cbn [length] in K.
      destruct (Nat.eq_dec k (S (length pts))) as [->|N]; [rewrite nth_last in H; injection H as <-; cbn [fst]; lra|].
      pose proof (apart_later _ k (S (length pts)) _ _ HA ltac:(unfold point in *; lia) H (nth_last pts)) as X. cbn [fst] in X. lra. }
  assert (PC : forall k p0 p1 s, nth_error (with_ends pts) k = Some p0 -> nth_error (with_ends pts) (S k) = Some p1 -> nth_error l k = Some s ->
      forall x, fst p0 <= x <= fst p1 -> exists v, curve l x = Ok v /\ v == poly (snd s) (x - fst p0)).
  { intros k q0 q1 s H0 H1 HC x HX. assert (NC : nth_error cs k = Some (snd s)) by (rewrite <- M2, nth_error_map, HC; reflexivity). rewrite ED.
    pose proof (R _ _ H0). pose proof (R _ _ H1). apply (curve_piece _ _ HA (proj1 NS) k q0 q1 (snd s) x H0 H1 NC); [lra|exact HX]. }
  split; [exact PC|]. intros p HI. apply In_nth_error in HI. destruct HI as [k HK].
  assert (K : (k < length (with_ends pts))%nat) by (apply nth_error_Some; congruence). rewrite E in K. cbn [length] in K.
  assert (LN : length l = S (length t)) by (rewrite <- (map_length snd l), M2; exact LC).
  assert (GET : forall j, (j <= length t)%nat -> exists s q0 q1, nth_error l j = Some s /\ nth_error cs j = Some (snd s) /\ nth_error (with_ends pts) j = Some q0 /\ nth_error (with_ends pts) (S j) = Some q1).
  { intros j HJ. destruct (nth_error l j) as [s|] eqn:A; [|apply nth_error_None in A; lia]. destruct (nth_error (with_ends pts) j) as [q0|] eqn:B; [|apply nth_error_None in B; rewrite E in B; cbn [length] in B; unfold point in *; lia].
    destruct (nth_error (with_ends pts) (S j)) as [q1|] eqn:D; [|apply nth_error_None in D; rewrite E in D; cbn [length] in D; unfold point in *; lia]. exists s, q0, q1. rewrite <- M2, nth_error_map, A. repeat split; auto. }
  destruct k as [|k].
  - destruct (GET 0%nat ltac:(unfold point in *; lia)) as (s & q0 & q1 & A & A' & B & D). replace q0 with p in * by congruence.
    pose proof (apart_later _ 0 1 _ _ HA ltac:(unfold point in *; lia) B D) as L. destruct (PC 0%nat p q1 s B D A (fst p) ltac:(lra)) as (v & V & W). exists v. split; [exact V|].
    rewrite W. rewrite (poly_proper _ (fst p - fst p) 0) by ring. apply (smooth_nth _ _ 0 p q1 _ (proj1 NS) B D A').
  - destruct (GET k ltac:(unfold point in *; lia)) as (s & q0 & q1 & A & A' & B & D). replace q1 with p in * by congruence.
    pose proof (apart_later _ k (S k) _ _ HA ltac:(unfold point in *; lia) B D) as L. destruct (PC k q0 p s B D A (fst p) ltac:(lra)) as (v & V & W). exists v. split; [exact V|].
    rewrite W. apply (smooth_nth _ _ k q0 p _ (proj1 NS) B D A').
Qed.
