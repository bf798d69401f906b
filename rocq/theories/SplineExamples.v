(** Splines through control points: a solver, examples and counterexamples. *)
From Coq Require Import QArith Qabs Lqa Lia List.
From Verif Require Import Base SplineModel SplineSpec SplineProofs.
Import ListNotations.
Open Scope Q_scope.

(** ** a solver which meets the contract: elimination *)
Fixpoint minus_times (t : Q) (q r : list Q) : list Q :=
  match q, r with
  | x :: q', y :: r' => (x - t * y) :: minus_times t q' r'
  | [], y :: r' => (0 - t * y) :: minus_times t [] r'
  | _, [] => q
  end.
Definition head_nonzero (e : list Q * Q) : bool := negb (Qeq_bool (hd 0 (fst e)) 0).
Fixpoint eliminate (n : nat) (E : list (list Q * Q)) : list Q :=
  match n with
  | O => []
  | S m =>
    match find head_nonzero E with
    | None => 0 :: eliminate m (map (fun e => (tl (fst e), snd e)) E)
    | Some (r, v) =>
      let a := hd 0 r in
      let xs := eliminate m (map (fun e => (minus_times (hd 0 (fst e) / a) (tl (fst e)) (tl r), snd e - hd 0 (fst e) / a * v)) E) in
      (v - dot (tl r) xs) / a :: xs
    end
  end.
Definition elimination (A : list (list Q)) (b : list Q) : list Q := eliminate (length b) (combine A b).

Lemma dot_minus t q : forall r x, dot (minus_times t q r) x == dot q x - t * dot r x.
Proof.
  assert (N : forall r x, dot (minus_times t [] r) x == - t * dot r x).
  { induction r as [|y r IH]; intros x; cbn [minus_times dot]; [ring|]. destruct x as [|v x]; [ring|]. rewrite IH. ring. }
  induction q as [|a q IH]; intros r x.
  - rewrite N. cbn [dot]. ring.
  - destruct r as [|y r]; cbn [minus_times dot]; [destruct x; ring|]. destruct x as [|v x]; [ring|]. rewrite IH. ring.
Qed.
Lemma dot_cons q v x : dot q (v :: x) == hd 0 q * v + dot (tl q) x.
Proof. destruct q as [|a q]; cbn [dot hd tl]; [ring|reflexivity]. Qed.
Definition sat (n : nat) (E : list (list Q * Q)) (x : list Q) : Prop := length x = n /\ Forall (fun e => dot (fst e) x == snd e) E.
Lemma eliminate_ok n : forall E, (exists x, sat n E x) -> sat n E (eliminate n E).
Proof.
  induction n as [|n IH]; intros E [x [L F]]; cbn [eliminate].
  - destruct x; [|discriminate]. now split.
  - destruct x as [|x0 xs]; [discriminate|]. injection L as L. rewrite Forall_forall in F. destruct (find head_nonzero E) as [[r v]|] eqn:FN.
    + apply find_some in FN. destruct FN as [HI HN]. unfold head_nonzero in HN. cbn [fst] in HN. assert (A : ~ hd 0 r == 0) by (intros E0; apply Qeq_bool_iff in E0; rewrite E0 in HN; discriminate).
      cbv zeta. set (a := hd 0 r) in *. set (f := fun e : list Q * Q => _). destruct (IH (map f E)) as [L' F'].
      { exists xs. split; [exact L|]. rewrite Forall_map, Forall_forall. intros e HE. unfold f. cbn [fst snd]. rewrite dot_minus.
        pose proof (F e HE) as X. pose proof (F _ HI) as Y. cbn [fst snd] in Y. rewrite dot_cons in X, Y. fold a in Y. rewrite <- X, <- Y. field. exact A. }
      split; [cbn [length]; now rewrite L'|]. rewrite Forall_map, Forall_forall in F'. apply Forall_forall. intros e HE. specialize (F' e HE). unfold f in F' at 1 3. cbn [fst snd] in F'.
      rewrite dot_minus in F'. rewrite dot_cons. set (ys := eliminate n (map f E)) in *.
      assert (G : dot (tl (fst e)) ys == snd e - hd 0 (fst e) / a * v + hd 0 (fst e) / a * dot (tl r) ys) by lra. rewrite G. field. exact A.
    + assert (Z : forall e, In e E -> hd 0 (fst e) == 0). { intros e HE. pose proof (find_none _ _ FN e HE) as X. unfold head_nonzero in X. apply negb_false_iff in X. now apply Qeq_bool_iff. }
      destruct (IH (map (fun e => (tl (fst e), snd e)) E)) as [L' F'].
      { exists xs. split; [exact L|]. rewrite Forall_map, Forall_forall. intros e HE. cbn [fst snd]. rewrite <- (F e HE), dot_cons, (Z e HE). ring. }
      split; [cbn [length]; now rewrite L'|]. rewrite Forall_map, Forall_forall in F'. apply Forall_forall. intros e HE. specialize (F' e HE). cbn [fst snd] in F'. rewrite dot_cons, (Z e HE), F'. ring.
Qed.
Lemma forall2_combine A : forall (b : list Q) x, length A = length b -> Forall2 (fun r v => dot r x == v) A b <-> Forall (fun e => dot (fst e) x == snd e) (combine A b).
Proof.
  induction A as [|r A IH]; intros [|v b] x L; try discriminate; cbn [combine]; [split; constructor|]. injection L as L. specialize (IH b x L).
  split; intros H; inversion H; subst; constructor; try assumption; now apply IH.
Qed.
Lemma Forall2_len {A B} (P : A -> B -> Prop) a b : Forall2 P a b -> length a = length b.
Proof. induction 1; cbn; congruence. Qed.
Lemma elimination_ok : solver_ok elimination.
Proof.
  intros A b [x [L F]]. pose proof (Forall2_len _ _ _ F) as LA. rewrite forall2_combine in F by exact LA. unfold solves. rewrite forall2_combine by exact LA.
  apply (eliminate_ok (length b) (combine A b)). exists x. now split.
Qed.

(** ** a case *)
Definition two_points : list point := [(1 # 4, 1 # 2); (1 # 2, 3 # 4)].
Lemma two_points_apart : apart (with_ends two_points).
Proof. repeat split; vm_compute; discriminate. Qed.
Lemma two_points_values : forall x y, In (x, y) [(1 # 4, 1 # 2); (1 # 2, 3 # 4); (0, 0); (1, 1); (1 # 8, 401 # 1472)] ->
  exists l v, spline_data elimination two_points = Ok l /\ curve l x = Ok v /\ v == y.
Proof.
  intros x y H. destruct (spline_data elimination two_points) as [l| | |] eqn:E; [|vm_compute in E; discriminate..]. exists l. vm_compute in E. injection E as <-.
  destruct H as [H|[H|[H|[H|[H|[]]]]]]; injection H as <- <-; (eexists; split; [reflexivity|]; split; [vm_compute; reflexivity|]); vm_compute; reflexivity.
Qed.

(** ** points which are closer *)
Definition close_point : list point := [(1 # 2000, 1 # 2)].
Lemma one_unknown solve d r : solver_ok solve -> ~ d == 0 -> exists v, solve [[d]] [r] = [v] /\ d * v == r.
Proof.
  intros HS D. destruct (HS [[d]] [r]) as [L F].
  - exists [r / d]. split; [reflexivity|]. constructor; [|constructor]. cbn [dot]. field. exact D.
  - destruct (solve [[d]] [r]) as [|v [|? ?]]; try discriminate. exists v. split; [reflexivity|]. inversion F; subst. cbn [dot] in *. lra.
Qed.
Lemma close_kink solve : solver_ok solve -> exists a b, spline_data solve close_point = Ok [(0, a); (1 # 2000, b)] /\ ~ slope a (1 # 2000) == slope b 0.
Proof.
  intros HS. unfold spline_data, spline_coefficients, with_ends, close_point. cbn [app]. set (s := rows _ _ _).
  assert (M : exists d r, matrix s = [[d]] /\ map row_r s = [r] /\ d == 2 /\ r == 3 * ((1000 # 1999) - 500)) by (eexists _, _; split; [vm_compute; reflexivity|]; split; [vm_compute; reflexivity|]; split; vm_compute; reflexivity).
  destruct M as (d & r & -> & -> & D & R). destruct (one_unknown solve d r HS) as (v & -> & E); [rewrite D; discriminate|]. rewrite D, R in E.
  change (length s) with 1%nat. cbn [firstn resolve fst snd combine map bind].
  change (Qltb (Qabs ((1 # 2000) - 0)) (1 # 10000000)) with false. change (Qltb (Qabs (1 - (1 # 2000))) (1 # 10000000)) with false. cbn [bind combine].
  eexists _, _. split; [reflexivity|]. unfold slope. cbn [ca cb cc cd]. intros X.
  assert (V : v == -1497750 # 1999) by lra. rewrite V in X. vm_compute in X. discriminate.
Qed.
Definition very_close_point : list point := [(1 # 100000000, 1 # 2)].
Lemma very_close_missed solve : exists l v, spline_data solve very_close_point = Ok l /\ curve l (1 # 100000000) = Ok v /\ v == 0.
Proof.
  unfold spline_data, spline_coefficients, with_ends, very_close_point. cbn [app]. set (s := rows _ _ _). set (sol := firstn _ _).
  cbn [resolve fst snd]. change (Qltb (Qabs ((1 # 100000000) - 0)) (1 # 10000000)) with true. cbn [map fst]. destruct (match sol with x :: s0 => (x, s0) | [] => (0, []) end) as [x1 sol1].
  repeat match goal with |- context [match ?e with pair _ _ => _ end] => destruct e as [? ?] end. cbn [bind combine].

  eexists _, _. split; [reflexivity|]. split; [vm_compute; reflexivity|]. vm_compute. reflexivity.
Qed.
