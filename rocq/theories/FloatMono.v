(** Rounding is monotone. *)
From Coq Require Import QArith Qabs Lqa Floats.SpecFloat.
From Verif Require Import Base FloatProofs SFloatProofs.
Open Scope Z_scope.

Section Mono.
  Variables (prec emax : Z).
  Hypothesis (Hprec : 1 < prec) (Hemax : prec < emax).
  Local Notation fexp := (fexp prec emax).
  Local Notation emin := (emin prec emax).
  Local Notation nn := (nn prec emax).
  Local Notation op_ok := (op_ok prec emax).

  (** a float is a multiple of the unit in the last place of every smaller number *)
  Lemma nn_grid r E : nn r -> E = emin \/ (b2 (E + prec - 1) <= sfQ r)%Q -> exists k, (sfQ r == inject_Z k * b2 E)%Q.
  Proof.
    intros Hr HE. destruct r as [s|s| |s m e]; try (exfalso; exact (proj2 Hr)).
    - exists 0. cbn [sfQ]. ring.
    - assert (s = false) by apply Hr. subst s. destruct (nn_bounds prec emax m e Hr) as [F _].
      assert (L : E <= e).
      { destruct HE as [HE|HE]; [subst E; unfold SpecFloat.fexp in F; lia|].
        cbn [sfQ cond_Zopp] in HE. pose proof (digits_bounds m e) as [_ D].
        assert (E + prec - 1 < Zpos (digits2_pos m) + e) by (apply b2_lt_inv; eapply Qle_lt_trans; eassumption).
        unfold SpecFloat.fexp in F. lia. }
      exists (Zpos m * 2 ^ (e - E)). cbn [sfQ cond_Zopp]. rewrite inject_Z_mult, <- b2_Z by lia. rewrite <- Qmult_assoc, <- b2_plus.
      replace (e - E + E) with e by lia. reflexivity.
  Qed.

  Lemma rnd_mono E X Y r s : rnd E X r -> rnd E Y s -> (X < Y)%Q -> (r <= s)%Q.
  Proof.
    intros (k & A & B) (l & C & D) L. pose proof (b2_pos E) as P.
    apply Qabs_Qle_condition in B. apply Qabs_Qle_condition in D.
    destruct (Z_le_gt_dec k l) as [H|H].
    - rewrite A, C. apply Qmult_le_compat_r; [now apply injZ_le|lra].
    - exfalso. assert (M : (inject_Z (l + 1) * b2 E <= inject_Z k * b2 E)%Q) by (apply Qmult_le_compat_r; [apply injZ_le; lia|lra]).
      rewrite inject_Z_plus in M. change (inject_Z 1) with 1%Q in M. lra.
  Qed.
  Lemma half_le E F : E <= F -> (b2 E * (1 # 2) <= b2 F * (1 # 2))%Q.
  Proof. intros H. apply Qmult_le_compat_r; [now apply b2_le|discriminate]. Qed.
  Lemma rnd_coarse E F X r : rnd E X r -> E <= F -> (exists k, (r == inject_Z k * b2 F)%Q) -> rnd F X r.
  Proof. intros (_ & _ & B) L [k A]. exists k. split; [exact A|]. eapply Qle_trans; [exact B|now apply half_le]. Qed.

  Lemma op_mono X N r Y M s : op_ok X N r -> op_ok Y M s -> (X < Y)%Q -> (sfQ r <= sfQ s)%Q.
  Proof.
    intros (Nr & E & _ & HE & R) (Ns & F & _ & HF & S) L.
    assert (One : forall G : Z, (inject_Z 1 * b2 G == b2 G)%Q) by (intros; apply Qmult_1_l).
    destruct (Z_le_gt_dec E F) as [C|C].
    - assert (G : (sfQ r <= sfQ s)%Q \/ exists k, (sfQ r == inject_Z k * b2 F)%Q).
      { destruct HF as [HF|HF]; [right; now apply nn_grid; [|left]|].
        assert (A : (b2 (F + prec - 1) <= sfQ s)%Q) by (rewrite <- One; apply (rnd_ge F _ 1 Y); [exact S|lia|rewrite One; exact HF]).
        destruct (Qlt_le_dec (b2 (F + prec - 1)) (sfQ r)) as [H|H]; [right|left; lra]. apply nn_grid; [exact Nr|]. right. lra. }
      destruct G as [G|G]; [exact G|]. apply (rnd_mono F X Y); [now apply (rnd_coarse E)|exact S|exact L].
    - assert (G : exists k, (sfQ s == inject_Z k * b2 E)%Q).
      { apply nn_grid; [exact Ns|]. destruct HE as [HE|HE]; [now left|right].
        rewrite <- One; apply (rnd_ge F _ 1 Y); [exact S|lia|rewrite One; lra]. }
      apply (rnd_mono E X Y); [exact R|apply (rnd_coarse F); [exact S|lia|exact G]|exact L].
  Qed.

  Lemma nn_inj x y : nn x -> nn y -> (sfQ x == sfQ y)%Q -> x = y.
  Proof.
    intros Hx Hy E. assert (C : SFcompare x y = Some (Qcompare (sfQ x) (sfQ y))) by (apply (nn_compare prec emax); try assumption; lia).
    rewrite (proj1 (Qeq_alt _ _) E) in C. destruct Hx as [_ Sx], Hy as [_ Sy].
    destruct x as [s|s| |s m e], y as [s'|s'| |s' m' e']; try contradiction; subst; cbn [SFcompare] in C; try discriminate C; [reflexivity|].
    destruct (Z.compare e e') eqn:Ee; try discriminate C. apply Z.compare_eq in Ee. injection C as C. apply Pos.compare_eq in C. now subst.
  Qed.
  (** functions which are monotone where their arguments differ are monotone *)
  Lemma mono_cases (f : spec_float -> spec_float) x y : nn x -> nn y -> (sfQ x <= sfQ y)%Q ->
    ((sfQ x < sfQ y)%Q -> (sfQ (f x) <= sfQ (f y))%Q) -> (sfQ (f x) <= sfQ (f y))%Q.
  Proof.
    intros Hx Hy L H. destruct (Qlt_le_dec (sfQ x) (sfQ y)) as [A|A]; [auto|]. rewrite (nn_inj x y Hx Hy); [lra|]. apply Qle_antisym; assumption.
  Qed.

  (** a signed result which is not negative *)
  Lemma op_of_sop X N r : (0 <= X)%Q -> sop prec emax X N r -> nn r -> op_ok X N r.
  Proof. intros P ((_ & _) & E & A & B & C) Hr. split; [exact Hr|]. exists E. rewrite (Qabs_pos X P) in B. auto. Qed.
  Lemma nn_of_pos r : fin prec emax r -> (0 < sfQ r)%Q -> nn r.
  Proof.
    intros [V F] P. split; [exact V|]. destruct r as [s|s| |s m e]; cbn [sf_fin] in F; try discriminate; cbn [sfQ] in P.
    destruct s; [exfalso|reflexivity]. pose proof (b2_pos e) as B. assert (M : (0 < inject_Z (Zpos m))%Q) by reflexivity.
    pose proof (Qmult_lt_0_compat _ _ M B). lra.
  Qed.
End Mono.
