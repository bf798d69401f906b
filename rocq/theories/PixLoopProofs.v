(** Loops over all pixels of a bitmap which change each pixel in place. *)
From Verif Require Import Base RectModel RectProofs CopyModel MemProofs CopyProofs HiLoModel HiLoProofs BitonalProofs PixelModel PixelSpec.
From Coq Require Import QArith.
From Verif Require Import PixelProofs.
Open Scope Z_scope.

Definition in_pix (b : bmp) (x y a : Z) : Prop := pix_off b x y <= a < pix_off b x y + bbpp b.

Lemma pix_map_loop b (P : Z -> Z -> bytes -> Prop) (step : Z -> Z -> mem -> res mem) (F : Z -> Z -> bytes -> bytes) :
  bmp_wf b -> (forall x y, 0 <= x < bw b -> 0 <= y < bh b -> P x y (pix b x y)) ->
  (forall x y m, 0 <= x < bw b -> 0 <= y < bh b -> P x y (mread m (pix_off b x y) (Z.to_nat (bbpp b))) ->
     exists m', step y x m = Ok m' /\ mread m' (pix_off b x y) (Z.to_nat (bbpp b)) = F x y (mread m (pix_off b x y) (Z.to_nat (bbpp b))) /\
       forall a, ~ in_pix b x y a -> m' a = m a) ->
  exists m', for_loop (Z.to_nat (bh b)) 0 (fun y m => for_loop (Z.to_nat (bw b)) 0 (fun x m => step y x m) m) (bdata b) = Ok m' /\
    pix_post b (bwith b m') (fun x y => Some (F x y (pix b x y))).
Proof.
  intros Hwf HP Hs. pose proof Hwf as (W0 & H0 & B0 & _).
  set (I2 := fun y x (m : mem) =>
    (forall x' y', 0 <= x' < bw b -> 0 <= y' < bh b ->
       mread m (pix_off b x' y') (Z.to_nat (bbpp b)) = if (y' <? y) || ((y' =? y) && (x' <? x)) then F x' y' (pix b x' y') else pix b x' y') /\
    (forall a, (forall x' y', 0 <= x' < bw b -> 0 <= y' < bh b -> ~ in_pix b x' y' a) -> m a = bdata b a)).
  destruct (for_loop_inv (fun y m => I2 y 0 m) (fun y m => for_loop (Z.to_nat (bw b)) 0 (fun x m => step y x m) m) (Z.to_nat (bh b)) 0 (bdata b)) as (m' & E & J1 & J2).
  - split; [|reflexivity]. intros x' y' Hx Hy. match goal with |- context [if ?c then _ else _] => replace c with false by lia end. reflexivity.
  - intros y m Hy Hm.
    destruct (for_loop_inv (fun x m => I2 y x m) (fun x m => step y x m) (Z.to_nat (bw b)) 0 m) as (m1 & E1 & K1 & K2).
    + exact Hm.
    + intros x t Hx (T1 & T2). pose proof (T1 x y ltac:(lia) ltac:(lia)) as Tp.
      replace ((y <? y) || (y =? y) && (x <? x)) with false in Tp by lia.
      destruct (Hs x y t ltac:(lia) ltac:(lia)) as (t' & Et & V1 & V2).
      { rewrite Tp. apply HP; lia. }
      exists t'. split; [exact Et|]. split.
      * intros x' y' Hx' Hy'. destruct (Z.eq_dec x' x) as [->|Nx]; [destruct (Z.eq_dec y' y) as [->|Ny]|].
        -- replace ((y <? y) || (y =? y) && (x <? x + 1)) with true by lia. rewrite V1, Tp. reflexivity.
        -- replace ((y' <? y) || (y' =? y) && (x <? x + 1)) with ((y' <? y) || (y' =? y) && (x <? x)) by lia.
           rewrite <- T1 by assumption. apply mread_same. intros i Hi. apply V2. intros C. unfold in_pix in C.
           destruct (pix_off_disj b x y' x y i (pix_off b x y' + i - pix_off b x y) Hwf) as [_ ?]; try lia.
        -- replace ((y' <? y) || (y' =? y) && (x' <? x + 1)) with ((y' <? y) || (y' =? y) && (x' <? x)) by lia.
           rewrite <- T1 by assumption. apply mread_same. intros i Hi. apply V2. intros C. unfold in_pix in C.
           destruct (pix_off_disj b x' y' x y i (pix_off b x' y' + i - pix_off b x y) Hwf) as [? _]; try lia.
      * intros a Ha. rewrite V2 by (apply Ha; lia). now apply T2.
    + exists m1. split; [exact E1|]. split.
      * intros x' y' Hx' Hy'. rewrite K1 by assumption.
        replace ((y' <? y) || (y' =? y) && (x' <? 0 + Z.of_nat (Z.to_nat (bw b)))) with ((y' <? y + 1) || (y' =? y + 1) && (x' <? 0)) by lia. reflexivity.
      * exact K2.
  - exists m'. split; [exact E|]. split; [now eexists|]. split.
    + intros x y Hx Hy. unfold pix at 1, pix_off; cbn [bwith bdata bstride bbpp].
      change (y * bstride b + x * bbpp b) with (pix_off b x y). rewrite J1 by assumption.
      match goal with |- context [if ?c then _ else _] => replace c with true by lia end. reflexivity.
    + intros a Ha. cbn [bwith bdata]. apply J2. intros x y Hx Hy C. unfold in_pix in C. apply (Ha x y (a - pix_off b x y)); lia.
Qed.

(** ** RGB48ToBGR48 *)
Definition swap6 (v : bytes) : bytes := [nth 4 v 0; nth 5 v 0; nth 2 v 0; nth 3 v 0; nth 0 v 0; nth 1 v 0].

Lemma mw_in m off d a k : a = off + Z.of_nat k -> (k < length d)%nat -> mwrite m off d a = nth k d 0.
Proof.
  intros -> H. unfold mwrite. match goal with |- context [if ?c then _ else _] => replace c with true by lia end.
  f_equal. lia.
Qed.
Lemma mw_out m off d a : ~ (off <= a < off + Z.of_nat (length d)) -> mwrite m off d a = m a.
Proof. intros H. unfold mwrite. match goal with |- context [if ?c then _ else _] => replace c with false by lia end. reflexivity. Qed.

Lemma swap_rb_ok m sz off : (forall k, 0 <= k < 6 -> is_byte (m (off + k))) -> 0 <= off -> off + 6 <= sz ->
  exists m', swap_rb m sz off = Ok m' /\ mread m' off 6 = swap6 (mread m off 6) /\ forall a, ~ (off <= a < off + 6) -> m' a = m a.
Proof.
  intros B H0 H1. unfold swap_rb. rewrite !ld16_ok by lia. cbn [bind].
  rewrite st_ok by (cbn; lia). cbn [bind]. rewrite st_ok by (cbn; lia). eexists. split; [reflexivity|].
  pose proof (B 0 ltac:(lia)) as B0. pose proof (B 1 ltac:(lia)) as B1. pose proof (B 4 ltac:(lia)) as B4. pose proof (B 5 ltac:(lia)) as B5. unfold is_byte in *.
  rewrite Z.add_0_r in B0. replace (off + 4 + 1) with (off + 5) by lia.
  assert (Bc : forall p q, 0 <= p < 256 -> 0 <= q < 256 -> b16 (p + 256 * q) = [p; q]).
  { intros p q P1 P2. unfold b16, u16. change (2 ^ 16) with 65536. cbn [le]. f_equal; [lia|]. f_equal. lia. }
  rewrite !Bc by assumption. split.
  - apply (nth_ext _ _ 0 0); [reflexivity|]. intros i Hi. rewrite mread_length in Hi. rewrite mread_nth by exact Hi. unfold swap6.
    rewrite !mread_nth by lia.
    destruct i as [|[|[|[|[|[|i]]]]]]; [| | | | | |lia]; cbn [nth].
    + rewrite mw_out by (cbn; lia). rewrite (mw_in _ _ _ _ 0) by (cbn; lia). reflexivity.
    + rewrite mw_out by (cbn; lia). rewrite (mw_in _ _ _ _ 1) by (cbn; lia). reflexivity.
    + rewrite !mw_out by (cbn; lia). reflexivity.
    + rewrite !mw_out by (cbn; lia). reflexivity.
    + rewrite (mw_in _ _ _ _ 0) by (cbn; lia). cbn [nth]. f_equal. lia.
    + rewrite (mw_in _ _ _ _ 1) by (cbn; lia). reflexivity.
  - intros a Ha. rewrite !mw_out by (cbn; lia). reflexivity.
Qed.

Lemma mread_byte m off n k : Forall is_byte (mread m off n) -> 0 <= k < Z.of_nat n -> is_byte (m (off + k)).
Proof.
  intros H Hk. rewrite Forall_forall in H. apply H. replace k with (Z.of_nat (Z.to_nat k)) by lia.
  rewrite <- (mread_nth m off n (Z.to_nat k) 0) by lia. apply nth_In. rewrite mread_length. lia.
Qed.
Lemma mread_bytes m off n : byte_mem m -> Forall is_byte (mread m off n).
Proof. intros B. apply Forall_forall. intros x Hx. apply (In_nth _ _ 0) in Hx. destruct Hx as (i & Hi & <-). rewrite mread_length in Hi. rewrite mread_nth by exact Hi. apply B. Qed.

Lemma rgb48_to_bgr48_ok b : bmp_wf b -> bbpp b = 6 -> byte_mem (bdata b) ->
  exists d, rgb48_to_bgr48 b = Ok d /\ pix_post b d (fun x y => Some (swap6 (pix b x y))).
Proof.
  intros Hwf Hb B.
  destruct (pix_map_loop b (fun _ _ => Forall is_byte) (fun y x m => swap_rb m (bsize b) (y * bstride b + x * 6)) (fun _ _ => swap6) Hwf) as (m & E & P).
  - intros x y _ _. now apply mread_bytes.
  - intros x y m Hx Hy Hm. unfold in_pix, pix_off in *. rewrite Hb in *. change (Z.to_nat 6) with 6%nat in *.
    destruct (swap_rb_ok m (bsize b) (y * bstride b + x * 6)) as (m' & E & V1 & V2).
    + intros k Hk. apply (mread_byte m _ 6 k Hm). lia.
    + destruct Hwf as (? & ? & ? & ? & _). nia.
    + destruct Hwf as (? & ? & ? & W & Z). specialize (Z ltac:(lia)). rewrite Hb in *. assert ((y + 1) * bstride b <= bh b * bstride b) by nia. nia.
    + exists m'. split; [exact E|]. split; [exact V1|]. intros a Ha. apply V2. lia.
  - exists (bwith b m). unfold rgb48_to_bgr48. rewrite E. split; [reflexivity|exact P].
Qed.

Lemma swap6_comps v : length v = 6%nat -> comps Bgr48 (swap6 v) = rev (comps Bgr48 v).
Proof. intros H. unfold swap6, comps, c16. cbn [rev app nth Nat.mul Nat.add]. reflexivity. Qed.
Lemma swap6_invol v : length v = 6%nat -> swap6 (swap6 v) = v.
Proof. intros H. do 6 (destruct v as [|? v]; [discriminate H|]). destruct v; [reflexivity|discriminate H]. Qed.

Lemma rgb48_twice b : bmp_wf b -> bbpp b = 6 -> byte_mem (bdata b) ->
  exists d e, rgb48_to_bgr48 b = Ok d /\ rgb48_to_bgr48 d = Ok e /\
    (forall x y, 0 <= x < bw b -> 0 <= y < bh b -> comps Bgr48 (pix d x y) = rev (comps Bgr48 (pix b x y))) /\
    (forall a, bdata e a = bdata b a).
Proof.
  intros Hwf Hb B. destruct (rgb48_to_bgr48_ok b Hwf Hb B) as (d & E & (m & Ed) & P1 & P2).
  assert (Hwf' : bmp_wf d) by (subst d; exact Hwf).
  assert (Hin : forall a, {xy | 0 <= fst xy < bw b /\ 0 <= snd xy < bh b /\ in_pix b (fst xy) (snd xy) a} + {forall x y, 0 <= x < bw b -> 0 <= y < bh b -> ~ in_pix b x y a}).
  { intros a. pose proof Hwf as (W0 & H0 & _ & W & _). rewrite Hb in W.
    set (y := a / bstride b). set (x := a mod bstride b / 6).
    destruct (Z_le_gt_dec (bw b) 0) as [L|G]; [right; intros; lia|]. assert (0 < bstride b) by lia.
    destruct ((x <? bw b) && (0 <=? y) && (y <? bh b)) eqn:C.
    - left. exists (x, y). cbn [fst snd]. unfold in_pix, pix_off. rewrite Hb. pose proof (Z.div_mod a (bstride b) ltac:(lia)). fold y in H1.
      pose proof (Z.mod_pos_bound a (bstride b) ltac:(lia)). unfold x in *. split; [lia|]. split; [lia|]. split; lia.
    - right. intros x' y' Hx Hy I. unfold in_pix, pix_off in I. rewrite Hb in I.
      assert (Ey : y = y') by (unfold y; symmetry; apply (Z.div_unique a (bstride b) y' (a - y' * bstride b)); [left; split; lia|lia]).
      assert (Ex : x = x').
      { unfold x. replace (a mod bstride b) with (a - y' * bstride b) by (rewrite Z.mod_eq by lia; fold y; rewrite Ey; lia). lia. }
      lia. }
  assert (B' : byte_mem (bdata d)).
  { intros a. destruct (Hin a) as [[[x y] (Hx & Hy & I)]|N]; cbn [fst snd] in *.
    - unfold in_pix in I. assert (Fb : Forall is_byte (pix d x y)).
      { rewrite P1 by assumption. unfold swap6. pose proof (mread_bytes (bdata b) (pix_off b x y) 6 B) as F. unfold pix. rewrite Hb. change (Z.to_nat 6) with 6%nat.
        rewrite Forall_forall in F. repeat constructor; apply F; apply nth_In; rewrite mread_length; lia. }
      unfold pix in Fb. replace (pix_off d x y) with (pix_off b x y) in Fb by (subst d; reflexivity).
      replace (bbpp d) with (bbpp b) in Fb by (subst d; reflexivity).
      pose proof (mread_byte _ _ _ (a - pix_off b x y) Fb ltac:(lia)) as R. replace (pix_off b x y + (a - pix_off b x y)) with a in R by lia. exact R.
    - rewrite P2; [apply B|]. intros x y k Hx Hy Hk He. apply (N x y Hx Hy). unfold in_pix. lia. }
  assert (Hb' : bbpp d = 6) by (subst d; exact Hb).
  destruct (rgb48_to_bgr48_ok d Hwf' Hb' B') as (e & E2 & (m2 & Ee) & R1 & R2).
  exists d, e. split; [exact E|]. split; [exact E2|].
  assert (Lp : forall x y, length (pix b x y) = 6%nat) by (intros; unfold pix; rewrite mread_length, Hb; reflexivity). split.
  - intros x y Hx Hy. rewrite P1 by assumption. apply swap6_comps, Lp.
  - assert (Dw : bw d = bw b) by (subst d; reflexivity). assert (Dh : bh d = bh b) by (subst d; reflexivity).
    intros a. destruct (Hin a) as [[[x y] (Hx & Hy & I)]|N]; cbn [fst snd] in *.
    + assert (Ep : pix e x y = pix b x y).
      { rewrite R1 by (rewrite ?Dw, ?Dh; assumption). rewrite P1 by assumption. apply swap6_invol, Lp. }
      unfold in_pix in I. unfold pix in Ep. replace (pix_off e x y) with (pix_off b x y) in Ep by (subst e d; reflexivity).
      replace (bbpp e) with (bbpp b) in Ep by (subst e d; reflexivity).
      assert (Hn : nth (Z.to_nat (a - pix_off b x y)) (mread (bdata e) (pix_off b x y) (Z.to_nat (bbpp b))) 0 = nth (Z.to_nat (a - pix_off b x y)) (mread (bdata b) (pix_off b x y) (Z.to_nat (bbpp b))) 0) by now rewrite Ep.
      rewrite !mread_nth in Hn by lia. replace (pix_off b x y + Z.of_nat (Z.to_nat (a - pix_off b x y))) with a in Hn by lia. exact Hn.
    + assert (Nd : forall x y k, 0 <= x < bw b -> 0 <= y < bh b -> 0 <= k < bbpp b -> a <> pix_off b x y + k) by (intros x y k Hx Hy Hk He; apply (N x y Hx Hy); unfold in_pix; lia).
      rewrite R2 by (rewrite Dw, Dh; subst d; exact Nd). apply P2. exact Nd.
Qed.
