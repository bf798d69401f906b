From Verif Require Import Base CopyModel HiLoModel HiLoProofs BitonalModel BitonalProofs DecimateProofs.

Definition mem_of (l : bytes) : mem := fun a => if a <? 0 then 0 else nth (Z.to_nat a) l 0.
Definition bm (w h stride : Z) (l : bytes) : mask := mkMask w h stride (Z.of_nat (length l)) (mem_of l).
Definition pixels (b : mask) : list (list Z) :=
  map (fun y => map (fun x => if mask_bit b (Z.of_nat x) (Z.of_nat y) then 1 else 0) (seq 0 (Z.to_nat (mw b)))) (seq 0 (Z.to_nat (mh b))).

Lemma mem_of_bytes l : Forall is_byte l -> byte_mem (mem_of l).
Proof.
  intros H a. unfold mem_of. destruct (a <? 0); [unfold is_byte; lia|].
  destruct (Nat.ltb_spec (Z.to_nat a) (length l)) as [L|L].
  - rewrite Forall_forall in H. apply H, nth_In, L.
  - rewrite nth_overflow by exact L. unfold is_byte; lia.
Qed.

Ltac bytes_list := unfold is_byte; repeat (constructor; [lia|]); constructor.
Ltac bm_wf_tac := match goal with |- bm_wf ?b => unfold b end; unfold bm_wf, bm; cbn [mw mh mstride msize mdata length]; unfold INT_MAX, UINT_MAX;
  split; [lia|split; [lia|split; [lia|split; [lia|apply mem_of_bytes; bytes_list]]]].

(** a bitmap of 11 x 3 pixels *)
Definition ex_b : mask := bm 11 3 2 [170; 85; 255; 255; 0; 1].
Lemma ex_b_wf : bm_wf ex_b.
Proof. bm_wf_tac. Qed.
Lemma ex_b_fill : exists m, fill ex_b 7 (-4) 30 6 false = Ok m /\
  pixels (with_data ex_b m) = [[1;0;1;0;1;0;1;0;0;0;0]; [1;1;1;1;1;1;1;0;0;0;0]; [0;0;0;0;0;0;0;0;0;0;0]].
Proof. eexists. split; [reflexivity|]. vm_compute. reflexivity. Qed.

(** a region left of the bitmap fills every column *)
Definition ex_left : mask := bm 16 2 2 [0; 0; 0; 0].
Lemma ex_left_wf : bm_wf ex_left.
Proof. bm_wf_tac. Qed.
Lemma fill_left : exists b m, bm_wf b /\ fill b (-10) 0 5 1 true = Ok m /\
  exists x y, 0 <= x < mw b /\ 0 <= y < mh b /\ ~ (-10 <= x < -10 + 5) /\
    mask_bit b x y = false /\ mask_bit (with_data b m) x y = true.
Proof.
  exists ex_left. eexists. split; [exact ex_left_wf|]. split; [reflexivity|]. exists 3, 0.
  split; [cbn; lia|]. split; [cbn; lia|]. split; [lia|]. split; reflexivity.
Qed.
Lemma fill_overflow : exists b, bm_wf b /\ fill b 2147483647 0 1 1 true = UB.
Proof. exists ex_left. split; [exact ex_left_wf|reflexivity]. Qed.

(** decimation of 32 x 6 pixels, all set except one in the third line *)
Definition ex_dec : mask := bm 32 6 4
  [255;255;255;255; 255;255;255;255; 127;255;255;255; 255;255;255;255; 255;255;255;255; 255;255;255;255].
Lemma ex_dec_wf : bm_wf ex_dec.
Proof. bm_wf_tac. Qed.
Lemma decimate_wrong : exists b d, bm_wf b /\ decimate 2 b (fun _ => 0) = Ok d /\
  exists x y, 0 <= x < mw d /\ 0 <= y < mh d /\ mask_bit d x y = true /\ ~ neighbourhood b 2 x y.
Proof.
  exists ex_dec. eexists. split; [exact ex_dec_wf|]. split; [vm_compute; reflexivity|].
  exists 0, 0. split; [cbn; lia|]. split; [cbn; lia|]. split; [reflexivity|].
  intros H. specialize (H 0 2). assert (E : mask_bit ex_dec (2 * 0 + 0) (2 * 0 + 2) = true) by (apply H; cbn; lia).
  vm_compute in E. discriminate E.
Qed.

(** decimation of 33 x 2 pixels writes behind the end of the destination *)
Definition ex_dec33 : mask := bm 33 2 5 [255;255;255;255;255; 255;255;255;255;255].
Lemma ex_dec33_wf : bm_wf ex_dec33.
Proof. bm_wf_tac. Qed.
Lemma decimate_overrun : exists b, bm_wf b /\ forall r, 0 <= r <= 7 -> decimate r b (fun _ => 0) = UB.
Proof.
  exists ex_dec33. split; [exact ex_dec33_wf|]. intros r Hr.
  assert (C : r = 0 \/ r = 1 \/ r = 2 \/ r = 3 \/ r = 4 \/ r = 5 \/ r = 6 \/ r = 7) by lia.
  repeat (destruct C as [->|C]; [reflexivity|]). subst r. reflexivity.
Qed.

(** 20 x 4, radius 1 *)
Definition ex_dec20 : mask := bm 20 4 3 [255;255;240; 255;127;255; 255;255;255; 255;255;255].
Lemma ex_dec20_wf : bm_wf ex_dec20.
Proof. bm_wf_tac. Qed.
Lemma ex_dec20_ok : exists d, decimate 1 ex_dec20 (fun _ => 0) = Ok d /\
  pixels d = [[1;1;1;1;0;1;1;1;1;1]; [1;1;1;1;0;1;1;1;1;1]].
Proof. eexists. split; [vm_compute; reflexivity|]. vm_compute. reflexivity. Qed.
Lemma ex_dec20_nb : neighbourhood ex_dec20 1 2 0 /\ ~ neighbourhood ex_dec20 1 4 0.
Proof.
  split.
  - intros i j Hi Hj Hx Hy. unfold ex_dec20, bm in Hy. cbn [mh] in Hy. assert (Ci : i = -1 \/ i = 0 \/ i = 1) by lia. assert (Cj : j = 0 \/ j = 1) by lia.
    destruct Ci as [->|[->| ->]], Cj as [->| ->]; reflexivity.
  - intros H. assert (E : mask_bit ex_dec20 (2 * 4 + 0) (2 * 0 + 1) = true) by (apply H; cbn; lia).
    vm_compute in E. discriminate E.
Qed.
Lemma decimate_bad_radius b r junk : bm_wf b -> r < 0 \/ 7 < r -> decimate r b junk = Throw.
Proof.
  intros H Hr. unfold decimate. rewrite check_lock_ok by exact H. cbn [bind]. cbv zeta.
  destruct (negb _) eqn:E; [reflexivity|lia].
Qed.
