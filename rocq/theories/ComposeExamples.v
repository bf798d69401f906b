(** Concrete bitmaps for the examples and counterexamples of PropCompose.v. *)
From Verif Require Import Base RectModel RectProofs CopyModel CopyProofs.

Definition lmem (l : bytes) : mem := fun a => nth (Z.to_nat a) l 0.

Definition ex_dst := mkBmp 3 2 4 1 8 (fun _ => 0).
Definition ex_src := mkBmp 3 1 3 1 3 (lmem [11; 12; 13]).
Definition ex_src2 := mkBmp 3 1 3 1 3 (lmem [21; 22; 23]).
Definition ex_mask := mkMask 3 1 1 1 (lmem [64]).
Definition ex_t1 := mkTile 100 200 ex_src None (SameType false).
Definition ex_t2 := mkTile 100 200 ex_src2 (Some ex_mask) (SameType false).
Definition ex_t3 := mkTile 101 200 ex_src2 None (SameType false).
Definition ex_t4 := mkTile 99 200 ex_src2 None (SameType false).
Definition ex_tiles := [ex_t1; ex_t2].
Definition ex_tiles3 := [ex_t1; ex_t4; ex_t3].

Ltac wf := repeat split; cbn; try lia; try discriminate.

Lemma ex_dst_wf : bmp_wf ex_dst. Proof. wf. Qed.
Lemma ex_src_wf : bmp_wf ex_src. Proof. wf. Qed.
Lemma ex_src2_wf : bmp_wf ex_src2. Proof. wf. Qed.
Lemma ex_mask_wf : mask_wf ex_mask. Proof. wf. Qed.

Lemma ex_c18 :
  bmp_wf ex_src /\ bmp_wf ex_dst /\ kind_wf ex_src ex_dst (SameType false) /\
  exists d', copy_with_offset (SameType false) ex_src ex_dst (-1) 1 = Ok d' /\
             map (fun x => pix d' x 1) [0; 1; 2] = [[12]; [13]; [0]].
Proof.
  split; [exact ex_src_wf|]. split; [exact ex_dst_wf|]. split; [split; reflexivity|].
  eexists. split; [reflexivity|]. vm_compute. reflexivity.
Qed.

Lemma ex_t1_wf : tile_wf ex_dst ex_t1.
Proof. split; [exact ex_src_wf|]. split; [discriminate|]. split; reflexivity. Qed.
Lemma ex_t2_wf : tile_wf ex_dst ex_t2.
Proof. split; [exact ex_src2_wf|]. split; [|split; reflexivity]. intros mk [= <-]. exact ex_mask_wf. Qed.
Lemma ex_t3_wf : tile_wf ex_dst ex_t3.
Proof. split; [exact ex_src2_wf|]. split; [discriminate|]. split; reflexivity. Qed.
Lemma ex_t4_wf : tile_wf ex_dst ex_t4.
Proof. split; [exact ex_src2_wf|]. split; [discriminate|]. split; reflexivity. Qed.

Lemma ex_c17 :
  bmp_wf ex_dst /\ Forall (tile_wf ex_dst) ex_tiles /\
  exists d', compose_tiles ex_dst ex_tiles 100 200 = Ok d' /\
             map (fun x => pix d' x 0) [0; 1; 2] = [[11]; [22]; [13]].
Proof.
  split; [exact ex_dst_wf|]. split; [exact (Forall_cons _ ex_t1_wf (Forall_cons _ ex_t2_wf (Forall_nil _)))|].
  eexists. split; [reflexivity|]. vm_compute. reflexivity.
Qed.

Lemma ex_c15 :
  bmp_wf ex_dst /\ Forall (tile_wf ex_dst) ex_tiles3 /\ Forall (fun t => t_mask t = None) ex_tiles3 /\
  check_visibility 10 (mkRect 100 200 3 2) 3 (fun i => tile_rect (nth i ex_tiles3 ex_t1)) = Ok [1; 2]%nat.
Proof.
  split; [exact ex_dst_wf|].
  split; [exact (Forall_cons _ ex_t1_wf (Forall_cons _ ex_t4_wf (Forall_cons _ ex_t3_wf (Forall_nil _))))|].
  split; [repeat constructor|]. vm_compute. reflexivity.
Qed.

Lemma visibility_unmasked dst ts xpos ypos dflt :
  bmp_wf dst -> Forall (tile_wf dst) ts -> Forall (fun t => t_mask t = None) ts ->
  exists fuel d1 d2,
    (forall f, (fuel <= f)%nat -> compose_optimised f dst ts xpos ypos dflt = Ok d1) /\
    compose_tiles dst ts xpos ypos = Ok d2 /\
    (forall x y, 0 <= x < bw dst -> 0 <= y < bh dst -> pix d1 x y = pix d2 x y) /\
    (forall a, (forall x y k, 0 <= x < bw dst -> 0 <= y < bh dst -> 0 <= k < bbpp dst ->
                  a <> pix_off dst x y + k) -> bdata d1 a = bdata d2 a).
Proof.
  intros Hd Hts Hm. destruct (compose_optimised_ok dst ts xpos ypos dflt Hd Hts) as (f & d1 & d2 & H1 & H2 & H3 & H4).
  exists f, d1, d2. repeat split; auto. intros x y Hx Hy. apply H3; [assumption..|].
  intros t Ht. unfold topmost_rect in Ht. apply find_some in Ht. destruct Ht as [Hin Hp].
  apply in_rev in Hin. rewrite Forall_forall in Hm. unfold shows. now rewrite (Hm t Hin), Hp.
Qed.

Definition one (v : Z) := mkBmp 1 1 1 1 1 (lmem [v]).

Lemma c16_witness :
  exists dst ts dflt, bmp_wf dst /\ Forall (tile_wf dst) ts /\
    exists d1 d2, (forall f, (1 <= f)%nat -> compose_optimised f dst ts 0 0 dflt = Ok d1) /\
      compose_tiles dst ts 0 0 = Ok d2 /\ pix d1 0 0 = [0] /\ pix d2 0 0 = [7].
Proof.
  exists (one 0), [mkTile 0 0 (one 7) None (SameType false);
                   mkTile 0 0 (one 9) (Some (mkMask 1 1 1 1 (lmem [0]))) (SameType false)],
         (mkTile 0 0 (one 7) None (SameType false)).
  split; [wf|]. split.
  { constructor; [|constructor; [|constructor]].
    - split; [wf|]. split; [discriminate|split; reflexivity].
    - split; [wf|]. split; [intros mk [= <-]; wf|split; reflexivity]. }
  eexists _, _. split; [intros f Hf; destruct f as [|f]; [lia|]; reflexivity|].
  split; [reflexivity|split; vm_compute; reflexivity].
Qed.

Lemma ex_c16 :
  bmp_wf ex_dst /\ Forall (tile_wf ex_dst) ex_tiles /\
  topmost_rect ex_tiles (101, 200) = Some ex_t2 /\ shows ex_t2 (101, 200) = true.
Proof.
  split; [exact ex_dst_wf|]. split; [exact (Forall_cons _ ex_t1_wf (Forall_cons _ ex_t2_wf (Forall_nil _)))|].
  split; vm_compute; reflexivity.
Qed.

Lemma c19_witness :
  exists conv src dst mk, bmp_wf src /\ bmp_wf dst /\ mask_wf mk /\ kind_wf src dst (Convert conv) /\
    (forall x, 0 <= x < 8 -> mask_pixel mk x 0 = true) /\
    exists d', copy_with_offset_and_mask (Convert conv) src dst mk 0 0 = Ok d' /\
      pix d' 1 0 = [0; 0] /\ conv (pix src 1 0) = [5; 0].
Proof.
  exists (fun v => [nth 0 v 0; 0]), (mkBmp 2 1 2 1 2 (lmem [4; 5])), (mkBmp 2 1 4 2 4 (fun _ => 0)),
         (mkMask 2 1 1 1 (lmem [255])).
  split; [wf|]. split; [wf|]. split; [wf|]. split; [intros v _; reflexivity|].
  split. { intros x Hx. assert (x = 0 \/ x = 1 \/ x = 2 \/ x = 3 \/ x = 4 \/ x = 5 \/ x = 6 \/ x = 7) as H by lia.
           repeat (destruct H as [->|H]; [reflexivity|]); subst; reflexivity. }
  eexists. split; [reflexivity|]. split; vm_compute; reflexivity.
Qed.

Lemma ex_c19 : bmp_wf ex_src /\ bmp_wf ex_dst /\ mask_wf ex_mask /\ bbpp ex_src = bbpp ex_dst.
Proof. auto using ex_src_wf, ex_dst_wf, ex_mask_wf. Qed.

Definition sq4 := mkBmp 4 3 4 1 12 (lmem [1;2;3;4;5;6;7;8;9;10;11;12]).

Lemma c51_witness :
  (exists src dst d', bmp_wf src /\ bmp_wf dst /\ copy_with_offset (SameType true) src dst 0 0 = Ok d' /\
     0 < 2 < bw src - 1 /\ 0 < 1 < bh src - 1 /\ pix d' 2 1 = pix src 1 1 /\ pix src 1 1 <> pix src 2 1) /\
  (exists src dst, bmp_wf src /\ bmp_wf dst /\ bw src = 1 /\ copy_with_offset (SameType true) src dst 0 0 = UB).
Proof.
  split.
  - exists sq4, (bwith sq4 (fun _ => 99)). eexists. split; [wf|]. split; [wf|]. split; [reflexivity|].
    split; [cbn; lia|]. split; [cbn; lia|]. split; [vm_compute; reflexivity|vm_compute; discriminate].
  - exists (mkBmp 1 3 1 1 3 (fun _ => 5)), (mkBmp 4 3 4 1 12 (fun _ => 0)).
    split; [wf|]. split; [wf|]. split; reflexivity.
Qed.

Lemma ex_c51 : region_ok (mkRegion 20 5 5 1) 4 3 /\ region_ok (mkRegion 16 0 4 1) 4 3.
Proof. split; repeat split; cbn; lia. Qed.

