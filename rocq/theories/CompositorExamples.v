From Verif Require Import Base RectModel CopyModel MemProofs CopyProofs HiLoModel HiLoProofs PixelModel PixelSpec FloatProofs FillProofs CompositorModel CompositorSpec CompositorProofs WeightProofs.
From Coq Require Import QArith Qabs Floats.SpecFloat Permutation.
Open Scope Z_scope.

Definition cbmp (w bpp : Z) (l : list Z) : bmp := mkBmp w 1 (w * bpp) bpp (w * bpp) (fun a => nth (Z.to_nat a) l 0).
Definition f1 : f32 := f32_of_Z 1.
(** Gray8 tinted red, Gray16 with black point 0.25 and white point 0.75, Bgr24 with a look-up table that inverts *)
Definition ch_red (w : f32) : chan := mkChan (cbmp 2 1 [100; 255]) Gray8 w (Some (0, 0, 255)) (f32_of_Z 0) f1 0 true (fun _ => 0) 0.
Definition f_quarter : f32 := S754_finite false 8388608 (-25).
Definition f_3quarter : f32 := S754_finite false 12582912 (-24).
Definition ch_bw (w : f32) : chan := mkChan (cbmp 2 2 [0; 128; 10; 20]) Gray16 w None f_quarter f_3quarter 0 true (fun _ => 0) 0.
Definition ch_lut (w : f32) : chan := mkChan (cbmp 2 3 [0; 100; 200; 255; 1; 2]) Bgr24 w None (f32_of_Z 0) f1 256 false (fun a => (255 - a) mod 256) 256.
Definition cdst : bmp := mkBmp 2 1 8 4 8 (fun _ => 9).

Lemma list_bytes l : forallb (fun b => (0 <=? b) && (b <? 256)) l = true -> byte_mem (fun a => nth (Z.to_nat a) l 0).
Proof.
  intros H a. unfold is_byte. destruct (Nat.lt_ge_cases (Z.to_nat a) (length l)) as [L|L]; [|rewrite nth_overflow by exact L; lia].
  rewrite forallb_forall in H. specialize (H _ (nth_In l 0 L)). lia.
Qed.
Lemma ch_red_ok w : chan_ok cdst (ch_red w).
Proof.
  unfold chan_ok, ch_red, cbmp, bmp_wf. cbn [h_src h_px h_tint h_lutn h_lutnull h_lut h_lutsize h_black h_white bw bh bstride bbpp bsize bdata cdst byte_color bpp_of].
  split; [lia|]. split; [now apply list_bytes|]. split; [reflexivity|]. split; [reflexivity|]. split; [reflexivity|]. split; [discriminate|]. split; [lia|].
  split; [lia|]. intros _ H. vm_compute in H. discriminate H.
Qed.
Lemma ch_bw_ok w : chan_ok cdst (ch_bw w).
Proof.
  unfold chan_ok, ch_bw, cbmp, bmp_wf. cbn [h_src h_px h_tint h_lutn h_lutnull h_lut h_lutsize h_black h_white bw bh bstride bbpp bsize bdata cdst byte_color bpp_of].
  split; [lia|]. split; [now apply list_bytes|]. split; [reflexivity|]. split; [reflexivity|]. split; [reflexivity|]. split; [discriminate|]. split; [exact I|].
  split; [lia|]. intros _ _. split; [discriminate|]. unfold point_ok, nn. repeat split; try reflexivity; vm_compute; discriminate.
Qed.
Lemma ch_lut_ok w : chan_ok cdst (ch_lut w).
Proof.
  unfold chan_ok, ch_lut, cbmp, bmp_wf. cbn [h_src h_px h_tint h_lutn h_lutnull h_lut h_lutsize h_black h_white bw bh bstride bbpp bsize bdata cdst byte_color bpp_of maxval].
  split; [lia|]. split; [now apply list_bytes|]. split; [reflexivity|]. split; [reflexivity|]. split; [reflexivity|]. split; [discriminate|]. split; [exact I|].
  split; [|lia]. intros _. split; [discriminate|]. split; [reflexivity|]. split; [reflexivity|]. split; [lia|]. intros a. unfold is_byte. lia.
Qed.

Definition ex_chs := [ch_red f1; ch_bw f1; ch_lut f1].
Lemma ex_args : compose_args cdst Bgra32 (Some 77) ex_chs /\ unweighted ex_chs.
Proof.
  split.
  - split; [unfold bmp_wf, cdst; cbn; lia|]. split; [discriminate|]. split; [|repeat split; lia].
    intros ch [<-|[<-|[<-|[]]]]; [apply ch_red_ok|apply ch_bw_ok|apply ch_lut_ok].
  - right; right. split; [reflexivity|]. now intros ch [<-|[<-|[<-|[]]]].
Qed.
(** pixel 0: red 100, grey 0x8000 -> 128, table (255, 155, 55); pixel 1: red 255, grey 0x140a -> 0, table (0, 254, 253) *)
Lemma ex_composed : exists d, compose_multi cdst Bgra32 (Some 77) ex_chs = Ok d /\ pix d 0 0 = [255; 255; 255; 77] /\ pix d 1 0 = [0; 254; 255; 77].
Proof. eexists. split; [vm_compute; reflexivity|]. split; vm_compute; reflexivity. Qed.
Lemma ex_composed_bw : exists d, compose_multi cdst Bgra32 (Some 77) [ch_bw f1] = Ok d /\ pix d 0 0 = [128; 128; 128; 77] /\ pix d 1 0 = [0; 0; 0; 77].
Proof. eexists. split; [vm_compute; reflexivity|]. split; vm_compute; reflexivity. Qed.

(** weights 1 and 3: mean 2; red 100 * 0.5, grey 128 * 1.5 *)
Definition ex_wchs := [ch_red f1; ch_bw (f32_of_Z 3)].
Lemma ex_weights : compose_args cdst Bgra32 (Some 77) ex_wchs /\ weights_ok ex_wchs /\ (mean_weight ex_wchs == 2)%Q.
Proof.
  split; [|split].
  - split; [unfold bmp_wf, cdst; cbn; lia|]. split; [discriminate|]. split; [|repeat split; lia].
    intros ch [<-|[<-|[]]]; [apply ch_red_ok|apply ch_bw_ok].
  - split; [cbn; lia|]. split; [|vm_compute; discriminate].
    intros ch [<-|[<-|[]]]; (split; [split; reflexivity|right; split; vm_compute; discriminate]).
  - vm_compute. reflexivity.
Qed.
Lemma ex_weighted : exists d, compose_multi cdst Bgra32 (Some 77) ex_wchs = Ok d /\ pix d 0 0 = [192; 192; 242; 77].
Proof. eexists. split; [vm_compute; reflexivity|]. vm_compute; reflexivity. Qed.
(** equal weights of 1/10 (not exactly representable) *)
Definition f_tenth : f32 := S754_finite false 13421773 (-27).
Lemma ex_equal : weights_ok [ch_red f_tenth; ch_bw f_tenth; ch_lut f_tenth].
Proof.
  split; [cbn; lia|]. split; [|vm_compute; discriminate].
  intros ch [<-|[<-|[<-|[]]]]; (split; [split; reflexivity|right; split; vm_compute; discriminate]).
Qed.

(** a black point below 0 with a white point below 1: out of range conversion *)
Lemma bw_out_of_range : exists dst ch, bmp_wf dst /\ bmp_wf (h_src ch) /\ sf_fin (h_black ch) = true /\ sf_fin (h_white ch) = true /\ compose_multi dst Bgr24 None [ch] = UB.
Proof.
  exists (mkBmp 2 1 6 3 6 (fun _ => 9)), (mkChan (cbmp 2 1 [100; 255]) Gray8 f1 None (S754_finite true 8388608 (-25)) f_3quarter 0 true (fun _ => 0) 0).
  split; [unfold bmp_wf; cbn; lia|]. split; [unfold bmp_wf; cbn; lia|]. split; [reflexivity|]. split; [reflexivity|]. vm_compute. reflexivity.
Qed.
(** finite weights whose sum overflows: the result is black *)
Definition f_max : f32 := S754_finite false 16777215 104.
Lemma weights_overflow : exists dst chs d, (forall ch, In ch chs -> usable (h_weight ch) /\ chan_ok dst ch) /\
  compose_multi dst Bgra32 (Some 77) chs = Ok d /\ pix d 1 0 = [0; 0; 0; 77].
Proof.
  exists cdst, [ch_red f_max; ch_red f_max]. eexists. split; [|split; vm_compute; reflexivity].
  intros ch [<-|[<-|[]]]; (split; [reflexivity|apply ch_red_ok]).
Qed.
(** a negative element count of the look-up table passes the checks; the table is not there *)
Lemma lut_negative : exists dst ch, bmp_wf dst /\ bmp_wf (h_src ch) /\ h_lutn ch = -1 /\ compose_multi dst Bgr24 None [ch] = UB.
Proof.
  exists (mkBmp 2 1 6 3 6 (fun _ => 9)), (mkChan (cbmp 2 1 [100; 255]) Gray8 f1 None (f32_of_Z 0) f1 (-1) true (fun _ => 0) 0).
  split; [unfold bmp_wf; cbn; lia|]. split; [unfold bmp_wf; cbn; lia|]. split; [reflexivity|]. vm_compute. reflexivity.
Qed.
