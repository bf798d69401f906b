From Verif Require Import Base RectModel CopyModel MemProofs CopyProofs HiLoModel HiLoProofs PixelModel PixelSpec FloatProofs PixelProofs FillProofs PixLoopProofs.
From Coq Require Import QArith Floats.SpecFloat.
Open Scope Z_scope.

Definition ex_src : bmp := mkBmp 2 1 6 3 6 (fun a => nth (Z.to_nat a) [10; 20; 31; 255; 254; 1] 0).
Definition ex_dst (bpp : Z) : bmp := mkBmp 3 2 24 bpp 48 (fun _ => 7).
Lemma ex_src_wf : bmp_wf ex_src.
Proof. unfold bmp_wf, ex_src; cbn. lia. Qed.
Lemma ex_dst_wf : bmp_wf (ex_dst 1).
Proof. unfold bmp_wf, ex_dst; cbn. lia. Qed.
Lemma ex_src_bytes : byte_mem (bdata ex_src).
Proof. intros a. unfold ex_src, is_byte; cbn [bdata]. destruct (Z.to_nat a) as [|[|[|[|[|[|n]]]]]]; cbn; try lia. destruct n; lia. Qed.
Lemma ex_convert : exists d, copy_px_offset Bgr24 Gray8 false ex_src (ex_dst 1) 1 0 = Ok d /\
  map (fun x => pix d x 0) [0; 1; 2] = [[7]; [20]; [170]] /\ map (fun x => pix d x 1) [0; 1; 2] = [[7]; [7]; [7]].
Proof. eexists. split; [vm_compute; reflexivity|]. split; vm_compute; reflexivity. Qed.
(** 20.333.. and 170 as floats *)
Lemma ex_convert_float : exists d, copy_px_offset Bgr24 Gray32F false ex_src (ex_dst 4) (-1) 0 = Ok d /\
  pix d 0 0 = bf32 (f32_of_Z 170) /\ pix d 1 0 = [7; 7; 7; 7].
Proof. eexists. split; [vm_compute; reflexivity|]. split; vm_compute; reflexivity. Qed.

(** Bgr24 to Bgr48: reads behind the end of the buffer; wrong values where there is room *)
Lemma bgr24_bgr48_ub : exists src dst, bmp_wf src /\ bmp_wf dst /\ bbpp src = bpp_of Bgr24 /\ bbpp dst = bpp_of Bgr48 /\ byte_mem (bdata src) /\
  copy_px_offset Bgr24 Bgr48 false src dst 0 0 = UB.
Proof.
  exists ex_src, (ex_dst 6). split; [exact ex_src_wf|]. split; [unfold bmp_wf, ex_dst; cbn; lia|]. split; [reflexivity|]. split; [reflexivity|].
  split; [exact ex_src_bytes|]. vm_compute. reflexivity.
Qed.
Lemma bgr24_bgr48_wrong : exists src dst d, bmp_wf src /\ bmp_wf dst /\ bbpp src = bpp_of Bgr24 /\ bbpp dst = bpp_of Bgr48 /\ byte_mem (bdata src) /\
  copy_px_offset Bgr24 Bgr48 false src dst 0 0 = Ok d /\
  comps Bgr24 (pix src 0 0) = [10; 20; 31] /\ comps Bgr48 (pix d 0 0) = [5130; 65311; 510].
Proof.
  exists (mkBmp 1 1 6 3 6 (bdata ex_src)), (ex_dst 6). eexists. split; [unfold bmp_wf; cbn; lia|]. split; [unfold bmp_wf, ex_dst; cbn; lia|]. split; [reflexivity|]. split; [reflexivity|].
  split; [exact ex_src_bytes|]. split; [vm_compute; reflexivity|]. split; vm_compute; reflexivity.
Qed.

(** filling: red 1, green 0.5, blue 0 *)
Definition ex_color : rgbf := mkRgbf (f32_of_Z 1) f_half (f32_of_Z 0).
Lemma ex_color_ok : unit_color ex_color.
Proof. unfold unit_color, ex_color; cbn [c_r c_g c_b]. repeat split; vm_compute; reflexivity || discriminate. Qed.
Lemma ex_fill : exists d, fill_px Bgr24 ex_color (ex_dst 3) = Ok d /\ pix d 2 1 = [0; 128; 255] /\ bdata d 9 = 7.
Proof. eexists. split; [vm_compute; reflexivity|]. split; vm_compute; reflexivity. Qed.
Lemma ex_fill_gray : exists d, fill_px Gray16 ex_color (ex_dst 2) = Ok d /\ comps Gray16 (pix d 1 1) = [32768].
Proof. eexists. split; [vm_compute; reflexivity|]. vm_compute; reflexivity. Qed.

Definition ex_rgb : bmp := mkBmp 1 1 6 6 6 (bdata ex_src).
Lemma ex_rgb_ok : bmp_wf ex_rgb /\ bbpp ex_rgb = 6 /\ byte_mem (bdata ex_rgb).
Proof. split; [unfold bmp_wf, ex_rgb; cbn; lia|]. split; [reflexivity|exact ex_src_bytes]. Qed.
Lemma ex_swap : exists d, rgb48_to_bgr48 ex_rgb = Ok d /\ pix d 0 0 = [254; 1; 31; 255; 10; 20].
Proof. eexists. split; vm_compute; reflexivity. Qed.
