(** Display settings and composition: concrete cases. *)
From Coq Require Import QArith Qabs Lqa Floats.SpecFloat.
From Verif Require Import Base RectModel CopyModel CopyProofs HiLoProofs PixelModel PixelSpec FloatProofs CompositorModel CompositorSpec
  CompositorExamples LutModel LutSpec LutExamples DispModel ShowModel ShowSpec ShowProofs.
Open Scope Z_scope.

Definition new_bmp (w h : Z) : bmp := mkBmp w h (w * 3) 3 (w * 3 * h) (fun _ => 9).
Lemma new_bmp_ok : makes_bitmaps new_bmp.
Proof. intros w h Hw Hh. unfold bmp_wf, new_bmp. cbn [bw bh bstride bbpp bsize]. split; [|split; [|split]; reflexivity]. split; [lia|]. split; [lia|]. split; [lia|]. split; nia. Qed.

(** two bitmaps of two pixels: Gray8, Gray16, Gray8 *)
Definition e_types (c : Z) : px := if c =? 1 then Gray16 else Gray8.
Definition e_srcs (c : Z) : bmp := if c =? 1 then cbmp 2 2 [0; 128; 10; 20] else cbmp 2 1 [100; 255].
Definition e_bits (c : Z) : bool := is_16 (e_types c).
Lemma e_bits_ok : forall c, e_bits c = is_16 (e_types c).
Proof. reflexivity. Qed.
Definition no_splines : list (f32 * f32) -> list spline := fun _ => [].
(** red with weight 1, grey between a quarter and three quarters with weight 3, and a disabled channel *)
Definition e_red := mkS true f1 (Some (255, 0, 0)) (f32_of_Z 0) f1 Linear.
Definition e_bw := mkS true (f32_of_Z 3) None f_quarter f_3quarter Linear.
Definition e_off := mkS false f1 (Some (0, 255, 0)) (f32_of_Z 0) f1 Linear.
Definition e_gamma := mkS true f1 (Some (0, 255, 0)) (f32_of_Z 0) f1 (Gamma f1).
Definition e_ds : settings := [(0, e_red); (1, e_bw); (2, e_off)].
Definition e_all : settings := [(0, e_gamma); (1, e_bw)].

Lemma unit_of (x : f32) : nn 24 128 x -> (sfQ x <= 1)%Q -> unit_float x.
Proof. now split. Qed.
Lemma e_src_ok c : bmp_wf (e_srcs c) /\ byte_mem (bdata (e_srcs c)) /\ bw (e_srcs c) = 2 /\ bh (e_srcs c) = 1 /\ bbpp (e_srcs c) = bpp_of (e_types c) /\ e_types c <> Gray32F /\ e_types c <> Bgra32.
Proof.
  unfold e_srcs, e_types. destruct (c =? 1).
  - split; [unfold bmp_wf, cbmp; cbn; lia|]. split; [now apply list_bytes|]. repeat split; discriminate.
  - split; [unfold bmp_wf, cbmp; cbn; lia|]. split; [now apply list_bytes|]. repeat split; discriminate.
Qed.
Lemma show_linear c s : s_curve s = Linear -> (match s_tint s with Some c => byte_color c | None => True end) ->
  unit_float (s_black s) -> unit_float (s_white s) -> fle (s_black s) (s_white s) -> showable pw_linear no_splines 2 1 e_types e_srcs (c, s).
Proof.
  intros L T B W F. destruct (e_src_ok c) as (A1 & A2 & A3 & A4 & A5 & A6 & A7). unfold showable. repeat (split; [assumption|]). now left.
Qed.
Lemma e_red_ok c : showable pw_linear no_splines 2 1 e_types e_srcs (c, e_red).
Proof. apply show_linear; [reflexivity|cbn; lia|split; [split; reflexivity|discriminate]|split; [split; reflexivity|discriminate]|discriminate]. Qed.
Lemma e_bw_ok c : showable pw_linear no_splines 2 1 e_types e_srcs (c, e_bw).
Proof. apply show_linear; [reflexivity|exact Logic.I|split; [split; reflexivity|discriminate]|split; [split; reflexivity|discriminate]|discriminate]. Qed.
Lemma e_off_ok c : showable pw_linear no_splines 2 1 e_types e_srcs (c, e_off).
Proof. apply show_linear; [reflexivity|cbn; lia|split; [split; reflexivity|discriminate]|split; [split; reflexivity|discriminate]|discriminate]. Qed.
Lemma e_gamma_ok : showable pw_linear no_splines 2 1 e_types e_srcs (0, e_gamma).
Proof.
  destruct (e_src_ok 0) as (A1 & A2 & A3 & A4 & A5 & A6 & A7). unfold showable. do 7 (split; [assumption|]). split; [cbn; lia|].
  split; [split; [split; reflexivity|discriminate]|]. split; [split; [split; reflexivity|discriminate]|]. split; [discriminate|]. right.
  eexists. unfold curve_table, e_gamma. cbn [s_curve s_black s_white]. vm_compute. reflexivity.
Qed.
Lemma e_ds_ok : Forall (showable pw_linear no_splines 2 1 e_types e_srcs) e_ds.
Proof. repeat apply Forall_cons; [apply e_red_ok|apply e_bw_ok|apply e_off_ok|apply Forall_nil]. Qed.
Lemma e_all_ok : Forall (showable pw_linear no_splines 2 1 e_types e_srcs) e_all.
Proof. repeat apply Forall_cons; [apply e_gamma_ok|apply e_bw_ok|apply Forall_nil]. Qed.
Lemma e_weight w : In w [f1; f32_of_Z 3] -> weight_ok w.
Proof. intros [<-|[<-|[]]]; (split; [split; reflexivity|right; split; vm_compute; discriminate]). Qed.
Lemma e_enabled : enabled e_ds = [(0, e_red); (1, e_bw)].
Proof. reflexivity. Qed.
Lemma e_weights : setting_weights_ok (enabled e_ds).
Proof.
  rewrite e_enabled. split; [cbn; lia|]. split; [repeat apply Forall_cons; [apply e_weight; now left|apply e_weight; right; now left|apply Forall_nil]|vm_compute; discriminate].
Qed.
Lemma e_shown : Forall (showable pw_linear no_splines 2 1 e_types e_srcs) (enabled e_ds).
Proof. rewrite e_enabled. repeat apply Forall_cons; [apply e_red_ok|apply e_bw_ok|apply Forall_nil]. Qed.
(** mean 2 with the helper: red 100/2, grey 128*3/2; mean 4/3 with the C API: red 100*3/4, grey 128*9/4 *)
Lemma e_pictures :
  (exists d, show_helper pw_linear no_splines new_bmp e_types e_srcs e_ds = Ok d /\ pix d 0 0 = [192; 192; 242]) /\
  (exists d, show_capi pw_linear no_splines new_bmp e_bits e_types e_srcs e_ds = Ok d /\ pix d 0 0 = [255; 255; 255] /\ pix d 1 0 = [0; 0; 191]).
Proof. split; eexists; (split; [vm_compute; reflexivity|]); try split; vm_compute; reflexivity. Qed.
Lemma e_mean : (b2 (-10) <= setting_mean (enabled e_ds) * (inject_Z (Z.of_nat (length (enabled e_ds))) / inject_Z (Z.of_nat (length e_ds))))%Q.
Proof. vm_compute. discriminate. Qed.
Lemma e_gamma_same : exists d, show_helper pw_linear no_splines new_bmp e_types e_srcs e_all = Ok d /\
  show_capi pw_linear no_splines new_bmp e_bits e_types e_srcs e_all = Ok d /\ pix d 0 0 = [192; 242; 192].
Proof. eexists. split; [vm_compute; reflexivity|]. split; vm_compute; reflexivity. Qed.

(** ** findings *)
Definition plain (on : bool) := mkS on f1 None (f32_of_Z 0) f1 Linear.
Lemma plain_ok c on : showable pw_linear no_splines 2 1 e_types e_srcs (c, plain on).
Proof. apply show_linear; [reflexivity|exact Logic.I|split; [split; reflexivity|discriminate]|split; [split; reflexivity|discriminate]|discriminate]. Qed.
(** switching off another channel doubles the brightness with the C API *)
Lemma disabled_brightens : exists types srcs bits ds d d',
  Forall (showable pw_linear no_splines 2 1 types srcs) ds /\ (forall c, bits c = is_16 (types c)) /\ enabled ds <> [] /\
  show_helper pw_linear no_splines new_bmp types srcs ds = Ok d /\ show_capi pw_linear no_splines new_bmp bits types srcs ds = Ok d' /\
  pix d 0 0 = [100; 100; 100] /\ pix d' 0 0 = [200; 200; 200].
Proof.
  exists e_types, e_srcs, e_bits, [(0, plain true); (2, plain false)]. eexists. eexists.
  split; [repeat apply Forall_cons; [apply plain_ok|apply plain_ok|apply Forall_nil]|]. split; [reflexivity|]. split; [discriminate|].
  split; [vm_compute; reflexivity|]. split; [vm_compute; reflexivity|]. split; vm_compute; reflexivity.
Qed.
(** with all channels switched off the C API composes a white picture; the helper hands an empty list to the compositor, which reads its first element *)
Lemma all_disabled : exists types srcs bits ds d,
  Forall (showable pw_linear no_splines 2 1 types srcs) ds /\ (forall c, bits c = is_16 (types c)) /\ ds <> [] /\ enabled ds = [] /\
  show_helper pw_linear no_splines new_bmp types srcs ds = UB /\ show_capi pw_linear no_splines new_bmp bits types srcs ds = Ok d /\
  pix (srcs 0) 0 0 = [100] /\ pix d 0 0 = [255; 255; 255].
Proof.
  exists e_types, e_srcs, e_bits, [(0, plain false)]. eexists.
  split; [repeat apply Forall_cons; [apply plain_ok|apply Forall_nil]|]. split; [reflexivity|]. split; [discriminate|]. split; [reflexivity|].
  split; [reflexivity|]. split; [vm_compute; reflexivity|]. split; vm_compute; reflexivity.
Qed.
