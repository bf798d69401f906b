(** JPEG XR: a coding which loses nothing, bitmaps, and where the expectations fail. *)
From Verif Require Import Base RectModel CopyModel HiLoModel HiLoProofs PixelModel.
From Coq Require Import Floats.SpecFloat String.
From Verif Require Import TextModel JxrModel JxrSpec JxrNum JxrProofs.
Open Scope Z_scope.

(** ** a coding which keeps everything *)
Definition fmt_no (f : jfmt) : Z := match f with FBgr24 => 1 | FBgr48 => 2 | FGray8 => 3 | FGray16 => 4 | FGray32 => 5 end.
Definition no_fmt (n : Z) : jfmt := if n =? 1 then FBgr24 else if n =? 2 then FBgr48 else if n =? 3 then FGray8 else if n =? 4 then FGray16 else FGray32.
Fixpoint groups (n : nat) (fuel : nat) (l : list Z) : list (list Z) :=
  match fuel with O => [] | S g => match l with [] => [] | _ => firstn n l :: groups n g (skipn n l) end end.
Definition keeper : codec :=
  mkCodec (fun _ f w h px => Some (fmt_no f :: w :: h :: List.concat px))
          (fun d => match d with n :: w :: h :: l => let f := no_fmt n in Some (f, w, h, groups (comps_of f) (List.length l) l) | _ => None end).
Lemma groups_concat n px : (0 < n)%nat -> Forall (fun p => List.length p = n) px -> forall fuel, (List.length px <= fuel)%nat -> groups n fuel (List.concat px) = px.
Proof.
  intros N H. induction H as [|p px Hp H IH]; intros fuel L; [destruct fuel; reflexivity|]. destruct fuel as [|fuel]; cbn [List.length] in L; [lia|].
  cbn [List.concat groups]. destruct p as [|p0 p]; [cbn [List.length] in Hp; lia|]. cbn [app].
  change (p0 :: p ++ List.concat px) with ((p0 :: p) ++ List.concat px). rewrite <- Hp.
  rewrite firstn_app, Nat.sub_diag, firstn_all, skipn_app, Nat.sub_diag, skipn_all. cbn [firstn skipn app]. rewrite app_nil_r. f_equal.
  rewrite Hp. apply IH. lia.
Qed.
Lemma keeper_fails : never_fails keeper. Proof. intros s f w h px. discriminate. Qed.
Lemma keeper_keeps : lossless_codec keeper.
Proof.
  intros f w h px d _ _ _ F E. cbn [keeper k_enc] in E. assert (D : d = fmt_no f :: w :: h :: List.concat px) by congruence. subst d. split; [discriminate|].
  cbn [keeper k_dec]. assert (T : no_fmt (fmt_no f) = f) by (destruct f; reflexivity). rewrite T. do 2 f_equal. apply groups_concat.
  - destruct f; cbn [comps_of]; lia.
  - eapply Forall_impl; [|exact F]. intros p (L & _). exact L.
  - clear E T. induction F as [|p px (L & _) F IH]; [reflexivity|]. cbn [List.concat List.length]. rewrite app_length, L. apply (Nat.add_le_mono 1 (comps_of f)); [destruct f; cbn [comps_of]; lia|exact IH].
Qed.

(** ** bitmaps *)
Definition mem_of (l : bytes) : mem := fun a => if 0 <=? a then nth (Z.to_nat a) l 0 else 0.
Lemma mem_of_byte l : Forall is_byte l -> byte_mem (mem_of l).
Proof. intros B a. unfold mem_of. destruct (0 <=? a); [now apply nth_byte|unfold is_byte; lia]. Qed.
Definition site (t : px) (w h : Z) : bmp := mkBmp w h (w * bpp_of t) (bpp_of t) (w * bpp_of t * h) (fun _ => 7).
Lemma site_good : good_site site.
Proof.
  intros t w h W H. cbv zeta. cbn [site bw bh bbpp bdata]. assert (B : 0 < bpp_of t) by (destruct t; cbn [bpp_of]; lia).
  split; [|repeat split; unfold is_byte; lia]. unfold bmp_wf. cbn [site bw bh bbpp bstride bsize]. repeat split; nia.
Qed.
(** two pixels of Bgr48 in two rows with a gap between the rows *)
Definition e_48 : bmp := mkBmp 1 2 8 6 14 (mem_of [1; 2; 3; 4; 5; 6; 99; 99; 11; 12; 13; 14; 15; 255]).
Lemma e_48_ok : picture Bgr48 e_48 /\ fits e_48.
Proof.
  split; [|unfold fits; cbn [e_48 bw bh]; lia]. split; [unfold bmp_wf; cbn [e_48 bw bh bbpp bstride bsize]; lia|]. split; [reflexivity|].
  split; [apply mem_of_byte; repeat (constructor; [unfold is_byte; lia|]); constructor|]. cbn [e_48 bw bh bstride]. lia.
Qed.
Lemma e_48_back : exists d r, jxr_compress keeper site Bgr48 e_48 None = Ok d /\ nth 3 d 0 = 1541 /\ jxr_decode keeper site d (Some Bgr48) (Some 1) (Some 2) = Ok (Bgr48, r) /\
  pix r 0 0 = [1; 2; 3; 4; 5; 6] /\ pix r 0 1 = [11; 12; 13; 14; 15; 255].
Proof. do 2 eexists. split; [vm_compute; reflexivity|]. split; [reflexivity|]. split; [cbv; reflexivity|]. split; reflexivity. Qed.
(** three floats: 0.1, the largest number, minus zero *)
Definition e_f : bmp := mkBmp 4 1 16 4 16 (mem_of [205; 204; 204; 61; 255; 255; 127; 127; 0; 0; 0; 128; 0; 0; 128; 70]).
Lemma e_f_ok : picture Gray32F e_f /\ fits e_f.
Proof.
  split; [|unfold fits; cbn [e_f bw bh]; lia]. split; [unfold bmp_wf; cbn [e_f bw bh bbpp bstride bsize]; lia|]. split; [reflexivity|].
  split; [apply mem_of_byte; repeat (constructor; [unfold is_byte; lia|]); constructor|]. cbn [e_f bw bh bstride]. lia.
Qed.
Lemma e_f_back k : never_fails k -> lossless_codec k -> exists d r, jxr_compress k site Gray32F e_f (Some (PUint32 1000)) = Ok d /\
  jxr_decode k site d (Some Gray32F) (Some 4) (Some 1) = Ok (Gray32F, r) /\
  pix e_f 0 0 = [205; 204; 204; 61] /\ pix r 0 0 = [0; 204; 204; 61] /\
  pix e_f 1 0 = [255; 255; 127; 127] /\ pix r 1 0 = [0; 0; 128; 127] /\
  pix e_f 2 0 = [0; 0; 0; 128] /\ pix r 2 0 = [0; 0; 0; 0] /\ pix e_f 3 0 = [0; 0; 128; 70] /\ pix r 3 0 = [0; 0; 128; 70].
Proof.
  intros NF LC. destruct e_f_ok as [P F].
  destruct (there_and_back k site Gray32F FGray32 e_f (Some (PUint32 1000)) site_good P F ltac:(cbn [param_ok]; lia) eq_refl ltac:(unfold best; cbn [asked]; lia) NF LC) as (d & r & E1 & E2 & _ & _ & _ & _ & Px).
  exists d, r. split; [exact E1|]. split; [exact E2|]. cbn [e_f bw bh] in Px.
  rewrite !Px by lia. repeat split; vm_compute; reflexivity.
Qed.

Lemma not_tiny_shown : not_tiny (unle (pix e_f 0 0)) /\ shortened (unle (pix e_f 0 0)) = 1036831744 /\ not_tiny (unle (pix e_f 3 0)) /\ shortened (unle (pix e_f 3 0)) = unle (pix e_f 3 0).
Proof. vm_compute. repeat split; discriminate || reflexivity. Qed.

(** ** 500 is coarser than 499 *)
Definition e_8 : bmp := mkBmp 1 1 1 1 1 (mem_of [77]).
Lemma e_8_ok : picture Gray8 e_8 /\ fits e_8.
Proof.
  split; [|unfold fits; cbn [e_8 bw bh]; lia]. split; [unfold bmp_wf; cbn [e_8 bw bh bbpp bstride bsize]; lia|]. split; [reflexivity|].
  split; [apply mem_of_byte; repeat (constructor; [unfold is_byte; lia|]); constructor|]. cbn [e_8 bw bh bstride]. lia.
Qed.
Lemma e_8_told : jxr_compress teller site Gray8 e_8 (Some (PUint32 499)) = Ok [37; 37; 42; 38; 38; 43] /\
  jxr_compress teller site Gray8 e_8 (Some (PUint32 500)) = Ok [40; 56; 62; 42; 59; 66] /\
  jxr_compress teller site Gray8 e_8 (Some (PUint32 800)) = Ok [20; 36; 42; 20; 38; 44].
Proof. vm_compute. auto. Qed.
Lemma jump mk t b : good_site mk -> picture t b -> fits b -> t = Gray8 \/ t = Bgr24 ->
  exists v u, jxr_compress teller mk t b (Some (PUint32 499)) = Ok v /\ jxr_compress teller mk t b (Some (PUint32 500)) = Ok u /\ Forall2 Z.lt v u.
Proof.
  intros G P F D. assert (E : exists f, fmt_of t = Some f /\ is8 f = true) by (destruct D as [-> | ->]; eexists; split; reflexivity). destruct E as (f & Ef & E8).
  destruct (teller_eq mk t f b (Some (PUint32 499)) G P F ltac:(cbn [param_ok]; lia) Ef) as (s & (_ & SL) & E1). { intros (-> & _). destruct D as [D|D]; discriminate D. }
  destruct (teller_eq mk t f b (Some (PUint32 500)) G P F ltac:(cbn [param_ok]; lia) Ef) as (s' & (_ & SL') & E2). { intros (-> & _). destruct D as [D|D]; discriminate D. }
  destruct (SL 499 eq_refl ltac:(lia)) as (v & Ev & ->). destruct (SL' 500 eq_refl ltac:(lia)) as (u & Eu & ->). cbn [j_qp] in E1, E2.
  exists v, u. split; [exact E1|]. split; [exact E2|].
  assert (Q : qp_of (qn 499) f = Ok [37; 37; 42; 38; 38; 43] /\ qp_of (qn 500) f = Ok [40; 56; 62; 42; 59; 66]).
  { destruct f; try discriminate E8; split; vm_compute; reflexivity. }
  destruct Q as [Q1 Q2]. assert (v = [37; 37; 42; 38; 38; 43]) by congruence. assert (u = [40; 56; 62; 42; 59; 66]) by congruence. subst. repeat (constructor; [lia|]). constructor.
Qed.

(** ** the text of an error *)
Lemma error_code_told message code name :
  let told := txt " - ERR=" ++ code ++ match name with Some n => txt " (" ++ n ++ txt ")" | None => [] end in
  firstn (List.length told) (jxr_error_text message code name) = told.
Proof. cbv zeta. unfold jxr_error_text, put_at_start. rewrite firstn_app, Nat.sub_diag, firstn_all. cbn [firstn]. apply app_nil_r. Qed.
Lemma error_message_lost : jxr_error_text (txt "'PKImageEncode::WritePixels' failed") (txt "-1") (Some (txt "WMP_errFail")) = txt " - ERR=-1 (WMP_errFail)xels' failed" /\
  jxr_error_text (txt "decoder::Copy failed") (txt "-1") (Some (txt "WMP_errFail")) = txt " - ERR=-1 (WMP_errFail)".
Proof. vm_compute. auto. Qed.
