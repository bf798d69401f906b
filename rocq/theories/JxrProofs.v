(** JPEG XR compression and decompression: what is coded, and what comes back. *)
From Verif Require Import Base RectModel RectProofs CopyModel MemProofs CopyProofs HiLoModel HiLoProofs BitonalProofs PixelModel.
From Coq Require Import QArith Floats.SpecFloat.
From Verif Require Import PixelProofs PixLoopProofs JxrModel JxrSpec JxrNum.
Open Scope Z_scope.

Lemma mapr_ok {A B} (g : A -> res B) (h : A -> B) l : (forall x, In x l -> g x = Ok (h x)) -> mapr g l = Ok (map h l).
Proof.
  induction l as [|a l IH]; intros H; cbn [mapr map]; [reflexivity|]. rewrite (H a (or_introl eq_refl)). cbn [bind].
  rewrite IH by (intros x I; apply H; now right). reflexivity.
Qed.

(** ** the pixels which are read *)
Definition grid (b : bmp) : list bytes := map (fun i => pix b (i mod bw b) (i / bw b)) (zseq (Z.to_nat (bw b * bh b))).
Lemma grid_ix w h i : 0 < w -> 0 <= i < w * h -> 0 <= i mod w < w /\ 0 <= i / w < h.
Proof. intros W H. split; [apply Z.mod_pos_bound; lia|]. split; [apply Z.div_pos; lia|]. apply Z.div_lt_upper_bound; lia. Qed.

Lemma reads b f : bmp_wf b -> bbpp b = bpp_fmt f -> 0 < bw b ->
  mapr (fun i => ld (bdata b) (bsize b) (i / bw b * bstride b + i mod bw b * bpp_fmt f) (Z.to_nat (bpp_fmt f))) (zseq (Z.to_nat (bw b * bh b))) = Ok (grid b).
Proof.
  intros Wf Hb W. apply mapr_ok. intros i I. apply in_zseq in I. destruct Wf as (W0 & H0 & B0 & S & Z0).
  rewrite Z2Nat.id in I by nia. destruct (grid_ix (bw b) (bh b) i W I) as [X Y]. rewrite <- Hb. specialize (Z0 ltac:(lia)).
  set (x := i mod bw b) in *. set (y := i / bw b) in *.
  assert (y * bstride b <= (bh b - 1) * bstride b) by nia. assert ((x + 1) * bbpp b <= bw b * bbpp b) by nia.
  rewrite ld_ok; [reflexivity| |]; [nia|]. lia.
Qed.

(** ** the settings *)
Definition settings_for (p : option cparam) (f : jfmt) (w : Z) (s : jset) : Prop :=
  (best p -> s = lossless_set) /\
  (forall n, asked p = Some n -> n < 1000 -> exists v, qp_of (qn n) f = Ok v /\
     s = mkJset (negb ((500 <=? n) || (w <? 2 * 16))) (negb ((500 <=? n) || is16 f)) v).

Lemma settings_ok p f w : param_ok p ->
  SFltb (quality_of p) (f32_of_Z 0) = false /\ SFltb (f32_of_Z 1) (quality_of p) = false /\
  exists s, (if SFltb (quality_of p) (f32_of_Z 1) then apply_quality (quality_of p) f w else Ok lossless_set) = Ok s /\ settings_for p f w s.
Proof.
  intros HP. assert (D : best p \/ exists n, asked p = Some n /\ n < 1000).
  { unfold best. destruct (asked p) as [n|] eqn:E; [|now left]. destruct (Z_lt_le_dec n 1000); [right; eauto|now left]. }
  destruct D as [B|(n & En & Ln)].
  - rewrite (quality_best p HP B). split; [reflexivity|]. split; [reflexivity|]. exists lossless_set. split; [reflexivity|]. split; [reflexivity|].
    intros n En Ln. unfold best in B. rewrite En in B. lia.
  - destruct p as [[m|]|]; cbn [asked] in En; try discriminate. assert (m = n) by congruence. subst m. cbn [param_ok] in HP.
    change (quality_of (Some (PUint32 n))) with (qn n). destruct (range_all n ltac:(lia)) as (A & B & C & E). rewrite A, B, C. split; [reflexivity|]. split; [reflexivity|].
    destruct (qps_all f n ltac:(lia)) as (v & Ev & _). rewrite apply_split, Ev. cbn [bind]. rewrite E. eexists. split; [reflexivity|]. split.
    + unfold best. cbn [asked]. lia.
    + intros k Ek Lk. cbn [asked] in Ek. assert (n = k) by congruence. subst k. exists v. split; [exact Ev|reflexivity].
Qed.

Lemma encode_eq k f b p : bmp_wf b -> bbpp b = bpp_fmt f -> 1 <= bw b < 2 ^ 32 -> 1 <= bh b < 2 ^ 32 -> param_ok p ->
  exists s, settings_for p f (bw b) s /\
    (fits b -> jxr_encode k f (bw b) (bh b) (bstride b) (bdata b) (bsize b) (quality_of p) =
       if validate_args s f (bw b) (bh b) then match k_enc k s f (bw b) (bh b) (map (samples f) (grid b)) with Some d => Ok d | None => Throw end else Throw) /\
    (~ fits b -> jxr_encode k f (bw b) (bh b) (bstride b) (bdata b) (bsize b) (quality_of p) = Throw).
Proof.
  intros Wf Hb W H HP. destruct (settings_ok p f (bw b) HP) as (A & B & s & E & S). exists s. split; [exact S|].
  unfold jxr_encode. rewrite A, B. cbn [orb]. replace (bw b =? 0) with false by lia. replace (bh b =? 0) with false by lia. split.
  - intros ((_ & F1) & _). assert (BP : 1 <= bpp_fmt f <= 6) by (destruct f; cbn [bpp_fmt]; lia).
    assert (U : u32 (bw b * bpp_fmt f) = bw b * bpp_fmt f) by (unfold u32; apply Z.mod_small; nia). rewrite U.
    pose proof Wf as (_ & _ & _ & S0 & _). rewrite Hb in S0. replace (bstride b <? bw b * bpp_fmt f) with false by lia.
    rewrite E. cbn [bind]. destruct (validate_args s f (bw b) (bh b)); [|reflexivity]. rewrite (reads b f Wf Hb ltac:(lia)). reflexivity.
  - intros NF. destruct (bstride b <? u32 (bw b * bpp_fmt f)); [reflexivity|]. rewrite E. cbn [bind]. unfold validate_args.
    replace ((2 ^ 28 <? bw b) || (2 ^ 28 <? bh b) || (bw b =? 0) || (bh b =? 0)) with true; [reflexivity|]. unfold fits in NF. lia.
Qed.

(** ** the temporary bitmap of Bgr48 *)
Lemma swap_ok b : bmp_wf b -> bbpp b = 6 -> (forall x y, 0 <= x < bw b -> 0 <= y < bh b -> Forall is_byte (pix b x y)) ->
  exists d, rgb48_to_bgr48 b = Ok d /\ pix_post b d (fun x y => Some (swap6 (pix b x y))).
Proof.
  intros Hwf Hb B.
  destruct (pix_map_loop b (fun _ _ => Forall is_byte) (fun y x m => swap_rb m (bsize b) (y * bstride b + x * 6)) (fun _ _ => swap6) Hwf) as (m & E & P).
  - exact B.
  - intros x y m Hx Hy Hm. unfold in_pix, pix_off in *. rewrite Hb in *. change (Z.to_nat 6) with 6%nat in *.
    destruct (swap_rb_ok m (bsize b) (y * bstride b + x * 6)) as (m' & E & V1 & V2).
    + intros k Hk. apply (mread_byte m _ 6 k Hm). lia.
    + destruct Hwf as (? & ? & ? & ? & _). nia.
    + destruct Hwf as (? & ? & ? & W & Z). specialize (Z ltac:(lia)). rewrite Hb in *. assert ((y + 1) * bstride b <= bh b * bstride b) by nia. nia.
    + exists m'. split; [exact E|]. split; [exact V1|]. intros a Ha. apply V2. lia.
  - exists (bwith b m). unfold rgb48_to_bgr48. rewrite E. split; [reflexivity|exact P].
Qed.

Lemma prepared mk b : good_site mk -> picture Bgr48 b ->
  exists d, (let* m := copy_same (mkRegion (bsize (mk Bgr48 (bw b) (bh b))) 0 (bstride (mk Bgr48 (bw b) (bh b))) 6) (mkRegion (bsize b) 0 (bstride b) 6)
                              (bw b) (bh b) false (bdata b) (bdata (mk Bgr48 (bw b) (bh b))) in rgb48_to_bgr48 (bwith (mk Bgr48 (bw b) (bh b)) m)) = Ok d /\
    bmp_wf d /\ bbpp d = 6 /\ bw d = bw b /\ bh d = bh b /\ forall x y, 0 <= x < bw b -> 0 <= y < bh b -> pix d x y = swap6 (pix b x y).
Proof.
  intros G (Wf & Hb & By & W & H & St). cbn [bpp_of] in Hb. destruct (G Bgr48 (bw b) (bh b) ltac:(lia) ltac:(lia)) as (Wt & Tw & Th & Tb & _). cbv zeta in *. cbn [bpp_of] in Tb.
  set (t := mk Bgr48 (bw b) (bh b)) in *.
  pose proof (region_of_bmp t 0 0 (bw b) (bh b) Wt ltac:(lia) ltac:(lia) ltac:(lia) ltac:(lia) ltac:(lia) ltac:(lia)) as R1.
  pose proof (region_of_bmp b 0 0 (bw b) (bh b) Wf ltac:(lia) ltac:(lia) ltac:(lia) ltac:(lia) ltac:(lia) ltac:(lia)) as R2.
  rewrite Tb in R1. rewrite Hb in R2. change (0 * bstride t + 0 * 6) with 0 in R1. change (0 * bstride b + 0 * 6) with 0 in R2.
  destruct (copy_same_ok _ _ (bw b) (bh b) (bdata b) (bdata t) R1 R2 eq_refl) as (m & E & (P1 & _)). cbn [g_off g_stride g_bpp] in P1.
  assert (Px : forall x y, 0 <= x < bw b -> 0 <= y < bh b -> pix (bwith t m) x y = pix b x y).
  { intros x y Hx Hy. unfold pix, pix_off. cbn [bwith bdata bstride bbpp]. rewrite Tb, Hb. exact (P1 y x Hy Hx). }
  rewrite E. cbn [bind].
  assert (Wm : bmp_wf (bwith t m)) by exact Wt.
  destruct (swap_ok (bwith t m) Wm Tb) as (d & Ed & ((m2 & Dd) & D1 & _)).
  { cbn [bwith bw bh]. rewrite Tw, Th. intros x y Hx Hy. rewrite Px by assumption. now apply mread_bytes. }
  cbn [bwith bw bh] in D1. rewrite Tw, Th in D1.
  exists d. split; [exact Ed|]. subst d. split; [exact Wt|]. split; [exact Tb|]. split; [exact Tw|]. split; [exact Th|].
  intros x y Hx Hy. rewrite D1 by assumption. f_equal. now apply Px.
Qed.

(** ** compression *)
Definition given (f : jfmt) (v : bytes) : bytes := match f with FBgr48 => swap6 v | _ => v end.
Definition coded (f : jfmt) (b : bmp) : list (list Z) := map (fun v => samples f (given f v)) (grid b).

Lemma fmt_bpp t f : fmt_of t = Some f -> bpp_of t = bpp_fmt f.
Proof. destruct t; cbn [fmt_of]; intros H; try discriminate; injection H as <-; reflexivity. Qed.

Lemma compress_eq k mk t f b p : good_site mk -> picture t b -> param_ok p -> fmt_of t = Some f ->
  exists s, settings_for p f (bw b) s /\
    (fits b -> jxr_compress k mk t b p =
       if validate_args s f (bw b) (bh b) then match k_enc k s f (bw b) (bh b) (coded f b) with Some d => Ok d | None => Throw end else Throw) /\
    (~ fits b -> jxr_compress k mk t b p = Throw).
Proof.
  intros G P HP Ef. pose proof P as (Wf & Hb & By & W & H & St). rewrite (fmt_bpp t f Ef) in Hb. unfold jxr_compress. rewrite Ef. cbv zeta.
  assert (D : f = FBgr48 \/ f <> FBgr48) by (destruct f; [right; discriminate|now left|right; discriminate..]). destruct D as [->|NF].
  - assert (t = Bgr48) by (destruct t; try discriminate Ef; reflexivity). subst t.
    destruct (prepared mk b G P) as (d & Ed & Wd & Bd & Dw & Dh & Px).
    destruct (encode_eq k FBgr48 d p Wd Bd ltac:(lia) ltac:(lia) HP) as (s & S & E1 & E2). rewrite Dw, Dh in E1, E2. rewrite Dw in S.
    exists s. split; [exact S|].
    assert (Fi : fits d <-> fits b) by (unfold fits; rewrite Dw, Dh; reflexivity).
    assert (Gr : map (samples FBgr48) (grid d) = coded FBgr48 b).
    { unfold coded, grid. rewrite !map_map, Dw, Dh. apply map_ext_in. intros i I. apply in_zseq in I. rewrite Z2Nat.id in I by nia.
      destruct (grid_ix (bw b) (bh b) i ltac:(lia) I). cbn [given]. now rewrite Px. }
    rewrite Gr in E1.
    assert (Eq : forall (X : res bytes), (let* m := copy_same (mkRegion (bsize (mk Bgr48 (bw b) (bh b))) 0 (bstride (mk Bgr48 (bw b) (bh b))) 6) (mkRegion (bsize b) 0 (bstride b) 6)
                              (bw b) (bh b) false (bdata b) (bdata (mk Bgr48 (bw b) (bh b))) in
        let* tmp := rgb48_to_bgr48 (bwith (mk Bgr48 (bw b) (bh b)) m) in
        jxr_encode k FBgr48 (bw b) (bh b) (bstride tmp) (bdata tmp) (bsize tmp) (quality_of p)) = jxr_encode k FBgr48 (bw b) (bh b) (bstride d) (bdata d) (bsize d) (quality_of p)).
    { intros _. destruct (copy_same _ _ _ _ _ _ _) as [m| | |]; cbn [bind] in Ed; try discriminate. cbn [bind]. rewrite Ed. reflexivity. }
    rewrite (Eq Throw). split; intros F; [apply E1|apply E2]; rewrite Fi; exact F.
  - destruct (encode_eq k f b p Wf Hb W H HP) as (s & S & E1 & E2). exists s. split; [exact S|].
    assert (Gr : map (samples f) (grid b) = coded f b) by (unfold coded; destruct f; try reflexivity; congruence). rewrite Gr in E1.
    destruct f; try congruence; (split; [exact E1|exact E2]).
Qed.

Lemma compress_other k mk b p : jxr_compress k mk Bgra32 b p = Throw. Proof. reflexivity. Qed.

(** never anything undefined *)
Lemma compress_defined k mk t b p : good_site mk -> picture t b -> param_ok p -> (exists d, jxr_compress k mk t b p = Ok d) \/ jxr_compress k mk t b p = Throw.
Proof.
  intros G P HP. destruct (fmt_of t) as [f|] eqn:Ef; [|right; unfold jxr_compress; now rewrite Ef].
  destruct (compress_eq k mk t f b p G P HP Ef) as (s & _ & E1 & E2).
  assert (D : fits b \/ ~ fits b) by (unfold fits; lia). destruct D as [F|F]; [|right; now apply E2]. rewrite (E1 F).
  destruct (validate_args s f (bw b) (bh b)); [|now right]. destruct (k_enc k s f (bw b) (bh b) (coded f b)); [left; eauto|now right].
Qed.

Lemma valid_when p f w h s : settings_for p f w s -> 1 <= w <= 2 ^ 28 -> 1 <= h <= 2 ^ 28 ->
  ~ (f = FGray32 /\ exists n, asked p = Some n /\ n < 500) -> validate_args s f w h = true.
Proof.
  intros (SB & SL) W H NF. unfold validate_args. replace ((2 ^ 28 <? w) || (2 ^ 28 <? h) || (w =? 0) || (h =? 0)) with false by lia.
  assert (D : best p \/ exists n, asked p = Some n /\ n < 1000).
  { unfold best. destruct (asked p) as [n|] eqn:E; [|now left]. destruct (Z_lt_le_dec n 1000); [right; eauto|now left]. }
  destruct D as [B|(n & En & Ln)]; [rewrite (SB B); reflexivity|].
  destruct (SL n En Ln) as (v & _ & ->). cbn [j_420 j_two].
  assert (A : negb ((500 <=? n) || is16 f) && negb ((500 <=? n) || (w <? 2 * 16)) && ((w + 15) / 16 <? 2) = false) by lia. rewrite A.
  destruct f; cbn [is16]; rewrite ?andb_false_r; try reflexivity.
  destruct (500 <=? n) eqn:E; [reflexivity|]. exfalso. apply NF. split; [reflexivity|]. exists n. split; [exact En|lia].
Qed.

Lemma compress_accepts k mk t f b p : good_site mk -> picture t b -> fits b -> param_ok p -> fmt_of t = Some f -> never_fails k ->
  ~ (t = Gray32F /\ exists n, asked p = Some n /\ n < 500) -> exists d, jxr_compress k mk t b p = Ok d.
Proof.
  intros G P F HP Ef NF Q. destruct (compress_eq k mk t f b p G P HP Ef) as (s & S & E1 & _). rewrite (E1 F). destruct F as [F1 F2].
  rewrite (valid_when p f (bw b) (bh b) s S F1 F2).
  - destruct (k_enc k s f (bw b) (bh b) (coded f b)) as [d|] eqn:E; [eauto|]. now apply NF in E.
  - intros (-> & X). apply Q. split; [|exact X]. destruct t; try discriminate Ef; reflexivity.
Qed.
Lemma compress_float_refused k mk b n : good_site mk -> picture Gray32F b -> 0 <= n < 500 -> jxr_compress k mk Gray32F b (Some (PUint32 n)) = Throw.
Proof.
  intros G P H. destruct (compress_eq k mk Gray32F FGray32 b (Some (PUint32 n)) G P ltac:(cbn [param_ok]; lia) eq_refl) as (s & (_ & SL) & E1 & E2).
  assert (D : fits b \/ ~ fits b) by (unfold fits; lia). destruct D as [F|F]; [|now apply E2]. rewrite (E1 F).
  destruct (SL n eq_refl ltac:(lia)) as (v & _ & ->). unfold validate_args. cbn [j_420 is16 j_two].
  replace (500 <=? n) with false by lia. cbn [orb negb andb].
  match goal with |- context [if ?a then false else if ?c then false else false] => destruct a; destruct c end; reflexivity.
Qed.

(** ** which quantizers *)
Lemma teller_eq mk t f b p : good_site mk -> picture t b -> fits b -> param_ok p -> fmt_of t = Some f ->
  ~ (t = Gray32F /\ exists n, asked p = Some n /\ n < 500) -> exists s, settings_for p f (bw b) s /\ jxr_compress teller mk t b p = Ok (j_qp s).
Proof.
  intros G P F HP Ef Q. destruct (compress_eq teller mk t f b p G P HP Ef) as (s & S & E1 & _). exists s. split; [exact S|]. rewrite (E1 F). destruct F as [F1 F2].
  rewrite (valid_when p f (bw b) (bh b) s S F1 F2); [reflexivity|].
  intros (-> & X). apply Q. split; [|exact X]. destruct t; try discriminate Ef; reflexivity.
Qed.

Lemma told_best mk t f b p : good_site mk -> picture t b -> fits b -> param_ok p -> fmt_of t = Some f -> best p -> jxr_compress teller mk t b p = Ok [1; 0; 0; 0; 0; 0].
Proof.
  intros G P F HP Ef B. destruct (teller_eq mk t f b p G P F HP Ef) as (s & (SB & _) & E).
  - intros (_ & n & En & Ln). unfold best in B. rewrite En in B. lia.
  - rewrite E, (SB B). reflexivity.
Qed.
Lemma told_less mk t f b n : good_site mk -> picture t b -> fits b -> 0 <= n < 1000 -> fmt_of t = Some f -> ~ (t = Gray32F /\ n < 500) ->
  exists v, jxr_compress teller mk t b (Some (PUint32 n)) = Ok v /\ length v = 6%nat /\ Forall (fun q => 2 <= q <= 255) v.
Proof.
  intros G P F H Ef NF. destruct (teller_eq mk t f b (Some (PUint32 n)) G P F ltac:(cbn [param_ok]; lia) Ef) as (s & (_ & SL) & E).
  - intros (X & m & Em & Lm). apply NF. cbn [asked] in Em. split; [exact X|]. congruence.
  - destruct (SL n eq_refl ltac:(lia)) as (v & Ev & ->). cbn [j_qp] in E. destruct (qps_all f n H) as (v' & Ev' & L & R).
    assert (v = v') by congruence. subst v'. exists v. auto.
Qed.
Lemma told_mono mk t f b n m : good_site mk -> picture t b -> fits b -> 0 <= n <= m -> m < 1000 -> fmt_of t = Some f -> ~ (t = Gray32F /\ n < 500) ->
  m < 500 \/ 500 <= n \/ t = Gray16 \/ t = Bgr48 ->
  exists v u, jxr_compress teller mk t b (Some (PUint32 n)) = Ok v /\ jxr_compress teller mk t b (Some (PUint32 m)) = Ok u /\ not_coarser u v.
Proof.
  intros G P F H1 H2 Ef NF D.
  destruct (teller_eq mk t f b (Some (PUint32 n)) G P F ltac:(cbn [param_ok]; lia) Ef) as (s & (_ & SL) & E).
  { intros (X & k & Em & Lm). apply NF. cbn [asked] in Em. split; [exact X|]. congruence. }
  destruct (teller_eq mk t f b (Some (PUint32 m)) G P F ltac:(cbn [param_ok]; lia) Ef) as (s' & (_ & SL') & E').
  { intros (X & k & Em & Lm). apply NF. cbn [asked] in Em. split; [exact X|]. assert (k = m) by congruence. lia. }
  destruct (SL n eq_refl ltac:(lia)) as (v & Ev & ->). destruct (SL' m eq_refl ltac:(lia)) as (u & Eu & ->). cbn [j_qp] in E, E'.
  exists v, u. split; [exact E|]. split; [exact E'|].
  destruct (mono_all f (Z.to_nat (m - n)) n ltac:(lia) ltac:(lia)) as (v' & u' & Ev' & Eu' & L).
  { destruct D as [D|[D|[-> | ->]]]; [left; lia|right; left; lia| |]; right; right; injection Ef as <-; reflexivity. }
  replace (n + Z.of_nat (Z.to_nat (m - n))) with m in Eu' by lia. assert (v = v') by congruence. assert (u = u') by congruence. subst. exact L.
Qed.

(** ** decompression *)
Lemma pixel_bytes_len f s : length (pixel_bytes f s) = Z.to_nat (bpp_fmt f).
Proof. destruct f; cbn [pixel_bytes]; rewrite ?app_length; unfold b16; rewrite ?le_length; reflexivity. Qed.
Lemma pixel_bytes_byte f s : Forall is_byte (pixel_bytes f s).
Proof.
  assert (A : forall v, Forall is_byte (b8 v)) by (intros v; constructor; [unfold is_byte, u8; lia|constructor]).
  destruct f; cbn [pixel_bytes]; repeat (apply Forall_app; split); try apply A; apply le_bytes.
Qed.

Lemma decode_eq k mk d t w h f aw ah s : good_site mk -> d <> [] -> k_dec k d = Some (f, aw, ah, s) -> 0 <= aw -> 0 <= ah ->
  (match t with Some t => t = px_of f | None => True end) -> (match w with Some w => w = aw | None => True end) -> (match h with Some h => h = ah | None => True end) ->
  exists b, jxr_decode k mk d t w h = Ok (px_of f, b) /\ bmp_wf b /\ bbpp b = bpp_of (px_of f) /\ bw b = aw /\ bh b = ah /\
    forall x y, 0 <= x < aw -> 0 <= y < ah -> pix b x y = given f (pixel_bytes f (nth (Z.to_nat (y * aw + x)) s [])).
Proof.
  intros G Nd Ek Wa Ha Et Ew Eh. unfold jxr_decode. destruct d as [|d0 d]; [congruence|]. rewrite Ek.
  assert (T1 : differs px_eqb t (px_of f) = false) by (destruct t as [t|]; [subst t; destruct f; reflexivity|reflexivity]).
  assert (T2 : differs Z.eqb w aw = false) by (destruct w as [w|]; [subst w; cbn [differs]; now rewrite Z.eqb_refl|reflexivity]).
  assert (T3 : differs Z.eqb h ah = false) by (destruct h as [h|]; [subst h; cbn [differs]; now rewrite Z.eqb_refl|reflexivity]).
  rewrite T1, T2, T3. cbv zeta.
  destruct (G (px_of f) aw ah Wa Ha) as (Wb & Bw & Bh & Bb & _). cbv zeta in *. set (b := mk (px_of f) aw ah) in *.
  assert (Bf : bpp_of (px_of f) = bpp_fmt f) by (destruct f; reflexivity). rewrite Bf in Bb.
  destruct (pix_map_loop b (fun _ _ _ => True) (fun y x m => st m (bsize b) (y * bstride b + x * bpp_fmt f) (pixel_bytes f (nth (Z.to_nat (y * aw + x)) s [])))
              (fun x y _ => pixel_bytes f (nth (Z.to_nat (y * aw + x)) s [])) Wb) as (m & E & (_ & P1 & _)).
  - auto.
  - intros x y m Hx Hy _. pose proof Wb as (? & ? & ? & Sx & Z0). specialize (Z0 ltac:(lia)).
    assert (y * bstride b <= (bh b - 1) * bstride b) by nia. assert ((x + 1) * bbpp b <= bw b * bbpp b) by nia.
    assert (Lp : Z.of_nat (length (pixel_bytes f (nth (Z.to_nat (y * aw + x)) s []))) = bbpp b) by (rewrite pixel_bytes_len, Bb; destruct f; reflexivity).
    exists (mwrite m (pix_off b x y) (pixel_bytes f (nth (Z.to_nat (y * aw + x)) s []))). unfold pix_off. rewrite <- Bb. split; [|split].
    + apply st_ok; [nia|]. lia.
    + rewrite <- Lp, Nat2Z.id. apply mread_mwrite_same.
    + intros a Na. apply mw_out. unfold in_pix, pix_off in Na. lia.
  - rewrite Bw, Bh in E. rewrite E. cbn [bind]. rewrite Bw, Bh in P1.
    assert (Q : forall x y, 0 <= x < aw -> 0 <= y < ah -> pix (bwith b m) x y = pixel_bytes f (nth (Z.to_nat (y * aw + x)) s [])) by exact P1.
    assert (D : f = FBgr48 \/ f <> FBgr48) by (destruct f; [right; discriminate|now left|right; discriminate..]). destruct D as [->|NF].
    + destruct (swap_ok (bwith b m) Wb Bb) as (d2 & Ed & ((m2 & Dd) & D1 & _)).
      { cbn [bwith bw bh]. rewrite Bw, Bh. intros x y Hx Hy. rewrite Q by assumption. apply pixel_bytes_byte. }
      cbn [bwith bw bh] in D1. rewrite Bw, Bh in D1. rewrite Ed. cbn [bind]. exists d2. subst d2. split; [reflexivity|]. split; [exact Wb|]. split; [exact Bb|]. split; [exact Bw|]. split; [exact Bh|].
      intros x y Hx Hy. rewrite D1 by assumption. cbn [given]. f_equal. now apply Q.
    + exists (bwith b m). assert (R : forall r, match f with FBgr48 => r | _ => Ok (px_of f, bwith b m) end = Ok (px_of f, bwith b m)) by (intros; destruct f; try reflexivity; congruence).
      split; [apply R|]. split; [exact Wb|]. split; [rewrite Bf; exact Bb|]. split; [exact Bw|]. split; [exact Bh|].
      intros x y Hx Hy. rewrite Q by assumption. destruct f; try reflexivity; congruence.
Qed.

Lemma decode_mismatch k mk d t w h f aw ah s : k_dec k d = Some (f, aw, ah, s) ->
  (exists t', t = Some t' /\ t' <> px_of f) \/ (exists w', w = Some w' /\ w' <> aw) \/ (exists h', h = Some h' /\ h' <> ah) ->
  jxr_decode k mk d t w h = Throw.
Proof.
  intros Ek D. unfold jxr_decode. destruct d as [|d0 d]; [reflexivity|]. rewrite Ek.
  destruct D as [(t' & -> & N)|[(w' & -> & N)|(h' & -> & N)]].
  - replace (differs px_eqb (Some t') (px_of f)) with true; [reflexivity|]. destruct t', f; cbn [px_of] in N; congruence || reflexivity.
  - destruct (differs px_eqb t (px_of f)); [reflexivity|]. cbn [differs]. replace (w' =? aw) with false by lia. reflexivity.
  - destruct (differs px_eqb t (px_of f)); [reflexivity|]. destruct (differs Z.eqb w aw); [reflexivity|]. cbn [differs]. replace (h' =? ah) with false by lia. reflexivity.
Qed.

Lemma decode_defined k mk d t w h : good_site mk -> (forall f aw ah s, k_dec k d = Some (f, aw, ah, s) -> 0 <= aw /\ 0 <= ah) ->
  (exists r, jxr_decode k mk d t w h = Ok r) \/ jxr_decode k mk d t w h = Throw.
Proof.
  intros G Hk. destruct d as [|d0 d]; [now right|]. destruct (k_dec k (d0 :: d)) as [[[[f aw] ah] s]|] eqn:Ek; [|right; unfold jxr_decode; now rewrite Ek].
  destruct (Hk _ _ _ _ eq_refl) as [W H].
  assert (D : (exists t', t = Some t' /\ t' <> px_of f) \/ (match t with Some t => t = px_of f | None => True end)).
  { destruct t as [t|]; [|now right]. assert (X : {t = px_of f} + {t <> px_of f}) by decide equality. destruct X; [now right|left; eauto]. }
  destruct D as [D|Et]; [right; apply (decode_mismatch _ _ _ _ _ _ _ _ _ _ Ek); now left|].
  assert (D : (exists w', w = Some w' /\ w' <> aw) \/ (match w with Some w => w = aw | None => True end)).
  { destruct w as [w|]; [|now right]. destruct (Z.eq_dec w aw); [now right|left; eauto]. }
  destruct D as [D|Ew]; [right; apply (decode_mismatch _ _ _ _ _ _ _ _ _ _ Ek); auto|].
  assert (D : (exists h', h = Some h' /\ h' <> ah) \/ (match h with Some h => h = ah | None => True end)).
  { destruct h as [h|]; [|now right]. destruct (Z.eq_dec h ah); [now right|left; eauto]. }
  destruct D as [D|Eh]; [right; apply (decode_mismatch _ _ _ _ _ _ _ _ _ _ Ek); auto|].
  left. destruct (decode_eq k mk (d0 :: d) t w h f aw ah s G ltac:(discriminate) Ek W H Et Ew Eh) as (b & E & _). eauto.
Qed.

(** ** there and back *)
Lemma sample_count f v : length (samples f v) = comps_of f. Proof. destruct f; reflexivity. Qed.
Lemma nth_byte v i : Forall is_byte v -> is_byte (nth i v 0).
Proof. intros B. destruct (Nat.lt_ge_cases i (length v)) as [L|L]; [|rewrite nth_overflow by exact L; unfold is_byte; lia]. rewrite Forall_forall in B. apply B. now apply nth_In. Qed.
Lemma firstn_byte v n : Forall is_byte v -> Forall is_byte (firstn n v).
Proof. intros B. rewrite <- (firstn_skipn n v) in B. now apply Forall_app in B. Qed.
Lemma skipn_byte v n : Forall is_byte v -> Forall is_byte (skipn n v).
Proof. intros B. rewrite <- (firstn_skipn n v) in B. now apply Forall_app in B. Qed.
Lemma unle2_range v : Forall is_byte v -> 0 <= unle (firstn 2 v) < 2 ^ 16.
Proof.
  intros B. pose proof (unle_range _ (firstn_byte v 2 B)) as R. pose proof (firstn_le_length 2 v) as L. split; [apply R|].
  eapply Z.lt_le_trans; [apply R|]. change (2 ^ 16) with (256 ^ 2). apply Z.pow_le_mono_r; lia.
Qed.
Lemma unle4_range v : Forall is_byte v -> 0 <= unle (firstn 4 v) < 2 ^ 32.
Proof.
  intros B. pose proof (unle_range _ (firstn_byte v 4 B)) as R. pose proof (firstn_le_length 4 v) as L. split; [apply R|].
  eapply Z.lt_le_trans; [apply R|]. change (2 ^ 32) with (256 ^ 4). apply Z.pow_le_mono_r; lia.
Qed.
Lemma samples_ok f v : Forall is_byte v -> Forall (sample_ok f) (samples f v).
Proof.
  intros B. assert (N : forall i, 0 <= nth i v 0 < 2 ^ 8) by (intros i; pose proof (nth_byte v i B) as X; unfold is_byte in X; lia).
  destruct f; cbn [samples]; apply Forall_forall; intros z I; cbn [In] in I; cbn [sample_ok].
  - destruct I as [<-|[<-|[<-|[]]]]; apply N.
  - destruct I as [<-|[<-|[<-|[]]]]; apply unle2_range; try apply skipn_byte; exact B.
  - destruct I as [<-|[]]; apply N.
  - destruct I as [<-|[]]; apply unle2_range; exact B.
  - destruct I as [<-|[]]; apply pixel_range, unle4_range, B.
Qed.
Lemma swap6_byte v : Forall is_byte v -> Forall is_byte (swap6 v).
Proof. intros B. unfold swap6. repeat (constructor; [now apply nth_byte|]). constructor. Qed.
Lemma given_byte f v : Forall is_byte v -> Forall is_byte (given f v).
Proof. destruct f; cbn [given]; auto. apply swap6_byte. Qed.

Lemma b16_unle a c : is_byte a -> is_byte c -> b16 (unle [a; c]) = [a; c].
Proof. unfold is_byte. intros A C. unfold b16, u16. cbn [le unle]. f_equal; [lia|]. f_equal. lia. Qed.
Lemma b8_byte a : is_byte a -> b8 a = [a].
Proof. unfold is_byte, b8, u8. intros A. f_equal. lia. Qed.

Lemma back_exact f v : f <> FGray32 -> Forall is_byte v -> length v = Z.to_nat (bpp_fmt f) -> given f (pixel_bytes f (samples f (given f v))) = v.
Proof.
  intros NF B L. destruct f; try congruence; cbn [bpp_fmt] in L.
  - change (Z.to_nat 3) with 3%nat in L. do 3 (destruct v as [|? v]; [discriminate L|]). destruct v; [|discriminate L].
    cbn [given samples pixel_bytes nth]. inversion_clear B as [|? ? A1 B1]. inversion_clear B1 as [|? ? A2 B2]. inversion_clear B2 as [|? ? A3 B3]. rewrite !b8_byte by assumption. reflexivity.
  - change (Z.to_nat 6) with 6%nat in L. do 6 (destruct v as [|? v]; [discriminate L|]). destruct v; [|discriminate L].
    inversion_clear B as [|? ? A1 B1]. inversion_clear B1 as [|? ? A2 B2]. inversion_clear B2 as [|? ? A3 B3]. inversion_clear B3 as [|? ? A4 B4]. inversion_clear B4 as [|? ? A5 B5]. inversion_clear B5 as [|? ? A6 B6].
    cbn [given]. unfold swap6 at 2. cbn [nth samples pixel_bytes firstn skipn]. rewrite !b16_unle by assumption. reflexivity.
  - change (Z.to_nat 1) with 1%nat in L. destruct v as [|? v]; [discriminate L|]. destruct v; [|discriminate L].
    inversion_clear B as [|? ? A1 B1]. cbn [given samples pixel_bytes nth]. now apply b8_byte.
  - change (Z.to_nat 2) with 2%nat in L. do 2 (destruct v as [|? v]; [discriminate L|]). destruct v; [|discriminate L].
    inversion_clear B as [|? ? A1 B1]. inversion_clear B1 as [|? ? A2 B2]. cbn [given samples pixel_bytes nth firstn]. now apply b16_unle.
Qed.
Lemma back_float v : Forall is_byte v -> length v = 4%nat -> not_tiny (unle v) -> unle (pixel_bytes FGray32 (samples FGray32 v)) = shortened (unle v).
Proof.
  intros B L N. cbn [samples pixel_bytes nth]. rewrite firstn_all2 by (apply Nat.eq_le_incl; exact L). rewrite float_short by exact N. rewrite unle_le. apply Z.mod_small.
  destruct N as ((N0 & N1) & N2 & N3). unfold shortened. change (256 ^ Z.of_nat 4) with (2 ^ 32). lia.
Qed.

Lemma nth_grid {A} (g : Z -> A) w h x y dflt : 0 <= x < w -> 0 <= y < h -> nth (Z.to_nat (y * w + x)) (map g (zseq (Z.to_nat (w * h)))) dflt = g (y * w + x).
Proof.
  intros Hx Hy. unfold zseq. rewrite map_map. assert (L : y * w + x < w * h) by nia. assert (0 <= y * w + x) by nia.
  rewrite (nth_indep _ dflt (g (Z.of_nat 0))) by (rewrite map_length, seq_length; lia).
  rewrite (map_nth (fun i => g (Z.of_nat i)) (seq 0 (Z.to_nat (w * h))) 0%nat). rewrite seq_nth by lia. f_equal. lia.
Qed.

Lemma there_and_back k mk t f b p : good_site mk -> picture t b -> fits b -> param_ok p -> fmt_of t = Some f -> best p -> never_fails k -> lossless_codec k ->
  exists d r, jxr_compress k mk t b p = Ok d /\ jxr_decode k mk d (Some t) (Some (bw b)) (Some (bh b)) = Ok (t, r) /\ bmp_wf r /\ bbpp r = bpp_of t /\ bw r = bw b /\ bh r = bh b /\
    forall x y, 0 <= x < bw b -> 0 <= y < bh b -> pix r x y = given f (pixel_bytes f (samples f (given f (pix b x y)))).
Proof.
  intros G P F HP Ef B NF LC. pose proof P as (Wf & Hb & By & W & H & _).
  destruct (compress_eq k mk t f b p G P HP Ef) as (s & S & E1 & _). specialize (E1 F). destruct F as [F1 F2].
  rewrite (valid_when p f (bw b) (bh b) s S F1 F2) in E1.
  2:{ intros (_ & n & En & Ln). unfold best in B. rewrite En in B. lia. }
  rewrite (proj1 S B) in E1. destruct (k_enc k lossless_set f (bw b) (bh b) (coded f b)) as [d|] eqn:Ek; [|now apply NF in Ek].
  assert (Bp : forall x y, Forall is_byte (pix b x y)) by (intros; now apply mread_bytes).
  destruct (LC f (bw b) (bh b) (coded f b) d F1 F2) as [Nd Kd]; [| |exact Ek|].
  - unfold coded, grid, zseq. rewrite !map_length, seq_length. nia.
  - apply Forall_forall. intros px I. unfold coded, grid in I. rewrite map_map in I. apply in_map_iff in I. destruct I as (i & <- & _).
    split; [apply sample_count|]. apply samples_ok, given_byte, Bp.
  - assert (Pt : t = px_of f) by (destruct t; cbn [fmt_of] in Ef; try discriminate; injection Ef as <-; reflexivity).
    destruct (decode_eq k mk d (Some t) (Some (bw b)) (Some (bh b)) f (bw b) (bh b) (coded f b) G Nd Kd ltac:(lia) ltac:(lia) Pt eq_refl eq_refl) as (r & Er & Wr & Br & Rw & Rh & Px).
    rewrite <- Pt in Er, Br. exists d, r. split; [exact E1|]. split; [exact Er|]. split; [exact Wr|]. split; [exact Br|]. split; [exact Rw|]. split; [exact Rh|].
    intros x y Hx Hy. rewrite Px by assumption. unfold coded, grid. rewrite map_map, nth_grid by assumption.
    assert (E : (y * bw b + x) mod bw b = x /\ (y * bw b + x) / bw b = y).
    { split; [symmetry; apply (Z.mod_unique _ _ y); [left; lia|lia]|symmetry; apply (Z.div_unique _ _ _ x); [left; lia|lia]]. }
    destruct E as [-> ->]. reflexivity.
Qed.

Lemma back_same k mk t f b p : good_site mk -> picture t b -> fits b -> param_ok p -> fmt_of t = Some f -> best p -> never_fails k -> lossless_codec k -> t <> Gray32F ->
  exists d r, jxr_compress k mk t b p = Ok d /\ jxr_decode k mk d (Some t) (Some (bw b)) (Some (bh b)) = Ok (t, r) /\ bmp_wf r /\ bbpp r = bpp_of t /\ same_pixels b r.
Proof.
  intros G P F HP Ef B NF LC NT. destruct (there_and_back k mk t f b p G P F HP Ef B NF LC) as (d & r & E1 & E2 & Wr & Br & Rw & Rh & Px).
  exists d, r. split; [exact E1|]. split; [exact E2|]. split; [exact Wr|]. split; [exact Br|]. split; [exact Rw|]. split; [exact Rh|].
  intros x y Hx Hy. rewrite Px by assumption. destruct P as (_ & Hb & By & _). apply back_exact.
  - intros ->. destruct t; try discriminate Ef. congruence.
  - now apply mread_bytes.
  - unfold pix. rewrite mread_length, Hb, (fmt_bpp t f Ef). reflexivity.
Qed.
Lemma back_short k mk b p : good_site mk -> picture Gray32F b -> fits b -> param_ok p -> best p -> never_fails k -> lossless_codec k ->
  exists d r, jxr_compress k mk Gray32F b p = Ok d /\ jxr_decode k mk d (Some Gray32F) (Some (bw b)) (Some (bh b)) = Ok (Gray32F, r) /\ bmp_wf r /\ bbpp r = 4 /\ short_pixels b r.
Proof.
  intros G P F HP B NF LC. destruct (there_and_back k mk Gray32F FGray32 b p G P F HP eq_refl B NF LC) as (d & r & E1 & E2 & Wr & Br & Rw & Rh & Px).
  exists d, r. split; [exact E1|]. split; [exact E2|]. split; [exact Wr|]. split; [exact Br|]. split; [exact Rw|]. split; [exact Rh|].
  intros x y Hx Hy NT. rewrite Px by assumption. destruct P as (_ & Hb & By & _). cbn [given]. apply back_float; [now apply mread_bytes| |exact NT].
  unfold pix. rewrite mread_length, Hb. reflexivity.
Qed.
(** exactly the floats of at most thirteen bits come back *)
Lemma shortened_same bits : shortened bits = bits <-> bits mod 1024 = 0.
Proof. unfold shortened. lia. Qed.
