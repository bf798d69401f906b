(** Display settings and composition: proofs. *)
From Coq Require Import QArith Qabs Lqa Floats.SpecFloat.
From Verif Require Import Base RectModel CopyModel CoordModel StatModel ScaleModel CopyProofs HiLoProofs PixelModel PixelSpec FloatProofs CompositorModel CompositorSpec
  CompositorProofs WeightProofs PropCompositor LutModel LutSpec LutProofs DispModel ShowModel ShowSpec.
Open Scope Z_scope.

(** ** tables *)
Lemma map_range_all n : forall a f l, map_range n a f = Ok l -> length l = n /\ Forall (fun v => exists i, f i = Ok v) l.
Proof.
  induction n as [|n IH]; intros a f l; cbn [map_range].
  - intros E. injection E as <-. split; [reflexivity|constructor].
  - destruct (f a) as [v| | |] eqn:V; cbn [bind]; try discriminate.
    destruct (map_range n (a + 1) f) as [r| | |] eqn:R; cbn [bind]; try discriminate.
    intros E. injection E as <-. destruct (IH _ _ _ R) as [L F]. split; [cbn [length]; now rewrite L|]. constructor; [now exists a|exact F].
Qed.
Lemma make_lut_any cnt b w f t : make_lut cnt b w 255 f = Ok t -> (forall lo hi i v, f lo hi i = Ok v -> 0 <= v <= 255) ->
  cnt <= Z.of_nat (length t) /\ Forall (fun v => 0 <= v < 256) t.
Proof.
  unfold make_lut. destruct (cnt <? 0) eqn:N; [discriminate|]. destruct (f32_cast _ _ (f32_mul b _)) as [lo| | |]; cbn [bind]; try discriminate.
  destruct (f32_cast _ _ (f32_mul w _)) as [hi| | |]; cbn [bind]; try discriminate.
  destruct (map_range _ _ _) as [m| | |] eqn:M; cbn [bind]; try discriminate. intros E H. injection E as <-.
  destruct (map_range_all _ _ _ _ M) as [L F]. split; [rewrite !app_length, !repeat_length, L; lia|].
  apply Forall_app. split; [apply Forall_forall; intros x X; apply repeat_spec in X; lia|].
  apply Forall_app. split; [|apply Forall_forall; intros x X; apply repeat_spec in X; lia].
  eapply Forall_impl; [|exact F]. intros v (i & V). cbv beta. specialize (H _ _ _ _ V). lia.
Qed.
Lemma make_lut_length cnt b w f t : 0 <= cnt <= 65536 -> unit_float b -> unit_float w -> fle b w ->
  make_lut cnt b w 255 f = Ok t -> Z.of_nat (length t) = cnt.
Proof.
  intros Hc Hb Hw L. destruct (cuts_ok cnt b w Hc Hb Hw L) as (lo & hi & E1 & E2 & (C1 & C2 & _)).
  unfold make_lut. replace (cnt <? 0) with false by lia. rewrite E1. cbn [bind]. rewrite E2. cbn [bind].
  destruct (map_range _ _ _) as [m| | |] eqn:M; cbn [bind]; try discriminate. intros E. injection E as <-.
  destruct (map_range_all _ _ _ _ M) as [LL _]. rewrite !app_length, !repeat_length, LL. lia.
Qed.
Lemma f32_cast_range lo hi f v : lo <= 0 <= hi -> f32_cast lo hi f = Ok v -> lo <= v <= hi.
Proof.
  intros H. destruct f as [s|s| |s m e]; cbn [f32_cast]; try discriminate; [intros E; injection E as <-; lia|].
  cbv zeta. match goal with |- (if (lo <=? ?x) && _ then _ else _) = _ -> _ => generalize x end.
  intros t. destruct (_ && _) eqn:B; [|discriminate]. intros E. injection E as <-. lia.
Qed.

Section Show.
  Context (pw : f32 -> f32 -> f32) (sp : list (f32 * f32) -> list spline).

  Lemma table_bytes n s t : curve_table pw sp n s t -> n <= Z.of_nat (length t) /\ Forall (fun v => 0 <= v < 256) t.
  Proof using.
    unfold curve_table. destruct (s_curve s) as [|g|p]; [easy| |].
    - unfold lut8_from_gamma, lut_from_gamma. intros E. apply (make_lut_any _ _ _ _ _ E). intros lo hi i v.
      destruct (lut_x lo hi i); cbn [bind]; try discriminate. unfold to_out. apply f32_cast_range. lia.
    - unfold lut_from_splines. intros E. apply (make_lut_any _ _ _ _ _ E). intros lo hi i v.
      destruct (chk (hi - lo)) as [d| | |]; cbn [bind]; try discriminate. destruct (chk (d - 1)) as [d'| | |]; cbn [bind]; try discriminate.
      destruct (chk (i - lo)) as [k| | |]; cbn [bind]; try discriminate. destruct (calc_spline _ _) as [y| | |]; cbn [bind]; try discriminate.
      destruct (cast_int _) as [u| | |]; cbn [bind]; try discriminate. intros X. injection X as <-. destruct (u <? 0) eqn:A; [lia|]. destruct (255 <? u) eqn:B; lia.
  Qed.
  Lemma table_length n s t : 0 <= n <= 65536 -> unit_float (s_black s) -> unit_float (s_white s) -> fle (s_black s) (s_white s) ->
    curve_table pw sp n s t -> Z.of_nat (length t) = n.
  Proof using.
    intros Hn Hb Hw L. unfold curve_table. destruct (s_curve s) as [|g|p]; [easy| |]; apply make_lut_length; assumption.
  Qed.
  Lemma curve_table_lut n s t : curve_table pw sp n s t -> curve_lut pw sp n s = Ok t.
  Proof using. unfold curve_table, curve_lut. now destruct (s_curve s). Qed.
  Lemma lut_curve_table n s t : s_curve s <> Linear -> curve_lut pw sp n s = Ok t -> curve_table pw sp n s t.
  Proof using. unfold curve_table, curve_lut. now destruct (s_curve s). Qed.

  (** the copy of the C API never reads beyond the table *)
  Lemma fill_out_safe sixteen s : fill_out pw sp sixteen s = UB -> s_enabled s = true /\ s_curve s <> Linear /\ curve_lut pw sp (if sixteen then 65536 else 256) s = UB.
  Proof using.
    unfold fill_out. destruct (s_enabled s); cbn [negb]; [|discriminate]. change (256 * 256) with 65536. set (n := if sixteen then 65536 else 256).
    destruct (s_curve s) as [|g|p] eqn:C; cbn [bind]; [discriminate| |]; (split; [reflexivity|]; split; [discriminate|]);
      destruct (curve_lut pw sp n s) as [l| | |] eqn:L; cbn [bind] in *; try discriminate; try reflexivity; exfalso;
      (assert (T : curve_table pw sp n s l) by (apply lut_curve_table; [now rewrite C|exact L]));
      destruct (table_bytes n s l T) as [T1 _]; unfold copy_lut in *; replace (Z.of_nat (length l) <? n) with false in * by lia; cbn [bind] in *; discriminate.
  Qed.

  (** ** one channel *)
  Context (types : Z -> px) (srcs : Z -> bmp).
  Lemma lut_size_ok t : t <> Gray32F -> t <> Bgra32 -> get_lut_size t = Ok (maxval t + 1) /\ (maxval t + 1 = 256 \/ maxval t + 1 = 65536) /\
    maxval t + 1 = (if is_16 t then 256 * 256 else 256).
  Proof using. destruct t; intros A B; try contradiction; cbn; repeat split; auto. Qed.
  Lemma chan_good (dst : bmp) e : showable pw sp (bw dst) (bh dst) types srcs e ->
    exists i, add_channel pw sp (types (fst e)) (snd e) = Ok i /\ i_weight i = s_weight (snd e) /\
      (forall sixteen, s_enabled (snd e) = true -> sixteen = is_16 (types (fst e)) -> fill_out pw sp sixteen (snd e) = Ok i) /\
      realizes pw sp types srcs e (to_chan (srcs (fst e)) (types (fst e)) i) /\
      chan_ok dst (to_chan (srcs (fst e)) (types (fst e)) i).
  Proof using.
    destruct e as [c s]. cbn [fst snd]. unfold showable. intros (W & M & D1 & D2 & B & P1 & P2 & T & U1 & U2 & U3 & C).
    destruct (lut_size_ok (types c) P1 P2) as (Z1 & Z2 & Z3).
    assert (TB : match match s_tint s with Some (r, g, b) => Some (b, g, r) | None => None end with Some c => byte_color c | None => True end).
    { destruct (s_tint s) as [[[r g] b]|]; [|exact Logic.I]. unfold byte_color in *. lia. }
    destruct (s_curve s) as [|g|p] eqn:E.
    - exists (mkI (s_weight s) (s_tint s) (s_black s) (s_white s) None). unfold add_channel, fill_out. rewrite E. cbn [bind i_weight].
      split; [reflexivity|]. split; [reflexivity|]. split; [intros six EN _; now rewrite EN|]. unfold to_chan. cbn [i_weight i_tint i_black i_white i_lut]. split.
      + unfold realizes. cbn [h_src h_px h_weight h_black h_white h_tint h_lutn]. rewrite E. repeat split.
      + unfold chan_ok. cbn [h_src h_px h_tint h_lutn h_lutnull h_lut h_lutsize h_black h_white].
        do 7 (split; [assumption|]). split; [intros X; now exfalso|]. intros _ _. split; [assumption|]. split; [exact U1|exact U2].
    - assert (Ht : exists t, curve_table pw sp (maxval (types c) + 1) s t) by (destruct C as [C|C]; [discriminate|exact C]).
      destruct Ht as (t & Ht). assert (NR : 0 <= maxval (types c) + 1 <= 65536) by lia. pose proof (table_length _ s t NR U1 U2 U3 Ht) as L. destruct (table_bytes _ s t Ht) as [_ F].
      pose proof (curve_table_lut _ _ _ Ht) as CL.
      exists (mkI (s_weight s) (s_tint s) (s_black s) (s_white s) (Some (maxval (types c) + 1, t))). unfold add_channel, fill_out. rewrite E, Z1. cbn [bind]. rewrite CL. cbn [bind i_weight].
      split; [reflexivity|]. split; [reflexivity|]. split.
      { intros six EN ->. rewrite EN. cbn [negb]. rewrite <- Z3, CL. cbn [bind]. unfold copy_lut. replace (Z.of_nat (length t) <? _) with false by lia. cbn [bind].
        now rewrite firstn_all2 by lia. }
      assert (NB : byte_mem (fun a => nth (Z.to_nat a) t 0)).
      { intros a. destruct (Nat.lt_ge_cases (Z.to_nat a) (length t)) as [X|X]; [|rewrite nth_overflow by exact X; unfold is_byte; lia].
        rewrite Forall_forall in F. exact (F _ (nth_In t 0 X)). }
      unfold to_chan. cbn [i_weight i_tint i_black i_white i_lut]. split.
      + unfold realizes. cbn [h_src h_px h_weight h_black h_white h_tint h_lutn h_lutnull h_lut]. rewrite E.
        do 6 (split; [reflexivity|]). split; [reflexivity|]. split; [reflexivity|]. exists t. split; [exact Ht|].
        intros a Ha. apply nth_error_nth'. lia.
      + unfold chan_ok. cbn [h_src h_px h_tint h_lutn h_lutnull h_lut h_lutsize h_black h_white].
        do 7 (split; [assumption|]). split; [intros _; split; [assumption|]; split; [reflexivity|]; split; [reflexivity|]; split; [lia|exact NB]|]. lia.
    - assert (Ht : exists t, curve_table pw sp (maxval (types c) + 1) s t) by (destruct C as [C|C]; [discriminate|exact C]).
      destruct Ht as (t & Ht). assert (NR : 0 <= maxval (types c) + 1 <= 65536) by lia. pose proof (table_length _ s t NR U1 U2 U3 Ht) as L. destruct (table_bytes _ s t Ht) as [_ F].
      pose proof (curve_table_lut _ _ _ Ht) as CL.
      exists (mkI (s_weight s) (s_tint s) (s_black s) (s_white s) (Some (maxval (types c) + 1, t))). unfold add_channel, fill_out. rewrite E, Z1. cbn [bind]. rewrite CL. cbn [bind i_weight].
      split; [reflexivity|]. split; [reflexivity|]. split.
      { intros six EN ->. rewrite EN. cbn [negb]. rewrite <- Z3, CL. cbn [bind]. unfold copy_lut. replace (Z.of_nat (length t) <? _) with false by lia. cbn [bind].
        now rewrite firstn_all2 by lia. }
      assert (NB : byte_mem (fun a => nth (Z.to_nat a) t 0)).
      { intros a. destruct (Nat.lt_ge_cases (Z.to_nat a) (length t)) as [X|X]; [|rewrite nth_overflow by exact X; unfold is_byte; lia].
        rewrite Forall_forall in F. exact (F _ (nth_In t 0 X)). }
      unfold to_chan. cbn [i_weight i_tint i_black i_white i_lut]. split.
      + unfold realizes. cbn [h_src h_px h_weight h_black h_white h_tint h_lutn h_lutnull h_lut]. rewrite E.
        do 6 (split; [reflexivity|]). split; [reflexivity|]. split; [reflexivity|]. exists t. split; [exact Ht|].
        intros a Ha. apply nth_error_nth'. lia.
      + unfold chan_ok. cbn [h_src h_px h_tint h_lutn h_lutnull h_lut h_lutsize h_black h_white].
        do 7 (split; [assumption|]). split; [intros _; split; [assumption|]; split; [reflexivity|]; split; [reflexivity|]; split; [lia|exact NB]|]. lia.
  Qed.
  (** a disabled channel of the C API *)
  Definition hidden (e : Z * setting) (ch : chan) : Prop := h_weight ch = f_zero /\ h_src ch = srcs (fst e).
  Lemma chan_off (dst : bmp) e sixteen : showable pw sp (bw dst) (bh dst) types srcs e -> s_enabled (snd e) = false ->
    exists i, fill_out pw sp sixteen (snd e) = Ok i /\ hidden e (to_chan (srcs (fst e)) (types (fst e)) i) /\ chan_ok dst (to_chan (srcs (fst e)) (types (fst e)) i).
  Proof using.
    destruct e as [c s]. cbn [fst snd]. unfold showable. intros (W & M & D1 & D2 & B & P1 & P2 & T & U1 & U2 & U3 & C) EN.
    unfold fill_out. rewrite EN. cbn [negb]. eexists. split; [reflexivity|]. unfold to_chan. cbn [i_weight i_tint i_black i_white i_lut]. split; [split; reflexivity|].
    unfold chan_ok. cbn [h_src h_px h_tint h_lutn h_lutnull h_lut h_lutsize h_black h_white].
    do 6 (split; [assumption|]). split; [exact Logic.I|]. split; [intros X; now exfalso|]. intros _ _. split; [assumption|].
    split; (split; [split; reflexivity|vm_compute; discriminate]).
  Qed.

  (** ** all channels *)
  Lemma active_good (dst : bmp) ds : Forall (showable pw sp (bw dst) (bh dst) types srcs) (enabled ds) ->
    exists l, active pw sp types ds = Ok l /\ map fst l = map fst (enabled ds) /\
      Forall2 (realizes pw sp types srcs) (enabled ds) (chans types srcs l) /\ Forall (chan_ok dst) (chans types srcs l).
  Proof using.
    induction ds as [|[c s] r IH]; [exists []; repeat split; constructor|]. cbn [enabled filter snd active]. fold (enabled r).
    destruct (s_enabled s) eqn:EN; [|exact IH]. intros H. inversion H as [|? ? H1 H2]; subst. destruct (IH H2) as (l & E & N & A & B).
    destruct (chan_good dst (c, s) H1) as (i & Ei & _ & _ & R & O). cbn [fst snd] in *. rewrite Ei. cbn [bind]. rewrite E. cbn [bind].
    exists ((c, i) :: l). split; [reflexivity|]. cbn [map fst snd chans]. split; [now rewrite N|]. split; constructor; assumption.
  Qed.
  (** each channel of the C API is a shown one or a hidden one *)
  Definition either (e : Z * setting) (ch : chan) : Prop := if s_enabled (snd e) then realizes pw sp types srcs e ch else hidden e ch.
  Lemma fill_good (dst : bmp) bits ds : Forall (showable pw sp (bw dst) (bh dst) types srcs) ds ->
    (forall c, bits c = is_16 (types c)) ->
    exists l, fill_all pw sp bits ds = Ok l /\ map fst l = map fst ds /\
      Forall2 either ds (chans types srcs l) /\ Forall (chan_ok dst) (chans types srcs l) /\
      ((forall e, In e ds -> s_enabled (snd e) = true) -> active pw sp types ds = Ok l).
  Proof using.
    intros H Hb. induction ds as [|[c s] r IH]; [exists []; repeat split; constructor|]. cbn [active fill_all].
    inversion H as [|? ? H1 H2]; subst. destruct (IH H2) as (l & E & N & A & B & C).
    destruct (s_enabled s) eqn:EN.
    - destruct (chan_good dst (c, s) H1) as (i & Ei & _ & F & R & O). cbn [fst snd] in *. rewrite (F (bits c) EN (Hb c)). cbn [bind]. rewrite E. cbn [bind].
      exists ((c, i) :: l). split; [reflexivity|]. cbn [map fst snd chans]. split; [now rewrite N|]. split; [constructor; [|exact A]; unfold either; cbn [snd fst]; now rewrite EN|].
      split; [constructor; assumption|]. intros G. rewrite Ei. cbn [bind]. rewrite C; [reflexivity|]. intros e He. apply G. now right.
    - destruct (chan_off dst (c, s) (bits c) H1 EN) as (i & Ei & R & O). cbn [fst snd] in *. rewrite Ei. cbn [bind]. rewrite E. cbn [bind].
      exists ((c, i) :: l). split; [reflexivity|]. cbn [map fst snd chans]. split; [now rewrite N|]. split; [constructor; [|exact A]; unfold either; cbn [snd fst]; now rewrite EN|].
      split; [constructor; assumption|]. intros G. specialize (G (c, s) (or_introl eq_refl)). cbn [snd] in G. congruence.
  Qed.
End Show.

(** ** pictures *)
Lemma realizes_weight pw sp types srcs ds chs : Forall2 (realizes pw sp types srcs) ds chs ->
  map (fun ch => h_weight ch) chs = map (fun e => s_weight (snd e)) ds.
Proof.
  induction 1 as [|[c s] ch ds chs R _ IH]; [reflexivity|]. cbn [map snd]. rewrite IH. f_equal. apply R.
Qed.
Lemma Forall2_len {A B} (R : A -> B -> Prop) l m : Forall2 R l m -> length l = length m.
Proof. induction 1; cbn [length]; congruence. Qed.
Lemma Forall2_first {A B} (R : A -> B -> Prop) a l m : Forall2 R (a :: l) m -> exists b m', m = b :: m' /\ R a b.
Proof. intros H. inversion H; subst. eauto. Qed.
Lemma mean_setting pw sp types srcs ds chs : Forall2 (realizes pw sp types srcs) ds chs -> mean_weight chs = setting_mean ds.
Proof.
  intros H. unfold mean_weight, setting_mean. rewrite (Forall2_len _ _ _ H).
  replace (map (fun ch => sfQ (h_weight ch)) chs) with (map sfQ (map (fun ch => h_weight ch) chs)) by apply map_map.
  rewrite (realizes_weight _ _ _ _ _ _ H), map_map. reflexivity.
Qed.
Lemma composed pw sp fresh types srcs w h ds chs : makes_bitmaps fresh -> 0 <= w -> 0 <= h -> chs <> [] ->
  (forall e, In e ds -> showable pw sp w h types srcs e) -> 
  Forall (chan_ok (fresh w h)) chs -> weights_ok chs ->
  exists d (contrib stored : chan -> Z -> Z -> bgr), compose_new fresh chs = Ok d /\ bw d = w /\ bh d = h /\
    forall x y, 0 <= x < bw d -> 0 <= y < bh d ->
      pix d x y = saturated None (total (map (fun ch => stored ch x y) chs)) /\
      forall ch, In ch chs -> contribution ch (pix (h_src ch) x y) (contrib ch x y) /\
        map3 (weighted (sfQ (h_weight ch)) (mean_weight chs)) (contrib ch x y) (stored ch x y).
Proof.
  intros HF Hw Hh HN HS HC HW. destruct (HF w h Hw Hh) as (F1 & F2 & F3 & F4).
  assert (CA : compose_args (fresh w h) Bgr24 None chs).
  { split; [exact F1|]. split; [exact HN|]. split; [now apply Forall_forall|]. split; [reflexivity|exact F4]. }
  destruct (C68_weighted_partial _ _ _ _ CA HW) as (d & ct & st & E & (( m & D) & P & _) & Q).
  exists d, ct, st. assert (DW : bw d = w /\ bh d = h) by (subst d; cbn [bwith bw bh]; now split). destruct DW as [DW DH].
  split; [|split; [exact DW|split; [exact DH|]]].
  - destruct chs as [|ch r]; [contradiction|]. cbn [compose_new]. inversion HC as [|? ? C1 _]; subst.
    destruct C1 as (_ & _ & W1 & W2 & _). rewrite W1, W2, F2, F3. exact E.
  - rewrite DW, DH. intros x y Hx Hy. rewrite F2, F3 in *. split; [exact (P x y Hx Hy)|]. intros ch Hch. exact (Q ch x y Hch Hx Hy).
Qed.

Lemma fresh_dims pw sp fresh w h types srcs e : makes_bitmaps fresh -> 0 <= w -> 0 <= h ->
  showable pw sp w h types srcs e -> showable pw sp (bw (fresh w h)) (bh (fresh w h)) types srcs e.
Proof. intros HF Hw Hh. destruct (HF w h Hw Hh) as (_ & -> & -> & _). auto. Qed.

Theorem helper_picture pw sp fresh types srcs w h ds : makes_bitmaps fresh -> 0 <= w -> 0 <= h ->
  Forall (showable pw sp w h types srcs) (enabled ds) -> enabled ds <> [] -> setting_weights_ok (enabled ds) ->
  (exists l, active pw sp types ds = Ok l /\ map fst l = map fst (enabled ds)) /\
  exists d, show_helper pw sp fresh types srcs ds = Ok d /\ bw d = w /\ bh d = h /\
    picture_of pw sp (setting_mean (enabled ds)) types srcs (enabled ds) d.
Proof.
  intros HF Hw Hh HS HN (W1 & W2 & W3).
  destruct (active_good pw sp types srcs (fresh w h) ds) as (l & E & N & R & O).
  { eapply Forall_impl; [|exact HS]. intros e. now apply fresh_dims. }
  split; [now exists l|]. pose proof (Forall2_len _ _ _ R) as L. pose proof (mean_setting _ _ _ _ _ _ R) as M.
  destruct (composed pw sp fresh types srcs w h (enabled ds) (chans types srcs l) HF Hw Hh) as (d & ct & st & C & D1 & D2 & P).
  - intros X. rewrite X in R. inversion R. congruence.
  - now apply Forall_forall.
  - exact O.
  - split; [rewrite <- L; exact W1|]. split; [|rewrite M; exact W3].
    intros ch Hch. assert (X : In (h_weight ch) (map (fun ch => h_weight ch) (chans types srcs l))) by (apply (in_map (fun ch => h_weight ch)); exact Hch).
    rewrite (realizes_weight _ _ _ _ _ _ R) in X. apply in_map_iff in X. destruct X as (e & <- & He). rewrite Forall_forall in W2. exact (W2 e He).
  - exists d. unfold show_helper. rewrite E. cbn [bind]. split; [exact C|]. split; [exact D1|]. split; [exact D2|].
    exists (chans types srcs l), ct, st. split; [exact R|]. rewrite <- M. exact P.
Qed.

(** all channels enabled: the C API and the helper agree *)
Theorem capi_same pw sp fresh bits types srcs w h ds : makes_bitmaps fresh -> 0 <= w -> 0 <= h ->
  Forall (showable pw sp w h types srcs) ds -> (forall c, bits c = is_16 (types c)) ->
  (forall e, In e ds -> s_enabled (snd e) = true) -> ds <> [] ->
  fill_all pw sp bits ds = active pw sp types ds /\ show_capi pw sp fresh bits types srcs ds = show_helper pw sp fresh types srcs ds.
Proof.
  intros HF Hw Hh HS HB HE HN. destruct (fill_good pw sp types srcs (fresh w h) bits ds) as (l & E & N & R & O & A).
  { eapply Forall_impl; [|exact HS]. intros e. now apply fresh_dims. }
  { exact HB. }
  specialize (A HE). split; [congruence|]. unfold show_capi, show_helper. rewrite E, A. cbn [bind]. unfold compose_capi.
  pose proof (Forall2_len _ _ _ R) as L. rewrite <- L. destruct ds; [contradiction|]. replace (Z.of_nat (length (p :: ds)) <=? 0) with false; [reflexivity|]. cbn [length]. lia.
Qed.

(** in general: the weights relate to another mean *)
Lemma weighted_zero mean c k : weighted 0 mean c k -> k = 0.
Proof.
  intros [P H]. assert (E : (inject_Z c * (0 / mean) == 0)%Q) by (unfold Qdiv; ring). rewrite E in H.
  assert (H' : (Qabs (inject_Z k) <= 5 # 8)%Q). { eapply Qle_trans; [|eapply Qle_trans; [exact H|]]; [|]. 
    - apply Qle_lteq. right. apply Qabs_wd. ring.
    - apply Qle_lteq. right. ring. }
  rewrite Qabs_pos in H' by (change 0%Q with (inject_Z 0); rewrite <- Zle_Qle; exact P).
  assert (inject_Z k < inject_Z 1)%Q by (eapply Qle_lt_trans; [exact H'|reflexivity]). rewrite <- Zlt_Qlt in H0. lia.
Qed.
Definition shown (ds : settings) (chs : list chan) : list chan := map snd (filter (fun p => s_enabled (snd (fst p))) (combine ds chs)).
Lemma shown_spec pw sp types srcs ds chs : Forall2 (either pw sp types srcs) ds chs ->
  Forall2 (realizes pw sp types srcs) (enabled ds) (shown ds chs) /\ incl (shown ds chs) chs /\
  (Qsum (map (fun ch => sfQ (h_weight ch)) chs) == Qsum (map (fun e => sfQ (s_weight (snd e))) (enabled ds)))%Q /\
  (forall f : chan -> bgr, (forall ch, In ch chs -> (sfQ (h_weight ch) == 0)%Q -> h_weight ch = f_zero -> f ch = (0, 0, 0)) ->
     total (map f chs) = total (map f (shown ds chs))) /\
  (forall ch, In ch chs -> h_weight ch = f_zero \/ exists e, In e (enabled ds) /\ h_weight ch = s_weight (snd e)).
Proof.
  induction 1 as [|[c s] ch ds chs R _ (A & I & Q & T & WO)].
  - split; [constructor|]. split; [easy|]. split; [reflexivity|]. split; [reflexivity|easy].
  - unfold either in R. cbn [snd] in R. unfold shown. cbn [combine filter map fst snd enabled]. fold (enabled ds). destruct (s_enabled s) eqn:EN; cbn [map snd].
    + fold (shown ds chs). split; [constructor; assumption|]. split; [intros x [<-|X]; [now left|right; auto]|].
      assert (HW : h_weight ch = s_weight s) by apply R. split; [cbn [Qsum fold_right snd]; rewrite HW; fold (Qsum (map (fun ch => sfQ (h_weight ch)) chs)); rewrite Q; reflexivity|].
      split.
      * intros f H. cbn [total fold_right map]. fold (total (map f chs)) (total (map f (shown ds chs))). rewrite T; [reflexivity|]. intros x X. apply H. now right.
      * intros x [<-|X]; [right; exists (c, s); split; [now left|exact HW]|]. destruct (WO x X) as [Y|(e & Y & Z)]; [now left|right; exists e; split; [now right|exact Z]].
    + fold (shown ds chs). destruct R as [HW _]. split; [exact A|]. split; [intros x X; right; auto|].
      split; [cbn [Qsum fold_right]; rewrite HW; fold (Qsum (map (fun ch => sfQ (h_weight ch)) chs)); cbn [f_zero sfQ]; rewrite Q; ring|]. split.
      * intros f H. cbn [total fold_right map]. fold (total (map f chs)). rewrite H; [|now left| |exact HW].
        -- rewrite T; [|intros x X; apply H; now right]. destruct (total (map f (shown ds chs))) as [[t1 t2] t3]. reflexivity.
        -- rewrite HW. reflexivity.
      * intros x [<-|X]; [now left|exact (WO x X)].
Qed.
Theorem capi_picture pw sp fresh bits types srcs w h ds : makes_bitmaps fresh -> 0 <= w -> 0 <= h ->
  Forall (showable pw sp w h types srcs) ds -> (forall c, bits c = is_16 (types c)) ->
  enabled ds <> [] -> Z.of_nat (length ds) <= 1024 -> Forall (fun e => weight_ok (s_weight (snd e))) (enabled ds) ->
  let mean := (setting_mean (enabled ds) * (inject_Z (Z.of_nat (length (enabled ds))) / inject_Z (Z.of_nat (length ds))))%Q in
  (b2 (-10) <= mean)%Q ->
  exists d mean', (mean' == mean)%Q /\ show_capi pw sp fresh bits types srcs ds = Ok d /\ bw d = w /\ bh d = h /\ picture_of pw sp mean' types srcs (enabled ds) d.
Proof.
  intros HF Hw Hh HS HB HN HL HWO mean HM. destruct (fill_good pw sp types srcs (fresh w h) bits ds) as (l & E & N & R & O & _).
  { eapply Forall_impl; [|exact HS]. intros e. now apply fresh_dims. }
  { exact HB. }
  destruct (shown_spec _ _ _ _ _ _ R) as (A & I & Q & T & WO). pose proof (Forall2_len _ _ _ R) as L.
  set (chs := chans types srcs l) in *.
  assert (HE : (0 < length (enabled ds))%nat) by (destruct (enabled ds); [contradiction|cbn [length]; lia]).
  assert (LE : (length (enabled ds) <= length ds)%nat) by (clear; induction ds as [|[c s] r IH]; [apply le_n|]; cbn [enabled filter snd length]; fold (enabled r); destruct (s_enabled s); cbn [length]; lia).
  assert (MM : (mean_weight chs == mean)%Q).
  { unfold mean_weight, mean, setting_mean. rewrite Q, <- L. field. split; intros X; change 0%Q with (inject_Z 0) in X; apply (proj1 (inject_Z_injective _ _)) in X; lia. }
  destruct (composed pw sp fresh types srcs w h ds chs HF Hw Hh) as (d & ct & st & C & D1 & D2 & P).
  - intros X. rewrite X in L. cbn [length] in L. lia.
  - now apply Forall_forall.
  - exact O.
  - split; [rewrite <- L; exact HL|]. split; [|rewrite MM; exact HM]. intros ch Hch. destruct (WO ch Hch) as [->|(e & He & ->)].
    + split; [split; reflexivity|left; reflexivity].
    + rewrite Forall_forall in HWO. exact (HWO e He).
  - exists d, (mean_weight chs). split; [exact MM|]. unfold show_capi. rewrite E. cbn [bind]. fold chs. unfold compose_capi. replace (Z.of_nat (length chs) <=? 0) with false by lia.
    split; [exact C|]. split; [exact D1|]. split; [exact D2|]. exists (shown ds chs), ct, st. split; [exact A|]. intros x y Hx Hy.
    destruct (P x y Hx Hy) as [P1 P2]. split; [|intros ch Hch; apply P2; exact (I ch Hch)].
    rewrite P1, (T (fun ch => st ch x y)); [reflexivity|]. intros ch Hch _ W0. destruct (P2 ch Hch) as [_ P3]. rewrite W0 in P3. cbn [f_zero sfQ] in P3.
    destruct (ct ch x y) as [[c1 c2] c3], (st ch x y) as [[s1 s2] s3]. cbn [map3] in P3. destruct P3 as (X1 & X2 & X3).
    apply weighted_zero in X1, X2, X3. now subst.
Qed.
