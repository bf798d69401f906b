From Verif Require Import Base RectModel RectProofs CopyModel MemProofs CopyProofs HiLoModel HiLoProofs PixelModel PixelSpec FloatProofs.
From Coq Require Import QArith Qabs Lqa Floats.SpecFloat.
Open Scope Z_scope.

(** ** representation of floats *)
Lemma f32_bits_ok x : nn 24 128 x -> 0 <= f32_bits x < 2 ^ 31 /\ (f32_val (f32_bits x) == sfQ x)%Q /\
  (forall E, E <= 127 -> (b2 (E + 23) <= sfQ x)%Q \/ E = -149 -> (b2 E <= f32_ulp (f32_bits x))%Q).
Proof.
  intros Hx. pose proof Hx as [V S]. destruct x as [s|s| |s m e]; try contradiction; subst s.
  - split; [cbn; lia|]. split; [reflexivity|]. intros E HE [H|H].
    + cbn [sfQ] in H. pose proof (b2_pos (E + 23)). lra.
    + subst E. apply Qle_refl.
  - destruct (nn_bounds 24 128 m e Hx) as [C U].
    pose proof (digits2_pos_spec m) as D.
    unfold SpecFloat.fexp, emin in C. assert (Dm : Zpos (digits2_pos m) <= 24) by lia.
    assert (Hm : Zpos m < 2 ^ 24) by (pose proof (pow2_mono (Zpos (digits2_pos m)) 24); lia).
    change (2 ^ 24) with 16777216 in *.
    unfold f32_bits, f32_val, f32_ulp, f32_exp. change (2 ^ 23) with 8388608. change (2 ^ 31) with 2147483648.
    destruct (8388608 <=? Zpos m) eqn:Em.
    + assert (Hr : 0 + ((e + 150) * 8388608 + (Zpos m - 8388608)) = (e + 150) * 8388608 + (Zpos m - 8388608)) by lia. rewrite Hr.
      assert (E1 : ((e + 150) * 8388608 + (Zpos m - 8388608)) / 8388608 = e + 150) by (rewrite Z.div_add_l by lia; rewrite Z.div_small by lia; lia).
      assert (E2 : ((e + 150) * 8388608 + (Zpos m - 8388608)) mod 8388608 = Zpos m - 8388608) by (rewrite Z.add_comm, Z.mod_add by lia; apply Z.mod_small; lia).
      rewrite E1, E2. rewrite (Z.mod_small (e + 150)) by lia.
      assert (E3 : ((e + 150) * 8388608 + (Zpos m - 8388608)) / 2147483648 = 0) by (apply Z.div_small; lia).
      rewrite E3. cbn [Z.eqb]. destruct (e + 150 =? 0) eqn:E0; [lia|]. split; [lia|]. split.
      * replace (8388608 + (Zpos m - 8388608)) with (Zpos m) by lia. replace (e + 150 - 150) with e by lia. reflexivity.
      * intros E HE H. apply b2_le. destruct H as [H|H]; [|lia].
        pose proof (digits_bounds m e) as [_ D2]. cbn [sfQ] in H.
        assert (E + 23 < Zpos (digits2_pos m) + e) by (apply b2_lt_inv; eapply Qle_lt_trans; eassumption). lia.
    + assert (Dl : Zpos (digits2_pos m) <= 23) by (apply digits2_le; [lia|change (2 ^ 23) with 8388608; lia]).
      assert (e = -149) by lia. subst e.
      rewrite (Z.add_0_l (Zpos m)). rewrite (Z.div_small (Zpos m) 8388608), (Z.mod_small (Zpos m) 8388608), (Z.div_small (Zpos m) 2147483648) by lia.
      change (0 mod 256) with 0. cbn [Z.eqb]. split; [lia|]. split; [reflexivity|]. intros E HE H. apply b2_le. destruct H as [H|H]; [|lia].
      pose proof (digits_bounds m (-149)) as [_ D2]. cbn [sfQ] in H.
      assert (E + 23 < Zpos (digits2_pos m) + -149) by (apply b2_lt_inv; eapply Qle_lt_trans; eassumption). lia.
Qed.

Lemma bf32_len f : length (bf32 f) = 4%nat.
Proof. apply le_length. Qed.

Lemma bf32_val f : nn 24 128 f -> comps Gray32F (bf32 f) = [f32_bits f].
Proof.
  intros H. destruct (f32_bits_ok f H) as [R _]. change (2 ^ 31) with 2147483648 in R. unfold bf32, comps. cbn [le nth]. f_equal. lia.
Qed.

Lemma f32_of_Z_ok n : 0 <= n < 2 ^ 24 -> nn 24 128 (f32_of_Z n) /\ (sfQ (f32_of_Z n) == inject_Z n)%Q.
Proof. intros H. apply (sf_of_Z_exact 24 128); lia. Qed.

(** division of a small integer by three, correctly rounded *)
Lemma div3_ok n : 0 <= n < 2 ^ 24 ->
  let r := f32_div (f32_of_Z n) (f32_of_Z 3) in
  nn 24 128 r /\ (Qabs (f32_val (f32_bits r) - inject_Z n / 3) <= f32_ulp (f32_bits r) * (1 # 2))%Q.
Proof.
  intros H. cbv zeta. destruct (f32_of_Z_ok n H) as [N1 Q1]. destruct (f32_of_Z_ok 3 ltac:(lia)) as [N3 Q3].
  destruct (Z.eq_dec n 0) as [->|Hn].
  - split; [split; reflexivity|]. vm_compute. discriminate.
  - assert (Q3' : (sfQ (f32_of_Z 3) == 3)%Q) by exact Q3.
    assert (X : (sfQ (f32_of_Z n) / sfQ (f32_of_Z 3) == inject_Z n / 3)%Q) by (rewrite Q1, Q3'; reflexivity).
    assert (P1 : (1 <= inject_Z n)%Q) by (change 1%Q with (inject_Z 1); apply injZ_le; lia).
    assert (P2 : (inject_Z n <= 16777216)%Q) by (change 16777216%Q with (inject_Z 16777216); apply injZ_le; lia).
    assert (E3 : (inject_Z n / 3 == inject_Z n * (1 # 3))%Q) by reflexivity.
    assert (B1 : (b2 (emin 24 128) <= 1 # 3)%Q) by (vm_compute; discriminate).
    assert (B2 : (16777216 < b2 25)%Q) by (vm_compute; reflexivity).
    assert (O : op_ok 24 128 (inject_Z n / 3) 25 (f32_div (f32_of_Z n) (f32_of_Z 3))).
    { eapply op_ok_eq; [exact X|]. apply SFdiv_op; try lia; try assumption.
      all: first [rewrite X, E3; lra | rewrite Q3'; reflexivity]. }
    destruct O as (A & E & HE & HC & R). split; [exact A|].
    destruct (f32_bits_ok _ A) as (_ & V & UL).
    assert (Hu : (b2 E <= f32_ulp (f32_bits (f32_div (f32_of_Z n) (f32_of_Z 3))))%Q).
    { apply UL; [unfold SpecFloat.fexp, emin in HE; lia|]. destruct HC as [->|HC]; [now right|left].
      assert (G : (inject_Z 1 * b2 (E + 23) <= sfQ (f32_div (f32_of_Z n) (f32_of_Z 3)))%Q).
      { eapply rnd_ge; [exact R|lia|]. replace (E + 23) with (E + 24 - 1) by lia. change (inject_Z 1) with 1%Q. rewrite Qmult_1_l. exact HC. }
      change (inject_Z 1) with 1%Q in G. rewrite Qmult_1_l in G. exact G. }
    destruct R as (k & _ & Ha). rewrite V. eapply Qle_trans; [exact Ha|]. apply Qmult_le_compat_r; [exact Hu|discriminate].
Qed.

(** ** loads *)
Lemma ld8_ok m sz off : 0 <= off -> off + 1 <= sz -> ld8 m sz off = Ok (m off).
Proof. intros A B. unfold ld8. rewrite ld_ok by (cbn; lia). reflexivity. Qed.
Lemma ld16_ok m sz off : 0 <= off -> off + 2 <= sz -> ld16 m sz off = Ok (m off + 256 * m (off + 1)).
Proof. intros A B. unfold ld16. rewrite ld_ok by (cbn; lia). cbn [bind mread unle]. f_equal. lia. Qed.

Lemma c16_b16 a : 0 <= a < 65536 -> nth 0 (b16 a) 0 + 256 * nth 1 (b16 a) 0 = a.
Proof. intros H. unfold b16, u16. change (2 ^ 16) with 65536. cbn [le nth]. lia. Qed.

Definition supported (s d : px) : bool :=
  match conv_load s d (fun _ => 0) 0 0 with Some _ => true | None => false end.

Definition g16 (m : mem) (off : Z) : Z := m off + 256 * m (off + 1).
Lemma comps_mread t m off : comps t (mread m off (Z.to_nat (bpp_of t))) =
  match t with
  | Gray8 => [m off] | Gray16 => [g16 m off]
  | Gray32F => [m off + 256 * m (off + 1) + 65536 * m (off + 2) + 16777216 * m (off + 3)]
  | Bgr24 => [m off; m (off + 1); m (off + 2)] | Bgra32 => [m off; m (off + 1); m (off + 2); m (off + 3)]
  | Bgr48 => [g16 m off; g16 m (off + 2); g16 m (off + 4)]
  end.
Proof.
  destruct t; cbn [bpp_of comps]; unfold c16, g16; rewrite !mread_nth by lia;
  repeat (f_equal; try lia).
Qed.

Lemma comps_b8_1 a : 0 <= a < 256 -> comps Gray8 (b8 a) = [a].
Proof. intros. unfold b8, u8, comps. cbn [nth]. now rewrite Z.mod_small by lia. Qed.
Lemma comps_b8_3 a b c : 0 <= a < 256 -> 0 <= b < 256 -> 0 <= c < 256 -> comps Bgr24 (b8 a ++ b8 b ++ b8 c) = [a; b; c].
Proof. intros. unfold b8, u8, comps. cbn [nth app]. now rewrite !Z.mod_small by lia. Qed.
Lemma comps_b16_1 a : 0 <= a < 65536 -> comps Gray16 (b16 a) = [a].
Proof. intros. unfold b16, u16, comps, c16. change (2 ^ 16) with 65536. cbn [nth le Nat.mul Nat.add]. f_equal. lia. Qed.
Lemma comps_b16_3 a b c : 0 <= a < 65536 -> 0 <= b < 65536 -> 0 <= c < 65536 -> comps Bgr48 (b16 a ++ b16 b ++ b16 c) = [a; b; c].
Proof.
  intros. unfold b16, u16, comps, c16. change (2 ^ 16) with 65536. cbn [nth le Nat.mul Nat.add app].
  repeat (f_equal; try lia).
Qed.

Lemma conv_load_ok s d m sz off : byte_mem m -> 0 <= off -> off + bpp_of s <= sz ->
  supported s d = true -> (s = Bgr24 /\ d = Bgr48 -> False) ->
  exists v, conv_load s d m sz off = Some (Ok v) /\ length v = Z.to_nat (bpp_of d) /\
            conv_spec s d (mread m off (Z.to_nat (bpp_of s))) v.
Proof.
  intros B H0 H1 Hs Hn. unfold byte_mem, is_byte in B.
  assert (G : forall o, 0 <= g16 m o < 65536) by (intros o; unfold g16; pose proof (B o); pose proof (B (o + 1)); lia).
  destruct s, d; try discriminate Hs; cbn [bpp_of] in H1; cbn [conv_load];
    try (exfalso; apply Hn; split; reflexivity);
    rewrite ?ld8_ok, ?ld16_ok by lia; cbn [bind];
    (eexists; split; [reflexivity|]; split; [rewrite ?app_length, ?bf32_len; unfold b8, b16; rewrite ?le_length; reflexivity|]);
    unfold conv_spec; cbn [is_color is_16 andb negb]; rewrite comps_mread;
    change (m off + 256 * m (off + 1)) with (g16 m off);
    try (change (m (off + 2) + 256 * m (off + 2 + 1)) with (g16 m (off + 2)); change (m (off + 4) + 256 * m (off + 4 + 1)) with (g16 m (off + 4)));
    pose proof (B off); pose proof (B (off + 1)); pose proof (B (off + 2));
    pose proof (G off); pose proof (G (off + 2)); pose proof (G (off + 4)).
  - rewrite comps_b16_1 by lia. reflexivity.
  - destruct (f32_of_Z_ok (m off) ltac:(lia)) as [N1 Q1]. eexists. split; [apply bf32_val, N1|].
    destruct (f32_bits_ok _ N1) as (_ & V & _). rewrite V, Q1. cbn [sum fold_right]. now rewrite Z.add_0_r.
  - exists (m off). rewrite comps_b8_3 by lia. now split.
  - exists (m off). rewrite comps_b16_3 by lia. now split.
  - rewrite comps_b8_1 by lia. reflexivity.
  - destruct (f32_of_Z_ok (g16 m off) ltac:(lia)) as [N1 Q1]. eexists. split; [apply bf32_val, N1|].
    destruct (f32_bits_ok _ N1) as (_ & V & _). rewrite V, Q1. cbn [sum fold_right]. now rewrite Z.add_0_r.
  - exists (g16 m off). rewrite comps_b8_3 by lia. now split.
  - exists (g16 m off). rewrite comps_b16_3 by lia. now split.
  - eexists. split; [apply comps_b8_1; lia|]. cbn [sum fold_right]. lia.
  - eexists. split; [apply comps_b16_1; unfold u8; lia|]. unfold u8. rewrite Z.mod_small by lia. cbn [sum fold_right]. lia.
  - destruct (div3_ok (m off + m (off + 1) + m (off + 2)) ltac:(lia)) as [N1 Q1]. eexists. split; [apply bf32_val, N1|].
    cbn [sum fold_right]. replace (m off + (m (off + 1) + (m (off + 2) + 0))) with (m off + m (off + 1) + m (off + 2)) by lia. exact Q1.
  - eexists. split; [apply comps_b8_1; lia|]. cbn [sum fold_right]. lia.
  - eexists. split; [apply comps_b16_1; lia|]. cbn [sum fold_right]. lia.
  - destruct (div3_ok (g16 m off + g16 m (off + 2) + g16 m (off + 4)) ltac:(lia)) as [N1 Q1]. eexists. split; [apply bf32_val, N1|].
    cbn [sum fold_right]. replace (g16 m off + (g16 m (off + 2) + (g16 m (off + 4) + 0))) with (g16 m off + g16 m (off + 2) + g16 m (off + 4)) by lia. exact Q1.
  - rewrite comps_b8_3 by lia. reflexivity.
Qed.

(** ** loops *)
Lemma copy_loop_ok f dr sr w h src dst (P : bytes -> bytes -> Prop) : region_ok dr w h -> region_ok sr w h ->
  (forall off, 0 <= off -> off + g_bpp sr <= g_size sr ->
     exists v, f src (g_size sr) off = Ok v /\ length v = Z.to_nat (g_bpp dr) /\ P (mread src off (Z.to_nat (g_bpp sr))) v) ->
  exists m' g, copy_loop f dr sr w h src dst = Ok m' /\ block_post dr w h (fun r c => Some (g r c)) dst m' /\
    forall r c, 0 <= r < h -> 0 <= c < w -> P (mread src (g_off sr + r * g_stride sr + c * g_bpp sr) (Z.to_nat (g_bpp sr))) (g r c).
Proof.
  intros Hd Hs Hf.
  set (g := fun r c => match f src (g_size sr) (g_off sr + r * g_stride sr + c * g_bpp sr) with
                       | Ok v => if (length v =? Z.to_nat (g_bpp dr))%nat then v else repeat 0 (Z.to_nat (g_bpp dr))
                       | _ => repeat 0 (Z.to_nat (g_bpp dr)) end).
  assert (Hg : forall r c, 0 <= r < h -> 0 <= c < w ->
     f src (g_size sr) (g_off sr + r * g_stride sr + c * g_bpp sr) = Ok (g r c) /\
     P (mread src (g_off sr + r * g_stride sr + c * g_bpp sr) (Z.to_nat (g_bpp sr))) (g r c)).
  { intros r c Hr Hc. destruct (region_pix_in sr w h r c Hs Hr Hc) as [A1 A2].
    destruct (Hf _ A1 A2) as (v & E & L & HP). unfold g. rewrite E, L, Nat.eqb_refl. split; [reflexivity|exact HP]. }
  assert (Hl : forall r c, length (g r c) = Z.to_nat (g_bpp dr)).
  { intros r c. unfold g. destruct (f _ _ _) as [v| | |]; try apply repeat_length.
    destruct (length v =? _)%nat eqn:E; [apply Nat.eqb_eq, E|apply repeat_length]. }
  exists (apply_writes dst (pix_writes dr w h (fun r c => Some (g r c)))), g. split; [|split].
  - unfold copy_loop, pix_writes. apply for_loop_writes. intros y m Hy. apply for_loop_writes. intros x m' Hx.
    destruct (Hg y x ltac:(lia) ltac:(lia)) as [E _]. rewrite E. cbn [bind].
    pose proof (region_pix_in dr w h y x Hd ltac:(lia) ltac:(lia)). destruct Hd as (Hd0 & _).
    rewrite st_ok; [reflexivity|lia|rewrite Hl; lia].
  - apply pix_writes_post; [assumption|]. intros r c v [= <-]. apply Hl.
  - intros r c Hr Hc. now apply Hg.
Qed.

Lemma copy_px_conv_ok s d dr sr w h border src dst : s <> d -> supported s d = true -> (s = Bgr24 /\ d = Bgr48 -> False) ->
  region_ok dr w h -> region_ok sr w h -> g_bpp sr = bpp_of s -> g_bpp dr = bpp_of d -> byte_mem src ->
  exists m' g, copy_px s d dr sr w h border src dst = Ok m' /\ block_post dr w h (fun r c => Some (g r c)) dst m' /\
    forall r c, 0 <= r < h -> 0 <= c < w -> conv_spec s d (mread src (g_off sr + r * g_stride sr + c * g_bpp sr) (Z.to_nat (g_bpp sr))) (g r c).
Proof.
  intros Hne Hsup Hn Hd Hs Es Ed B.
  assert (Hc : copy_px s d dr sr w h border src dst =
     copy_loop (fun m sz off => match conv_load s d m sz off with Some r => r | None => Throw end) dr sr w h src dst).
  { unfold copy_px. replace (px_eqb s d) with false by (destruct s, d; try reflexivity; congruence).
    destruct s, d; try discriminate Hsup; reflexivity. }
  rewrite Hc. apply copy_loop_ok; try assumption. intros off H0 H1. rewrite Es, Ed in *.
  destruct (conv_load_ok s d src (g_size sr) off B H0 H1 Hsup Hn) as (v & E & L & C). rewrite E. now exists v.
Qed.

(** converting while copying one bitmap into another at an offset *)
Lemma copy_px_offset_ok s d border src dst xo yo : s <> d -> supported s d = true -> (s = Bgr24 /\ d = Bgr48 -> False) ->
  bmp_wf src -> bmp_wf dst -> bbpp src = bpp_of s -> bbpp dst = bpp_of d -> byte_mem (bdata src) ->
  exists d' v, copy_px_offset s d border src dst xo yo = Ok d' /\
    pix_post dst d' (fun x y =>
      if (0 <=? x - xo) && (x - xo <? bw src) && (0 <=? y - yo) && (y - yo <? bh src) then Some (v x y) else None) /\
    forall x y, 0 <= x < bw dst -> 0 <= y < bh dst -> 0 <= x - xo < bw src -> 0 <= y - yo < bh src ->
      conv_spec s d (pix src (x - xo) (y - yo)) (v x y).
Proof.
  intros Hne Hsup Hn Hs Hd Es Ed B. unfold copy_px_offset.
  set (i := intersect (mkRect xo yo (bw src) (bh src)) (mkRect 0 0 (bw dst) (bh dst))).
  assert (Hi : (rw i = 0 \/ rh i = 0) /\ (forall x y, 0 <= x < bw dst -> 0 <= y < bh dst ->
                   (0 <=? x - xo) && (x - xo <? bw src) && (0 <=? y - yo) && (y - yo <? bh src) = false)
            \/ (0 < rw i /\ 0 < rh i /\ rx i = Z.max xo 0 /\ ry i = Z.max yo 0 /\
                rx i + rw i = Z.min (xo + bw src) (bw dst) /\ ry i + rh i = Z.min (yo + bh src) (bh dst))).
  { unfold i, intersect; cbn [rx ry rw rh].
    destruct Hs as (? & ? & _), Hd as (? & ? & _).
    match goal with |- context [if ?c then _ else _] => destruct c eqn:E end; cbn [rx ry rw rh].
    - destruct (Z.eq_dec (Z.min (xo + bw src) (0 + bw dst) - Z.max xo 0) 0); [left; split; [lia|intros; lia]|].
      destruct (Z.eq_dec (Z.min (yo + bh src) (0 + bh dst) - Z.max yo 0) 0); [left; split; [lia|intros; lia]|].
      right. repeat split; lia.
    - left. split; [lia|intros; lia]. }
  destruct Hi as [[H0 Hz]|(Hw & Hh & Hx & Hy & Hxw & Hyh)].
  - replace ((rw i =? 0) || (rh i =? 0)) with true by lia. exists dst, (fun _ _ => []). split; [reflexivity|]. split.
    + split; [exists (bdata dst); now destruct dst|]. split; [|reflexivity]. intros x y Hxx Hyy. now rewrite Hz.
    + intros x y H1 H2 H3 H4. specialize (Hz x y H1 H2). lia.
  - replace ((rw i =? 0) || (rh i =? 0)) with false by lia.
    assert (RD := region_of_bmp dst (rx i) (ry i) (rw i) (rh i) Hd ltac:(lia) ltac:(lia) Hw Hh ltac:(lia) ltac:(lia)).
    assert (RS := region_of_bmp src (Z.max (- xo) 0) (Z.max (- yo) 0) (rw i) (rh i) Hs ltac:(lia) ltac:(lia) Hw Hh ltac:(lia) ltac:(lia)).
    destruct (copy_px_conv_ok s d _ _ (rw i) (rh i) border (bdata src) (bdata dst) Hne Hsup Hn RD RS Es Ed B) as (m' & g & -> & HP & HG).
    cbn [bind]. eexists; exists (fun x y => g (y - ry i) (x - rx i)). split; [reflexivity|]. split.
    + eapply block_to_pix; [exact Hd| | | | | | |exact HP|]; try lia.
      intros x y Hxx Hyy. cbn beta.
      replace ((rx i <=? x) && (x <? rx i + rw i) && (ry i <=? y) && (y <? ry i + rh i))
        with ((0 <=? x - xo) && (x - xo <? bw src) && (0 <=? y - yo) && (y - yo <? bh src)) by lia. reflexivity.
    + intros x y H1 H2 H3 H4. specialize (HG (y - ry i) (x - rx i) ltac:(lia) ltac:(lia)). cbn [g_off g_stride g_bpp] in HG.
      unfold pix, pix_off.
      replace ((y - yo) * bstride src + (x - xo) * bbpp src) with
        (Z.max (- yo) 0 * bstride src + Z.max (- xo) 0 * bbpp src + (y - ry i) * bstride src + (x - rx i) * bbpp src); [exact HG|].
      rewrite Hx, Hy. replace (y - yo) with (Z.max (- yo) 0 + (y - Z.max yo 0)) by lia.
      replace (x - xo) with (Z.max (- xo) 0 + (x - Z.max xo 0)) by lia. lia.
Qed.

(** the pairs of pixel types which are not supported are refused (unless nothing is to be copied) *)
Lemma copy_px_refused s d dr sr w h border src dst : s <> d -> supported s d = false -> copy_px s d dr sr w h border src dst = Throw.
Proof.
  intros Hne Hsup. unfold copy_px. replace (px_eqb s d) with false by (destruct s, d; try reflexivity; congruence).
  destruct s, d; try discriminate Hsup; try congruence; reflexivity.
Qed.
