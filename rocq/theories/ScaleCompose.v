From Coq Require Import QArith Qabs Qminmax Lqa Permutation Sorted Floats.SpecFloat.
From Verif Require Import Base RectModel CodecModel CopyModel MemProofs CopyProofs TextModel CoordModel CoordSpec CoordProofs OrderProofs StatModel StatSpec PixelModel PixelSpec PixelProofs FloatProofs SFloatProofs FillProofs AccessModel AccessSpec ComposeExamples AccessCompose ScaleModel ScaleNum ScaleSpec ScaleProofs.
From Verif Require CompositorProofs.
Open Scope Z_scope.

(** ** Zooms *)
Notation nn32 := (nn 24 128).
Lemma b2_val z : (b2 z == Qpower 2 z)%Q. Proof. reflexivity. Qed.
Lemma zoom_pos i : zoom_sizes i -> nn32 (sb_zoom i) /\ (b2 (-21) <= zoomQ i <= b2 21)%Q.
Proof.
  intros (A & B & C & D).
  assert (G : forall p l, extent_ok p -> extent_ok l -> nn32 (f32_div (f32_of_Z p) (f32_of_Z l)) /\ (b2 (-21) <= sfQ (f32_div (f32_of_Z p) (f32_of_Z l)) <= b2 21)%Q).
  { intros p l Hp Hl. destruct (f32_of_Z_ok p ltac:(unfold extent_ok in Hp; lia)) as [Np Ep]. destruct (f32_of_Z_ok l ltac:(unfold extent_ok in Hl; lia)) as [Nl El].
    destruct (size_Q p Hp) as [P1 P2]. destruct (size_Q l Hl) as [L1 L2].
    assert (E21 : (b2 21 == 2097152)%Q) by reflexivity. assert (Em : (b2 (-21) == 1 # 2097152)%Q) by reflexivity.
    assert (XL : ((1 # 1048576) <= sfQ (f32_of_Z p) / sfQ (f32_of_Z l))%Q) by (apply Qle_div; lra).
    assert (XU : (sfQ (f32_of_Z p) / sfQ (f32_of_Z l) <= 1048576)%Q) by (apply Qdiv_le; lra).
    assert (EE : (b2 (emin 24 128) <= 1 # 1048576)%Q) by (vm_compute; discriminate).
    pose proof (SFdiv_op 24 128 ltac:(reflexivity) ltac:(lia) _ _ 21 Np Nl ltac:(lra) ltac:(lra) ltac:(lra) ltac:(lia)) as O.
    fold (f32_div (f32_of_Z p) (f32_of_Z l)) in O. split; [apply O|]. apply (sop_of_op 24 128) in O; [|lra]. apply (sop_rel 24 128) in O; try reflexivity; try lia.
    set (r := sfQ (f32_div (f32_of_Z p) (f32_of_Z l))) in *. set (X := (sfQ (f32_of_Z p) / sfQ (f32_of_Z l))%Q) in *. rewrite (Qabs_pos X) in O by lra. apply Qabs_Qle_condition in O.
    assert (B1 : (b2 (- (24)) == 1 # 16777216)%Q) by reflexivity. assert (B2 : (b2 (emin 24 128 - 1) <= 1 # 16777216)%Q) by (vm_compute; discriminate).
    rewrite B1 in O. lra. }
  unfold zoomQ, sb_zoom, calc_zoom. destruct (sb_ph i <? sb_pw i); now apply G.
Qed.
Lemma nn_105 : nn32 single_105 /\ (1 <= sfQ single_105 <= 2)%Q.
Proof. split; [split; reflexivity|]. split; vm_compute; discriminate. Qed.
Lemma nn_19 : nn32 single_19 /\ ((3 # 2) <= sfQ single_19 <= 2)%Q.
Proof. split; [split; reflexivity|]. split; vm_compute; discriminate. Qed.
Lemma limit_nn zoom : zoom_range zoom -> nn32 (f32_div zoom single_105).
Proof.
  intros [N [L U]]. destruct nn_105 as [Nc [C1 C2]].
  assert (EE : (b2 (emin 24 128) <= b2 (-24) / 2)%Q) by (vm_compute; discriminate). assert (E25 : (b2 24 < b2 25)%Q) by reflexivity. pose proof (b2_pos (-24)).
  apply (SFdiv_op 24 128 ltac:(reflexivity) ltac:(lia) zoom single_105 25 N Nc); [lra| | |lia].
  - apply Qle_trans with (b2 (-24) / 2)%Q; [exact EE|]. apply Qle_div; [lra|].
    apply Qle_trans with (b2 (-24) / 2 * 2)%Q; [apply Qmult_le_l'; [unfold Qdiv; apply Qmult_le_0_compat; [lra|discriminate]|lra]|]. setoid_replace (b2 (-24) / 2 * 2)%Q with (b2 (-24)) by (field; discriminate). exact L.
  - apply Qle_lt_trans with (b2 24); [|exact E25]. apply Qdiv_le; [lra|]. apply Qle_trans with (b2 24 * 1)%Q; [lra|]. pose proof (b2_pos 24). apply Qmult_le_l'; lra.
Qed.
Lemma tripled i : zoom_sizes i -> nn32 (f32_mul (sb_zoom i) single_19) /\ (zoomQ i < sfQ (f32_mul (sb_zoom i) single_19))%Q.
Proof.
  intros Z. destruct (zoom_pos i Z) as [N [L U]]. destruct nn_19 as [Nc [C1 C2]]. unfold zoomQ in *. set (z := sb_zoom i) in *. clearbody z. pose proof (b2_pos (-21)) as P.
  assert (X1 : (sfQ z * (3 # 2) <= sfQ z * sfQ single_19)%Q) by (apply Qmult_le_l'; lra).
  assert (X2 : (sfQ z * sfQ single_19 <= sfQ z * 2)%Q) by (apply Qmult_le_l'; lra).
  assert (E : (b2 21 == 2097152)%Q) by reflexivity. assert (E2 : (b2 23 == 8388608)%Q) by reflexivity.
  pose proof (SFmul_op 24 128 ltac:(reflexivity) ltac:(lia) z single_19 23 N Nc ltac:(lra) ltac:(lia)) as O. fold (f32_mul z single_19) in O.
  split; [apply O|]. apply (sop_of_op 24 128) in O; [|lra]. apply (sop_rel 24 128) in O; try reflexivity; try lia.
  set (r := sfQ (f32_mul z single_19)) in *. set (X := (sfQ z * sfQ single_19)%Q) in *. rewrite (Qabs_pos X) in O by lra. apply Qabs_Qle_condition in O.
  assert (B1 : (b2 (- (24)) == 1 # 16777216)%Q) by reflexivity. assert (B2 : (b2 (emin 24 128 - 1) <= 1 # 16777216)%Q) by (vm_compute; discriminate).
  assert (B3 : (b2 (-21) == 1 # 2097152)%Q) by reflexivity. rewrite B1 in O. lra.
Qed.

(** ** Which sub-blocks are drawn *)
Notation item := (Z * sbinfo)%type.
Lemma leb_Q x i : nn32 x -> zoom_sizes i -> SFleb x (sb_zoom i) = Qle_bool (sfQ x) (zoomQ i).
Proof. intros H Z. apply (nn_leb 24 128); [exact H|apply zoom_pos, Z]. Qed.
Section Chosen.
  Variable zoom : f32.
  Hypothesis Hz : zoom_range zoom.
  Notation lim := (sfQ (f32_div zoom single_105)).
  Notation rising := (StronglySorted (fun a b : item => (zoomQ (snd a) <= zoomQ (snd b))%Q)).

  Lemma below_zoom_ok z l : nn32 z -> (forall k i, In (k, i) l -> zoom_sizes i) -> rising l ->
    (forall k i, In (k, i) (below_zoom z l) <-> In (k, i) l /\ (zoomQ i < sfQ z)%Q) /\ (forall R, StronglySorted R l -> StronglySorted R (below_zoom z l)).
  Proof.
    intros Nz. induction l as [|[k0 i0] l IH]; intros Zs S; [split; [cbn; tauto|auto]|]. inversion S as [|? ? S1 S2]; subst.
    destruct IH as [I1 I2]; [intros k i H; apply (Zs k); now right|exact S1|]. cbn [below_zoom snd]. rewrite leb_Q; [|exact Nz|apply (Zs k0); now left].
    destruct (Qle_bool (sfQ z) (zoomQ i0)) eqn:E.
    - apply Qle_bool_iff in E. split; [|intros R _; constructor]. intros k i. split; [intros []|]. intros [H1 H2]. destruct H1 as [H1|H1].
      + injection H1 as <- <-. lra.
      + rewrite Forall_forall in S2. apply S2 in H1. cbn [snd] in H1. lra.
    - assert (E' : (zoomQ i0 < sfQ z)%Q) by (apply Qnot_le_lt; intros C; apply Qle_bool_iff in C; congruence). split.
      + intros k i. cbn [In]. rewrite I1. split; [intros [H|[H1 H2]]; [injection H as <- <-; auto|auto]|]. intros [[H|H] H2]; auto.
      + intros R SR. inversion SR as [|? ? R1 R2]; subst. constructor; [now apply I2|]. rewrite Forall_forall in *. intros [k i] H. apply I1 in H. now apply R2.
  Qed.
  Lemma from_zoom_ok l : (forall k i, In (k, i) l -> zoom_sizes i) -> rising l ->
    (forall k i, In (k, i) (from_zoom (f32_div zoom single_105) l) <-> In (k, i) l /\ (lim <= zoomQ i)%Q) /\ (forall R, StronglySorted R l -> StronglySorted R (from_zoom (f32_div zoom single_105) l)).
  Proof.
    induction l as [|[k0 i0] l IH]; intros Zs S; [split; [cbn; tauto|auto]|]. inversion S as [|? ? S1 S2]; subst.
    destruct IH as [I1 I2]; [intros k i H; apply (Zs k); now right|exact S1|]. cbn [from_zoom snd]. rewrite leb_Q; [|now apply limit_nn|apply (Zs k0); now left].
    destruct (Qle_bool lim (zoomQ i0)) eqn:E.
    - apply Qle_bool_iff in E. split; [|auto]. intros k i. split; [|tauto]. intros H. split; [exact H|]. destruct H as [H|H]; [injection H as <- <-; exact E|].
      rewrite Forall_forall in S2. apply S2 in H. cbn [snd] in H. lra.
    - assert (E' : (zoomQ i0 < lim)%Q) by (apply Qnot_le_lt; intros C; apply Qle_bool_iff in C; congruence). split.
      + intros k i. rewrite I1. cbn [In]. split; [tauto|]. intros [[H|H] H2]; [injection H as <- <-; lra|tauto].
      + intros R SR. inversion SR; subst. now apply I2.
  Qed.
  Theorem chosen_ok l : (forall k i, In (k, i) l -> zoom_sizes i) -> rising l ->
    (forall k i, In (k, i) (chosen zoom l) <-> level zoom (fun _ _ => True) (fun k i => In (k, i) l) k i) /\ (forall R, StronglySorted R l -> StronglySorted R (chosen zoom l)).
  Proof.
    intros Zs S. destruct (from_zoom_ok l Zs S) as [F1 F2]. pose proof (F2 _ S) as FS. unfold chosen. change f_105 with single_105. change f_19 with single_19.
    destruct (from_zoom (f32_div zoom single_105) l) as [|[k0 i0] l'] eqn:E.
    - split; [|intros; constructor]. intros k i. split; [intros []|]. intros [H _]. apply (F1 k i) in H. destruct H.
    - inversion FS as [|? ? S1 S2]; subst. rewrite Forall_forall in S2. cbn [snd] in *.
      assert (Z0 : zoom_sizes i0) by (apply (Zs k0), (F1 k0 i0); now left). destruct (tripled i0 Z0) as [N0 T0].
      destruct (below_zoom_ok (f32_mul (sb_zoom i0) single_19) l' N0) as [B1 B2]; [intros k i H; apply (Zs k), (F1 k i); now right|exact S1|].
      assert (Min : forall k i, fine zoom (fun k i => In (k, i) l) k i -> (zoomQ i0 <= zoomQ i)%Q).
      { intros k i H. apply (F1 k i) in H. destruct H as [H|H]; [injection H as <- <-; lra|]. apply (S2 (k, i) H). }
      split.
      + intros k i. cbn [In]. rewrite B1. split.
        * intros H. assert (I : In (k, i) ((k0, i0) :: l') /\ (zoomQ i < sfQ (f32_mul (sb_zoom i0) single_19))%Q).
          { destruct H as [H|[H1 H2]]; [injection H as <- <-; split; [now left|exact T0]|split; [now right|exact H2]]. }
          destruct I as [I1 I2]. split; [apply F1, I1|]. exists k0, i0. split; [apply F1; now left|]. split; [exact Logic.I|]. split; [|exact I2]. intros k' i' H' _. exact (Min k' i' H').
        * intros [H1 (k1 & i1 & H2 & _ & H3 & H4)]. apply (F1 k i) in H1. destruct H1 as [H1|H1]; [now left|]. right. split; [exact H1|].
          assert (Q0 : (zoomQ i1 <= zoomQ i0)%Q) by (apply (H3 k0 i0); [apply F1; now left|exact Logic.I]). pose proof (Min k1 i1 H2) as Q1.
          (* equal zooms *)
          assert (EQ : sb_zoom i1 = sb_zoom i0).
          { assert (Z1 : zoom_sizes i1) by (apply (Zs k1), H2). apply CompositorProofs.nn_inj; [apply zoom_pos, Z1|apply zoom_pos, Z0|]. unfold zoomQ in *. lra. }
          rewrite <- EQ. exact H4.
      + intros R SR. pose proof (F2 R SR) as FR. inversion FR as [|? ? R1 R2]; subst. constructor; [now apply B2|]. rewrite Forall_forall in *. intros [k i] H. apply B1 in H. now apply R2.
  Qed.
End Chosen.

(** ** Drawing a list *)
Section Draw.
  Variable bitmap : Z -> bmp * option mask * copy_kind.
  Variable zoom : f32.
  Variable roi : rect.
  Hypothesis Hne : SFeqb zoom (f32_of_Z 1) = false.
  Definition val (dst : bmp) (it : item) : Z -> Z -> option bytes := scaled_value bitmap (fst it) (axis_map (x_axis (snd it) roi dst)) (axis_map (y_axis (snd it) roi dst)).
  Definition has (dst : bmp) (x y : Z) (it : item) : bool := match val dst it x y with Some _ => true | None => false end.

  Lemma draw_values l : forall dst, bmp_wf dst -> (forall k i, In (k, i) l -> drawable bitmap roi dst k i) ->
    exists m, draw bitmap zoom roi l dst = Ok (bwith dst m) /\ forall x y, 0 <= x < bw dst -> 0 <= y < bh dst ->
      match find (has dst x y) (rev l) with Some it => val dst it x y = Some (pix (bwith dst m) x y) | None => pix (bwith dst m) x y = pix dst x y end.
  Proof.
    induction l as [|[k i] l IH]; intros dst W D.
    - exists (bdata dst). split; [destruct dst; reflexivity|]. intros x y _ _. destruct dst; reflexivity.
    - destruct (D k i (or_introl eq_refl)) as (D1 & D2 & D3). destruct (scale_blt_ok bitmap zoom roi dst k i Hne W D1 D2 D3) as (d1 & E1 & (m1 & ->) & P1 & _).
      destruct (IH (bwith dst m1)) as (m & E2 & P2); [destruct dst; exact W|intros k' i' H; exact (D k' i' (or_intror H))|].
      exists m. split.
      + unfold draw in *. cbn [fold_left bind]. rewrite E1. exact E2.
      + intros x y Hx Hy. specialize (P2 x y Hx Hy). specialize (P1 x y Hx Hy). cbn [rev]. rewrite find_app.
        change (has (bwith dst m1) x y) with (has dst x y) in P2. destruct (find (has dst x y) (rev l)) as [it|]; [exact P2|].
        assert (P1' : pix (bwith dst m1) x y = match val dst (k, i) x y with Some b => b | None => pix dst x y end) by exact P1.
        change (bwith (bwith dst m1) m) with (bwith dst m) in P2. cbn [find]. unfold has at 1. destruct (val dst (k, i) x y) as [b|] eqn:V; [rewrite V; f_equal; congruence|congruence].
  Qed.
  Theorem draw_ok R l dst : StronglySorted R l -> bmp_wf dst -> (forall k i, In (k, i) l -> drawable bitmap roi dst k i) ->
    exists m, draw bitmap zoom roi l dst = Ok (bwith dst m) /\
      scaled_picture axis_map bitmap roi (fun k i => In (k, i) l) (fun a b => b = a \/ R b a) (pix dst) (bwith dst m).
  Proof.
    intros S W D. destruct (draw_values l dst W D) as (m & E & P). exists m. split; [exact E|]. unfold scaled_picture. intros x y Hx Hy. specialize (P x y Hx Hy).
    destruct (find (has dst x y) (rev l)) as [[k i]|] eqn:F.
    - destruct (find_rev_top R _ _ _ S F) as (I1 & I2 & I3). left. exists k, i. split; [exact I1|]. split; [exact P|]. intros k' i' H1 H2. apply I3; [exact H1|].
      unfold has. match type of H2 with ?v <> None => change v with (val dst (k', i') x y) in H2 end. destruct (val dst (k', i') x y); congruence.
    - right. split; [|exact P]. intros k i H. pose proof (find_none_rev _ _ F (k, i) H) as N. unfold has in N. match goal with |- ?v = None => change v with (val dst (k, i) x y) end. destruct (val dst (k, i) x y); [discriminate|reflexivity].
  Qed.
  Lemma draw_app l1 l2 dst d1 : draw bitmap zoom roi l1 dst = Ok d1 -> draw bitmap zoom roi (l1 ++ l2) dst = draw bitmap zoom roi l2 d1.
  Proof. unfold draw. intros H. rewrite fold_left_app, H. reflexivity. Qed.
End Draw.
Lemma scaled_picture_impl F bitmap roi (cand cand' : Z -> sbinfo -> Prop) (ab ab' : item -> item -> Prop) (back back' : Z -> Z -> bytes) d :
  (forall k i, cand k i <-> cand' k i) -> (forall a b, cand (fst a) (snd a) -> cand (fst b) (snd b) -> ab a b -> ab' a b) ->
  (forall x y, 0 <= x < bw d -> 0 <= y < bh d -> back x y = back' x y) ->
  scaled_picture F bitmap roi cand ab back d -> scaled_picture F bitmap roi cand' ab' back' d.
Proof.
  intros C A B P. unfold scaled_picture in *. intros x y Hx Hy. destruct (P x y Hx Hy) as [(k & i & H1 & H2 & H3)|[H1 H2]].
  - left. exists k, i. split; [now apply C|]. split; [exact H2|]. intros k' i' H4 H5. apply C in H4. apply A; auto.
  - right. split; [intros k i H; apply H1, C, H|]. rewrite H2. now apply B.
Qed.

(** ** The sorted subset *)
Section Subset.
  Variable sort_zoom_m sort_zoom : list item -> list item.
  Hypothesis Hm : sorts_by_zoom_m sort_zoom_m.
  Hypothesis Hs : sorts_by_zoom sort_zoom.

  Lemma ltb_Q i j : zoom_sizes i -> zoom_sizes j -> SFltb (sb_zoom i) (sb_zoom j) = true <-> (zoomQ i < zoomQ j)%Q.
  Proof. intros A B. apply (nn_ltb 24 128); apply zoom_pos; assumption. Qed.
  Lemma ltb_Q_false i j : zoom_sizes i -> zoom_sizes j -> SFltb (sb_zoom i) (sb_zoom j) = false <-> (zoomQ j <= zoomQ i)%Q.
  Proof.
    intros A B. pose proof (ltb_Q i j A B) as E. destruct (SFltb (sb_zoom i) (sb_zoom j)).
    - split; [discriminate|]. intros H. assert (zoomQ i < zoomQ j)%Q by now apply E. lra.
    - split; [|reflexivity]. intros _. apply Qnot_lt_le. intros C. apply E in C. discriminate.
  Qed.
  Lemma zoom_num i : zoom_sizes i -> is_num (sb_zoom i).
  Proof. intros Z. destruct (zoom_pos i Z) as [N _]. intros E. rewrite E in N. destruct N as [_ []]. Qed.

  (** sorted for drawing *)
  Definition before (sort_m : bool) (a b : item) : Prop := (zoomQ (snd a) <= zoomQ (snd b))%Q /\ finer_above sort_m b a.
  Lemma sorted_in {A} (R Q : A -> A -> Prop) l : (forall a b, In a l -> In b l -> R a b -> Q a b) -> StronglySorted R l -> StronglySorted Q l.
  Proof.
    intros H. induction 1 as [|a l S IH F]; [constructor|]. constructor; [apply IH; intros x y Hx Hy; apply H; now right|].
    rewrite Forall_forall in *. intros x Hx. apply H; [now left|now right|auto].
  Qed.
  Lemma sorted_subset (sort_m : bool) l : StronglySorted (fun a b : item => fst a < fst b) l -> (forall k i, In (k, i) l -> zoom_sizes i) ->
    (sort_m = true -> layered (fun i => exists k, In (k, i) l)) ->
    StronglySorted (before sort_m) (if sort_m then sort_zoom_m l else sort_zoom l) /\ forall x, In x (if sort_m then sort_zoom_m l else sort_zoom l) <-> In x l.
  Proof.
    intros S Z L.
    assert (P : Permutation l (if sort_m then sort_zoom_m l else sort_zoom l)).
    { destruct sort_m; [apply Hm; auto|]. apply Hs; [exact S|]. intros k i H. apply zoom_num, (Z k), H. }
    assert (I : forall x, In x (if sort_m then sort_zoom_m l else sort_zoom l) <-> In x l).
    { intros x. split; intros H; [eapply Permutation_in; [apply Permutation_sym|]|eapply Permutation_in]; eassumption. }
    split; [|exact I].
    destruct sort_m.
    - eapply sorted_in; [|apply Hm; auto]. intros [ka a] [kb b] Ha Hb. apply I in Ha, Hb. apply Z in Ha, Hb. cbn [snd]. unfold zoom_less. intros H.
      destruct (SFltb (sb_zoom b) (sb_zoom a)) eqn:E1; [discriminate|]. apply ltb_Q_false in E1; [|assumption..].
      split; [exact E1|]. unfold finer_above. cbn [fst snd]. destruct (SFltb (sb_zoom a) (sb_zoom b)) eqn:E2.
      + left. apply ltb_Q in E2; assumption.
      + apply ltb_Q_false in E2; [|assumption..]. right. split; [lra|]. intros Lb La. rewrite La, Lb in H. cbn [orb negb] in H. apply (m_key_above (kb, b) (ka, a)). unfold m_key. cbn [snd]. lia.
    - eapply sorted_in; [|apply Hs; [exact S|intros k i H; apply zoom_num, (Z k), H]]. intros [ka a] [kb b] Ha Hb. apply I in Ha, Hb. apply Z in Ha, Hb. cbn [fst snd].
      intros [H1 H2]. apply ltb_Q_false in H1; [|assumption..]. split; [exact H1|]. unfold finer_above. cbn [fst snd]. destruct H2 as [H2|H2].
      + left. apply ltb_Q in H2; assumption.
      + destruct (Qlt_le_dec (zoomQ a) (zoomQ b)); [now left|]. right. split; [lra|lia].
  Qed.

  Lemma scale_subset_ok sort_m plane allowed roi dir :
    let sc := option_map (fun l s => existsb (Z.eqb s) l) allowed in
    (forall k i, region_tile plane sc roi dir k i -> zoom_sizes i) ->
    (sort_m = true -> layered (fun i => exists k, region_tile plane sc roi dir k i)) ->
    StronglySorted (before sort_m) (scale_subset sort_zoom_m sort_zoom sort_m plane allowed roi dir) /\
    forall k i, In (k, i) (scale_subset sort_zoom_m sort_zoom sort_m plane allowed roi dir) <-> region_tile plane sc roi dir k i.
  Proof.
    intros sc Z L. unfold scale_subset. fold sc. cbv zeta. set (l := filter _ _).
    assert (I : forall k i, In (k, i) l <-> region_tile plane sc roi dir k i).
    { intros k i. unfold l. rewrite filter_In, enum_subset_exact, calls_all, filter_In, sub_block_indexed. cbn [snd].
      unfold selected, region_tile. cbn [negb orb]. rewrite !andb_true_iff, compare_coordinate_spec, do_intersect_spec. unfold scene_allowed. clearbody sc.
      assert (E : (match sc with Some p => match tget (sb_coord i) 5 with Some s => p s | None => true end | None => true end) = true <->
                  (forall p s, sc = Some p -> tget (sb_coord i) 5 = Some s -> p s = true)).
      { destruct sc as [p|]; [|split; [congruence|reflexivity]]. destruct (tget (sb_coord i) 5) as [s|]; [|split; [congruence|reflexivity]]. split; [intros H p' s' E1 E2; congruence|auto]. }
      destruct E as [Ea Eb]. split; [intros ((H1 & (H2 & H3) & H4) & H5); auto|intros (H1 & H2 & H3 & H4)]. split; [repeat (split; auto)|auto]. }
    destruct (sorted_subset sort_m l) as [S1 S2]; [apply selection_sorted|intros k i H; apply (Z k), I, H| |].
    - intros E. destruct (L E) as [L1 L2]. split; [intros a [k H]; apply L1; exists k; now apply I|]. intros a b [ka Ha] [kb Hb]. apply L2; [exists ka|exists kb]; now apply I.
    - split; [exact S1|]. intros k i. rewrite S2. apply I.
  Qed.
End Subset.

(** ** The accessor *)
Lemma level_ext zoom same (c c' : Z -> sbinfo -> Prop) k i : (forall k i, c k i <-> c' k i) -> level zoom same c k i <-> level zoom same c' k i.
Proof.
  intros E. assert (F : forall k i, fine zoom c k i <-> fine zoom c' k i) by (intros k1 i1; unfold fine; rewrite E; reflexivity). unfold level. rewrite F. split; intros [A (k0 & i0 & B1 & B2 & B3 & B4)]; (split; [exact A|]); exists k0, i0.
  - split; [now apply F|]. split; [exact B2|]. split; [intros k' i' H; apply (B3 k'), F, H|exact B4].
  - split; [now apply F|]. split; [exact B2|]. split; [intros k' i' H; apply (B3 k'), F, H|exact B4].
Qed.
Lemma involved_In st filter_s roi s : In s (involved st filter_s roi) <->
  exists b b0, In (s, (b, b0)) (st_scenes st) /\ (forall p, filter_s = Some p -> p s = true) /\ intersects_with b roi = true.
Proof.
  unfold involved. rewrite in_map_iff. split.
  - intros ((s' & b & b0) & <- & H). apply filter_In in H. destruct H as [H1 H2]. cbn [fst snd] in *. apply andb_true_iff in H2. destruct H2 as [H2 H3]. exists b, b0. split; [exact H1|]. split; [|exact H3]. intros p ->. exact H2.
  - intros (b & b0 & H1 & H2 & H3). exists (s, (b, b0)). split; [reflexivity|]. apply filter_In. split; [exact H1|]. cbn [fst snd]. rewrite H3, andb_true_r. destruct filter_s as [p|]; [now apply H2|reflexivity].
Qed.
Lemma region_involved st filter_s roi dir k i s p : scenes_known st dir -> region_tile p filter_s roi dir k i -> scene i = Some s -> In s (involved st filter_s roi).
Proof.
  intros [_ K] (H1 & _ & H3 & H4) Hs. destruct (K k i s H1 Hs) as (b & b0 & I & (E1 & E2 & E3 & E4)). apply involved_In. exists b, b0. split; [exact I|]. split; [intros p' Hp; exact (H4 p' s Hp Hs)|].
  destruct H3 as (x & y & Hr). unfold intersects_with, rvalid. 
  replace (negb ((0 <=? rw b) && (0 <=? rh b)) || negb ((0 <=? rw roi) && (0 <=? rh roi))) with false by lia. lia.
Qed.
Lemma involved_sorted st filter_s roi dir : scenes_known st dir -> StronglySorted Z.lt (involved st filter_s roi).
Proof.
  intros [S _]. unfold involved. set (P := fun e : Z * (rect * rect) => _). clearbody P. induction (st_scenes st) as [|e l IH]; cbn [filter map] in *; [constructor|].
  inversion S as [|? ? S1 S2]; subst. destruct (P e); [|now apply IH]. cbn [map]. constructor; [now apply IH|]. rewrite Forall_forall in *. intros x Hx. apply S2. apply in_map_iff in Hx. destruct Hx as (y & <- & Hy). apply filter_In in Hy. apply in_map, Hy.
Qed.
Lemma plane_no_scene b c : check_plane b c = Ok tt -> tget c 5 = None.
Proof. unfold check_plane. destruct (tget c 5); [discriminate|reflexivity]. Qed.

Section Get.
  Variable sort_zoom_m sort_zoom : list item -> list item.
  Hypothesis Hm : sorts_by_zoom_m sort_zoom_m.
  Hypothesis Hs : sorts_by_zoom sort_zoom.
  Variable bitmap : Z -> bmp * option mask * copy_kind.
  Variables (bnds : bounds) (st : stats) (bg : option (px * rgbf)) (sort_m : bool) (plane : coord) (filter_s : option (Z -> bool)) (zoom : f32) (roi : rect) (dst : bmp) (dir : list sbinfo).
  Hypothesis Hplane : check_plane bnds plane = Ok tt.
  Hypothesis Wd : bmp_wf dst.
  Hypothesis Bg : background_ok bg dst.
  Hypothesis Known : scenes_known st dir.
  Hypothesis Hzoom : zoom_range zoom.
  Let region := region_tile plane filter_s roi dir.
  Hypothesis Sizes : forall k i, region k i -> zoom_sizes i.
  Hypothesis Lay : sort_m = true -> layered (fun i => exists k, region k i).

  Lemma finer_refl a : finer_above sort_m a a.
  Proof. right. split; [reflexivity|]. destruct sort_m; [intros _ _; apply m_above_refl|lia]. Qed.
  Lemma before_rising l : StronglySorted (before sort_m) l -> StronglySorted (fun a b : item => (zoomQ (snd a) <= zoomQ (snd b))%Q) l.
  Proof. apply StronglySorted_impl. intros a b [H _]. exact H. Qed.

  Section OneScene.
    Hypothesis One : (length (involved st filter_s roi) <= 1)%nat.
    Let shown := level zoom any region.
    Definition the_list := chosen zoom (scale_subset sort_zoom_m sort_zoom sort_m plane (Some (involved st filter_s roi)) roi dir).
    Lemma same_region k i : region_tile plane (option_map (fun l s => existsb (Z.eqb s) l) (Some (involved st filter_s roi))) roi dir k i <-> region k i.
    Proof.
      cbn [option_map]. split.
      - intros (H1 & H2 & H3 & H4). repeat (split; [assumption|]). intros p s Hp Hsc. specialize (H4 _ s eq_refl Hsc). cbv beta in H4. apply existsb_exists in H4. destruct H4 as (s' & H4 & H5). apply Z.eqb_eq in H5. subst s'.
        apply involved_In in H4. destruct H4 as (b & b0 & _ & H4 & _). now apply H4.
      - intros H. pose proof H as (H1 & H2 & H3 & H4). repeat (split; [assumption|]). intros p s Hp Hsc. injection Hp as <-. apply existsb_exists. exists s. split; [|apply Z.eqb_refl]. eapply region_involved; eassumption.
    Qed.
    Lemma the_list_ok : StronglySorted (before sort_m) the_list /\ forall k i, In (k, i) the_list <-> shown k i.
    Proof.
      destruct (scale_subset_ok sort_zoom_m sort_zoom Hm Hs sort_m plane (Some (involved st filter_s roi)) roi dir) as [S I].
      - intros k i H. apply (Sizes k), same_region, H.
      - intros E. destruct (Lay E) as [L1 L2]. split; [intros a [k H]; apply L1; exists k; now apply same_region|]. intros a b [ka Ha] [kb Hb]. apply L2; [exists ka|exists kb]; now apply same_region.
      - destruct (chosen_ok zoom Hzoom _ (fun k i H => Sizes k i (proj1 (same_region k i) (proj1 (I k i) H))) (before_rising _ S)) as [C1 C2].
        split; [apply C2, S|]. intros k i. unfold the_list. rewrite C1. apply level_ext. intros k' i'. rewrite I. apply same_region.
    Qed.
    Lemma scale_get_one_eq d0 : clear bg dst = Ok d0 -> scale_get sort_zoom_m sort_zoom bitmap None bnds st bg sort_m plane filter_s zoom roi dst dir = draw bitmap zoom roi the_list d0.
    Proof. intros E. unfold scale_get. rewrite Hplane. cbn [bind]. rewrite E. cbn [bind]. cbv zeta. apply Nat.leb_le in One. rewrite One. reflexivity. Qed.

    Theorem scale_get_one : SFeqb zoom (f32_of_Z 1) = false -> (forall k i, shown k i -> drawable bitmap roi dst k i) ->
      exists m back, scale_get sort_zoom_m sort_zoom bitmap None bnds st bg sort_m plane filter_s zoom roi dst dir = Ok (bwith dst m) /\ background bg dst back /\
        scaled_picture axis_map bitmap roi shown (finer_above sort_m) back (bwith dst m).
    Proof.
      intros Hne Dr. destruct (clear_ok bg dst Wd Bg) as (m0 & back & E0 & B0 & P0). rewrite (scale_get_one_eq _ E0). destruct the_list_ok as [S I].
      destruct (draw_ok bitmap zoom roi Hne (before sort_m) the_list (bwith dst m0) S (bmp_wf_bwith _ _ Wd)) as (m & E & P); [intros k i H; apply (Dr k i), I, H|].
      exists m, back. split; [exact E|]. split; [exact B0|]. revert P. apply scaled_picture_impl; [exact I| |exact P0].
      intros a b _ _ [H|H]; [subst; apply finer_refl|apply H].
    Qed.

    (** zoom 1: sub-blocks are copied *)
    Theorem scale_get_1 : SFeqb zoom (f32_of_Z 1) = true -> (forall k i, shown k i -> bitmap_ok bitmap dst k i) ->
      exists m back, scale_get sort_zoom_m sort_zoom bitmap None bnds st bg sort_m plane filter_s zoom roi dst dir = Ok (bwith dst m) /\ background bg dst back /\
        picture shown (at_home bitmap) (finer_above sort_m) back (bwith dst m) (rx roi) (ry roi).
    Proof.
      intros He Dr. destruct (clear_ok bg dst Wd Bg) as (m0 & back & E0 & B0 & P0). rewrite (scale_get_one_eq _ E0). destruct the_list_ok as [S I].
      set (f := fun i : item => tile_at bitmap (fst i) (rx (sb_rect (snd i))) (ry (sb_rect (snd i)))).
      assert (DE : forall l d, draw bitmap zoom roi l d = compose_tiles d (map f l) (rx roi) (ry roi)).
      { intros l d. unfold draw, compose_tiles. generalize (Ok d). induction l as [|it l IH]; intros r; [reflexivity|]. cbn [fold_left map]. rewrite IH. f_equal. destruct r; cbn [bind]; try reflexivity. unfold scale_blt. rewrite He. reflexivity. }
      rewrite DE. destruct (compose_picture f (before sort_m) (bwith dst m0) the_list (rx roi) (ry roi) S (bmp_wf_bwith _ _ Wd)) as (m & E & P).
      - intros k i H. apply tile_wf_bwith. unfold f. cbn [fst snd]. apply tile_wf_at. apply (Dr k i), I, H.
      - exists m, back. split; [exact E|]. split; [exact B0|]. revert P. apply picture_impl.
        + intros k i H. apply I, H.
        + intros k i x y _ _ H _. apply I, H.
        + intros k i _. reflexivity.
        + intros a b _ _ [H|H]; [subst; apply finer_refl|apply H].
        + exact P0.
    Qed.

    (** ... like the tile accessor does, if no other layer is fine enough *)
    Hypothesis Hone : SFeqb zoom (f32_of_Z 1) = true.
    Hypothesis Coarse : forall k i, region k i -> layer0_tile i \/ (zoomQ i < sfQ (f32_div zoom single_105))%Q.
    Lemma zoom_is_1 : zoom = f32_of_Z 1.
    Proof.
      destruct (f32_of_Z_ok 1 ltac:(lia)) as [N1 E1]. apply CompositorProofs.nn_inj; [apply Hzoom|exact N1|].
      unfold SFeqb in Hone. rewrite (nn_compare 24 128) in Hone; [|apply Hzoom|exact N1]. destruct (Qcompare (sfQ zoom) (sfQ (f32_of_Z 1))) eqn:E; try discriminate. apply Qeq_alt, E.
    Qed.
    Lemma layer0_zoom i : zoom_sizes i -> layer0_tile i -> sb_zoom i = f32_of_Z 1.
    Proof. intros (A & B & _ & _) [H1 H2]. unfold sb_zoom, calc_zoom. rewrite H1, H2. unfold extent_ok in *. destruct (rh (sb_rect i) <? rw (sb_rect i)); apply CompositorProofs.f32_div_self; lia. Qed.
    Lemma shown_layer0 k i : shown k i <-> region k i /\ layer0_tile i.
    Proof.
      assert (L1 : (sfQ (f32_div zoom single_105) <= 1)%Q) by (rewrite zoom_is_1; vm_compute; discriminate).
      assert (L2 : (1 < sfQ (f32_mul (f32_of_Z 1) single_19))%Q) by (vm_compute; reflexivity).
      assert (E1 : forall i, zoom_sizes i -> layer0_tile i -> (zoomQ i == 1)%Q) by (intros j Zj Lj; unfold zoomQ; rewrite (layer0_zoom j Zj Lj); reflexivity).
      split.
      - intros [[H1 H2] _]. split; [exact H1|]. destruct (Coarse k i H1) as [H|H]; [exact H|]. lra.
      - intros [H1 H2]. pose proof (Sizes k i H1) as Zi. specialize (E1 i Zi H2) as Ei. split; [split; [exact H1|lra]|]. exists k, i. split; [split; [exact H1|lra]|]. split; [exact Logic.I|]. split.
        + intros k' i' [H3 H4] _. destruct (Coarse k' i' H3) as [H|H]; [|lra]. specialize (E1 i' (Sizes k' i' H3) H). lra.
        + rewrite (layer0_zoom i Zi H2). lra.
    Qed.
    Hypothesis Ew : bw dst = rw roi.
    Hypothesis Eh : bh dst = rh roi.
    Theorem scale_get_tiles : (forall k i, region k i -> layer0_tile i -> bitmap_ok bitmap dst k i) -> (forall k i, plane_tile plane dir k i -> bitmap_ok bitmap dst k i) ->
      exists m back, scale_get sort_zoom_m sort_zoom bitmap None bnds st bg sort_m plane filter_s zoom roi dst dir = Ok (bwith dst m) /\ background bg dst back /\
        picture (fun k i => plane_tile plane dir k i /\ scene_in filter_s i) (at_home bitmap) (drawn_above sort_m) back (bwith dst m) (rx roi) (ry roi).
    Proof.
      intros Dr Bm. destruct (scale_get_1 Hone) as (m & back & E & B0 & P); [intros k i H; apply shown_layer0 in H; apply Dr; apply H|].
      exists m, back. split; [exact E|]. split; [exact B0|]. revert P. apply picture_impl.
      - intros k i H. apply shown_layer0 in H. destruct H as [(H1 & H2 & _ & H4) [H5 H6]]. split; [repeat (split; [assumption|]); assumption|exact H4].
      - intros k i x y Hx Hy [Hc Hsc] Hsh. apply shown_layer0. pose proof Hc as (H1 & H2 & H5 & H6). split; [|split; assumption]. split; [exact H1|]. split; [exact H2|]. split; [|exact Hsc].
        unfold shows in Hsh. apply andb_true_iff in Hsh. destruct Hsh as [Hsh _]. rewrite (at_home_rect bitmap k i dst) in Hsh by (try apply Bm; assumption). exists (x + rx roi), (y + ry roi). unfold pt_in in Hsh. cbn [rx ry rw rh bw bh bwith fst snd] in *. lia.
      - reflexivity.
      - intros [ka a] [kb b] Ha Hb H. cbn [fst snd] in *. apply shown_layer0 in Ha, Hb. destruct Ha as [Ra La], Hb as [Rb Lb].
        pose proof (Sizes _ _ Ra) as Za. pose proof (Sizes _ _ Rb) as Zb.
        assert (Q1 : (zoomQ a == zoomQ b)%Q) by (unfold zoomQ; rewrite !layer0_zoom by assumption; reflexivity).
        destruct H as [H|[_ H]]; cbn [fst snd] in H; [lra|]. unfold drawn_above. destruct sort_m; [|exact H]. destruct La as [La1 La2], Lb as [Lb1 Lb2]. apply H; apply on_layer0_spec; try assumption; unfold zoom_sizes, extent_ok, INT_MAX in *; lia.
      - reflexivity.
    Qed.
    Theorem scale_get_tiles_optimised : (forall k i, region k i -> layer0_tile i -> bitmap_ok bitmap dst k i /\ snd (fst (bitmap k)) = None) ->
      exists fuel d m', (forall f, (fuel <= f)%nat -> scale_get sort_zoom_m sort_zoom bitmap (Some f) bnds st bg sort_m plane filter_s zoom roi dst dir = Ok d) /\
        scale_get sort_zoom_m sort_zoom bitmap None bnds st bg sort_m plane filter_s zoom roi dst dir = Ok (bwith dst m') /\
        forall x y, 0 <= x < bw dst -> 0 <= y < bh dst -> pix d x y = pix (bwith dst m') x y.
    Proof.
      intros Bm. destruct (clear_ok bg dst Wd Bg) as (m0 & back & E0 & B0 & P0). rewrite (scale_get_one_eq _ E0). destruct the_list_ok as [_ I].
      set (l := the_list) in *. set (no := (0, SbInfo [] (mkRect 0 0 0 0) 0 0 0)).
      set (T := fun i : item => tile_at bitmap (fst i) (rx (sb_rect (snd i))) (ry (sb_rect (snd i)))).
      assert (In_l : forall k i, In (k, i) l -> region k i /\ layer0_tile i) by (intros k i H; apply shown_layer0, I, H).
      assert (DE : forall l d, draw bitmap zoom roi l d = compose_tiles d (map T l) (rx roi) (ry roi)).
      { intros l' d. unfold draw, compose_tiles. generalize (Ok d). induction l' as [|it l' IH]; intros r; [reflexivity|]. cbn [fold_left map]. rewrite IH. f_equal. destruct r; cbn [bind]; try reflexivity. unfold scale_blt. rewrite Hone. reflexivity. }
      assert (Wf : Forall (tile_wf (bwith dst m0)) (map T l)).
      { apply Forall_forall. intros t H. apply in_map_iff in H. destruct H as ([k i] & <- & H). apply tile_wf_bwith, tile_wf_at. destruct (In_l k i H) as [H1 H2]. apply (Bm k i H1 H2). }
      destruct (visibility_unmasked (bwith dst m0) (map T l) (rx roi) (ry roi) (T no)) as (fuel & d1 & d2 & H1 & H2 & H3 & _); [apply bmp_wf_bwith, Wd|exact Wf| |].
      { apply Forall_forall. intros t H. apply in_map_iff in H. destruct H as ([k i] & <- & H). destruct (In_l k i H) as [G1 G2]. destruct (Bm k i G1 G2) as [_ N]. unfold T, tile_at. cbn [fst]. destruct (bitmap k) as [[b mk] kind]. exact N. }
      destruct (compose_tiles_ok (map T l) (bwith dst m0) (rx roi) (ry roi)) as (d2' & E2 & (m2 & ->) & _); [apply bmp_wf_bwith, Wd|exact Wf|].
      assert (d2 = bwith dst m2) by (rewrite H2 in E2; injection E2; auto). subst d2.
      assert (R : mkRect (rx roi) (ry roi) (bw (bwith dst m0)) (bh (bwith dst m0)) = roi) by (cbn [bwith bw bh]; rewrite Ew, Eh; destruct roi; reflexivity).
      exists fuel, d1, m2. split; [|split; [rewrite DE; exact H2|exact H3]].
      intros f Hf. specialize (H1 f Hf). unfold compose_optimised in H1. rewrite R in H1.
      unfold scale_get. rewrite Hplane. cbn [bind]. rewrite E0. cbn [bind]. cbv zeta. pose proof One as One'. apply Nat.leb_le in One'. rewrite One'. unfold paint. fold the_list. fold l. fold no.
      rewrite (check_visibility_ext f roi (length l) (fun k => sb_rect (snd (nth k l no))) (fun i => tile_rect (nth i (map T l) (T no)))).
      - rewrite map_length in H1. destruct (check_visibility f roi (length l) _) as [vis| | |]; try discriminate. cbn [bind] in H1 |- *. rewrite DE. rewrite map_map. rewrite <- H1. f_equal. apply map_ext. intros k. rewrite map_nth. reflexivity.
      - intros i Hi. rewrite map_nth. assert (Hn := nth_In l no Hi). destruct (nth i l no) as [k s]. apply In_l in Hn. unfold T. cbn [fst snd].
        change (tile_at bitmap k (rx (sb_rect s)) (ry (sb_rect s))) with (at_home bitmap k s). symmetry. destruct Hn as [N1 [N2 N3]]. eapply at_home_rect; [apply (Bm k s N1); split; assumption|exact N2|exact N3].
    Qed.
  End OneScene.

  Section Scenes.
    Hypothesis Several : (1 < length (involved st filter_s roi))%nat.
    Hypothesis Len : length plane = 9%nat.
    Hypothesis All : forall k i, region k i -> scene i <> None.
    Let shown := level zoom same_scene region.
    Definition scene_list s := chosen zoom (scale_subset sort_zoom_m sort_zoom sort_m (tset plane 5 s) None roi dir).
    Lemma in_scene_plane s c : in_plane (tset plane 5 s) c <-> in_plane plane c /\ tget c 5 = Some s.
    Proof.
      pose proof (plane_no_scene _ _ Hplane) as N5. assert (D5 : In 5 dims) by (cbn; tauto). split.
      - intros H. split; [|apply (H 5 s D5); rewrite TextProofs.tget_tset by assumption; reflexivity]. intros d v Hd Hv. apply (H d v Hd). rewrite TextProofs.tget_tset by assumption. destruct (Z.eqb_spec 5 d); [subst; congruence|exact Hv].
      - intros [H1 H2] d v Hd Hv. rewrite TextProofs.tget_tset in Hv by assumption. destruct (Z.eqb_spec 5 d) as [<-|]; [congruence|now apply H1].
    Qed.
    Lemma scene_region s k i : In s (involved st filter_s roi) -> region_tile (tset plane 5 s) None roi dir k i <-> region k i /\ scene i = Some s.
    Proof.
      intros Is. unfold region, region_tile. rewrite in_scene_plane. split.
      - intros (H1 & (H2 & H3) & H4 & _). split; [|exact H3]. repeat (split; [assumption|]). intros p s' Hp Hs'. assert (s' = s) by congruence. subst. apply involved_In in Is. destruct Is as (b & b0 & _ & Is & _). now apply Is.
      - intros [(H1 & H2 & H3 & H4) H5]. repeat (split; [assumption|]). split; [split; assumption|]. split; [assumption|]. discriminate.
    Qed.
    Lemma scene_list_ok s : In s (involved st filter_s roi) -> StronglySorted (before sort_m) (scene_list s) /\ forall k i, In (k, i) (scene_list s) <-> shown k i /\ scene i = Some s.
    Proof.
      intros Is. pose proof (fun k i => scene_region s k i Is) as SR.
      destruct (scale_subset_ok sort_zoom_m sort_zoom Hm Hs sort_m (tset plane 5 s) None roi dir) as [S I]; cbn [option_map] in *.
      - intros k i H. apply (Sizes k), SR, H.
      - intros E. destruct (Lay E) as [L1 L2]. split; [intros a [k H]; apply L1; exists k; now apply SR|]. intros a b [ka Ha] [kb Hb]. apply L2; [exists ka|exists kb]; now apply SR.
      - destruct (chosen_ok zoom Hzoom _ (fun k i H => Sizes k i (proj1 (proj1 (SR k i) (proj1 (I k i) H)))) (before_rising _ S)) as [C1 C2].
        split; [apply C2, S|]. intros k i. unfold scene_list. rewrite C1. rewrite (level_ext zoom _ _ (fun k i => region k i /\ scene i = Some s)); [|intros k' i'; rewrite I; apply SR].
        unfold shown, level, fine, same_scene. split.
        + intros [[[A1 A2] A3] (k0 & i0 & [[B1 B2] B3] & _ & B4 & B5)]. split; [|exact A2]. split; [auto|]. exists k0, i0. split; [auto|]. split; [congruence|]. split; [|exact B5].
          intros k' i' [D1 D2] D3. apply (B4 k'); [|exact Logic.I]. split; [split; [exact D1|congruence]|exact D2].
        + intros [[[A1 A3] (k0 & i0 & [B1 B3] & B2 & B4 & B5)] A2]. split; [auto|]. exists k0, i0. split; [split; [split; [exact B1|congruence]|exact B3]|]. split; [exact Logic.I|]. split; [|exact B5].
          intros k' i' [[D1 D2] D3] _. apply (B4 k'); [auto|congruence].
    Qed.
    Lemma concat_sorted scenes : StronglySorted Z.lt scenes -> (forall s, In s scenes -> In s (involved st filter_s roi)) ->
      StronglySorted (fun a b => scene_above sort_m b a) (flat_map scene_list scenes).
    Proof.
      induction 1 as [|s scenes S IH F]; intros H; [constructor|]. cbn [flat_map]. destruct (scene_list_ok s (H s (or_introl eq_refl))) as [S1 I1].
      assert (X : forall l, (forall k i, In (k, i) l -> scene i = Some s) -> StronglySorted (before sort_m) l -> StronglySorted (fun a b => scene_above sort_m b a) (l ++ flat_map scene_list scenes)).
      { induction l as [|[k i] l IHl]; intros Hl Sl; [apply IH; intros s' Hs'; apply H; now right|]. inversion Sl as [|? ? Sl1 Sl2]; subst. cbn [app]. constructor; [apply IHl; [intros k' i' H'; apply (Hl k'); now right|exact Sl1]|].
        rewrite Forall_forall in *. intros [k' i'] H'. apply in_app_iff in H'. destruct H' as [H'|H'].
        - exists s, s. cbn [snd]. split; [apply (Hl k'); now right|]. split; [apply (Hl k); now left|]. right. split; [reflexivity|]. apply (Sl2 _ H').
        - apply in_flat_map in H'. destruct H' as (s' & Hs' & H'). apply scene_list_ok in H'; [|apply H; now right]. exists s', s. split; [apply H'|]. split; [apply (Hl k); now left|]. left. apply F, Hs'. }
      apply X; [|exact S1]. intros k i Hk. apply I1 in Hk. apply Hk.
    Qed.
    Theorem scale_get_scenes : SFeqb zoom (f32_of_Z 1) = false -> (forall k i, shown k i -> drawable bitmap roi dst k i) ->
      exists m back, scale_get sort_zoom_m sort_zoom bitmap None bnds st bg sort_m plane filter_s zoom roi dst dir = Ok (bwith dst m) /\ background bg dst back /\
        scaled_picture axis_map bitmap roi shown (scene_above sort_m) back (bwith dst m).
    Proof.
      intros Hne Dr. destruct (clear_ok bg dst Wd Bg) as (m0 & back & E0 & B0 & P0).
      assert (EQ : forall scenes d, bmp_wf d -> bw d = bw dst -> bh d = bh dst -> bbpp d = bbpp dst -> (forall s, In s scenes -> In s (involved st filter_s roi)) ->
        fold_left (fun r s => let* d := r in paint bitmap None zoom roi (scale_subset sort_zoom_m sort_zoom sort_m (tset plane 5 s) None roi dir) d) scenes (Ok d) = draw bitmap zoom roi (flat_map scene_list scenes) d).
      { induction scenes as [|s scenes IH]; intros d Wd' Ew Eh Eb H; [reflexivity|]. cbn [fold_left flat_map bind]. unfold paint at 2. fold (scene_list s).
        destruct (draw_values bitmap zoom roi Hne (scene_list s) d Wd') as (m & E & _).
        { intros k i Hk. apply scene_list_ok in Hk; [|apply H; now left]. destruct (Dr k i (proj1 Hk)) as (D1 & D2 & D3). unfold drawable, x_axis, y_axis. rewrite Ew, Eh. split; [|split; assumption]. unfold source_ok in *. rewrite Eb. exact D1. }
        rewrite E. rewrite (draw_app bitmap zoom roi _ _ _ _ E). apply IH; [apply bmp_wf_bwith, Wd'|exact Ew|exact Eh|exact Eb|]. intros s' Hs'. apply H. now right. }
      assert (SG : scale_get sort_zoom_m sort_zoom bitmap None bnds st bg sort_m plane filter_s zoom roi dst dir = draw bitmap zoom roi (flat_map scene_list (involved st filter_s roi)) (bwith dst m0)).
      { unfold scale_get. rewrite Hplane. cbn [bind]. rewrite E0. cbn [bind]. cbv zeta. replace (length (involved st filter_s roi) <=? 1)%nat with false by (symmetry; apply Nat.leb_gt; exact Several).
        apply EQ; try reflexivity; [apply bmp_wf_bwith, Wd|auto]. }
      rewrite SG.
      assert (I : forall k i, In (k, i) (flat_map scene_list (involved st filter_s roi)) <-> shown k i).
      { intros k i. rewrite in_flat_map. split; [intros (s & H1 & H2); apply scene_list_ok in H2; tauto|]. intros H. pose proof H as [[H1 _] _]. destruct (scene i) as [s|] eqn:Es; [|elim (All k i H1 Es)].
        assert (Is : In s (involved st filter_s roi)) by (eapply region_involved; eassumption). exists s. split; [exact Is|]. apply scene_list_ok; auto. }
      destruct (draw_ok bitmap zoom roi Hne (fun a b => scene_above sort_m b a) (flat_map scene_list (involved st filter_s roi)) (bwith dst m0)) as (m & E & P).
      - apply concat_sorted; [eapply involved_sorted; eassumption|auto].
      - apply bmp_wf_bwith, Wd.
      - intros k i H. apply (Dr k i), I, H.
      - exists m, back. split; [exact E|]. split; [exact B0|]. revert P. apply scaled_picture_impl; [exact I| |exact P0].
        intros a b Ha Hb [H|H]; [|exact H]. subst. apply I in Ha. destruct Ha as [[Ha _] _]. destruct (scene (snd a)) as [s|] eqn:Es; [|elim (All _ _ Ha Es)]. exists s, s. split; [exact Es|]. split; [exact Es|]. right. split; [reflexivity|apply finer_refl].
    Qed.
  End Scenes.
End Get.

(** ** Scenes touched *)
Lemma involved_touched st filter_s roi s : In s (involved st filter_s roi) <-> touched st filter_s roi s.
Proof.
  rewrite involved_In. split; intros (b & b0 & H1 & H2 & H3); exists b, b0; (split; [exact H1|split; [exact H2|]]).
  - unfold intersects_with, rvalid in H3. destruct (negb ((0 <=? rw b) && (0 <=? rh b)) || negb ((0 <=? rw roi) && (0 <=? rh roi))) eqn:E; [discriminate|]. lia.
  - unfold intersects_with, rvalid. replace (negb ((0 <=? rw b) && (0 <=? rh b)) || negb ((0 <=? rw roi) && (0 <=? rh roi))) with false by lia. lia.
Qed.
Lemma involved_one st filter_s roi dir : scenes_known st dir -> one_scene st filter_s roi -> (length (involved st filter_s roi) <= 1)%nat.
Proof.
  intros K O. pose proof (involved_sorted st filter_s roi dir K) as S. pose proof (fun s => proj1 (involved_touched st filter_s roi s)) as T.
  destruct (involved st filter_s roi) as [|a [|b l]]; cbn [length]; try lia. exfalso. inversion S as [|? ? _ F]; subst. inversion F as [|? ? L _]; subst.
  specialize (O a b (T a (or_introl eq_refl)) (T b (or_intror (or_introl eq_refl)))). lia.
Qed.
Lemma involved_several st filter_s roi : several_scenes st filter_s roi -> (1 < length (involved st filter_s roi))%nat.
Proof.
  intros (s & t & Hs & Ht & D). apply involved_touched in Hs, Ht. destruct (involved st filter_s roi) as [|a [|b l]]; cbn [length]; try lia.
  - destruct Hs.
  - destruct Hs as [<-|[]], Ht as [<-|[]]. congruence.
Qed.

(** a bitmap of the caller: filled if and only if it has the announced size *)
Lemma into_size sm sz bitmap opt bnds st bg sort_m plane filter_s zoom roi dst dir w h : calc_size (rw roi) zoom = Ok w -> calc_size (rh roi) zoom = Ok h ->
  (bw dst = w -> bh dst = h -> scale_get_into sm sz bitmap opt bnds st bg sort_m plane filter_s zoom roi dst dir = scale_get sm sz bitmap opt bnds st bg sort_m plane filter_s zoom roi dst dir) /\
  (bw dst <> w \/ bh dst <> h -> scale_get_into sm sz bitmap opt bnds st bg sort_m plane filter_s zoom roi dst dir = Throw).
Proof.
  intros W H. unfold scale_get_into. rewrite W, H. cbn [bind]. split.
  - intros -> ->. now rewrite !Z.eqb_refl.
  - intros N. destruct (Z.eqb_spec w (bw dst)), (Z.eqb_spec h (bh dst)); cbn [negb orb]; try reflexivity. lia.
Qed.
