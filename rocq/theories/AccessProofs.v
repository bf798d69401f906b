(** Frames of reference and pyramid arithmetic. *)
From Verif Require Import Base RectModel CodecModel CopyModel TextModel CoordModel CoordProofs StatModel StatSpec StatProofs LayerProofs PixelModel FloatProofs AccessModel AccessSpec.
From Coq Require Import QArith Qabs Lqa Floats.SpecFloat.
Open Scope Z_scope.

(** ** Frames *)
Lemma transform_ok dflt box0 f dst p : proper dflt -> rvalid box0 = true -> f <> FInvalid -> dst <> FInvalid ->
  forall q, raw_point box0 (meaning dflt dst) q = raw_point box0 (meaning dflt f) p ->
  (point_ok q \/ meaning dflt f = meaning dflt dst) ->
  transform_point dflt box0 f p dst = Ok (meaning dflt dst, q).
Proof.
  intros Hd V Hf Hdst [qx qy] E R. destruct p as [px py]. unfold transform_point.
  assert (C : forall g, g <> FInvalid -> consolidated dflt g = Ok (meaning dflt g)) by (intros [] Hg; try contradiction; reflexivity).
  rewrite (C f Hf), (C dst Hdst). cbn [bind].
  assert (P : forall g, g <> FInvalid -> proper (meaning dflt g)) by (intros [] Hg; try contradiction; cbn [meaning]; unfold proper; auto).
  unfold point_ok in R. cbn [fst snd] in R.
  destruct (P f Hf) as [Ef|Ef], (P dst Hdst) as [Ed|Ed]; rewrite Ef, Ed in *; cbn [frame_eqb raw_point fst snd] in *.
  - congruence.
  - injection E as E1 E2. rewrite V. destruct R as [[R1 R2]|R]; [|discriminate]. replace (px - rx box0) with qx by lia. replace (py - ry box0) with qy by lia. rewrite !chk_in by assumption. reflexivity.
  - injection E as E1 E2. rewrite V. destruct R as [[R1 R2]|R]; [|discriminate]. replace (px + rx box0) with qx by lia. replace (py + ry box0) with qy by lia. rewrite !chk_in by assumption. reflexivity.
  - injection E as E1 E2. assert (px = qx) by lia. assert (py = qy) by lia. subst. reflexivity.
Qed.
Lemma transform_exact dflt box0 f dst p g q : proper dflt -> transform_point dflt box0 f p dst = Ok (g, q) ->
  f <> FInvalid /\ dst <> FInvalid /\ g = meaning dflt dst /\ raw_point box0 g q = raw_point box0 (meaning dflt f) p /\ (rvalid box0 = true \/ meaning dflt f = g) /\ (point_ok p -> point_ok q).
Proof.
  intros Hd. unfold transform_point, consolidated.
  assert (X : forall h, match h with FDefault => Ok dflt | FInvalid => Throw | _ => Ok h end = (if frame_eqb h FInvalid then Throw else Ok (meaning dflt h))) by (intros []; reflexivity).
  rewrite !X. assert (NI : forall h, frame_eqb h FInvalid = false -> h <> FInvalid) by (intros [] H; discriminate).
  destruct (frame_eqb f FInvalid) eqn:F1; [discriminate|]. destruct (frame_eqb dst FInvalid) eqn:F2; [discriminate|]. cbn [bind]. apply NI in F1, F2.
  assert (P : forall g, g <> FInvalid -> proper (meaning dflt g)) by (intros [] Hg; try contradiction; cbn [meaning]; unfold proper; auto).
  intros H. split; [exact F1|]. split; [exact F2|].
  destruct (P f F1) as [Ef|Ef], (P dst F2) as [Ed|Ed]; rewrite Ef, Ed in *; cbn [frame_eqb] in H.
  - injection H as <- <-. auto.
  - destruct (rvalid box0) eqn:V; [|discriminate]. unfold chk in H. destruct (in_i32b (fst p - rx box0)) eqn:I1; [|discriminate]. cbn [bind] in H. destruct (in_i32b (snd p - ry box0)) eqn:I2; [|discriminate]. cbn [bind] in H.
    injection H as <- <-. cbn [raw_point fst snd]. split; [reflexivity|]. split; [destruct p; cbn [fst snd]; f_equal; lia|]. split; [auto|]. intros _. unfold point_ok, in_i32b, in_i32 in *. cbn [fst snd]. lia.
  - destruct (rvalid box0) eqn:V; [|discriminate]. unfold chk in H. destruct (in_i32b (fst p + rx box0)) eqn:I1; [|discriminate]. cbn [bind] in H. destruct (in_i32b (snd p + ry box0)) eqn:I2; [|discriminate]. cbn [bind] in H.
    injection H as <- <-. cbn [raw_point fst snd]. split; [reflexivity|]. split; [reflexivity|]. split; [auto|]. intros _. unfold point_ok, in_i32b, in_i32 in *. cbn [fst snd]. lia.
  - injection H as <- <-. auto.
Qed.
(** there and back *)
Lemma transform_back dflt box0 f dst p g q : proper dflt -> point_ok p -> transform_point dflt box0 f p dst = Ok (g, q) ->
  transform_point dflt box0 g q f = Ok (meaning dflt f, p).
Proof.
  intros Hd Hp H. destruct (transform_exact _ _ _ _ _ _ _ Hd H) as (F1 & F2 & -> & E & V & Q).
  assert (P : proper (meaning dflt dst)) by (destruct dst; try contradiction; cbn [meaning]; unfold proper; auto).
  assert (M : meaning dflt (meaning dflt dst) = meaning dflt dst) by (destruct P as [->| ->]; reflexivity).
  destruct V as [V|V].
  - apply transform_ok; auto; [destruct P as [->| ->]; discriminate|rewrite M; congruence].
  - rewrite <- V in *. assert (E' : q = p). { clear H. destruct (meaning dflt f); destruct p, q; cbn [raw_point fst snd] in E; try congruence. injection E as E1 E2. f_equal; lia. }
    subst q. unfold transform_point. assert (C : forall h, h <> FInvalid -> consolidated dflt h = Ok (meaning dflt h)) by (intros [] Hg; try contradiction; reflexivity).
    assert (N : meaning dflt f <> FInvalid) by (destruct P as [->| ->]; discriminate).
    rewrite (C _ N), (C f F1). cbn [bind]. rewrite M. destruct (meaning dflt f) eqn:Em; cbn [frame_eqb]; reflexivity.
Qed.
Lemma transform_rect_back dflt box0 f dst r g r' : proper dflt -> in_i32 (rx r) -> in_i32 (ry r) -> in_i32 (rw r) -> in_i32 (rh r) -> transform_rect dflt box0 f r dst = Ok (g, r') ->
  g = meaning dflt dst /\ raw_point box0 g (rx r', ry r') = raw_point box0 (meaning dflt f) (rx r, ry r) /\ rw r' = rw r /\ rh r' = rh r /\
  transform_rect dflt box0 g r' f = Ok (meaning dflt f, r).
Proof.
  intros Hd Hx Hy Hw Hh. unfold transform_rect. intros H.
  destruct (transform_point dflt box0 f (rx r, ry r) dst) as [[g1 ul]| | |] eqn:E1; try discriminate. cbn [bind] in H. unfold chk at 1 in H. destruct (in_i32b (rx r + rw r)) eqn:I1; [|discriminate]. cbn [bind] in H.
  unfold chk at 1 in H. destruct (in_i32b (ry r + rh r)) eqn:I2; [|discriminate]. cbn [bind] in H. destruct (transform_point dflt box0 f (rx r + rw r, ry r + rh r) dst) as [[g2 lr]| | |] eqn:E2; try discriminate. cbn [bind] in H.
  unfold chk at 1 in H. destruct (in_i32b (fst lr - fst ul)) eqn:I3; [|discriminate]. cbn [bind] in H. unfold chk at 1 in H. destruct (in_i32b (snd lr - snd ul)) eqn:I4; [|discriminate]. cbn [bind] in H. injection H as <- <-.
  assert (O1 : point_ok (rx r, ry r)) by (split; assumption). assert (O2 : point_ok (rx r + rw r, ry r + rh r)) by (unfold point_ok, in_i32b, in_i32 in *; cbn [fst snd]; lia).
  destruct (transform_exact _ _ _ _ _ _ _ Hd E1) as (_ & _ & G1 & R1 & _ & Q1). destruct (transform_exact _ _ _ _ _ _ _ Hd E2) as (_ & _ & G2 & R2 & _ & Q2). specialize (Q1 O1). specialize (Q2 O2).
  pose proof (transform_back _ _ _ _ _ _ _ Hd O1 E1) as B1. pose proof (transform_back _ _ _ _ _ _ _ Hd O2 E2) as B2. subst g1 g2.
  assert (D : fst lr - fst ul = rw r /\ snd lr - snd ul = rh r).
  { destruct ul, lr. destruct (meaning dflt dst), (meaning dflt f); cbn [raw_point fst snd] in *; injection R1 as R1 R1'; injection R2 as R2 R2'; lia. }
  destruct D as [D1 D2]. rewrite D1, D2 in *. cbn [rx ry rw rh]. split; [reflexivity|]. split; [destruct ul; exact R1|]. split; [reflexivity|]. split; [reflexivity|].
  destruct ul as [ux uy], lr as [lx ly]. cbn [fst snd] in *. rewrite B1. cbn [bind]. replace (ux + rw r) with lx by lia. replace (uy + rh r) with ly by lia. destruct Q2 as [Q2 Q2']. cbn [fst snd] in Q2, Q2'. rewrite !chk_in by assumption. cbn [bind].
  rewrite B2. cbn [bind fst snd]. replace (rx r + rw r - rx r) with (rw r) by lia. replace (ry r + rh r - ry r) with (rh r) by lia. rewrite !chk_in by assumption. cbn [bind]. destruct r; reflexivity.
Qed.

(** ** Layers *)
Lemma nearest_bounds p q : 0 < p -> 0 < q -> 0 <= nearest p q /\ (2 * nearest p q - 1) * q <= 2 * p < (2 * nearest p q + 1) * q.
Proof.
  intros Hp Hq. unfold nearest. pose proof (Z.div_mod (2 * p + q) (2 * q) ltac:(lia)) as E. pose proof (Z.mod_pos_bound (2 * p + q) (2 * q) ltac:(lia)) as B. pose proof (Z.div_pos (2 * p + q) (2 * q) ltac:(lia) ltac:(lia)) as N.
  set (d := (2 * p + q) / (2 * q)) in *. clearbody d. set (m := (2 * p + q) mod (2 * q)) in *. clearbody m. nia.
Qed.

Lemma quot64_round p q : 0 < p < 2 ^ 31 -> 0 < q < 2 ^ 31 ->
  (inject_Z (2 * nearest p q - 1) * (1 # 2) <= sfQ (quot64 p q) /\ sfQ (quot64 p q) < inject_Z (2 * nearest p q + 1) * (1 # 2))%Q.
Proof.
  intros Hp Hq. destruct (nearest_bounds p q ltac:(lia) ltac:(lia)) as (N0 & N1 & N2). set (k := nearest p q) in *. clearbody k.
  assert (Pq := injZ_pos q ltac:(lia)). destruct (quot_range p q Hp Hq) as [R1 R2].
  pose proof (quot64_op p q 32 Hp Hq R2 ltac:(lia)) as O. pose proof (dop_rel _ _ _ O ltac:(eapply Qle_trans; [|exact R1]; apply b2_le; lia)) as E1. apply Qabs_split in E1.
  set (X := (inject_Z p / inject_Z q)%Q) in *.
  assert (XP : (X * inject_Z q == inject_Z p)%Q) by (subst X; field; intros Z0; rewrite Z0 in Pq; discriminate Pq). split.
  - destruct O as (_ & E & HE & _ & HR). change (1 # 2)%Q with (b2 (-1)). apply (rnd_ge E (-1) (2 * k - 1) X _ HR).
    + unfold SpecFloat.fexp, emin in HE. lia.
    + change (b2 (-1)) with (1 # 2)%Q. assert (Y : (inject_Z (2 * k - 1) * inject_Z q <= 2 * (X * inject_Z q))%Q).
      { rewrite XP. change 2%Q with (inject_Z 2). rewrite <- !inject_Z_mult. apply injZ_le. exact N1. }
      apply Qmult_lt_0_le_reg_r with (inject_Z q); [exact Pq|]. set (w := inject_Z q) in *. set (z := inject_Z (2 * k - 1)) in *. clearbody w z X. clear - Y. setoid_replace (z * (1 # 2) * w)%Q with (z * w * (1 # 2))%Q by ring. lra.
  - assert (Y : (2 * (X * inject_Z q) + 1 <= inject_Z (2 * k + 1) * inject_Z q)%Q).
    { rewrite XP. change 2%Q with (inject_Z 2). change 1%Q with (inject_Z 1). rewrite <- !inject_Z_mult, <- inject_Z_plus. apply injZ_le. lia. }
    assert (E : (b2 (-53) == 1 # 9007199254740992)%Q) by reflexivity. rewrite E in *.
    assert (Pb : (inject_Z p <= 2147483648)%Q) by (change 2147483648%Q with (inject_Z 2147483648); apply injZ_le; lia).
    destruct E1 as [_ E1]. set (v := sfQ (quot64 p q)) in *. clearbody v. set (z := inject_Z (2 * k + 1)) in *. clearbody z. set (w := inject_Z q) in *. clearbody w X.
    apply Qnot_le_lt. intros C. assert (C2 : (z * (1 # 2) <= X + X * (1 # 9007199254740992))%Q) by lra.
    assert (C3 : (z * (1 # 2) * w <= (X + X * (1 # 9007199254740992)) * w)%Q) by (apply Qmult_le_compat_r; [exact C2|lra]).
    assert (G : ((X + X * (1 # 9007199254740992)) * w == X * w + X * w * (1 # 9007199254740992))%Q) by ring. rewrite G, XP in C3. rewrite XP in Y.
    assert (G2 : (z * (1 # 2) * w == z * w * (1 # 2))%Q) by ring. rewrite G2 in C3. lra.
Qed.

Lemma round_int_ok r k : nn 53 1024 r -> 0 <= k <= INT_MAX -> (inject_Z (2 * k - 1) * (1 # 2) <= sfQ r)%Q -> (sfQ r < inject_Z (2 * k + 1) * (1 # 2))%Q -> round_int r = Ok k.
Proof.
  intros Hr Hk L U. destruct r as [s|s| |s m e]; try (destruct Hr as [_ []]; fail).
  - cbn [sfQ round_int] in *. f_equal. assert (Y : (inject_Z (2 * k - 1) <= inject_Z 0)%Q) by (change (inject_Z 0) with 0%Q; lra). apply (proj1 (injZ_le _ _)) in Y. lia.
  - assert (s = false) by apply Hr. subst s. cbn [sfQ round_int cond_Zopp] in *.
    assert (K : (if 0 <=? e then Z.pos m * 2 ^ e else (2 * Z.pos m + 2 ^ (- e)) / 2 ^ (1 - e)) = k).
    { destruct (0 <=? e) eqn:He.
      - rewrite b2_Z in L, U by lia. rewrite <- inject_Z_mult in L, U. set (n := Z.pos m * 2 ^ e) in *. clearbody n.
        assert (L' : (inject_Z (2 * k - 1) <= inject_Z (2 * n))%Q) by (rewrite (inject_Z_mult 2 n); change (inject_Z 2) with 2%Q; lra).
        assert (U' : (inject_Z (2 * n) < inject_Z (2 * k + 1))%Q) by (rewrite (inject_Z_mult 2 n); change (inject_Z 2) with 2%Q; lra).
        apply (proj1 (injZ_le _ _)) in L'. apply (proj1 (injZ_lt _ _)) in U'. lia.
      - assert (P2 : 0 < 2 ^ (- e)) by (apply Z.pow_pos_nonneg; lia). replace (1 - e) with (1 + - e) by lia. rewrite Z.pow_add_r by lia. change (2 ^ 1) with 2.
        assert (B : (b2 e * inject_Z (2 ^ (- e)) == 1)%Q) by (rewrite <- b2_Z by lia; rewrite <- b2_plus; replace (e + - e) with 0 by lia; reflexivity).
        set (t := 2 ^ (- e)) in *. clearbody t. assert (Pt := injZ_pos t P2). set (b := b2 e) in *. clearbody b. set (n := Z.pos m) in *. clearbody n.
        assert (L' : (inject_Z ((2 * k - 1) * t) <= inject_Z (2 * n))%Q).
        { rewrite !inject_Z_mult. change (inject_Z 2) with 2%Q. set (z := inject_Z (2 * k - 1)) in *. set (tt := inject_Z t) in *. set (nn := inject_Z n) in *. clearbody z tt nn.
          assert (C : (z * (1 # 2) * tt <= nn * b * tt)%Q) by (apply Qmult_le_compat_r; [exact L|lra]). assert (G : (nn * b * tt == nn * (b * tt))%Q) by ring. rewrite G, B in C. assert (G2 : (z * (1 # 2) * tt == z * tt * (1 # 2))%Q) by ring. rewrite G2 in C. lra. }
        assert (U' : (inject_Z (2 * n) < inject_Z ((2 * k + 1) * t))%Q).
        { rewrite !inject_Z_mult. change (inject_Z 2) with 2%Q. set (z := inject_Z (2 * k + 1)) in *. set (tt := inject_Z t) in *. set (nn := inject_Z n) in *. clearbody z tt nn.
          assert (C : (nn * b * tt < z * (1 # 2) * tt)%Q) by (apply Qmult_lt_compat_r; [exact Pt|exact U]). assert (G : (nn * b * tt == nn * (b * tt))%Q) by ring. rewrite G, B in C. assert (G2 : (z * (1 # 2) * tt == z * tt * (1 # 2))%Q) by ring. rewrite G2 in C. lra. }
        apply (proj1 (injZ_le _ _)) in L'. apply (proj1 (injZ_lt _ _)) in U'. symmetry. apply (Z.div_unique_pos _ _ _ (2 * n + t - 2 * t * k)); nia. }
    rewrite K. apply chk_in. unfold in_i32, INT_MIN, INT_MAX in *. lia.
Qed.

Lemma layer_loop_ok factor n : 2 <= factor -> n * factor <= INT_MAX -> forall fuel k, 0 <= k -> (k = 0 \/ factor ^ (k - 1) < n) -> n <= factor ^ k * 2 ^ (Z.of_nat fuel - 1) -> k + Z.of_nat fuel < 2 ^ 31 -> (0 < fuel)%nat ->
  exists j, least_layer factor n j /\ forall fuel', (fuel <= fuel')%nat -> layer_loop fuel' (factor ^ k) k n factor = Ok j.
Proof.
  intros Hf Hn. induction fuel as [|fuel IH]; intros k Hk Lo Hi B F; [lia|].
  assert (Pk : 0 < factor ^ k) by (apply Z.pow_pos_nonneg; lia).
  destruct (n <=? factor ^ k) eqn:E.
  - exists k. split; [split; [exact Hk|]; split; [lia|exact Lo]|]. intros [|fuel'] Hle; [lia|]. cbn [layer_loop]. rewrite E. reflexivity.
  - assert (S : factor ^ (k + 1) = factor ^ k * factor) by (rewrite Z.pow_add_r by lia; ring).
    destruct fuel as [|fuel]. { change (Z.of_nat 1 - 1) with 0 in Hi. change (2 ^ 0) with 1 in Hi. lia. }
    destruct (IH (k + 1)) as (j & J & L); try lia.
    + right. replace (k + 1 - 1) with k by lia. lia.
    + rewrite S. replace (Z.of_nat (Datatypes.S (Datatypes.S fuel)) - 1) with (Z.of_nat (Datatypes.S fuel) - 1 + 1) in Hi by lia. rewrite Z.pow_add_r in Hi by lia. change (2 ^ 1) with 2 in Hi.
      assert (0 < 2 ^ (Z.of_nat (Datatypes.S fuel) - 1)) by (apply Z.pow_pos_nonneg; lia). nia.
    + exists j. split; [exact J|]. intros [|fuel'] Hle; [lia|]. cbn [layer_loop]. rewrite E. rewrite chk_in by (unfold in_i32, INT_MIN, INT_MAX in *; nia). cbn [bind].
      rewrite chk_in by (unfold in_i32, INT_MIN, INT_MAX in *; lia). cbn [bind]. rewrite <- S. apply L. lia.
Qed.

Lemma nearest_le p q : 0 < p -> 0 < q -> nearest p q <= p.
Proof. intros Hp Hq. destruct (nearest_bounds p q Hp Hq) as (N0 & N1 & N2). nia. Qed.

Lemma quot64_nn p q : 0 < p < 2 ^ 31 -> 0 < q < 2 ^ 31 -> nn 53 1024 (quot64 p q).
Proof. intros Hp Hq. destruct (quot_range p q Hp Hq) as [_ R]. apply (quot64_op p q 32 Hp Hq R ltac:(lia)). Qed.
Lemma round_quot p q : 0 < p <= INT_MAX -> 0 < q <= INT_MAX -> round_int (quot64 p q) = Ok (nearest p q).
Proof.
  intros Hp Hq. unfold INT_MAX in *. destruct (quot64_round p q ltac:(lia) ltac:(lia)) as [L U]. pose proof (nearest_bounds p q ltac:(lia) ltac:(lia)) as [N _]. pose proof (nearest_le p q ltac:(lia) ltac:(lia)).
  apply round_int_ok; [apply quot64_nn; lia|unfold INT_MAX; lia|exact L|exact U].
Qed.

Lemma calc_layer_ok w h pw ph factor : 0 < w <= INT_MAX -> 0 < h <= INT_MAX -> 0 < pw <= INT_MAX -> 0 < ph <= INT_MAX -> 2 <= factor -> ratio_of w h pw ph * factor <= INT_MAX ->
  exists k, least_layer factor (ratio_of w h pw ph) k /\ forall fuel, (32 <= fuel)%nat -> calc_layer fuel w h pw ph factor = Ok k.
Proof.
  intros Hw Hh Hpw Hph Hf Hn.
  assert (R : round_int (if ph <? pw then f64_div (f64_of_Z w) (f64_of_Z pw) else f64_div (f64_of_Z h) (f64_of_Z ph)) = Ok (ratio_of w h pw ph)).
  { unfold ratio_of. destruct (ph <? pw); apply round_quot; assumption. }
  assert (N : ratio_of w h pw ph <= INT_MAX).
  { unfold ratio_of. destruct (ph <? pw); (eapply Z.le_trans; [apply nearest_le; lia|lia]). }
  set (n := ratio_of w h pw ph) in *. clearbody n.
  destruct (layer_loop_ok factor n Hf Hn 32 0) as (k & K & L); try lia; try (left; reflexivity).
  - change (factor ^ 0) with 1. change (2 ^ (Z.of_nat 32 - 1)) with 2147483648. unfold INT_MAX in *. lia.
  - exists k. split; [exact K|]. intros fuel F. unfold calc_layer. rewrite R. cbn [bind]. apply L. exact F.
Qed.
Lemma pixel_size_from_ok factor : 1 <= factor -> forall n f, 1 <= f -> f * factor ^ Z.of_nat n <= INT_MAX -> pixel_size_from n f factor = Ok (f * factor ^ Z.of_nat n).
Proof.
  intros Hf. induction n as [|n IH]; intros f F H; cbn [pixel_size_from].
  - change (Z.of_nat 0) with 0. change (factor ^ 0) with 1. f_equal. lia.
  - replace (Z.of_nat (Datatypes.S n)) with (1 + Z.of_nat n) in * by lia. rewrite Z.pow_add_r in * by lia. rewrite Z.pow_1_r in *. assert (1 <= factor ^ Z.of_nat n) by (apply (Z.pow_le_mono_l 1 factor (Z.of_nat n)) in Hf as X || idtac; pose proof (Z.pow_pos_nonneg factor (Z.of_nat n)); lia).
    rewrite chk_in by (unfold in_i32, INT_MIN, INT_MAX in *; nia). cbn [bind]. rewrite IH; [f_equal; ring|nia|]. rewrite <- Z.mul_assoc. exact H.
Qed.
Lemma pixel_size_ok layer factor : 1 <= factor -> 0 <= layer -> factor ^ layer <= INT_MAX -> pixel_size layer factor = Ok (factor ^ layer).
Proof.
  intros Hf Hl H. unfold pixel_size. rewrite pixel_size_from_ok; rewrite ?Z2Nat.id by lia; try lia. f_equal. lia.
Qed.

(** the loop does not end *)
Lemma layer_loop_stuck factor n : factor = 0 \/ factor = 1 -> 2 <= n -> forall fuel f k j, f = 0 \/ f = 1 -> layer_loop fuel f k n factor <> Ok j.
Proof.
  intros Hf Hn. induction fuel as [|fuel IH]; intros f k j F; cbn [layer_loop]; [discriminate|]. replace (n <=? f) with false by lia. rewrite chk_in by (unfold in_i32, INT_MIN, INT_MAX; nia). cbn [bind].
  unfold chk. destruct (in_i32b (k + 1)); [|discriminate]. cbn [bind]. apply IH. nia.
Qed.
Lemma calc_layer_stuck w h pw ph factor fuel k : 0 < w <= INT_MAX -> 0 < h <= INT_MAX -> 0 < pw <= INT_MAX -> 0 < ph <= INT_MAX -> factor = 0 \/ factor = 1 -> 2 <= ratio_of w h pw ph ->
  calc_layer fuel w h pw ph factor <> Ok k.
Proof.
  intros Hw Hh Hpw Hph Hf Hn. unfold calc_layer.
  replace (round_int _) with (Ok (ratio_of w h pw ph)) by (unfold ratio_of; destruct (ph <? pw); symmetry; apply round_quot; assumption). cbn [bind]. apply layer_loop_stuck; auto.
Qed.

(** ** Placement *)
Lemma tile_pos_ok p o s : 0 < s -> in_i32 (p - o) -> (o <= p \/ (p - o) mod s = 0) -> tile_pos p o s = Ok ((p - o) / s).
Proof.
  intros Hs Hd H. unfold tile_pos. replace (s =? 0) with false by lia. rewrite chk_in by exact Hd. cbn [bind].
  assert (Q : Z.quot (p - o) s = (p - o) / s).
  { destruct H as [H|H]; [apply Z.quot_div_nonneg; lia|]. apply Z.mod_divide in H; [|lia]. destruct H as [c H]. rewrite H, Z.quot_mul, Z.div_mul by lia. reflexivity. }
  rewrite Q. apply chk_in. unfold in_i32, INT_MIN, INT_MAX in *. nia.
Qed.
Lemma tile_pos_shift p o s a : 0 < s -> in_i32 (p - o) -> in_i32 (p - (o + a * s)) -> (o <= p /\ o + a * s <= p \/ (p - o) mod s = 0) ->
  exists x, tile_pos p o s = Ok x /\ tile_pos p (o + a * s) s = Ok (x - a).
Proof.
  intros Hs H1 H2 H. exists ((p - o) / s). split; [apply tile_pos_ok; tauto|]. rewrite tile_pos_ok; try assumption.
  - f_equal. replace (p - (o + a * s)) with (p - o + (- a) * s) by ring. rewrite Z.div_add by lia. lia.
  - destruct H as [H|H]; [left; lia|right]. replace (p - (o + a * s)) with (p - o + (- a) * s) by ring. rewrite Z.mod_add by lia. exact H.
Qed.
