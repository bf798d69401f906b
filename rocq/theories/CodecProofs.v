(** Proofs about the on-disk codec. *)
From Verif Require Import Base CodecModel.

Definition with_coord (e : sbe) (c : coord) : sbe :=
  mkSbe c (e_m e) (e_x e) (e_y e) (e_w e) (e_h e) (e_sw e) (e_sh e) (e_pt e) (e_pos e) (e_comp e) (e_pyr e).

(** Representable entries: every field fits its on-disk field. *)
Definition coord_wf (c : coord) : Prop :=
  length c = 9%nat /\ Forall (fun o => match o with Some v => in_i32 v | None => True end) c.
Definition sbe_wf (e : sbe) : Prop :=
  coord_wf (e_coord e) /\ in_i32 (e_m e) /\ in_i32 (e_x e) /\ in_i32 (e_y e) /\ in_i32 (e_w e) /\ in_i32 (e_h e)
  /\ in_i32 (e_sw e) /\ in_i32 (e_sh e) /\ in_i32 (e_pt e) /\ 0 <= e_pos e < 2 ^ 64 /\ in_i32 (e_comp e)
  /\ 0 <= e_pyr e < 256.

Definition de_wf (d : dimentry) : Prop := in_i32 (d_start d) /\ in_i32 (d_size d) /\ in_i32 (d_stored d).

Lemma in_i32_1 : in_i32 1. Proof. unfold in_i32, INT_MIN, INT_MAX; lia. Qed.

Lemma enc_dim_length d : length (enc_dim d) = 20%nat.
Proof. reflexivity. Qed.

Lemma flat_enc_dim_length ds : length (flat_map enc_dim ds) = (20 * length ds)%nat.
Proof. induction ds as [|d ds IH]; [reflexivity|]. cbn [flat_map length]. rewrite app_length, IH, enc_dim_length. lia. Qed.

Lemma slice_here {A} (a b : list A) (n : nat) : length a = n -> slice (a ++ b) 0 n = a.
Proof. intros H. rewrite slice_app_l by lia. apply slice_all; exact H. Qed.

Lemma slice_skip {A} (a b : list A) off len : (length a <= off)%nat -> slice (a ++ b) off len = slice b (off - length a) len.
Proof. apply slice_app_r. Qed.

Lemma dec_enc_dim d : de_wf d -> dec_dim (enc_dim d) = d.
Proof.
  intros (H1 & H2 & H3). destruct d as [c s z t]; cbn [d_start d_size d_stored] in *.
  change (mkDE c (s32 (unle (le 4 s))) (s32 (unle (le 4 z))) (s32 (unle (le 4 t))) = mkDE c s z t).
  rewrite (s32_unle_le4 s H1), (s32_unle_le4 z H2), (s32_unle_le4 t H3). reflexivity.
Qed.

Lemma dec_dims_enc ds rest : Forall de_wf ds -> dec_dims (length ds) (flat_map enc_dim ds ++ rest) = ds.
Proof.
  induction 1 as [|d ds H _ IH]; [reflexivity|].
  cbn [flat_map length dec_dims]. rewrite <- app_assoc.
  rewrite firstn_app, enc_dim_length, Nat.sub_diag, firstn_O, app_nil_r.
  rewrite firstn_all2 by (rewrite enc_dim_length; lia).
  rewrite dec_enc_dim by assumption.
  rewrite skipn_app, enc_dim_length, Nat.sub_diag, skipn_O.
  rewrite skipn_all2 by (rewrite enc_dim_length; lia). cbn [app]. now rewrite IH.
Qed.

Lemma coord_dims_wf cs c :
  Forall (fun o => match o with Some v => in_i32 v | None => True end) c -> Forall de_wf (coord_dims cs c).
Proof.
  intros H; revert cs; induction H as [|o c Ho H IH]; intros [|ch cs]; cbn [coord_dims]; try (now constructor).
  destruct o as [v|]; [|apply IH].
  apply Forall_cons; [|apply IH].
  repeat split; cbn [d_start d_size d_stored]; first [apply Ho|apply in_i32_1].
Qed.

Lemma coord_dims_length cs c : (length (coord_dims cs c) <= length c)%nat.
Proof.
  revert cs; induction c as [|o c IH]; intros [|ch cs]; cbn [coord_dims length]; try lia.
  destruct o; cbn [length]; specialize (IH cs); lia.
Qed.

Lemma dims_of_wf e mv : sbe_wf e -> Forall de_wf (dims_of e mv).
Proof.
  intros ((Hl & Hc) & Hm & Hx & Hy & Hw & Hh & Hsw & Hsh & _).
  unfold dims_of. apply Forall_app; split; [|apply Forall_app; split].
  - apply Forall_cons; [|apply Forall_cons; [|apply Forall_nil]]; (split; [|split]); assumption.
  - destruct mv; [|apply Forall_nil]. apply Forall_cons; [|apply Forall_nil].
    split; [exact Hm|]. split; exact in_i32_1.
  - now apply coord_dims_wf.
Qed.

Lemma dims_of_length e mv : length (e_coord e) = 9%nat -> (2 <= length (dims_of e mv) <= 12)%nat.
Proof.
  intros H. unfold dims_of. rewrite !app_length. pose proof (coord_dims_length dim_chars (e_coord e)) as L.
  destruct mv; cbn [length]; lia.
Qed.

Lemma upd_app_mid {A} (pre rest : list A) a b : upd (pre ++ a :: rest) (length pre) b = pre ++ b :: rest.
Proof. induction pre as [|x pre IH]; cbn [app length upd]; [reflexivity|now rewrite IH]. Qed.

(** The characters of the table map back to their own index. *)
Lemma dim_index_table k ch : nth_error dim_chars k = Some ch ->
  dim_index ch = Some k /\ (to_upper ch =? 88) = false /\ (to_upper ch =? 89) = false /\ (to_upper ch =? 77) = false.
Proof.
  intros H. do 9 (destruct k as [|k]; [cbn in H; injection H as <-; repeat split; reflexivity|]).
  cbn in H. destruct k; discriminate.
Qed.

Lemma nth_error_skipn_0 {A} (l : list A) k x t : skipn k l = x :: t -> nth_error l k = Some x /\ skipn (S k) l = t.
Proof.
  revert k; induction l as [|y l IH]; intros [|k] H; cbn [skipn] in H; try discriminate.
  - injection H as <- <-. split; reflexivity.
  - cbn [nth_error]. apply IH in H. exact H.
Qed.

Lemma add_dims_coord o cs c : forall pre e xg yg mb,
  cs = skipn (length pre) dim_chars -> length cs = length c ->
  e_coord e = pre ++ repeat None (length c) ->
  add_dims o (mkPacc e xg yg mb) (coord_dims cs c) = Ok (mkPacc (with_coord e (pre ++ c)) xg yg mb).
Proof.
  revert c; induction cs as [|ch cs IH]; intros [|v c] pre e xg yg mb Hcs Hl He; cbn [length] in Hl; try lia.
  - cbn [coord_dims add_dims]. rewrite app_nil_r in *. do 2 f_equal. destruct e; unfold with_coord; cbn in *. now subst.
  - symmetry in Hcs. apply nth_error_skipn_0 in Hcs. destruct Hcs as [Hn Hs].
    destruct (dim_index_table _ _ Hn) as (Hi & H88 & H89 & H77).
    destruct v as [v|]; cbn [coord_dims].
    + cbn [add_dims]. unfold add_dim at 1. cbn [d_char d_start d_size d_stored a_e a_xg a_yg a_mbad].
      rewrite H88, H89, H77, Hi. change (1 =? 1) with true. cbn [negb]. rewrite !andb_false_r. cbn [bind].
      rewrite (IH c (pre ++ [Some v])).
      * do 2 f_equal. unfold with_coord. cbn [e_m e_x e_y e_w e_h e_sw e_sh e_pt e_pos e_comp e_pyr].
        now rewrite <- app_assoc.
      * rewrite app_length; cbn [length]. rewrite Nat.add_1_r. now symmetry.
      * lia.
      * cbn [e_coord]. rewrite He. cbn [length repeat]. rewrite upd_app_mid. now rewrite <- app_assoc.
    + rewrite (IH c (pre ++ [None])).
      * now rewrite <- app_assoc.
      * rewrite app_length; cbn [length]. rewrite Nat.add_1_r. now symmetry.
      * lia.
      * rewrite He. cbn [length repeat]. now rewrite <- app_assoc.
Qed.

Lemma add_dims_app o ds1 : forall a ds2,
  add_dims o a (ds1 ++ ds2) = let* a' := add_dims o a ds1 in add_dims o a' ds2.
Proof.
  induction ds1 as [|d ds1 IH]; intros a ds2; cbn [app add_dims bind]; [reflexivity|].
  destruct (add_dim o a d); cbn [bind]; auto.
Qed.

Lemma add_entry_dims o e :
  length (e_coord e) = 9%nat ->
  add_entry o (e_pt e) (e_pos e) (e_comp e) (e_pyr e) (dims_of e (m_valid e)) = Ok e.
Proof.
  intros Hc. unfold add_entry, dims_of.
  assert (E : add_dims o (mkPacc entry0 false false false)
     ([mkDE 88 (e_x e) (e_w e) (e_sw e); mkDE 89 (e_y e) (e_h e) (e_sh e)]
      ++ (if m_valid e then [mkDE 77 (e_m e) 1 1] else []))
     = Ok (mkPacc (mkSbe no_coord (e_m e) (e_x e) (e_y e) (e_w e) (e_h e) (e_sw e) (e_sh e) 0 0 0 0) true true false)).
  { unfold m_valid. destruct (e_m e =? INT_MIN) eqn:Em; cbn [negb].
    - apply Z.eqb_eq in Em. rewrite Em. reflexivity.
    - reflexivity. }
  rewrite app_assoc, add_dims_app, E. cbn [bind].
  rewrite (add_dims_coord o dim_chars (e_coord e) []); cbn [length app].
  - cbn [bind a_e a_xg a_yg a_mbad]. cbn [negb]. rewrite !andb_false_r. cbn [andb].
    destruct e; reflexivity.
  - reflexivity.
  - now rewrite Hc.
  - rewrite Hc. reflexivity.
Qed.

(** ** Reading one entry *)

Lemma u64_id z : 0 <= z < 2 ^ 64 -> u64 z = z.
Proof. intros; unfold u64; apply Z.mod_small; assumption. Qed.

Lemma fread_ok payload pre chunk rest n cap :
  payload = pre ++ chunk ++ rest -> Z.of_nat (length chunk) = n -> n <= cap ->
  Z.of_nat (length payload) < 2 ^ 64 ->
  fread payload (Z.of_nat (length pre)) n cap = Ok (chunk, Z.of_nat (length (pre ++ chunk))).
Proof.
  intros -> Hn Hcap Hlen. rewrite !app_length in Hlen. unfold fread. rewrite !app_length.
  rewrite u64_id by lia.
  replace (Z.of_nat (length pre) + n <=? Z.of_nat (length pre + (length chunk + length rest))) with true by lia.
  replace ((n <? 0) || (cap <? n)) with false by lia.
  do 2 f_equal; [|lia].
  rewrite Nat2Z.id, <- Hn, Nat2Z.id. now apply slice_app_exact.
Qed.

Lemma enc_dv_length e ds : Z.of_nat (length (enc_dv e ds)) = 32 + 20 * Z.of_nat (length ds).
Proof.
  unfold enc_dv. rewrite !app_length, !le_length, flat_enc_dim_length. cbn [length]. lia.
Qed.

(** The 30 bytes behind the schema. *)
Definition dv_mid (e : sbe) (n : Z) : bytes :=
  le 4 (e_pt e) ++ le 8 (e_pos e) ++ le 4 0 ++ le 4 (e_comp e) ++ [e_pyr e; 0; 0; 0; 0; 0] ++ le 4 n.

Lemma enc_dv_split e ds :
  enc_dv e ds = [68; 86] ++ dv_mid e (Z.of_nat (length ds)) ++ flat_map enc_dim ds.
Proof. unfold enc_dv, dv_mid. now rewrite !app_assoc. Qed.

Lemma dv_mid_fields e n :
  length (dv_mid e n) = 30%nat
  /\ slice (dv_mid e n) 0 4 = le 4 (e_pt e) /\ slice (dv_mid e n) 4 8 = le 8 (e_pos e)
  /\ slice (dv_mid e n) 16 4 = le 4 (e_comp e) /\ nth 20 (dv_mid e n) 0 = e_pyr e
  /\ slice (dv_mid e n) 26 4 = le 4 n.
Proof. repeat split; reflexivity. Qed.

Lemma parse_entry_step o n pre e rest :
  sbe_wf e -> Z.of_nat (length (pre ++ enc_entry e ++ rest)) < 2 ^ 64 ->
  parse_entries o (S n) (pre ++ enc_entry e ++ rest) (Z.of_nat (length pre)) =
  let* es := parse_entries o n (pre ++ enc_entry e ++ rest) (Z.of_nat (length (pre ++ enc_entry e))) in
  Ok (e :: es).
Proof.
  intros Hwf Hlen. cbn [parse_entries].
  set (payload := pre ++ enc_entry e ++ rest) in *.
  unfold enc_entry in payload. 
  set (ds := dims_of e (m_valid e)) in *.
  assert (Hds : Forall de_wf ds) by (apply dims_of_wf; assumption).
  assert (Hdl : (2 <= length ds <= 12)%nat) by (apply dims_of_length; apply Hwf).
  assert (P1 : payload = pre ++ [68; 86] ++ (dv_mid e (Z.of_nat (length ds)) ++ flat_map enc_dim ds ++ rest)).
  { subst payload. rewrite enc_dv_split. now rewrite <- !app_assoc. }
  rewrite (fread_ok payload pre [68; 86] _ 2 2 P1) by (cbn [length]; lia).
  cbn [bind nth]. change (68 =? 68) with true. change (86 =? 86) with true. cbn [andb].
  assert (P2 : payload = (pre ++ [68; 86]) ++ dv_mid e (Z.of_nat (length ds)) ++ (flat_map enc_dim ds ++ rest))
    by (rewrite P1; now rewrite <- !app_assoc).
  destruct (dv_mid_fields e (Z.of_nat (length ds))) as (L & F1 & F2 & F3 & F4 & F5).
  rewrite (fread_ok payload (pre ++ [68; 86]) _ _ 30 30 P2) by lia.
  cbn [bind]. rewrite F1, F2, F3, F4, F5.
  assert (Dc : s32 (unle (le 4 (Z.of_nat (length ds)))) = Z.of_nat (length ds))
    by (apply s32_unle_le4; unfold in_i32, INT_MIN, INT_MAX; lia).
  rewrite Dc.
  assert (P3 : payload = ((pre ++ [68; 86]) ++ dv_mid e (Z.of_nat (length ds))) ++ flat_map enc_dim ds ++ rest)
    by (rewrite P2; now rewrite <- !app_assoc).
  assert (Hs : s32 (20 * Z.of_nat (length ds)) = 20 * Z.of_nat (length ds))
    by (apply s32_id; unfold in_i32, INT_MIN, INT_MAX; lia).
  rewrite Hs.
  rewrite (fread_ok payload _ _ _ (20 * Z.of_nat (length ds)) (20 * MAXDIMENSIONS) P3);
    [|rewrite flat_enc_dim_length; lia|unfold MAXDIMENSIONS; lia|assumption].
  cbn [bind]. rewrite flat_enc_dim_length.
  replace (Z.of_nat (20 * length ds) <? 20 * Z.of_nat (length ds)) with false by lia.
  rewrite Nat2Z.id.
  rewrite <- (app_nil_r (flat_map enc_dim ds)) at 1. rewrite dec_dims_enc by assumption.
  destruct Hwf as ((Hcl & _) & Hm & Hx & Hy & Hw & Hh & Hsw & Hsh & Hpt & Hpos & Hcomp & Hpyr).
  rewrite !s32_unle_le4 by assumption. rewrite unle_le. change (256 ^ Z.of_nat 8) with (2 ^ 64).
  rewrite Z.mod_small by assumption.
  subst ds. rewrite add_entry_dims by assumption. cbn [bind].
  unfold enc_entry. rewrite enc_dv_split, <- !app_assoc. reflexivity.
Qed.

Lemma parse_entries_enc o es : forall pre rest,
  Forall sbe_wf es -> Z.of_nat (length (pre ++ flat_map enc_entry es ++ rest)) < 2 ^ 64 ->
  parse_entries o (length es) (pre ++ flat_map enc_entry es ++ rest) (Z.of_nat (length pre)) = Ok es.
Proof.
  induction es as [|e es IH]; intros pre rest Hwf Hlen; [reflexivity|].
  inversion Hwf as [|? ? He Hes]; subst. cbn [flat_map length] in *.
  rewrite <- app_assoc in *. rewrite parse_entry_step by assumption.
  replace (pre ++ enc_entry e ++ flat_map enc_entry es ++ rest)
    with ((pre ++ enc_entry e) ++ flat_map enc_entry es ++ rest) in * by (now rewrite <- app_assoc).
  rewrite IH by assumption. reflexivity.
Qed.

Lemma entries_roundtrip o es :
  Forall sbe_wf es -> Z.of_nat (length (flat_map enc_entry es)) < 2 ^ 64 ->
  parse_entries o (length es) (flat_map enc_entry es) 0 = Ok es.
Proof.
  intros H L. rewrite <- (app_nil_r (flat_map enc_entry es)).
  apply (parse_entries_enc o es [] []); [assumption|]. cbn [app]. now rewrite app_nil_r.
Qed.

(** ** C02: undefined behaviour needs a bad dimension count *)

Lemma fread_ub payload off n cap : fread payload off n cap = UB -> n < 0 \/ cap < n.
Proof. unfold fread. destruct (u64 (off + n) <=? _); [|discriminate]. destruct ((n <? 0) || (cap <? n)) eqn:E; [lia|discriminate]. Qed.

Lemma fread_inv payload off n cap bs off' :
  0 <= off -> fread payload off n cap = Ok (bs, off') -> 0 <= n ->
  Z.of_nat (length payload) < 2 ^ 63 -> off <= Z.of_nat (length payload) -> n < 2 ^ 63 ->
  off' = off + n /\ off' <= Z.of_nat (length payload) /\ bs = slice payload (Z.to_nat off) (Z.to_nat n).
Proof.
  intros Ho H Hn Hl Hol Hn2. unfold fread in H.
  destruct (u64 (off + n) <=? Z.of_nat (length payload)) eqn:E; [|discriminate].
  destruct ((n <? 0) || (cap <? n)); [discriminate|]. injection H as <- <-.
  rewrite u64_id in E by lia. repeat split; lia.
Qed.

Lemma fread_throwoof payload off n cap : fread payload off n cap <> OutOfFuel.
Proof. unfold fread. destruct (_ <=? _); [destruct (_ || _)|]; discriminate. Qed.

Lemma add_dims_noub o ds : forall a, add_dims o a ds <> UB.
Proof.
  induction ds as [|d ds IH]; intros a; cbn [add_dims]; [discriminate|].
  destruct (add_dim o a d) as [a'| | |] eqn:E; cbn [bind]; try discriminate; [apply IH|].
  exfalso. revert E. unfold add_dim. repeat (match goal with |- context [if ?b then _ else _] => destruct b end); try discriminate.
  destruct (dim_index (d_char d)); [|discriminate].
  repeat (match goal with |- context [if ?b then _ else _] => destruct b end); discriminate.
Qed.

Lemma add_entry_noub o pt pos comp pyr ds : add_entry o pt pos comp pyr ds <> UB.
Proof.
  unfold add_entry. destruct (add_dims o _ ds) eqn:E; cbn [bind]; try discriminate.
  - repeat (match goal with |- context [if ?b then _ else _] => destruct b end); discriminate.
  - exfalso; eapply add_dims_noub; eassumption.
Qed.

(** The payload contains, at offset [o], a "DV" entry whose dimension count is
    negative or larger than forty. *)
Definition bad_dv (payload : bytes) (o : nat) : Prop :=
  (o + 32 <= length payload)%nat /\ slice payload o 2 = [68; 86]
  /\ ~ (0 <= s32 (unle (slice payload (o + 28) 4)) <= 40).

Lemma skipn_skipn_add {A} (l : list A) a b : skipn a (skipn b l) = skipn (b + a) l.
Proof. revert b; induction l as [|x l IH]; intros [|b]; cbn [skipn Nat.add]; auto. now rewrite skipn_nil. Qed.

Lemma slice_slice {A} (l : list A) o n o' n' :
  (o' + n' <= n)%nat -> slice (slice l o n) o' n' = slice l (o + o') n'.
Proof.
  intros H. unfold slice. rewrite skipn_firstn_comm, firstn_firstn, skipn_skipn_add.
  replace (Nat.min n' (n - o')) with n' by lia. reflexivity.
Qed.

Lemma two_bytes (s : bytes) : length s = 2%nat -> (nth 0 s 0 =? 68) && (nth 1 s 0 =? 86) = true -> s = [68; 86].
Proof.
  destruct s as [|a [|b [|c s]]]; cbn; try discriminate. intros _ H. assert (a = 68 /\ b = 86) as [-> ->] by lia. reflexivity.
Qed.

Lemma parse_ub_only_bad o n : forall payload off,
  Z.of_nat (length payload) < 2 ^ 63 -> 0 <= off <= Z.of_nat (length payload) ->
  parse_entries o n payload off = UB -> exists k, bad_dv payload k.
Proof.
  induction n as [|n IH]; intros payload off Hl Ho H; cbn [parse_entries] in H; [discriminate|].
  destruct (fread payload off 2 2) as [[sc off1]| | |] eqn:E1; cbn [bind] in H; try discriminate.
  2:{ apply fread_ub in E1; lia. }
  apply fread_inv in E1; try lia. destruct E1 as (-> & Hb1 & Hsc).
  destruct ((nth 0 sc 0 =? 68) && (nth 1 sc 0 =? 86)) eqn:EDV.
  - destruct (fread payload (off + 2) 30 30) as [[h off2]| | |] eqn:E2; cbn [bind] in H; try discriminate.
    2:{ apply fread_ub in E2; lia. }
    apply fread_inv in E2; try lia. destruct E2 as (-> & Hb2 & Hh).
    set (dc := s32 (unle (slice h 26 4))) in *.
    assert (Hdc : dc = s32 (unle (slice payload (Z.to_nat off + 28) 4))).
    { subst dc h. rewrite slice_slice by lia. do 2 f_equal. f_equal. lia. }
    destruct (Z_le_dec 0 dc) as [Hd0|Hd0]; [destruct (Z_le_dec dc 40) as [Hd1|Hd1]|].
    + (* fine: no UB here *)
      assert (Hs : s32 (20 * dc) = 20 * dc) by (apply s32_id; unfold in_i32, INT_MIN, INT_MAX; lia).
      rewrite Hs in H.
      destruct (fread payload (off + 2 + 30) (20 * dc) (20 * MAXDIMENSIONS)) as [[db off3]| | |] eqn:E3; cbn [bind] in H; try discriminate.
      2:{ apply fread_ub in E3. unfold MAXDIMENSIONS in E3; lia. }
      apply fread_inv in E3; try lia. destruct E3 as (-> & Hb3 & Hdb).
      assert (Ldb : Z.of_nat (length db) = 20 * dc) by (subst db; rewrite slice_length; lia).
      rewrite Ldb in H. replace (20 * dc <? 20 * dc) with false in H by lia.
      destruct (add_entry o _ _ _ _ _) as [e| | |] eqn:E4; cbn [bind] in H; try discriminate.
      2:{ exfalso; eapply add_entry_noub; eassumption. }
      destruct (parse_entries o n payload _) as [es| | |] eqn:E5; cbn [bind] in H; try discriminate.
      apply IH in E5; auto; lia.
    + exists (Z.to_nat off). split; [lia|]. split; [|rewrite <- Hdc; lia].
      subst sc. apply two_bytes; [apply slice_length; lia|assumption].
    + exists (Z.to_nat off). split; [lia|]. split; [|rewrite <- Hdc; lia].
      subst sc. apply two_bytes; [apply slice_length; lia|assumption].
  - destruct ((nth 0 sc 0 =? 68) && (nth 1 sc 0 =? 69)).
    + destruct (fread payload (off + 2) 128 128) eqn:E; cbn [bind] in H; try discriminate.
      apply fread_ub in E; lia.
    + apply IH in H; auto; lia.
Qed.

Lemma parse_no_fuel o n : forall payload off, parse_entries o n payload off <> OutOfFuel.
Proof.
  assert (A : forall a ds, add_dims o a ds <> OutOfFuel).
  { intros a ds; revert a; induction ds as [|d ds IH]; intros a; cbn [add_dims]; [discriminate|].
    destruct (add_dim o a d) as [a'| | |] eqn:E; cbn [bind]; try discriminate; [apply IH|].
    exfalso. revert E. unfold add_dim. repeat (match goal with |- context [if ?b then _ else _] => destruct b end); try discriminate.
    destruct (dim_index (d_char d)); [|discriminate].
    repeat (match goal with |- context [if ?b then _ else _] => destruct b end); discriminate. }
  induction n as [|n IH]; intros payload off H; cbn [parse_entries] in H; [discriminate|].
  destruct (fread payload off 2 2) as [[sc off1]| | |] eqn:E1; cbn [bind] in H; try discriminate; [|now apply fread_throwoof in E1].
  destruct (_ && _).
  - destruct (fread payload off1 30 30) as [[h off2]| | |] eqn:E2; cbn [bind] in H; try discriminate; [|now apply fread_throwoof in E2].
    destruct (fread payload off2 _ _) as [[db off3]| | |] eqn:E3; cbn [bind] in H; try discriminate; [|now apply fread_throwoof in E3].
    destruct (_ <? _); [discriminate|].
    destruct (add_entry o _ _ _ _ _) as [e| | |] eqn:E4; cbn [bind] in H; try discriminate.
    + destruct (parse_entries o n payload off3) eqn:E5; cbn [bind] in H; try discriminate. now apply IH in E5.
    + unfold add_entry in E4. destruct (add_dims o _ _) eqn:E6; cbn [bind] in E4; try discriminate.
      * repeat (match goal with H : context [if ?b then _ else _] |- _ => destruct b end); discriminate.
      * now apply A in E6.
  - destruct (_ && _).
    + destruct (fread payload off1 128 128) eqn:E; cbn [bind] in H; try discriminate. now apply fread_throwoof in E.
    + now apply IH in H.
Qed.

Lemma parse_defined o n payload :
  Z.of_nat (length payload) < 2 ^ 63 ->
  (forall k, (k + 32 <= length payload)%nat -> slice payload k 2 = [68; 86] ->
             0 <= s32 (unle (slice payload (k + 28) 4)) <= 40) ->
  parse_entries o n payload 0 = Throw \/ exists es, parse_entries o n payload 0 = Ok es.
Proof.
  intros Hl H. destruct (parse_entries o n payload 0) as [es| | |] eqn:E; eauto.
  - exfalso. apply parse_ub_only_bad in E; [|assumption|lia]. destruct E as (k & Hk & Hs & Hb). now apply Hb, H.
  - exfalso. now apply parse_no_fuel in E.
Qed.
