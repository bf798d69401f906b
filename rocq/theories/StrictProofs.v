(** Strict parsing of directory entries: what is accepted, what the entry is. *)
From Verif Require Import Base CodecModel CodecProofs.

(** ** Specification *)
(** dimension letters are recognised in either case *)
Definition letter (c : Z) (d : dimentry) : bool := (d_char d =? c) || (d_char d =? c + 32).
Definition last_of (c : Z) (ds : list dimentry) : option dimentry := find (letter c) (rev ds).
(** Z C T R S I H V B *)
Definition other_letters : list Z := [90; 67; 84; 82; 83; 73; 72; 86; 66].
Definition is_xym (d : dimentry) : bool := letter 88 d || letter 89 d || letter 77 d.
Definition value (f : dimentry -> Z) (c : Z) (ds : list dimentry) : Z := match last_of c ds with Some d => f d | None => INT_MIN end.
(** the last entry for a dimension counts *)
Definition entry_of (pt pos comp pyr : Z) (ds : list dimentry) : sbe :=
  mkSbe (map (fun c => option_map d_start (last_of c ds)) other_letters) (value d_start 77 ds)
    (value d_start 88 ds) (value d_start 89 ds) (value d_size 88 ds) (value d_size 89 ds) (value d_stored 88 ds) (value d_stored 89 ds)
    pt pos comp pyr.
Definition accepted (o : popts) (ds : list dimentry) : Prop :=
  (forall d, In d ds -> is_xym d = true \/ exists c, In c other_letters /\ letter c d = true) /\
  (o_xy o = true -> (exists d, In d ds /\ letter 88 d = true) /\ exists d, In d ds /\ letter 89 d = true) /\
  (o_size1 o = true -> forall d, In d ds -> is_xym d = false -> d_size d = 1) /\
  (o_phys1 o = true -> forall d, In d ds -> is_xym d = false -> d_stored d = 1) /\
  (o_m1 o = true -> forall d, In d ds -> letter 77 d = true -> d_size d = 1) /\
  (o_m1_nonpyr o = true -> value d_size 88 ds = value d_stored 88 ds -> value d_size 89 ds = value d_stored 89 ds ->
     forall d, In d ds -> letter 77 d = true -> d_size d = 1).

(** ** Proof *)
Lemma upper_letter c d : 65 <= c <= 90 -> (to_upper (d_char d) =? c) = letter c d.
Proof. intros H. unfold to_upper, letter. destruct ((97 <=? d_char d) && (d_char d <=? 122)) eqn:E; lia. Qed.

Definition dim_ok (o : popts) (d : dimentry) : bool :=
  if letter 88 d || letter 89 d then true
  else if letter 77 d then negb (o_m1 o) || (d_size d =? 1)
  else existsb (fun c => letter c d) other_letters && (negb (o_phys1 o) || (d_stored d =? 1)) && (negb (o_size1 o) || (d_size d =? 1)).
Definition acc_of (ds : list dimentry) : pacc :=
  mkPacc (entry_of 0 0 0 0 ds) (existsb (letter 88) ds) (existsb (letter 89) ds) (existsb (fun d => letter 77 d && negb (d_size d =? 1)) ds).

Lemma last_snoc c ds d : last_of c (ds ++ [d]) = if letter c d then Some d else last_of c ds.
Proof. unfold last_of. rewrite rev_app_distr. reflexivity. Qed.
Lemma value_snoc f c ds d : value f c (ds ++ [d]) = if letter c d then f d else value f c ds.
Proof. unfold value. rewrite last_snoc. destruct (letter c d); reflexivity. Qed.
Lemma existsb_snoc {A} (f : A -> bool) l x : existsb f (l ++ [x]) = existsb f l || f x.
Proof. rewrite existsb_app. cbn [existsb]. now rewrite orb_false_r. Qed.
Lemma letter_excl c c' d : 65 <= c <= 90 -> 65 <= c' <= 90 -> c <> c' -> letter c d = true -> letter c' d = false.
Proof. unfold letter. lia. Qed.
Ltac excl H :=
  match type of H with letter ?c0 ?d = true =>
    repeat match goal with |- context [letter ?c d] => assert_fails (constr_eq c c0);
      rewrite (letter_excl c0 c d ltac:(lia) ltac:(lia) ltac:(lia) H) end end.
Lemma dim_index_letter d : dim_index (d_char d) =
  if letter 90 d then Some 0%nat else if letter 67 d then Some 1%nat else if letter 84 d then Some 2%nat
  else if letter 82 d then Some 3%nat else if letter 83 d then Some 4%nat else if letter 73 d then Some 5%nat
  else if letter 72 d then Some 6%nat else if letter 86 d then Some 7%nat else if letter 66 d then Some 8%nat else None.
Proof. unfold dim_index. rewrite !upper_letter by lia. reflexivity. Qed.

Lemma add_dims_spec o ds : add_dims o (mkPacc entry0 false false false) ds = if forallb (dim_ok o) ds then Ok (acc_of ds) else Throw.
Proof.
  induction ds as [|d ds IH] using rev_ind; [reflexivity|].
  rewrite add_dims_app, IH, forallb_app. cbn [forallb]. rewrite andb_true_r. destruct (forallb (dim_ok o) ds); [|reflexivity]. cbn [bind add_dims andb].
  unfold add_dim, dim_ok. rewrite !upper_letter by lia. unfold acc_of, entry_of. rewrite !existsb_snoc, !value_snoc.
  assert (M : map (fun c => option_map d_start (last_of c (ds ++ [d]))) other_letters =
              map (fun c => if letter c d then Some (d_start d) else option_map d_start (last_of c ds)) other_letters)
    by (apply map_ext; intros c; rewrite last_snoc; destruct (letter c d); reflexivity).
  rewrite M. clear M. cbn [a_e a_xg a_yg a_mbad e_coord e_m e_x e_y e_w e_h e_sw e_sh e_pt e_pos e_comp e_pyr].
  unfold other_letters; cbn [map].
  destruct (letter 88 d) eqn:L1.
  { excl L1. cbn [orb bind andb]. rewrite !orb_false_r, orb_true_r. reflexivity. }
  destruct (letter 89 d) eqn:L2.
  { excl L2. cbn [orb bind andb]. rewrite !orb_false_r, orb_true_r. reflexivity. }
  destruct (letter 77 d) eqn:L3.
  { excl L3. cbn [orb andb]. destruct (d_size d =? 1); cbn [negb]; rewrite ?orb_true_r, ?orb_false_r; [reflexivity|].
    destruct (o_m1 o); reflexivity. }
  rewrite dim_index_letter. cbn [orb andb existsb]. rewrite !orb_false_r.
  destruct (letter 90 d) eqn:A1; [|destruct (letter 67 d) eqn:A2; [|destruct (letter 84 d) eqn:A3; [|destruct (letter 82 d) eqn:A4; [|
  destruct (letter 83 d) eqn:A5; [|destruct (letter 73 d) eqn:A6; [|destruct (letter 72 d) eqn:A7; [|destruct (letter 86 d) eqn:A8; [|
  destruct (letter 66 d) eqn:A9; [|reflexivity]]]]]]]]];
  match goal with H : letter ?c d = true |- _ => excl H end;
  cbn [orb andb upd]; destruct (o_phys1 o), (d_stored d =? 1), (o_size1 o), (d_size d =? 1); reflexivity.
Qed.

Lemma accepted_iff o ds : forallb (dim_ok o) ds = true /\
   (o_xy o && (negb (existsb (letter 88) ds) || negb (existsb (letter 89) ds))) = false /\
   (existsb (fun d => letter 77 d && negb (d_size d =? 1)) ds && o_m1_nonpyr o &&
     ((value d_size 88 ds =? value d_stored 88 ds) && (value d_size 89 ds =? value d_stored 89 ds))) = false <-> accepted o ds.
Proof.
  unfold accepted. rewrite forallb_forall. split.
  - intros (H1 & H2 & H3). split; [|split; [|split; [|split; [|split]]]].
    + intros d Hd. specialize (H1 d Hd). unfold dim_ok, is_xym in *. destruct (letter 88 d || letter 89 d) eqn:E; [left; reflexivity|]. cbn [orb].
      destruct (letter 77 d); [left; reflexivity|right]. rewrite !andb_true_iff in H1. destruct H1 as [[H1 _] _]. apply existsb_exists in H1. exact H1.
    + intros O. rewrite O in H2. cbn [andb] in H2. apply orb_false_iff in H2. rewrite !negb_false_iff in H2. rewrite !existsb_exists in H2. exact H2.
    + intros O d Hd E. specialize (H1 d Hd). unfold dim_ok, is_xym in *. apply orb_false_iff in E. destruct E as [-> ->] in H1. rewrite O in H1. cbn [negb orb] in H1. lia.
    + intros O d Hd E. specialize (H1 d Hd). unfold dim_ok, is_xym in *. apply orb_false_iff in E. destruct E as [-> ->] in H1. rewrite O in H1. cbn [negb orb] in H1. lia.
    + intros O d Hd E. specialize (H1 d Hd). unfold dim_ok in H1. rewrite (letter_excl 77 88 d), (letter_excl 77 89 d), E, O in H1 by (assumption || lia). cbn [negb orb] in H1. lia.
    + intros O E1 E2 d Hd E. rewrite O, E1, E2, !Z.eqb_refl in H3. cbn [andb] in H3. rewrite !andb_true_r in H3.
      destruct (d_size d =? 1) eqn:S; [lia|]. exfalso.
      assert (existsb (fun d => letter 77 d && negb (d_size d =? 1)) ds = true); [|congruence]. apply existsb_exists. exists d. split; [exact Hd|]. now rewrite E, S.
  - intros (H1 & H2 & H3 & H4 & H5 & H6). split; [|split].
    + intros d Hd. unfold dim_ok. destruct (letter 88 d || letter 89 d) eqn:E; [reflexivity|]. destruct (letter 77 d) eqn:E2.
      * destruct (o_m1 o) eqn:O; [|reflexivity]. cbn [negb orb]. apply Z.eqb_eq. now apply H5.
      * assert (XY : is_xym d = false) by (unfold is_xym; now rewrite E, E2). rewrite !andb_true_iff. split; [split|].
        -- apply existsb_exists. destruct (H1 d Hd) as [H|H]; [congruence|exact H].
        -- destruct (o_phys1 o) eqn:O; [|reflexivity]. cbn [negb orb]. apply Z.eqb_eq. now apply H4.
        -- destruct (o_size1 o) eqn:O; [|reflexivity]. cbn [negb orb]. apply Z.eqb_eq. now apply H3.
    + destruct (o_xy o) eqn:O; [|reflexivity]. destruct (H2 eq_refl) as [A B]. apply existsb_exists in A, B. now rewrite A, B.
    + destruct (o_m1_nonpyr o) eqn:O; [|now rewrite andb_false_r]. destruct (value d_size 88 ds =? value d_stored 88 ds) eqn:V1; [|now rewrite andb_false_r].
      destruct (value d_size 89 ds =? value d_stored 89 ds) eqn:V2; [|now rewrite andb_false_r]. rewrite !andb_true_r.
      apply not_true_is_false. intros X. apply existsb_exists in X. destruct X as (d & Hd & X). apply andb_true_iff in X. destruct X as [X1 X2].
      rewrite (H6 eq_refl ltac:(lia) ltac:(lia) d Hd X1) in X2. discriminate X2.
Qed.

Lemma add_entry_spec o pt pos comp pyr ds :
  (accepted o ds /\ add_entry o pt pos comp pyr ds = Ok (entry_of pt pos comp pyr ds)) \/ (~ accepted o ds /\ add_entry o pt pos comp pyr ds = Throw).
Proof.
  unfold add_entry. rewrite add_dims_spec. pose proof (accepted_iff o ds) as A. destruct (forallb (dim_ok o) ds); [|right; split; [intros H; apply A in H; destruct H; discriminate|reflexivity]].
  cbn [bind acc_of a_e a_xg a_yg a_mbad entry_of e_w e_sw e_h e_sh].
  destruct (o_xy o && _); [right; split; [intros H; apply A in H; destruct H as (_ & ? & _); discriminate|reflexivity]|].
  destruct (existsb _ ds && o_m1_nonpyr o && _); [right; split; [intros H; apply A in H; destruct H as (_ & _ & ?); discriminate|reflexivity]|].
  left. split; [apply A; auto|reflexivity].
Qed.

(** the bytes of one directory entry with arbitrary dimension entries *)
Lemma parse_step_any o n pre e ds rest : sbe_wf e -> Forall de_wf ds -> (length ds <= 40)%nat -> Z.of_nat (length (pre ++ enc_dv e ds ++ rest)) < 2 ^ 64 ->
  parse_entries o (S n) (pre ++ enc_dv e ds ++ rest) (Z.of_nat (length pre)) =
  let* r := add_entry o (e_pt e) (e_pos e) (e_comp e) (e_pyr e) ds in
  let* es := parse_entries o n (pre ++ enc_dv e ds ++ rest) (Z.of_nat (length (pre ++ enc_dv e ds))) in Ok (r :: es).
Proof.
  intros Hwf Hds Hdl Hlen. cbn [parse_entries]. set (payload := pre ++ enc_dv e ds ++ rest) in *.
  assert (P1 : payload = pre ++ [68; 86] ++ (dv_mid e (Z.of_nat (length ds)) ++ flat_map enc_dim ds ++ rest)).
  { subst payload. rewrite enc_dv_split. now rewrite <- !app_assoc. }
  rewrite (fread_ok payload pre [68; 86] _ 2 2 P1) by (cbn [length]; lia).
  cbn [bind nth]. change (68 =? 68) with true. change (86 =? 86) with true. cbn [andb].
  assert (P2 : payload = (pre ++ [68; 86]) ++ dv_mid e (Z.of_nat (length ds)) ++ (flat_map enc_dim ds ++ rest)) by (rewrite P1; now rewrite <- !app_assoc).
  destruct (dv_mid_fields e (Z.of_nat (length ds))) as (L & F1 & F2 & F3 & F4 & F5).
  rewrite (fread_ok payload (pre ++ [68; 86]) _ _ 30 30 P2) by lia.
  cbn [bind]. rewrite F1, F2, F3, F4, F5.
  assert (Dc : s32 (unle (le 4 (Z.of_nat (length ds)))) = Z.of_nat (length ds)) by (apply s32_unle_le4; unfold in_i32, INT_MIN, INT_MAX; lia).
  rewrite Dc.
  assert (P3 : payload = ((pre ++ [68; 86]) ++ dv_mid e (Z.of_nat (length ds))) ++ flat_map enc_dim ds ++ rest) by (rewrite P2; now rewrite <- !app_assoc).
  assert (Hs : s32 (20 * Z.of_nat (length ds)) = 20 * Z.of_nat (length ds)) by (apply s32_id; unfold in_i32, INT_MIN, INT_MAX; lia).
  rewrite Hs.
  rewrite (fread_ok payload _ _ _ (20 * Z.of_nat (length ds)) (20 * MAXDIMENSIONS) P3); [|rewrite flat_enc_dim_length; lia|unfold MAXDIMENSIONS; lia|assumption].
  cbn [bind]. rewrite flat_enc_dim_length. replace (Z.of_nat (20 * length ds) <? 20 * Z.of_nat (length ds)) with false by lia.
  rewrite Nat2Z.id. rewrite <- (app_nil_r (flat_map enc_dim ds)) at 1. rewrite dec_dims_enc by assumption.
  destruct Hwf as ((Hcl & _) & Hm & Hx & Hy & Hw & Hh & Hsw & Hsh & Hpt & Hpos & Hcomp & Hpyr).
  rewrite !s32_unle_le4 by assumption. rewrite unle_le. change (256 ^ Z.of_nat 8) with (2 ^ 64). rewrite Z.mod_small by assumption.
  rewrite (enc_dv_split e ds), <- !app_assoc. reflexivity.
Qed.

Definition raw_ok (r : sbe * list dimentry) : Prop := sbe_wf (fst r) /\ Forall de_wf (snd r) /\ (length (snd r) <= 40)%nat.
Definition raw_bytes (r : sbe * list dimentry) : bytes := enc_dv (fst r) (snd r).
Definition raw_entry (r : sbe * list dimentry) : sbe := entry_of (e_pt (fst r)) (e_pos (fst r)) (e_comp (fst r)) (e_pyr (fst r)) (snd r).

Lemma strict_parsing_at o : forall rs pre, Forall raw_ok rs -> Z.of_nat (length (pre ++ flat_map raw_bytes rs)) < 2 ^ 64 ->
  (Forall (fun r => accepted o (snd r)) rs /\ parse_entries o (length rs) (pre ++ flat_map raw_bytes rs) (Z.of_nat (length pre)) = Ok (map raw_entry rs)) \/
  (~ Forall (fun r => accepted o (snd r)) rs /\ parse_entries o (length rs) (pre ++ flat_map raw_bytes rs) (Z.of_nat (length pre)) = Throw).
Proof.
  induction rs as [|[e ds] rs IH]; intros pre W L.
  { left. split; [constructor|reflexivity]. }
  apply Forall_cons_iff in W. destruct W as [(W1 & W2 & W3) W]. cbn [fst snd] in *.
  cbn [flat_map length] in *. unfold raw_bytes at 1 3. unfold raw_bytes at 1 in L. cbn [fst snd] in *.
  rewrite parse_step_any by assumption.
  specialize (IH (pre ++ enc_dv e ds) W). rewrite <- !app_assoc in IH. specialize (IH L).
  destruct (add_entry_spec o (e_pt e) (e_pos e) (e_comp e) (e_pyr e) ds) as [[A E]|[A E]]; rewrite E; cbn [bind].
  - destruct IH as [[F R]|[F R]]; rewrite R; cbn [bind]; [left|right].
    + split; [constructor; assumption|reflexivity].
    + split; [|reflexivity]. intros X. apply Forall_cons_iff in X. tauto.
  - right. split; [|reflexivity]. intros X. apply Forall_cons_iff in X. cbn [snd] in X. tauto.
Qed.

Lemma strict_parsing : forall o rs, Forall raw_ok rs -> Z.of_nat (length (flat_map raw_bytes rs)) < 2 ^ 64 ->
  (Forall (fun r => accepted o (snd r)) rs /\ parse_entries o (length rs) (flat_map raw_bytes rs) 0 = Ok (map raw_entry rs)) \/
  (~ Forall (fun r => accepted o (snd r)) rs /\ parse_entries o (length rs) (flat_map raw_bytes rs) 0 = Throw).
Proof. intros o rs W L. exact (strict_parsing_at o rs [] W L). Qed.

(** a pyramid tile with M of size 3 and lower-case letters; without Y *)
Definition ex_dims : list dimentry := [mkDE 120 5 100 50; mkDE 89 (-7) 80 40; mkDE 77 2 3 3; mkDE 67 1 1 1; mkDE 99 4 1 1].
Definition popts_strict : popts := mkPopts true true true true false.
Lemma ex_strict : exists e, parse_entries popts_strict 1 (enc_dv entry0 ex_dims) 0 = Ok [e] /\ e_x e = 5 /\ e_sh e = 40 /\ e_m e = 2 /\ nth 1 (e_coord e) None = Some 4.
Proof. eexists. split; [vm_compute; reflexivity|]. repeat split; reflexivity. Qed.
Lemma ex_strict_no_y : parse_entries popts_strict 1 (enc_dv entry0 [mkDE 88 5 100 50; mkDE 67 1 1 1]) 0 = Throw.
Proof. vm_compute. reflexivity. Qed.
