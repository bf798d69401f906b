(** Reading single parts through the reader object: sub-blocks with their information, attachments by type and name,
    a sub-block of a channel. *)
From Verif Require Import Base RectModel CodecModel CodecProofs WriterModel WriterSpec CodesModel TextModel TextProofs CoordModel CoordSpec CoordProofs StatModel StatSpec AccessModel EditSpec ReaderModel ReaderSpec ReaderProofs StrictProofs.
Open Scope Z_scope.

(** ** Discrepancies *)
Lemma valid_m_value m n : negb (Bool.eqb (valid_m m) (valid_m n)) || (valid_m n && negb (m =? n)) = false <-> m_value m = m_value n.
Proof.
  unfold valid_m, m_value. destruct (m =? INT_MAX) eqn:E1, (m =? INT_MIN) eqn:E2, (n =? INT_MAX) eqn:E3, (n =? INT_MIN) eqn:E4; cbn;
    try (split; [reflexivity|reflexivity]); try (split; discriminate); try (unfold INT_MAX, INT_MIN in *; lia).
  destruct (m =? n) eqn:E; cbn; split; intros H; try reflexivity; try discriminate; try (f_equal; lia). injection H; lia.
Qed.
Definition shaped (e : sbe) : Prop := length (e_coord e) = 9%nat /\ in_i32 (e_sw e) /\ in_i32 (e_sh e).
Lemma s32_u32 z : in_i32 z -> s32 (u32 z) = z.
Proof. intros H. unfold u32. replace (s32 (z mod 2 ^ 32)) with (s32 z); [now apply s32_id|]. unfold s32. now rewrite Z.mod_mod by lia. Qed.

Lemma discrepancy_false dv xy e d : shaped e -> shaped d -> (discrepancy dv xy e d = Ok false <-> dv = true /\ xy = true /\ agree e d).
Proof.
  intros (L1 & S1 & S2) (L2 & S3 & S4). unfold discrepancy, agree.
  destruct (e_pt e =? e_pt d) eqn:E1; cbn [negb orb]; [|split; [discriminate|intros (_ & _ & H & _); lia]].
  destruct (e_comp e =? e_comp d) eqn:E2; cbn [negb orb]; [|split; [discriminate|intros (_ & _ & _ & H & _); lia]].
  pose proof (compare_zero (e_coord e) (e_coord d) L1 L2) as C.
  destruct (CoordModel.compare (e_coord e) (e_coord d) =? 0) eqn:E3; cbn [negb]; [|split; [discriminate|intros (_ & _ & _ & _ & H & _); apply C in H; lia]].
  assert (Ec : e_coord e = e_coord d) by (apply C; lia). destruct dv; cbn [negb]; [|split; [discriminate|intros (H & _); discriminate]].
  pose proof (valid_m_value (e_m e) (e_m d)) as V.
  destruct (negb (Bool.eqb (valid_m (e_m e)) (valid_m (e_m d))) || (valid_m (e_m d) && negb (e_m e =? e_m d)));
    [split; [discriminate|intros (_ & _ & _ & _ & _ & H & _); apply V in H; discriminate]|].
  assert (Em : m_value (e_m e) = m_value (e_m d)) by now apply V. destruct xy; cbn [negb]; [|split; [discriminate|intros (_ & H & _); discriminate]].
  rewrite !s32_u32 by assumption. split.
  - intros H. assert (B : (e_x e =? e_x d) && (e_y e =? e_y d) && (e_w e =? e_w d) && (e_h e =? e_h d) && (e_sw e =? e_sw d) && (e_sh e =? e_sh d) = true) by (destruct (_ && (e_sh e =? e_sh d)); [reflexivity|discriminate]).
    repeat (apply andb_prop in B as [B ?]). repeat split; trivial; lia.
  - intros (_ & _ & H1 & H2 & H3 & H4 & H5 & H6 & H7 & H8 & H9 & H10). rewrite H5, H6, H7, H8, H9, H10, !Z.eqb_refl. reflexivity.
Qed.

Tactic Notation "dbind" ident(n) := match goal with |- bind ?Y _ = _ -> _ => destruct Y as [n| | |]; cbn [bind]; try discriminate end.
Lemma dec_dims_i32 n : forall bs, Forall (fun d => in_i32 (d_stored d)) (dec_dims n bs).
Proof. induction n as [|n IH]; intros bs; cbn [dec_dims]; [constructor|]. constructor; [apply s32_range|apply IH]. Qed.
Lemma sb_dims_shaped ds : forall e e', Forall (fun d => in_i32 (d_stored d)) ds -> shaped e -> sb_add_dims e ds = Ok e' -> shaped e'.
Proof.
  induction ds as [|d ds IH]; intros e e' F (L & S1 & S2); cbn [sb_add_dims]; [injection 1 as <-; (split; [|split]; assumption)|].
  inversion F as [|? ? F1 F2]; subst. destruct (sb_add_dim e d) as [e1| | |] eqn:E; cbn [bind]; try discriminate. apply IH; [assumption|].
  revert E. unfold sb_add_dim. repeat match goal with |- context [if ?c =? ?n then _ else _] => destruct (c =? n) end;
    try (injection 1 as <-; (split; [|split]; assumption)).
  destruct (dim_index (d_char d)); [|discriminate]. injection 1 as <-. split; [|split; assumption]. cbn [e_coord]. now rewrite upd_length.
Qed.
Lemma read_subblock_shaped strict f p d : read_subblock strict f p = Ok d -> shaped (sd_info d).
Proof.
  unfold read_subblock. destruct (read_exact strict f p 288) as [h| | |]; cbn [bind]; try discriminate.
  destruct (eqbytes (slice h 0 16) MAGIC_SB); cbn [negb]; [|discriminate].
  cbv zeta. match goal with |- bind ?Y _ = _ -> _ => set (X := Y) end.
  assert (S0 : forall pt ps c py, shaped (mkSbe no_coord INT_MAX 0 0 0 0 0 0 pt ps c py)) by (intros; repeat split; cbn; unfold INT_MIN, INT_MAX; lia).
  assert (HX : forall y, X = Ok y -> shaped (fst y)).
  { subst X. intros [e l]. destruct (_ && _).
    - destruct (MAXDIMENSIONS <? _); [discriminate|]. dbind more.
      destruct (sb_add_dims _ _) as [e1| | |] eqn:E; cbn [bind]; try discriminate. injection 1 as <- <-. cbn [fst]. eapply sb_dims_shaped; [apply dec_dims_i32| |exact E]. apply S0.
    - destruct (_ && _); [|discriminate]. injection 1 as <- <-. apply S0. }
  destruct X as [[e l]| | |]; cbn [bind]; try discriminate. specialize (HX _ eq_refl). cbn [fst] in HX.
  dbind md. dbind da.
  dbind at0. injection 1 as <-. exact HX.
Qed.
Lemma dims_shaped o ds : forall a a', Forall (fun d => in_i32 (d_stored d)) ds -> shaped (a_e a) -> add_dims o a ds = Ok a' -> shaped (a_e a').
Proof.
  induction ds as [|d ds IH]; intros a a' F (L & S1 & S2); cbn [add_dims]; [injection 1 as <-; (split; [|split]; assumption)|].
  inversion F as [|? ? F1 F2]; subst. destruct (add_dim o a d) as [a1| | |] eqn:E; cbn [bind]; try discriminate. apply IH; [assumption|].
  revert E. unfold add_dim. repeat match goal with |- context [if to_upper ?c =? ?n then _ else _] => destruct (to_upper c =? n) end;
    try (injection 1 as <-; (split; [|split]; assumption)).
  - destruct (negb (d_size d =? 1)); [destruct (o_m1 o); [discriminate|]|]; injection 1 as <-; (split; [|split]; assumption).
  - destruct (dim_index (d_char d)); [|discriminate]. destruct (o_phys1 o && _); [discriminate|]. destruct (o_size1 o && _); [discriminate|].
    injection 1 as <-. split; [|split; assumption]. cbn [a_e e_coord]. now rewrite upd_length.
Qed.
Lemma parse_shaped o n payload : forall off es, parse_entries o n payload off = Ok es -> Forall shaped es.
Proof.
  induction n as [|n IH]; intros off es; cbn [parse_entries]; [injection 1 as <-; constructor|].
  destruct (fread payload off 2 2) as [[sc o1]| | |]; cbn [bind]; try discriminate.
  destruct (_ && _).
  - destruct (fread payload o1 30 30) as [[h o2]| | |]; cbn [bind]; try discriminate.
    destruct (fread payload o2 _ _) as [[db o3]| | |]; cbn [bind]; try discriminate.
    destruct (_ <? _); [discriminate|]. destruct (add_entry _ _ _ _ _ _) as [e| | |] eqn:E; cbn [bind]; try discriminate.
    destruct (parse_entries o n payload o3) as [r| | |] eqn:Er; cbn [bind]; try discriminate. injection 1 as <-.
    constructor; [|now apply (IH o3)]. revert E. unfold add_entry. destruct (add_dims o _ _) as [a| | |] eqn:Ea; cbn [bind]; try discriminate.
    destruct (_ && _); [discriminate|]. destruct (_ && _); [discriminate|]. injection 1 as <-.
    assert (S : shaped (a_e a)) by (eapply dims_shaped; [apply dec_dims_i32| |exact Ea]; repeat split; cbn; unfold INT_MIN, INT_MAX; lia). exact S.
  - destruct (_ && _); [destruct (fread payload o1 128 128); discriminate|]. now apply IH.
Qed.
Lemma directory_shaped strict o f p es : read_directory strict o f p = Ok es -> Forall shaped es.
Proof.
  unfold read_directory. destruct (read_exact strict f p 160) as [h| | |]; cbn [bind]; try discriminate.
  destruct (negb _); [discriminate|]. destruct (_ <? 128); [discriminate|]. destruct (read_exact strict f (p + 160) _) as [pl| | |]; cbn [bind]; try discriminate. apply parse_shaped.
Qed.

(** a header with a width and a height lists X and Y *)
Lemma dims_width ds : forall e e', sb_add_dims e ds = Ok e' -> (e_w e' = e_w e \/ existsb (Z.eqb 88) (map (fun d => to_upper (d_char d)) ds) = true)
  /\ (e_h e' = e_h e \/ existsb (Z.eqb 89) (map (fun d => to_upper (d_char d)) ds) = true).
Proof.
  induction ds as [|d ds IH]; intros e e'; cbn [sb_add_dims]; [injection 1 as <-; split; now left|].
  destruct (sb_add_dim e d) as [e1| | |] eqn:E; cbn [bind]; try discriminate. intros H. apply IH in H as [H1 H2].
  cbn [map existsb]. revert E. unfold sb_add_dim.
  destruct (to_upper (d_char d) =? 77) eqn:E1; [injection 1 as <-; cbn [e_w e_h] in *; split; [destruct H1 as [H1|H1]; [now left|right; rewrite H1; apply orb_true_r]|destruct H2 as [H2|H2]; [now left|right; rewrite H2; apply orb_true_r]]|].
  destruct (to_upper (d_char d) =? 88) eqn:E2; [injection 1 as <-; cbn [e_w e_h] in *; split; [right; replace (88 =? to_upper (d_char d)) with true by lia; reflexivity|destruct H2 as [H2|H2]; [now left|right; rewrite H2; apply orb_true_r]]|].
  destruct (to_upper (d_char d) =? 89) eqn:E3; [injection 1 as <-; cbn [e_w e_h] in *; split; [destruct H1 as [H1|H1]; [now left|right; rewrite H1; apply orb_true_r]|right; replace (89 =? to_upper (d_char d)) with true by lia; reflexivity]|].
  destruct (dim_index (d_char d)); [|discriminate]. injection 1 as <-; cbn [e_w e_h] in *; split; [destruct H1 as [H1|H1]; [now left|right; rewrite H1; apply orb_true_r]|destruct H2 as [H2|H2]; [now left|right; rewrite H2; apply orb_true_r]].
Qed.
Lemma schema_known strict f p d : read_subblock strict f p = Ok d -> e_w (sd_info d) <> 0 -> e_h (sd_info d) <> 0 -> sb_schema strict f p = Ok (true, true).
Proof.
  unfold read_subblock, sb_schema. destruct (read_exact strict f p 288) as [h| | |]; cbn [bind]; try discriminate.
  destruct (eqbytes (slice h 0 16) MAGIC_SB); cbn [negb]; [|discriminate].
  destruct ((nth 48 h 0 =? 68) && (nth 49 h 0 =? 86)) eqn:E.
  - destruct (MAXDIMENSIONS <? _); cbn [bind]; [discriminate|]. match goal with |- context [if 288 <? ?a then ?x else ?y] => destruct (if 288 <? a then x else y) as [more| | |]; cbn [bind]; try discriminate end.
    destruct (sb_add_dims _ _) as [e1| | |] eqn:E1; cbn [bind]; try discriminate.
    dbind md. dbind da.
    dbind at0. injection 1 as <-. cbn [sd_info]. intros W H.
    apply dims_width in E1 as [[E1|E1] [E2|E2]]; cbn [e_w e_h] in *; try lia. now rewrite E1, E2.
  - destruct (_ && (nth 49 h 0 =? 69)); cbn [bind]; [|discriminate].
    dbind md. dbind da.
    dbind at0. injection 1 as <-. cbn [sd_info e_w]. lia.
Qed.

Definition parts (d : sbdata) : bytes * bytes * bytes := (sd_data d, sd_att d, sd_meta d).
Lemma block_sound policy strict f e i ps : shaped e -> read_block policy (Some (strict, f)) e = Ok (i, ps) ->
  exists d, read_subblock strict f (e_pos e) = Ok d /\ ps = parts d /\ (Z.testbit policy 7 = false -> agree e (sd_info d))
    /\ i = rinfo_of (if Z.testbit policy 0 then sd_info d else e).
Proof.
  intros S. cbn [read_block]. destruct (read_subblock strict f (e_pos e)) as [d| | |] eqn:E; cbn [bind]; try discriminate.
  pose proof (read_subblock_shaped _ _ _ _ E) as Sd. destruct (sb_schema strict f (e_pos e)) as [[dv xy]| | |]; cbn [bind]; try discriminate.
  intros H. exists d. split; [reflexivity|]. destruct (Z.testbit policy 7) eqn:B7; cbn [bind] in H.
  - destruct (Z.testbit policy 0); [destruct (dv && xy); [|discriminate]|]; injection H as <- <-; (split; [reflexivity|split; [discriminate|reflexivity]]).
  - destruct (discrepancy dv xy e (sd_info d)) as [b| | |] eqn:D; cbn [bind] in H; try discriminate. destruct b; cbn [bind] in H; [discriminate|].
    apply discrepancy_false in D as (-> & -> & A); trivial.
    destruct (Z.testbit policy 0); injection H as <- <-; (split; [reflexivity|split; [intros _; exact A|reflexivity]]).
Qed.
Lemma block_answer policy strict f e d : shaped e -> read_subblock strict f (e_pos e) = Ok d -> e_w (sd_info d) <> 0 -> e_h (sd_info d) <> 0 ->
  (Z.testbit policy 7 = true \/ agree e (sd_info d) ->
   read_block policy (Some (strict, f)) e = Ok (rinfo_of (if Z.testbit policy 0 then sd_info d else e), parts d)) /\
  (Z.testbit policy 7 = false -> ~ agree e (sd_info d) -> read_block policy (Some (strict, f)) e = Throw).
Proof.
  intros S E W H. pose proof (read_subblock_shaped _ _ _ _ E) as Sd. cbn [read_block]. rewrite E. cbn [bind]. rewrite (schema_known _ _ _ _ E W H). cbn [bind].
  pose proof (discrepancy_false true true e (sd_info d) S Sd) as DF. split.
  - intros C. assert (X : (if Z.testbit policy 7 then Ok tt else let* x := discrepancy true true e (sd_info d) in if x : bool then Throw else Ok tt) = Ok tt).
    { destruct (Z.testbit policy 7); [reflexivity|]. destruct C as [C|C]; [discriminate|]. rewrite (proj2 DF) by (repeat split; apply C). reflexivity. }
    rewrite X. cbn [bind andb]. destruct (Z.testbit policy 0); reflexivity.
  - intros B C. rewrite B. assert (X : exists b, discrepancy true true e (sd_info d) = Ok b).
    { unfold discrepancy. cbn [negb]. repeat match goal with |- context [if ?c then _ else _] => destruct c end; eauto. }
    destruct X as (b & X). rewrite X in *. cbn [bind]. destruct b; [reflexivity|]. destruct C. now apply DF.
Qed.

(** ** Through the reader object *)
Lemma after_open s strict f o hd es : snd (rstep s (ROpen strict f o)) = Ok ADone -> read_file_header strict f = Ok hd ->
  read_directory strict (popts_of o) f (fh_dir hd) = Ok es ->
  exists u a, open_stats es = Ok u /\ (if fh_att hd =? 0 then a = r_att s else read_attdir strict f (fh_att hd) = Ok a)
    /\ rstep s (ROpen strict f o) = (opened_state hd es u a strict f o, Ok ADone).
Proof.
  intros E H1 H2. cbn [rstep] in *. destruct (reader_open s strict f o) as [s1 r] eqn:Es. cbn [snd] in E. subst r.
  apply reader_open_ok in Es as (_ & _ & h & es' & u & a & A1 & A2 & A3 & A4 & ->). replace h with hd in * by congruence. replace es' with es in * by congruence.
  exists u, a. split; [assumption|]. split; [|reflexivity]. destruct (fh_att hd =? 0); congruence.
Qed.
Lemma at_index_nth {A} (l : list A) k x : nth_error l k = Some x -> at_index l (Z.of_nat k) = Ok (Some x).
Proof.
  intros E. unfold at_index. assert (k < length l)%nat by (apply nth_error_Some; congruence).
  destruct (Z.of_nat (length l) <=? Z.of_nat k) eqn:E1; [lia|]. destruct (Z.of_nat k <? 0) eqn:E2; [lia|]. now rewrite Nat2Z.id, E.
Qed.
Lemma open_block s strict f o hd es k e : snd (rstep s (ROpen strict f o)) = Ok ADone -> read_file_header strict f = Ok hd ->
  read_directory strict (popts_of o) f (fh_dir hd) = Ok es -> nth_error es k = Some e ->
  snd (rrun s [ROpen strict f o; RBlock (Z.of_nat k)]) = [Ok ADone; let* b := read_block (ro_policy o) (Some (strict, f)) e in Ok (ABlock (Some b))].
Proof.
  intros E H1 H2 H3. destruct (after_open s strict f o hd es E H1 H2) as (u & a & _ & _ & Es). rewrite !rrun_cons, Es. cbn [rstep rrun opened_state r_op orb snd query r_dir r_policy r_stream].
  now rewrite (at_index_nth es k e H3).
Qed.
Lemma reader_block : forall h strict f o hd es k e d,
  let s := fst (rrun reader0 h) in
  snd (rstep s (ROpen strict f o)) = Ok ADone -> read_file_header strict f = Ok hd -> read_directory strict (popts_of o) f (fh_dir hd) = Ok es ->
  nth_error es k = Some e -> read_subblock strict f (e_pos e) = Ok d -> e_w (sd_info d) <> 0 -> e_h (sd_info d) <> 0 ->
  (Z.testbit (ro_policy o) 7 = true \/ agree e (sd_info d) ->
   snd (rrun s [ROpen strict f o; RBlock (Z.of_nat k)])
   = [Ok ADone; Ok (ABlock (Some (rinfo_of (if Z.testbit (ro_policy o) 0 then sd_info d else e), (sd_data d, sd_att d, sd_meta d))))]) /\
  (Z.testbit (ro_policy o) 7 = false -> ~ agree e (sd_info d) -> snd (rrun s [ROpen strict f o; RBlock (Z.of_nat k)]) = [Ok ADone; Throw]).
Proof.
  intros h strict f o hd es k e d s E H1 H2 H3 H4 W H. rewrite (open_block s strict f o hd es k e E H1 H2 H3).
  assert (S : shaped e) by (pose proof (directory_shaped _ _ _ _ _ H2) as F; rewrite Forall_forall in F; apply F; eapply nth_error_In; exact H3).
  destruct (block_answer (ro_policy o) strict f e d S H4 W H) as [A B]. split; intros C.
  - rewrite (A C). reflexivity.
  - intros D. rewrite (B C D). reflexivity.
Qed.

(** ** Attachments by type and name *)
Lemma eqbytes_iff (a b : bytes) : eqbytes a b = true <-> a = b.
Proof. unfold eqbytes. destruct (list_eq_dec Z.eq_dec a b); split; congruence. Qed.
Lemma read_exact_len strict f p n b : read_exact strict f p n = Ok b -> length b = Z.to_nat n.
Proof.
  unfold read_exact, read_into. destruct (avail strict f p n) as [k|]; [|discriminate]. destruct (n <? k); [discriminate|]. destruct (k =? n); [|discriminate].
  injection 1 as <-. apply mread_length.
Qed.
Definition ends (a : bytes) : Prop := In 0 a.
Lemma c_string_ok a : ends a -> c_string a = Ok (cstring a).
Proof.
  induction a as [|c a IH]; intros H; [destruct H|]. cbn [c_string cstring]. destruct (c =? 0) eqn:E; [reflexivity|].
  destruct H as [H|H]; [lia|]. rewrite (IH H). reflexivity.
Qed.
Lemma strcmp_ok s : forall a, Forall (fun c => c <> 0) s -> ends a \/ (length s < length a)%nat -> strcmp_eq s a = Ok (is_string s a).
Proof.
  unfold is_string. induction s as [|x s IH]; intros [|c a] F H.
  - destruct H as [H|H]; [destruct H|cbn in H; lia].
  - cbn [strcmp_eq cstring]. destruct (c =? 0) eqn:E; reflexivity.
  - destruct H as [H|H]; [destruct H|cbn in H; lia].
  - inversion F as [|? ? F1 F2]; subst. cbn [strcmp_eq cstring]. destruct (x =? c) eqn:E.
    + assert (c <> 0) by lia. replace (c =? 0) with false by lia. rewrite IH; [|assumption|destruct H as [[H|H]|H]; [lia|now left|right; cbn in H; lia]]. f_equal.
      destruct (eqbytes (cstring a) s) eqn:E1, (eqbytes (c :: cstring a) (x :: s)) eqn:E2; trivial.
      * apply eqbytes_iff in E1. assert (eqbytes (c :: cstring a) (x :: s) = true) by (apply eqbytes_iff; rewrite E1; f_equal; lia). congruence.
      * apply eqbytes_iff in E2. injection E2 as E3 E4. assert (eqbytes (cstring a) s = true) by now apply eqbytes_iff. congruence.
    + f_equal. symmetry. destruct (eqbytes (if c =? 0 then [] else c :: cstring a) (x :: s)) eqn:E2; [|reflexivity]. apply eqbytes_iff in E2.
      destruct (c =? 0); [discriminate|]. injection E2 as E3 E4. lia.
Qed.
Lemma att_subset_ok t n go : forall l k, text t -> text n -> Forall (fun e => ends (ae_name e) /\ length (ae_type e) = 8%nat) l ->
  (forall s, t = Some s -> (length s < 8)%nat \/ Forall (fun e => ends (ae_type e)) l) ->
  att_subset t n go k l = Ok (until (fun x => go (fst x) (snd x)) (map seen (filter (fun x => wanted t n (snd x)) (from k l)))).
Proof.
  induction l as [|e l IH]; intros k Ht Hn F L; [reflexivity|]. inversion F as [|? ? [F1 F2] F3]; subst. cbn [att_subset from filter map].
  assert (L' : forall s, t = Some s -> (length s < 8)%nat \/ Forall (fun e => ends (ae_type e)) l) by (intros s E; destruct (L s E) as [H|H]; [now left|right; now inversion H]).
  assert (E1 : opt_match t (ae_type e) = Ok (match t with None => true | Some t => is_string t (ae_type e) end)).
  { destruct t as [t|]; [|reflexivity]. cbn [opt_match]. apply strcmp_ok; [assumption|]. destruct (L t eq_refl) as [H|H]; [right; rewrite F2; exact H|left; now inversion H]. }
  assert (E2 : opt_match n (ae_name e) = Ok (match n with None => true | Some n => is_string n (ae_name e) end)).
  { destruct n as [n|]; [|reflexivity]. cbn [opt_match]. apply strcmp_ok; [assumption|now left]. }
  rewrite E1. cbn [bind]. unfold wanted at 1. cbn [snd].
  assert (I : ainfo_of e = Ok (snd (seen (k, e)))) by (unfold ainfo_of; rewrite (c_string_ok _ F1); reflexivity).
  destruct (match t with None => true | Some t => is_string t (ae_type e) end); cbn [andb].
  - rewrite E2. cbn [bind]. destruct (match n with None => true | Some n => is_string n (ae_name e) end).
    + rewrite I. cbn [bind map until]. change (fst (seen (k, e))) with k. destruct (go k (snd (seen (k, e)))); [|reflexivity]. rewrite IH by assumption. reflexivity.
    + now rewrite IH.
  - cbn [bind]. now rewrite IH.
Qed.
Lemma all_atts_ok l : forall k, Forall (fun e => ends (ae_name e)) l -> map_res (fun x => let* i := ainfo_of (snd x) in Ok (fst x, i)) (from k l) = Ok (map seen (from k l)).
Proof.
  induction l as [|e l IH]; intros k F; [reflexivity|]. inversion F as [|? ? F1 F2]; subst. cbn [from map_res map]. unfold ainfo_of at 1. cbn [snd].
  rewrite (c_string_ok _ F1). cbn [bind]. rewrite IH by assumption. reflexivity.
Qed.

Lemma slice_len (b : bytes) o n : (o + n <= length b)%nat -> length (slice b o n) = n.
Proof. intros H. unfold slice. rewrite firstn_length, skipn_length. lia. Qed.
Lemma upd_in (l : bytes) i a : (i < length l)%nat -> In a (upd l i a).
Proof. intros H. rewrite <- (nth_upd_eq l i a 0 H) at 1. apply nth_In. now rewrite upd_length. Qed.
Lemma dec_att_fine b e : length b = 128%nat -> dec_att b = Some e -> ends (ae_name e) /\ length (ae_type e) = 8%nat.
Proof.
  intros L. unfold dec_att. destruct (_ && _); [|discriminate]. injection 1 as <-. cbn [ae_name ae_type].
  split; [apply upd_in; rewrite slice_len; [lia|rewrite L; lia]|apply slice_len; rewrite L; lia].
Qed.
Lemma dec_atts_fine n : forall bs, length bs = (128 * n)%nat -> Forall (fun e => ends (ae_name e) /\ length (ae_type e) = 8%nat) (dec_atts n bs).
Proof.
  induction n as [|n IH]; intros bs L; cbn [dec_atts]; [constructor|].
  assert (L1 : length (firstn 128 bs) = 128%nat) by (rewrite firstn_length; lia).
  assert (L2 : length (skipn 128 bs) = (128 * n)%nat) by (rewrite skipn_length; lia).
  destruct (dec_att (firstn 128 bs)) as [e|] eqn:E; [|now apply IH]. constructor; [|now apply IH]. exact (dec_att_fine _ _ L1 E).
Qed.
Lemma attdir_fine strict f p a : read_attdir strict f p = Ok a -> Forall (fun e => ends (ae_name e) /\ length (ae_type e) = 8%nat) a.
Proof.
  unfold read_attdir. destruct (read_exact strict f p 288) as [h| | |]; cbn [bind]; try discriminate. destruct (negb _); [discriminate|].
  destruct (0 <? s32 (unle (slice h 32 4))) eqn:E0; [|injection 1 as <-; constructor].
  destruct (read_exact strict f (p + 288) (128 * s32 (unle (slice h 32 4)))) as [pl| | |] eqn:E; cbn [bind]; try discriminate. injection 1 as <-.
  apply dec_atts_fine. rewrite (read_exact_len _ _ _ _ _ E). lia.
Qed.

(** over every history: the names of the attachments held are terminated *)
Definition atts_fine (s : rstate) : Prop := Forall (fun e => ends (ae_name e) /\ length (ae_type e) = 8%nat) (r_att s).
Lemma fine_run h : forall s, atts_fine s -> atts_fine (fst (rrun s h)).
Proof.
  induction h as [|q h IH]; intros s F; [exact F|]. rewrite rrun_cons. destruct (rstep s q) as [s1 r] eqn:E. specialize (IH s1).
  destruct (rrun s1 h) as [s2 l]. cbn [fst] in *. apply IH. unfold atts_fine in *.
  destruct (att_kept s q) as [K|(strict & f & o & hd & a & _ & _ & _ & Ea & K)]; rewrite E in K; cbn [fst] in K; rewrite K; [assumption|]. now apply attdir_fine in Ea.
Qed.
Lemma fine_always h : atts_fine (fst (rrun reader0 h)).
Proof. apply fine_run. constructor. Qed.

Lemma reader_atts : forall h strict f o hd a t n,
  let s := fst (rrun reader0 h) in
  snd (rstep s (ROpen strict f o)) = Ok ADone -> read_file_header strict f = Ok hd -> fh_att hd <> 0 -> read_attdir strict f (fh_att hd) = Ok a ->
  text t -> text n -> (forall x, t = Some x -> (length x < 8)%nat \/ Forall (fun e => In 0 (ae_type e)) a) ->
  snd (rrun s [ROpen strict f o; RAttCount; RAtts; RAttSubset t n])
  = [Ok ADone; Ok (ACount (Z.of_nat (length a))); Ok (AAtts (map seen (from 0 a))); Ok (AAtts (map seen (filter (fun x => wanted t n (snd x)) (from 0 a))))].
Proof.
  intros h strict f o hd a t n s E H1 H0 H2 Ht Hn L.
  assert (exists es, read_directory strict (popts_of o) f (fh_dir hd) = Ok es) as (es & H3).
  { cbn [rstep] in E. destruct (reader_open s strict f o) as [s1 r] eqn:Es. cbn [snd] in E. subst r. apply reader_open_ok in Es as (_ & _ & h' & es & _ & _ & A1 & A2 & _).
    exists es. congruence. }
  destruct (after_open s strict f o hd es E H1 H3) as (u & a' & _ & A & Es). replace (fh_att hd =? 0) with false in A by lia. replace a' with a in * by congruence.
  pose proof (attdir_fine _ _ _ _ H2) as F. rewrite !rrun_cons, Es. cbn [rstep rrun opened_state r_op orb snd query r_att].
  unfold all_atts. rewrite (all_atts_ok a 0) by (eapply Forall_impl; [|exact F]; cbn beta; tauto). cbn [bind].
  rewrite (att_subset_ok t n (fun _ _ => true) a 0 Ht Hn F L). cbn [bind]. repeat f_equal.
  clear. generalize (filter (fun x => wanted t n (snd x)) (from 0 a)). intros l. induction l; cbn [map until]; [reflexivity|]. now f_equal.
Qed.
(** a type of eight characters *)
Lemma strcmp_over a : forall s, strcmp_eq (a ++ s) a = UB.
Proof. induction a as [|c a IH]; intros s; [destruct s; reflexivity|]. cbn [app strcmp_eq]. rewrite Z.eqb_refl. apply IH. Qed.
Lemma eight_characters : forall strict f o h hd a e t n,
  let s := fst (rrun reader0 h) in
  snd (rstep s (ROpen strict f o)) = Ok ADone -> read_file_header strict f = Ok hd -> fh_att hd <> 0 -> read_attdir strict f (fh_att hd) = Ok (e :: a) ->
  t = ae_type e -> ~ In 0 t ->
  snd (rrun s [ROpen strict f o; RAttSubset (Some t) n]) = [Ok ADone; UB].
Proof.
  intros strict f o h hd a e t n s E H1 H0 H2 -> N.
  assert (exists es, read_directory strict (popts_of o) f (fh_dir hd) = Ok es) as (es & H3).
  { cbn [rstep] in E. destruct (reader_open s strict f o) as [s1 r] eqn:Es. cbn [snd] in E. subst r. apply reader_open_ok in Es as (_ & _ & h' & es & _ & _ & A1 & A2 & _).
    exists es. congruence. }
  destruct (after_open s strict f o hd es E H1 H3) as (u & a' & _ & A & Es). replace (fh_att hd =? 0) with false in A by lia. replace a' with (e :: a) in * by congruence.
  rewrite !rrun_cons, Es. cbn [rstep rrun opened_state r_op orb snd query r_att att_subset opt_match].
  rewrite <- (app_nil_r (ae_type e)) at 1. rewrite strcmp_over. reflexivity.
Qed.

(** ** A sub-block of a channel *)
Lemma update_dim_some b v b' : update_dim b v = Ok b' -> b' <> None.
Proof.
  unfold update_dim. destruct b as [[st n]|]; [|now injection 1 as <-]. destruct (v <? st).
  - destruct (chk (st - v)); cbn [bind]; try discriminate. destruct (chk _); cbn [bind]; try discriminate. now injection 1 as <-.
  - destruct (chk (st + n)) as [x| | |]; cbn [bind]; try discriminate. destruct (x <=? v); [|now injection 1 as <-].
    destruct (chk _); cbn [bind]; try discriminate. destruct (chk _); cbn [bind]; try discriminate. now injection 1 as <-.
Qed.
Lemma update_dims_none : forall bs c bs' i, length bs = length c -> update_dims bs c = Ok bs' ->
  (length bs' = length bs /\ (nth i bs' None = None <-> nth i bs None = None /\ nth i c None = None)).
Proof.
  induction bs as [|b bs IH]; intros [|x c] bs' i L; cbn [update_dims]; try discriminate.
  - injection 1 as <-. split; [reflexivity|]. destruct i; cbn; tauto.
  - injection L as L. destruct x as [v|].
    + destruct (update_dim b v) as [b'| | |] eqn:E; cbn [bind]; try discriminate. destruct (update_dims bs c) as [r| | |] eqn:Er; cbn [bind]; try discriminate.
      injection 1 as <-. destruct (IH c r (pred i) L Er) as [L' H]. split; [cbn; congruence|]. destruct i as [|i]; cbn [nth pred] in *; [|exact H].
      apply update_dim_some in E. split; [congruence|intros [_ C]; discriminate].
    + destruct (update_dims bs c) as [r| | |] eqn:Er; cbn [bind]; try discriminate.
      injection 1 as <-. destruct (IH c r (pred i) L Er) as [L' H]. split; [cbn; congruence|]. destruct i as [|i]; cbn [nth pred] in *; [tauto|exact H].
Qed.
Lemma update_all_dims i : forall es u u', Forall shaped es -> length (st_dims (u_st u)) = 9%nat -> update_all u es = Ok u' ->
  length (st_dims (u_st u')) = 9%nat /\ (nth i (st_dims (u_st u')) None = None <-> nth i (st_dims (u_st u)) None = None /\ forall e, In e es -> nth i (e_coord e) None = None).
Proof.
  induction es as [|e es IH]; intros u u' F L; cbn [update_all]; [injection 1 as <-; split; [assumption|split; [intros H; split; [assumption|intros ? []]|tauto]]|].
  inversion F as [|? ? [F1 _] F2]; subst. destruct (update_stats u e) as [u1| | |] eqn:E; cbn [bind]; try discriminate. intros H.
  assert (D : update_dims (st_dims (u_st u)) (e_coord e) = Ok (st_dims (u_st u1))).
  { revert E. unfold update_stats. destruct (update_box _ e); cbn [bind]; try discriminate. 
    match goal with |- bind ?Y _ = _ -> _ => destruct Y; cbn [bind]; try discriminate end.
    destruct (update_dims (st_dims (u_st u)) (e_coord e)) as [ds| | |]; cbn [bind]; try discriminate. destruct (update_scenes _ _); cbn [bind]; try discriminate. now injection 1 as <-. }
  destruct (update_dims_none _ _ _ i (eq_trans L (eq_sym F1)) D) as [L1 N]. destruct (IH u1 u' F2 (eq_trans L1 L) H) as [L2 N2]. split; [assumption|].
  rewrite N2, N. split; [intros ((A & B) & C); split; [assumption|intros x [<-|X]; auto]|intros (A & B); split; [split; [assumption|apply B; now left]|intros x X; apply B; now right]].
Qed.
Lemma reader_channel : forall h strict f o hd es c,
  let s := fst (rrun reader0 h) in
  snd (rstep s (ROpen strict f o)) = Ok ADone -> read_file_header strict f = Ok hd -> read_directory strict (popts_of o) f (fh_dir hd) = Ok es ->
  exists r, snd (rrun s [ROpen strict f o; RChannel c]) = [Ok ADone; Ok (AInfo r)] /\
  ((forall e, In e es -> nth 1 (e_coord e) None = None) -> r = option_map rinfo_of (hd_error es)) /\
  ((exists e, In e es /\ nth 1 (e_coord e) None <> None) ->
   match r with
   | Some i => exists before e after, es = before ++ e :: after /\ i = rinfo_of e /\ nth 1 (e_coord e) None = Some c /\ forall x, In x before -> nth 1 (e_coord x) None <> Some c
   | None => forall x, In x es -> nth 1 (e_coord x) None <> Some c
   end).
Proof.
  intros h strict f o hd es c s E H1 H2. destruct (after_open s strict f o hd es E H1 H2) as (u & a & Eu & _ & Es).
  exists (in_channel (get_stats u) es c). split; [rewrite !rrun_cons, Es; reflexivity|].
  pose proof (directory_shaped _ _ _ _ _ H2) as F. unfold open_stats in Eu. destruct (update_all updater0 es) as [u1| | |] eqn:E1; cbn [bind] in Eu; try discriminate. injection Eu as <-.
  destruct (update_all_dims 1 es updater0 u1 F eq_refl E1) as [_ N]. cbn [updater0 u_st stats0 st_dims] in N.
  assert (G : get_stats (consolidate u1) = u_st u1) by (unfold get_stats, consolidate; now destruct (u_dirty u1)).
  unfold in_channel. rewrite G. unfold tget. change (Z.to_nat (2 - 1)) with 1%nat. split.
  - intros A. rewrite (proj2 N); [reflexivity|]. split; [reflexivity|assumption].
  - intros (e0 & I0 & C0). destruct (nth 1 (st_dims (u_st u1)) None) as [b|] eqn:Eb; [|destruct (proj1 N eq_refl) as [_ A]; now rewrite (A e0 I0) in C0].
    clear -F. induction es as [|e es IH]; cbn [find option_map]; [intros ? []|].
    inversion F as [|? ? _ F2]; subst. destruct (nth 1 (e_coord e) None) as [x|] eqn:Ex; [destruct (x =? c) eqn:E|].
    + cbn [option_map]. exists [], e, es. repeat split; [rewrite Ex; f_equal; lia|intros ? []].
    + specialize (IH F2). destruct (option_map rinfo_of (find _ es)) as [i|].
      * destruct IH as (bf & e1 & af & -> & -> & B & C). exists (e :: bf), e1, af. repeat split; trivial. intros y [<-|Y]; [rewrite Ex; intros [= ->]; lia|now apply C].
      * intros y [<-|Y]; [rewrite Ex; intros [= ->]; lia|now apply IH].
    + specialize (IH F2). destruct (option_map rinfo_of (find _ es)) as [i|].
      * destruct IH as (bf & e1 & af & -> & -> & B & C). exists (e :: bf), e1, af. repeat split; trivial. intros y [<-|Y]; [congruence|now apply C].
      * intros y [<-|Y]; [congruence|now apply IH].
Qed.

(** ** Options and descriptions *)
Lemma open_options o ds : accepted (popts_of o) ds <-> allowed o ds.
Proof.
  unfold accepted, allowed, popts_of. destruct (ro_lax o); cbn [popts_lax o_xy o_size1 o_phys1 o_m1 o_m1_nonpyr].
  - split; [intros (A & _); split; [exact A|discriminate]|]. intros (A & _). split; [exact A|]. repeat split; discriminate.
  - split.
    + intros (A & B & C & D & E & F). split; [exact A|]. intros _. destruct (B eq_refl) as [B1 B2]. split; [exact B1|]. split; [exact B2|].
      split; [intros d I X; split; [now apply C|now apply D]|]. intros [G|[G1 G2]] d I X.
      * apply (E ltac:(now rewrite G) d I X).
      * destruct (ro_nom o); [now apply F|now apply E].
    + intros (A & B). destruct (B eq_refl) as (B1 & B2 & C & D). split; [exact A|]. split; [intros _; split; assumption|].
      split; [intros _ d I X; now apply C|]. split; [intros _ d I X; now apply C|]. split.
      * intros N. apply D. left. destruct (ro_nom o); [discriminate|reflexivity].
      * intros _ V1 V2. apply D. right. split; assumption.
Qed.
Lemma describes_of e : describes (rinfo_of e) e.
Proof.
  unfold describes, rinfo_of. cbn [ri_comp ri_coord ri_m ri_rect ri_pw ri_ph ri_pt ri_pyr]. repeat (split; [reflexivity|]).
  split; [intros H; unfold u32, UINT_MAX in *; apply Z.mod_small; lia|]. split; [intros H; unfold u32, UINT_MAX in *; apply Z.mod_small; lia|].
  split; intros c p I E; subst c.
  - apply pixel_codes_ok; [|exact I]. intros ->. cbn in I. repeat (destruct I as [I|I]; [discriminate|]). contradiction.
  - apply pyramid_codes_ok; [|exact I]. intros ->. cbn in I. repeat (destruct I as [I|I]; [discriminate|]). contradiction.
Qed.
Lemma reader_info : forall h strict f o hd es k e,
  let s := fst (rrun reader0 h) in
  snd (rstep s (ROpen strict f o)) = Ok ADone -> read_file_header strict f = Ok hd -> read_directory strict (popts_of o) f (fh_dir hd) = Ok es ->
  nth_error es k = Some e ->
  (exists i, snd (rrun s [ROpen strict f o; RInfo (Z.of_nat k)]) = [Ok ADone; Ok (AInfo (Some i))] /\ describes i e) /\
  (forall i p, snd (rrun s [ROpen strict f o; RBlock (Z.of_nat k)]) = [Ok ADone; Ok (ABlock (Some (i, p)))] -> Z.testbit (ro_policy o) 0 = false -> describes i e).
Proof.
  intros h strict f o hd es k e s E H1 H2 H3. split.
  - destruct (after_open s strict f o hd es E H1 H2) as (u & a & _ & _ & Es). exists (rinfo_of e). split; [|apply describes_of].
    rewrite !rrun_cons, Es. cbn [rstep rrun opened_state r_op orb snd query r_dir]. rewrite (at_index_nth es k e H3). reflexivity.
  - intros i p B T. rewrite (open_block s strict f o hd es k e E H1 H2 H3) in B.
    destruct (read_block (ro_policy o) (Some (strict, f)) e) as [[i' p']| | |] eqn:R; try discriminate. cbn [bind] in B. injection B as <- <-.
    cbn [read_block] in R. destruct (read_subblock strict f (e_pos e)) as [d| | |]; try discriminate. cbn [bind] in R.
    destruct (sb_schema strict f (e_pos e)) as [[dv xy]| | |]; try discriminate. cbn [bind] in R. rewrite T in R.
    match type of R with (bind ?c _) = _ => destruct c as [[]| | |]; try discriminate end. cbn [bind] in R. injection R as <- <-. apply describes_of.
Qed.
