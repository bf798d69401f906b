(** Reserved space: the statements. *)
From Coq Require Import String.
From Verif Require Import Base CodecModel TextModel RectModel CoordModel CoordSpec CoordProofs MemProofs CodecProofs WriterModel WriterProofs WriterSpec WriterInv WriterFin WriterOpen WriterSession WriterMain DocSpec GuidModel GuidSpec GuidProofs ReserveModel ReserveSpec ReserveProofs.
Open Scope Z_scope.

Definition without_meta (ops : list wop) : list wop := filter (fun o => negb (is_meta o)) ops.
Theorem reserved i ops ws0 s0 ws1 s1 rs ws2 s2 rs2 n k a : creation_ok i -> Forall (request_ok (2 ^ 64)) ops ->
  wi_rmeta i = Some n -> wi_rdir i = Some k -> wi_ratt i = Some a ->
  Forall (meta_fits (meta_room n)) ops -> calls is_sub ops <= k -> calls is_att ops <= att_room a ->
  create i = (ws0, s0) -> wrun s0 ops = (ws1, s1, rs) -> wrun s0 (without_meta ops) = (ws2, s2, rs2) ->
  544 <= w_next s0 <= room (meta_room n) k (att_room a) /\ below (w_next s0) ws0 /\ beyond (w_next s0) ws1 = beyond (w_next s0) ws2 /\ w_next s1 = w_next s2 /\
  below (w_next s0) (fst (finish (wi_guid i) s1)).
Proof.
  intros Hi Ho Hn Hk Ha Fm Fs Fa Ec E1 E2. pose proof (creation_winfo i Hi) as Wi. pose proof Wi as (Wg & Wm & Wd & Wt). rewrite Hn in Wm. rewrite Hk in Wd. rewrite Ha in Wt. cbn [opt_range] in *.
  assert (Hop : Forall op_ok ops) by (eapply Forall_impl; [apply op_ok_of_request|exact Ho]).
  destruct (create_spec i ws0 s0 Wi Ec) as (I0 & D0 & A0 & M0 & S0 & T0 & AL & ws0' & W0 & In0).
  destruct (create_where i ws0 s0 Ec) as (Cm & Cd & Ca & Cn). rewrite Hn, Hk, Ha in *. cbn [option_map res_at res_end] in *.
  change (rmeta_bytes n) with (meta_room n) in *. change (ratt_bytes a) with (att_room a * 128) in *. change (rdir_bytes k) with (k * 832) in *.
  replace (288 - 32 + meta_room n) with (256 + meta_room n) in * by lia. replace (160 - 32 + k * 832) with (128 + 832 * k) in * by lia. replace (288 - 32 + att_room a * 128) with (256 + 128 * att_room a) in * by lia.
  assert (R1 : 0 <= meta_room n) by (unfold meta_room; destruct (n =? 0); lia). assert (R2 : 0 <= att_room a) by (unfold att_room; destruct (a =? 0); lia).
  destruct (align32_spec (256 + meta_room n)) as [L1 _]; [lia|]. destruct (align32_spec (128 + 832 * k)) as [L2 X2]; [lia|]. destruct (align32_spec (256 + 128 * att_room a)) as [L3 X3]; [lia|].
  assert (L2' : align32 (128 + 832 * k) = 128 + 832 * k) by lia. assert (L3' : align32 (256 + 128 * att_room a) = 256 + 128 * att_room a) by lia.
  destruct (run_counts ops s0 ws1 s1 rs I0 Hop E1) as (K1 & K2 & K3 & K4 & K5). destruct (wrun_inv ops s0 ws1 s1 rs I0 Hop E1) as (I1 & N1 & _).
  split; [unfold room; lia|]. split.
  { rewrite W0. constructor.
    - cbn [fst snd]. unfold file_header, seg_header. rewrite !app_length, !le_length, Wg. change (length MAGIC_FILE) with 16%nat. change (length (zeros 432)) with 432%nat. lia.
    - apply (below_in 544); [lia|exact In0]. }
  destruct (run_meta (w_next s0) (meta_room n) ops s0 s0 ws1 s1 rs ltac:(lia) I0) as (ws' & t' & rs' & X & B & S); try assumption.
  { unfold same_but_meta. auto. }
  { eexists. split; [exact Cm|]. cbn [sg_alloc sg_pos]. unfold seg_end. cbn [sg_alloc sg_pos]. lia. }
  unfold without_meta in E2. rewrite X in E2. apply triple_eq in E2 as (<- & <- & <-). split; [exact B|]. split; [apply S|].
  eapply (finish_below (wi_guid i) s1 (w_next s0) _ _ k (att_room a) I1 Wg).
  - rewrite K3. exact Cd.
  - rewrite K4. exact Ca.
  - apply K5. rewrite A0. constructor.
  - unfold seg_end. cbn [sg_alloc sg_pos]. lia.
  - unfold seg_end. cbn [sg_alloc sg_pos]. lia.
  - lia.
  - cbn [sg_alloc]. lia.
  - cbn [sg_alloc]. lia.
  - rewrite D0 in K1. cbn [length] in K1. lia.
  - rewrite A0 in K2. cbn [length] in K2. lia.
Qed.
(** with the parameters of the C API *)
Theorem reserved_capi fresh d ops ws0 s0 ws1 s1 rs ws2 s2 rs2 n k a : List.length fresh = 16%nat -> Forall (request_ok (2 ^ 64)) ops ->
  number_given d "reserved_size_metadata_segment" 0 (2 ^ 32) n -> number_given d "reserved_size_subblock_directory" 0 (2 ^ 32) k -> k <> 0 ->
  number_given d "reserved_size_attachments_directory" 0 (2 ^ 32) a ->
  Forall (meta_fits (meta_room n)) ops -> calls is_sub ops <= k -> calls is_att ops <= att_room a ->
  exists i, creation (pr_guid (in_force fresh d)) (pr_rmeta (in_force fresh d)) (pr_rdir (in_force fresh d)) (pr_ratt (in_force fresh d)) None (pr_m (in_force fresh d)) = Ok i /\ i = winfo_of (in_force fresh d) /\
  (create i = (ws0, s0) -> wrun s0 ops = (ws1, s1, rs) -> wrun s0 (without_meta ops) = (ws2, s2, rs2) ->
  544 <= w_next s0 <= room (meta_room n) k (att_room a) /\ below (w_next s0) ws0 /\ beyond (w_next s0) ws1 = beyond (w_next s0) ws2 /\ w_next s1 = w_next s2 /\
  below (w_next s0) (fst (finish (wi_guid i) s1))).
Proof.
  intros L Ho Gn Gk K0 Ga Fm Fs Fa. destruct (parameters fresh d) as (_ & _ & Pm & Pd & Pa). apply Pm in Gn. apply Pd in Gk. apply Pa in Ga.
  exists (winfo_of (in_force fresh d)). split.
  - unfold creation, winfo_of. rewrite Gk. unfold dir_count. replace (k =? 0) with false by lia. reflexivity.
  - split; [reflexivity|]. intros A B C. apply (reserved _ ops ws0 s0 ws1 s1 rs ws2 s2 rs2 n k a); try assumption. now apply in_force_creation.
Qed.

(** ** how many sub-blocks *)
Fixpoint points (b : bounds) : list coord :=
  match b with
  | [] => [[]]
  | None :: b' => map (cons None) (points b')
  | Some (st, sz) :: b' => flat_map (fun v => map (cons (Some v)) (points b')) (map (fun i => st + Z.of_nat i) (seq 0 (Z.to_nat sz)))
  end.
Fixpoint vol (b : bounds) : Z := match b with [] => 1 | None :: b' => vol b' | Some (_, sz) :: b' => sz * vol b' end.
Definition cell (o : option (Z * Z)) (c : option Z) : Prop := match o, c with Some (st, sz), Some v => st <= v < st + sz | None, None => True | _, _ => False end.
Lemma points_in b c : Forall2 cell b c -> In c (points b).
Proof.
  induction 1 as [|[[st sz]|] [v|] b c H F IH]; try contradiction; cbn [points]; [now left| |now apply in_map]. cbn [cell] in H.
  apply in_flat_map. exists v. split; [|now apply in_map]. apply in_map_iff. exists (Z.to_nat (v - st)). split; [lia|]. apply in_seq. lia.
Qed.
Lemma flat_length {A B} (f : A -> list B) m l : (forall x, length (f x) = m) -> length (flat_map f l) = (length l * m)%nat.
Proof. intros H. induction l as [|x l IH]; [reflexivity|]. cbn [flat_map length]. rewrite app_length, H, IH. lia. Qed.
Definition sizes_ok (b : bounds) : Prop := Forall (fun o => match o with Some (_, sz) => 1 <= sz | None => True end) b.
Lemma points_length b : sizes_ok b -> Z.of_nat (length (points b)) = vol b.
Proof.
  induction 1 as [|[[st sz]|] b H F IH]; cbn [points vol]; [reflexivity| |now rewrite map_length].
  rewrite (flat_length _ (length (points b))) by (intros; apply map_length). rewrite map_length, seq_length. lia.
Qed.
Lemma nine {A} (t : list A) : length t = 9%nat -> exists a b c d e f g h i, t = [a; b; c; d; e; f; g; h; i].
Proof. intros L. do 9 (destruct t as [|? t]; [discriminate|]). destruct t; [|discriminate]. repeat eexists. Qed.
Lemma box_cells b c : table9 b -> in_box b c -> Forall2 cell b c.
Proof.
  intros B [C H]. destruct (nine b B) as (b1 & b2 & b3 & b4 & b5 & b6 & b7 & b8 & b9 & ->). destruct (nine c C) as (c1 & c2 & c3 & c4 & c5 & c6 & c7 & c8 & c9 & ->).
  constructor; [apply (H 1); cbn; tauto|]. constructor; [apply (H 2); cbn; tauto|]. constructor; [apply (H 3); cbn; tauto|]. constructor; [apply (H 4); cbn; tauto|].
  constructor; [apply (H 5); cbn; tauto|]. constructor; [apply (H 6); cbn; tauto|]. constructor; [apply (H 7); cbn; tauto|]. constructor; [apply (H 8); cbn; tauto|].
  constructor; [apply (H 9); cbn; tauto|]. constructor.
Qed.
Lemma box_sizes b : box_ok b -> sizes_ok b.
Proof.
  intros [B H]. destruct (nine b B) as (b1 & b2 & b3 & b4 & b5 & b6 & b7 & b8 & b9 & ->).
  assert (G : forall d, In d dims -> match tget [b1; b2; b3; b4; b5; b6; b7; b8; b9] d with Some (_, sz) => 1 <= sz | None => True end).
  { intros d I. destruct (tget _ d) as [[st sz]|] eqn:E; [|exact Logic.I]. exact (proj1 (H d st sz I E)). }
  constructor; [apply (G 1); cbn; tauto|]. constructor; [apply (G 2); cbn; tauto|]. constructor; [apply (G 3); cbn; tauto|]. constructor; [apply (G 4); cbn; tauto|].
  constructor; [apply (G 5); cbn; tauto|]. constructor; [apply (G 6); cbn; tauto|]. constructor; [apply (G 7); cbn; tauto|]. constructor; [apply (G 8); cbn; tauto|].
  constructor; [apply (G 9); cbn; tauto|]. constructor.
Qed.
Lemma vol_pos b : sizes_ok b -> 1 <= vol b.
Proof. induction 1 as [|[[st sz]|] b H F IH]; cbn [vol]; nia. Qed.
Lemma vol_size b : table9 b -> box_size b = vol b.
Proof.
  intros B. destruct (nine b B) as (b1 & b2 & b3 & b4 & b5 & b6 & b7 & b8 & b9 & ->). unfold box_size.
  change (map (size_at [b1; b2; b3; b4; b5; b6; b7; b8; b9]) dims) with (map (fun o : option (Z * Z) => match o with Some (_, size) => size | None => 1 end) [b1; b2; b3; b4; b5; b6; b7; b8; b9]).
  generalize [b1; b2; b3; b4; b5; b6; b7; b8; b9]. intros l. induction l as [|[[st sz]|] l IH]; [reflexivity| |]; cbn [map fold_right vol]; [now rewrite IH|rewrite IH; lia].
Qed.
Definition mult (s : Z) (o : option (Z * Z)) : Z := match o with Some (_, size) => times s size | None => s end.
Lemma fold_mult b : table9 b -> forall s0, fold_left (fun s d => match tget b d with Some (_, size) => times s size | None => s end) dims s0 = fold_left mult b s0.
Proof. intros B s0. destruct (nine b B) as (b1 & b2 & b3 & b4 & b5 & b6 & b7 & b8 & b9 & ->). reflexivity. Qed.
Lemma fold_vol b : sizes_ok b -> forall s, 1 <= s -> s * vol b < 2 ^ 64 -> fold_left mult b s = s * vol b.
Proof.
  induction 1 as [|[[st sz]|] b H F IH]; intros s S P; cbn [fold_left vol mult] in *; [lia| |now apply IH].
  pose proof (vol_pos b F) as V. assert (U : times s sz = s * sz). { unfold times, u64. replace (s =? 0) with false by lia. rewrite (Z.mod_small sz) by nia. rewrite Z.mod_small by nia. reflexivity. }
  rewrite U, IH by nia. lia.
Qed.
Lemma fold_none b : Forall (fun o => o = None) b -> fold_left mult b 0 = 0 /\ vol b = 1.
Proof. induction 1 as [|o b -> F IH]; [split; reflexivity|exact IH]. Qed.
Lemma fold_zero b : sizes_ok b -> vol b < 2 ^ 64 -> fold_left mult b 0 = vol b \/ (Forall (fun o => o = None) b).
Proof.
  induction 1 as [|[[st sz]|] b H F IH]; intros P; cbn [fold_left vol mult] in *; [now right| |].
  - left. pose proof (vol_pos b F). unfold times, u64. cbn [Z.eqb]. rewrite Z.mod_small by nia. apply fold_vol; [exact F|lia|lia].
  - destruct (IH P) as [E|E]; [now left|right; constructor; auto].
Qed.
Theorem estimate b mrange : box_ok b -> (match mrange with Some (lo, hi) => lo <= hi /\ hi - lo < INT_MAX | None => True end) -> box_size b * m_size mrange < 2 ^ 64 ->
  exists k, dir_count 0 (Some b) mrange = Ok k /\ (k = box_size b * m_size mrange \/ (k = 10 /\ box_size b * m_size mrange = 1)) /\
  forall l, NoDup l -> Forall (expected_sub b mrange) l -> Z.of_nat (length l) <= k.
Proof.
  intros B M P. pose proof B as [B9 _]. pose proof (box_sizes b B) as S. pose proof (vol_pos b S) as V. rewrite (vol_size b B9) in *.
  assert (M1 : 1 <= m_size mrange) by (destruct mrange as [[lo hi]|]; cbn [m_size]; lia).
  assert (V2 : vol b < 2 ^ 64) by nia.
  assert (C : exists k, dir_count 0 (Some b) mrange = Ok k /\ (k = vol b * m_size mrange \/ (k = 10 /\ vol b * m_size mrange = 1))).
  { unfold dir_count. cbn [Z.eqb]. rewrite (fold_mult b B9). destruct mrange as [[lo hi]|]; cbn [m_size bind] in *.
    - unfold chk. replace (in_i32b (hi - lo)) with true by (unfold in_i32b, INT_MIN, INT_MAX in *; lia). cbn [bind]. replace (in_i32b (hi - lo + 1)) with true by (unfold in_i32b, INT_MIN, INT_MAX in *; lia). cbn [bind].
      destruct (fold_zero b S V2) as [E|E].
      + rewrite E. unfold times, u64, INT_MAX in *. replace (vol b =? 0) with false by lia. rewrite (Z.mod_small (hi - lo + 1)) by lia. rewrite Z.mod_small by nia.
        replace (vol b * (hi - lo + 1) =? 0) with false by nia. eexists. split; [reflexivity|]. now left.
      + destruct (fold_none b E) as [E1 E2]. rewrite E1, E2. unfold times, u64, INT_MAX in *. cbn [Z.eqb]. rewrite (Z.mod_small (hi - lo + 1)) by lia. replace (hi - lo + 1 =? 0) with false by lia. eexists. split; [reflexivity|]. left. lia.
    - destruct (fold_zero b S V2) as [E|E].
      + rewrite E. replace (vol b =? 0) with false by lia. eexists. split; [reflexivity|]. left. lia.
      + destruct (fold_none b E) as [E1 E2]. rewrite E1, E2. cbn [Z.eqb]. exists 10. split; [reflexivity|]. right. lia. }
  destruct C as (k & C & K). exists k. split; [exact C|]. split; [exact K|]. intros l N F.
  set (ms := match mrange with None => [None] | Some (lo, hi) => map (fun i => Some (lo + Z.of_nat i)) (seq 0 (Z.to_nat (hi - lo + 1))) end).
  assert (Lm : Z.of_nat (length ms) = m_size mrange).
  { unfold ms. destruct mrange as [[lo hi]|]; [rewrite map_length, seq_length; cbn [m_size]; lia|reflexivity]. }
  assert (I : incl l (list_prod (points b) ms)).
  { intros [c m] X. rewrite Forall_forall in F. destruct (F _ X) as [X1 X2]. cbn [fst snd] in *. apply in_prod; [apply points_in, box_cells; assumption|].
    unfold ms. destruct mrange as [[lo hi]|]; [|left; auto]. destruct X2 as (v & -> & R). apply in_map_iff. exists (Z.to_nat (v - lo)). split; [f_equal; lia|]. apply in_seq. lia. }
  pose proof (NoDup_incl_length N I) as Q. rewrite prod_length in Q. pose proof (points_length b S) as PL. nia.
Qed.
