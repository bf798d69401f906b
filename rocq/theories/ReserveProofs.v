(** Reserved space is used. *)
From Verif Require Import Base CodecModel TextModel RectModel CoordModel CoordSpec CoordProofs MemProofs CodecProofs WriterModel WriterProofs WriterSpec ReadProofs WriterInv WriterFin WriterOpen WriterSession WriterMain ReserveModel ReserveSpec.
Open Scope Z_scope.

Lemma align32_mono a b : a <= b -> align32 a <= align32 b.
Proof. unfold align32. intros H. pose proof (Z.div_le_mono (a + 31) (b + 31) 32 ltac:(lia) ltac:(lia)). lia. Qed.

(** ** what is there after creation *)
Definition res_at (o : option Z) (hdr : Z) (w : Z) : option seginfo := option_map (fun n => mkSeg w (align32 (hdr - 32 + n)) true) o.
Definition res_end (o : option Z) (hdr : Z) (w : Z) : Z := match o with Some n => w + 32 + align32 (hdr - 32 + n) | None => w end.
Lemma create_where i ws s : create i = (ws, s) ->
  let e1 := res_end (option_map rmeta_bytes (wi_rmeta i)) 288 544 in let e2 := res_end (option_map rdir_bytes (wi_rdir i)) 160 e1 in
  w_meta s = res_at (option_map rmeta_bytes (wi_rmeta i)) 288 544 /\ w_sbdir s = res_at (option_map rdir_bytes (wi_rdir i)) 160 e1 /\
  w_attdir s = res_at (option_map ratt_bytes (wi_ratt i)) 288 e2 /\ w_next s = res_end (option_map ratt_bytes (wi_ratt i)) 288 e2.
Proof.
  intros H. apply (f_equal snd) in H. cbn [snd] in H. subst s. unfold create.
  destruct (wi_rmeta i), (wi_rdir i), (wi_ratt i); cbv [reserve]; cbn [w_next w_meta w_sbdir w_attdir sg_alloc snd res_end res_at option_map];
    (split; [reflexivity|]; split; [reflexivity|]; split; reflexivity).
Qed.

(** ** the run *)
Definition same_but_meta (s t : wstate) : Prop :=
  w_next s = w_next t /\ w_dir s = w_dir t /\ w_atts s = w_atts t /\ w_sbdir s = w_sbdir t /\ w_attdir s = w_attdir t.
Definition has_room (E n : Z) (s : wstate) : Prop :=
  exists g, w_meta s = Some g /\ align32 (256 + n) <= sg_alloc g /\ seg_end g <= E.
Lemma in_beyond E ws : below E ws -> beyond E ws = [].
Proof.
  induction 1 as [|w ws [A B] _ IH]; [reflexivity|]. unfold beyond. cbn [filter]. replace (E <? fst w + Z.of_nat (length (snd w))) with false by lia. exact IH.
Qed.
Lemma beyond_app E a b : beyond E (a ++ b) = beyond E a ++ beyond E b.
Proof. apply filter_app. Qed.
Lemma below_in lo E ws : 0 <= lo -> ws_in lo E ws -> below E ws.
Proof. intros L H. eapply Forall_impl; [|exact H]. intros w X. cbv beta in *. lia. Qed.
Lemma triple_eq {A B C} (a x : A) (b y : B) (c z : C) : (a, b, c) = (x, y, z) -> a = x /\ b = y /\ c = z.
Proof. intros [= -> -> ->]. auto. Qed.
Lemma same_mk n d a m m' b c : same_but_meta (mkW n d a m b c) (mkW n d a m' b c).
Proof. unfold same_but_meta. cbn [w_next w_dir w_atts w_sbdir w_attdir]. auto. Qed.
Lemma other_step s t o ws s' r : is_meta o = false -> op_ok o -> same_but_meta s t -> wstep s o = (ws, s', r) ->
  exists t', wstep t o = (ws, t', r) /\ same_but_meta s' t' /\ w_meta s' = w_meta s.
Proof.
  intros M O (A & B & C & D & E) H. destruct s as [sn sd sa sm ss st], t as [tn td ta tm ts tt]. cbn [w_next w_dir w_atts w_sbdir w_attdir] in *. subst.
  destruct o as [a slot|a|xml att]; [| |discriminate]; unfold wstep in *; cbn [w_next w_dir w_atts w_meta w_sbdir w_attdir set_next] in *.
  - destruct (sub_args_ok a); cbn [negb] in *; [|apply triple_eq in H as (<- & <- & <-); eexists; split; [reflexivity|]; split; [apply same_mk|reflexivity]].
    destruct slot as [k|]; [|apply triple_eq in H as (<- & <- & <-); eexists; split; [reflexivity|]; split; [apply same_mk|reflexivity]].
    set (x := write_subblock tn a) in *. clearbody x. unfold set_next in *. cbn [w_next w_dir w_atts w_meta w_sbdir w_attdir] in *.
    destruct x as [x1 [x2| | |]]; cbn [fst snd] in *; apply triple_eq in H as (<- & <- & <-); eexists; (split; [reflexivity|]; split; [apply same_mk|reflexivity]).
  - set (q := existsb _ _) in *. clearbody q. destruct q; [apply triple_eq in H as (<- & <- & <-); eexists; split; [reflexivity|]; split; [apply same_mk|reflexivity]|].
    set (x := write_attachment tn a) in *. clearbody x. unfold set_next in *. cbn [w_next w_dir w_atts w_meta w_sbdir w_attdir] in *.
    destruct x as [x1 [x2| | |]]; cbn [fst snd] in *; apply triple_eq in H as (<- & <- & <-); eexists; (split; [reflexivity|]; split; [apply same_mk|reflexivity]).
Qed.
Lemma meta_step s E n xml att : seg_inv s -> 0 <= E -> has_room E n s -> Z.of_nat (length xml) <= INT_MAX /\ Z.of_nat (length att) <= INT_MAX ->
  Z.of_nat (length xml) + Z.of_nat (length att) <= n ->
  exists ws s', wstep s (OpMeta xml att) = (ws, s', Ok tt) /\ below E ws /\ same_but_meta s' s /\ has_room E n s' /\ seg_inv s'.
Proof.
  intros I Z0 (g & G & A & B) L F. destruct (wstep s (OpMeta xml att)) as [[ws s'] r] eqn:H.
  destruct (wstep_meta_inv _ _ _ _ _ _ I L H) as (I' & _ & _).
  destruct (wstep_meta _ _ _ _ _ _ I L H) as (-> & mk & p & al & bss & z & -> & Hp & C & Hz & Hz2 & ->).
  assert (N : align32 (meta_used xml att) <= sg_alloc g) by (eapply Z.le_trans; [apply align32_mono|exact A]; unfold meta_used; lia).
  destruct Hp as [(g' & G' & -> & -> & -> & _)|(_ & _ & _ & X)]; [|rewrite G in X; lia]. rewrite G in G'. injection G' as <-.
  pose proof (seg_meta_in s g I G) as S. unfold seg_in in S.
  assert (Q : sg_pos g =? w_next s = false) by (unfold seg_end in S; lia).
  rewrite Q in *.
  eexists _, _. split; [reflexivity|]. split.
  - cbn [app]. apply (below_in (sg_pos g)); [lia|]. apply (ws_in_weaken (sg_pos g) (seg_end g)); [|lia|lia]. apply ws_in_contig.
    rewrite C, app_length, Nat2Z.inj_add, meta_bytes_length, zeros_length by lia. unfold seg_end. lia.
  - split; [repeat split|]. split; [|exact I']. exists (mkSeg (sg_pos g) (sg_alloc g) false). cbn [w_meta sg_alloc seg_end sg_pos]. repeat split; [exact A|exact B].
Qed.
Lemma same_sym s t : same_but_meta s t -> same_but_meta t s.
Proof. unfold same_but_meta. intuition. Qed.
Lemma same_trans s t u : same_but_meta s t -> same_but_meta t u -> same_but_meta s u.
Proof. unfold same_but_meta. intuition congruence. Qed.
Theorem run_meta E n ops : forall s t ws s' rs, 0 <= E -> seg_inv s -> same_but_meta s t -> has_room E n s -> Forall op_ok ops -> Forall (meta_fits n) ops ->
  wrun s ops = (ws, s', rs) -> exists ws' t' rs', wrun t (filter (fun o => negb (is_meta o)) ops) = (ws', t', rs') /\
    beyond E ws = beyond E ws' /\ same_but_meta s' t'.
Proof.
  induction ops as [|o ops IH]; intros s t ws s' rs Z0 I S R O F H.
  - injection H as <- <- <-. exists [], t, []. repeat split; apply S.
  - cbn [wrun] in H. destruct (wstep s o) as [[w1 s1] r] eqn:E1. destruct (wrun s1 ops) as [[w2 s2] rs2] eqn:E2. injection H as <- <- <-.
    inversion O as [|? ? O1 O2]; subst. inversion F as [|? ? F1 F2]; subst. destruct (wstep_inv _ _ _ _ _ I O1 E1) as (I1 & _ & _).
    cbn [filter]. destruct (is_meta o) eqn:M; cbn [negb].
    + destruct o as [| |xml att]; try discriminate. destruct (meta_step s E n xml att I Z0 R O1 F1) as (ws & s'' & X & B & S' & R' & _).
      rewrite X in E1. injection E1 as <- <- <-. destruct (IH s'' t w2 s2 rs2 Z0 I1 (same_trans _ _ _ S' S) R' O2 F2 E2) as (ws' & t' & rs' & A & C & D).
      exists ws', t', rs'. split; [exact A|]. split; [|exact D]. now rewrite beyond_app, (in_beyond _ _ B), C.
    + destruct (other_step s t o w1 s1 r M O1 S E1) as (t1 & X & S1 & W). assert (R1 : has_room E n s1) by (unfold has_room; rewrite W; exact R).
      destruct (IH s1 t1 w2 s2 rs2 Z0 I1 S1 R1 O2 F2 E2) as (ws' & t' & rs' & A & C & D).
      exists (w1 ++ ws'), t', (r :: rs'). cbn [wrun]. rewrite X, A. split; [reflexivity|]. split; [|exact D]. now rewrite !beyond_app, C.
Qed.

(** ** the end of a session *)
Lemma coord_dims_le cs : forall c, (length (coord_dims cs c) <= length cs)%nat.
Proof. induction cs as [|x cs IH]; intros [|[v|] c]; cbn [coord_dims length]; try lia; specialize (IH c); lia. Qed.
Lemma entry_le e : Z.of_nat (length (enc_entry e)) <= 832.
Proof.
  unfold enc_entry, enc_dv. set (ds := dims_of e (m_valid e)). rewrite !app_length, !le_length. cbn [length].
  assert (D : (length ds <= 12)%nat).
  { unfold ds, dims_of. rewrite !app_length. pose proof (coord_dims_le dim_chars (e_coord e)) as X. change (length dim_chars) with 9%nat in X. destruct (m_valid e); cbn [length]; lia. }
  assert (F : length (flat_map enc_dim ds) = (20 * length ds)%nat) by (clear; induction ds as [|x ds IH]; [reflexivity|]; cbn [flat_map length]; rewrite app_length, IH, enc_dim_length; lia).
  rewrite F. lia.
Qed.
Lemma dir_le l : dir_used l <= 128 + 832 * Z.of_nat (length l).
Proof. unfold dir_used. induction l as [|e l IH]; [cbn; lia|]. cbn [flat_map length]. rewrite app_length. pose proof (entry_le e). lia. Qed.
Definition counts (s s' : wstate) (ops : list wop) : Prop :=
  Z.of_nat (length (w_dir s')) <= Z.of_nat (length (w_dir s)) + calls is_sub ops /\
  Z.of_nat (length (w_atts s')) <= Z.of_nat (length (w_atts s)) + calls is_att ops /\
  w_sbdir s' = w_sbdir s /\ w_attdir s' = w_attdir s /\ (Forall ae_ok (w_atts s) -> Forall ae_ok (w_atts s')).
Lemma insert_length {A} k (x : A) l : length (insert_at k x l) = S (length l).
Proof. rewrite (Permutation.Permutation_length (insert_at_perm k x l)). reflexivity. Qed.
Lemma run_counts ops : forall s ws s' rs, seg_inv s -> Forall op_ok ops -> wrun s ops = (ws, s', rs) -> counts s s' ops.
Proof.
  induction ops as [|o ops IH]; intros s ws s' rs I O H.
  - injection H as <- <- <-. unfold counts, calls. cbn [filter length]. repeat split; try lia. auto.
  - cbn [wrun] in H. destruct (wstep s o) as [[w1 s1] r] eqn:E1. destruct (wrun s1 ops) as [[w2 s2] rs2] eqn:E2. injection H as <- <- <-.
    inversion O as [|? ? O1 O2]; subst. destruct (wstep_inv _ _ _ _ _ I O1 E1) as (I1 & _ & _).
    destruct (IH s1 w2 s2 rs2 I1 O2 E2) as (A & B & C & D & F). unfold counts, calls in *. destruct o as [a slot|a|xml att]; cbn [filter is_sub is_att] in *.
    + apply wstep_sub in E1; [|exact O1]. destruct E1 as [(-> & -> & ->)|(-> & _ & k & bss & -> & -> & X & ->)]; cbn [w_dir w_atts w_sbdir w_attdir] in *.
      * cbn [length]. repeat split; try lia; auto.
      * rewrite insert_length in A. cbn [length]. repeat split; try lia; auto.
    + apply wstep_att in E1; [|exact O1]. destruct E1 as [(-> & -> & ->)|(-> & bss & -> & X & ->)]; cbn [w_dir w_atts w_sbdir w_attdir] in *.
      * cbn [length]. repeat split; try lia; auto.
      * rewrite app_length in B. cbn [length] in *. repeat split; try lia; auto. intros Y. apply F. apply Forall_app. split; [exact Y|]. constructor; [|constructor]. exact (proj1 (conj O1 Logic.I)).
    + destruct (wstep_meta _ _ _ _ _ _ I O1 E1) as (-> & mk & p & al & bss & z & -> & Hp & X & Hz & Hz2 & ->). cbn [w_dir w_atts w_sbdir w_attdir] in *. cbn [length]. repeat split; try lia; auto.
Qed.
Lemma finish_below guid s E gd ga k a : seg_inv s -> length guid = 16%nat -> w_sbdir s = Some gd -> w_attdir s = Some ga -> Forall ae_ok (w_atts s) ->
  seg_end gd <= E -> seg_end ga <= E -> 544 <= E ->
  align32 (128 + 832 * k) <= sg_alloc gd -> 256 + 128 * a <= sg_alloc ga -> Z.of_nat (length (w_dir s)) <= k -> Z.of_nat (length (w_atts s)) <= a ->
  below E (fst (finish guid s)).
Proof.
  intros I G Gd Ga Ae Ed Ea E0 Ad Aa Kd Ka. unfold finish.
  assert (Id : seg_in (w_next s) gd /\ seg_in (w_next s) ga).
  { destruct I as (_ & _ & F & _). unfold specials in F. rewrite Gd, Ga in F. apply Forall_app in F as [_ F]. apply Forall_app in F as [F1 F2]. apply Forall_inv in F1, F2. now split. }
  destruct Id as [Id Ia]. unfold seg_in in Id, Ia.
  destruct (write_directory_spec (w_sbdir s) (w_next s) (w_dir s)) as (mk & p & al & bss & z & W & Hp & C & Hz & Hz2 & _); [rewrite Gd; cbn; lia|].
  assert (N : align32 (dir_used (w_dir s)) <= sg_alloc gd) by (eapply Z.le_trans; [apply align32_mono|exact Ad]; pose proof (dir_le (w_dir s)); lia).
  destruct Hp as [(g' & G' & -> & -> & -> & _)|(_ & _ & _ & X)]; [|rewrite Gd in X; lia]. rewrite Gd in G'. injection G' as <-.
  rewrite W, wbind_ok. cbn [app]. replace (sg_pos gd =? w_next s) with false by (unfold seg_end in *; lia). cbv zeta.
  assert (B1 : below E (contig (sg_pos gd) bss)).
  { apply (below_in (sg_pos gd)); [lia|]. apply ws_in_contig. rewrite C, app_length, Nat2Z.inj_add, dir_bytes_length, zeros_length by lia. unfold seg_end in *. lia. }
  assert (B2 : forall d m x, below E [(0, file_header guid d m x)]).
  { intros d m x. constructor; [|constructor]. cbn [fst snd]. unfold file_header, seg_header. rewrite !app_length, !le_length, G. change (length MAGIC_FILE) with 16%nat. change (length (zeros 432)) with 432%nat. lia. }
  destruct (w_atts s) as [|e es] eqn:At.
  - cbn [wbind fst snd wret app]. apply Forall_app. split; [exact B1|]. apply B2.
  - destruct (write_attdir_spec (w_attdir s) (w_next s) (e :: es)) as (mk' & p & al & bss' & z' & W' & Hp & C' & Hif & Hz' & Hz2'); [rewrite Ga; cbn; lia|exact Ae|].
    destruct Hp as [(g' & G' & -> & -> & -> & _)|(_ & _ & _ & X)]; [|rewrite Ga in X; lia]. rewrite Ga in G'. injection G' as <-.
    rewrite W', wbind_ok. cbn [fst snd wbind wput wret app]. rewrite app_nil_r. apply Forall_app. split; [exact B1|]. apply Forall_app. split; [|apply B2].
    pose proof (flat_enc_att_length (e :: es) Ae) as L.
    apply Forall_app. split; [|change (below E (contig (sg_pos ga + 128 * Z.of_nat (length (e :: es))) bss'))].
    + change (below E (contig (sg_pos ga) [attdir_head (sg_alloc ga) (length (e :: es)); flat_map enc_att (e :: es)])).
      apply (below_in (sg_pos ga)); [lia|]. apply ws_in_contig. cbn [concat]. rewrite !app_length, attdir_head_length, L. unfold seg_end in *. cbn [length] in *. lia.
    + apply (below_in (sg_pos ga + 128 * Z.of_nat (length (e :: es)))); [lia|]. apply ws_in_contig. rewrite C', zeros_length by lia. unfold seg_end in *. lia.
Qed.
