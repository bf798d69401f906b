(** Proofs about asking and reading in the middle of an editing session. *)
From Verif Require Import Base StatModel StatSpec StatProofs DirProofs CodecModel MemProofs CodecProofs WriterModel WriterProofs WriterSpec ReadProofs WriterInv WriterFin WriterOpen WriterMain WriterSession
  EditModel EditSpec EditSeg EditStore EditInv EditSteps EditRun EditMain EditOpen ReaderModel ReaderSpec ReaderParts AskModel AskSpec.
Open Scope Z_scope.

(** ** keys *)
Lemma find_maps {X A B} (f : Z * X -> A) (g : Z * X -> B) k (l : list (Z * X)) :
  match find (fun x => fst x =? k) l with
  | Some x => afind k (map (fun y => (fst y, f y)) l) = Some (f x) /\ lookup k (map (fun y => (fst y, g y)) l) = Some (k, g x) /\ In x l
  | None => afind k (map (fun y => (fst y, f y)) l) = None /\ lookup k (map (fun y => (fst y, g y)) l) = None
  end.
Proof.
  induction l as [|(j, x) l IH]; [split; reflexivity|]. unfold lookup in *. cbn [find map fst afind]. destruct (Z.eqb_spec j k) as [->|N].
  - try rewrite Z.eqb_refl. split; [reflexivity|]. split; [reflexivity|now left].
  - assert (E : (k =? j) = false) by lia. try rewrite E. destruct (find _ l); [|exact IH]. destruct IH as (A1 & A2 & A3). split; [exact A1|]. split; [exact A2|now right].
Qed.
(** ** walking *)
Lemma visit_walked {X A B} (f : A -> res (option B)) (e : Z * X -> A) (w : Z * X -> option B) go (l : list (Z * X)) :
  (forall x, In x l -> f (e x) = Ok (w x)) ->
  visit f go (map (fun y => (fst y, e y)) l) = Ok (walked go (flat_map (fun y => match w y with Some i => [(fst y, i)] | None => [] end) l)).
Proof.
  unfold walked. induction l as [|(k, x) l IH]; intro H; [reflexivity|]. cbn [map visit flat_map fst]. rewrite (H _ (or_introl eq_refl)). cbn [bind].
  assert (IH' := IH (fun y I => H y (or_intror I))). clear IH. destruct (w (k, x)) as [i|]; [|exact IH']. cbn [app until fst snd].
  destruct (go k i); [|reflexivity]. rewrite IH'. reflexivity.
Qed.
Lemma flat_told {X B} (w : Z * X -> B) (l : list (Z * X)) : flat_map (fun y => [(fst y, w y)]) l = map (fun y => (fst y, w y)) l.
Proof. induction l as [|x l IH]; [reflexivity|]. cbn [flat_map map app]. now rewrite IH. Qed.
Lemma flat_selected {X B} (p : Z * X -> bool) (w : Z * X -> B) (l : list (Z * X)) :
  flat_map (fun y => match (if p y then Some (w y) else None) with Some i => [(fst y, i)] | None => [] end) l = map (fun y => (fst y, w y)) (filter p l).
Proof. induction l as [|x l IH]; [reflexivity|]. cbn [flat_map filter]. rewrite IH. now destruct (p x). Qed.
Lemma filter_maps {X Y} (f : X -> Y) (p : Y -> bool) l : filter p (map f l) = map f (filter (fun x => p (f x)) l).
Proof. induction l as [|x l IH]; [reflexivity|]. cbn [map filter]. rewrite IH. now destruct (p (f x)). Qed.

Lemma rinfo_pos e p : rinfo_of (with_pos e p) = rinfo_of e. Proof. reflexivity. Qed.

(** ** the session *)
Section Ask.
  Context (strict : bool) (s : ed) (g : gh) (d : doc).
  Context (I : inv strict s g d) (Hs : f_size (ed_f s) < 2 ^ 63).

  Let fe (x : subx) : sbe := fst (fst (snd x)).
  Let fv (x : subx) : observed := snd (snd x).
  Let ae (x : attx) : attentry := fst (fst (snd x)).
  Let av (x : attx) : attinfo := snd (snd x).
  Lemma ed_subs_are : ed_sb s = map (fun y => (fst y, fe y)) (g_sb g). Proof. exact (i_sb _ _ _ _ I). Qed.
  Lemma d_subs_are : d_subs d = map (fun y => (fst y, fv y)) (g_sb g). Proof. exact (i_dsb _ _ _ _ I). Qed.
  Lemma ed_atts_are : ed_at s = map (fun y => (fst y, ae y)) (g_at g). Proof. exact (i_at _ _ _ _ I). Qed.
  Lemma d_atts_are : d_atts d = map (fun y => (fst y, av y)) (g_at g). Proof. exact (i_dat _ _ _ _ I). Qed.

  Lemma sub_entry x : In x (g_sb g) -> ob_entry (fv x) = with_pos (fe x) 0.
  Proof. intro H. pose proof (proj1 (Forall_forall _ _) (i_sbg _ _ _ _ I) x H) as G. destruct x as (k & (e & al) & v). exact (proj2 G). Qed.
  Lemma att_entry x : In x (g_at g) -> ae_guid (ae x) = at_guid (av x) /\ ae_type (ae x) = at_type (av x) /\ ae_name (ae x) = at_name (av x) /\ length (at_type (av x)) = 8%nat.
  Proof.
    intro H. pose proof (proj1 (Forall_forall _ _) (i_atg _ _ _ _ I) x H) as G. destruct x as (k & (e & al) & v). destruct G as ((_ & L & _) & E & _).
    unfold ae, av. cbn [fst snd]. rewrite E. cbn [ae_guid ae_type ae_name]. auto.
  Qed.
  Lemma sub_stored x : In x (g_sb g) -> exists r, read_subblock strict (ed_f s) (e_pos (fe x)) = Ok r /\
    (rinfo_of (sd_info r), (sd_data r, sd_att r, sd_meta r)) = sub_read (fv x).
  Proof.
    intro H. assert (N : In (sub_seg x) (live g)) by (apply in_or_app; left; now apply in_map).
    pose proof (intact_read strict _ _ (store_In _ _ _ _ (i_store _ _ _ _ I) N) Hs) as R. destruct x as (k & (e & al) & v). cbn [sub_seg s_p s_o rd] in R.
    unfold observe in R. cbn [with_pos e_pos] in R. apply bind_ok in R as (r & R1 & R2). exists r. split; [exact R1|]. injection R2 as <-. reflexivity.
  Qed.
  Lemma att_stored x : In x (g_at g) -> read_attachment strict (ed_f s) (ae_pos (ae x)) = Ok (at_data (av x)).
  Proof.
    intro H. assert (N : In (att_sg x) (live g)) by (apply in_or_app; right; apply in_or_app; left; now apply in_map).
    pose proof (intact_read strict _ _ (store_In _ _ _ _ (i_store _ _ _ _ I) N) Hs) as R. destruct x as (k & (e & al) & v). exact R.
  Qed.
  Lemma info_told b x : In x (g_at g) -> name_ends (av x) -> info9 b (ae x) = Ok (told9 b (av x)).
  Proof. intros H N. destruct (att_entry x H) as (E1 & E2 & E3 & _). unfold info9, told9. rewrite E1, E2, E3, (c_string_ok _ N). reflexivity. Qed.
  Lemma all_end : Forall (fun x => name_ends (snd x)) (d_atts d) -> forall x, In x (g_at g) -> name_ends (av x).
  Proof. intros F x H. rewrite d_atts_are in F. exact (proj1 (Forall_forall _ _) F _ (in_map (fun y => (fst y, av y)) _ _ H)). Qed.

  Lemma asked_subs go : ask_subs go s = Ok (walked go (with_told sub_told (d_subs d))).
  Proof.
    unfold ask_subs. rewrite ed_subs_are. rewrite (visit_walked _ fe (fun x => Some (sub_told (fv x))) go (g_sb g)).
    - rewrite (flat_told (fun x => sub_told (fv x))). unfold with_told. rewrite d_subs_are, map_map. reflexivity.
    - intros x H. unfold sub_told. rewrite (sub_entry x H). reflexivity.
  Qed.
  Lemma asked_sub k : ask_sub s k = found sub_told k (d_subs d).
  Proof.
    unfold ask_sub, found. rewrite ed_subs_are, d_subs_are. pose proof (find_maps fe fv k (g_sb g)) as F. match type of F with match ?t with Some _ => _ | None => _ end => destruct t as [x|] end.
    - destruct F as (A & B & H). rewrite A, B. cbn [option_map snd]. unfold sub_told. now rewrite (sub_entry x H).
    - destruct F as (A & B). now rewrite A, B.
  Qed.
  Lemma asked_read k : ask_read strict s k = Ok (found sub_read k (d_subs d)).
  Proof.
    unfold ask_read, found. rewrite ed_subs_are, d_subs_are. pose proof (find_maps fe fv k (g_sb g)) as F. match type of F with match ?t with Some _ => _ | None => _ end => destruct t as [x|] end.
    - destruct F as (A & B & H). rewrite A, B. cbn [option_map snd]. destruct (sub_stored x H) as (r & R1 & R2). rewrite R1. cbn [bind]. now rewrite R2.
    - destruct F as (A & B). now rewrite A, B.
  Qed.
  Lemma asked_count : Z.of_nat (length (d_atts d)) <= INT_MAX -> ask_count s = Z.of_nat (length (d_atts d)).
  Proof. unfold ask_count. rewrite ed_atts_are, d_atts_are, !map_length. intro L. apply s32_id. unfold in_i32, INT_MIN, INT_MAX in *. lia. Qed.
  Lemma asked_att k : (forall v, lookup k (d_atts d) = Some v -> name_ends (snd v)) ->
    ask_att s k = Ok (found (told9 0) k (d_atts d)) /\ ask_data strict s k = Ok (found (fun a => (told9 0 a, at_data a)) k (d_atts d)).
  Proof.
    unfold ask_att, ask_data, found. rewrite ed_atts_are, d_atts_are. pose proof (find_maps ae av k (g_at g)) as F. match type of F with match ?t with Some _ => _ | None => _ end => destruct t as [x|] end.
    - destruct F as (A & B & H). rewrite A, B. intro N. specialize (N _ eq_refl). cbn [snd] in N. cbn [option_map snd]. rewrite (att_stored x H), (info_told 0 x H N). now split.
    - destruct F as (A & B). rewrite A, B. now split.
  Qed.
  Lemma asked_atts junk go : Forall (fun x => name_ends (snd x)) (d_atts d) -> ask_atts junk go s = Ok (walked go (with_told (told9 junk) (d_atts d))).
  Proof.
    intro N. unfold ask_atts. rewrite ed_atts_are. rewrite (visit_walked _ ae (fun x => Some (told9 junk (av x))) go (g_at g)).
    - rewrite (flat_told (fun x => told9 junk (av x))). unfold with_told. rewrite d_atts_are, map_map. reflexivity.
    - intros x H. now rewrite (info_told junk x H (all_end N x H)).
  Qed.
  Lemma asked_subset t n go : text t -> text n -> Forall (fun x => name_ends (snd x)) (d_atts d) ->
    (forall w, t = Some w -> (length w < 8)%nat \/ Forall (fun x => In 0 (at_type (snd x))) (d_atts d)) ->
    ask_subset t n go s = Ok (walked go (with_told (told9 0) (filter (fun x => selected t n (snd x)) (d_atts d)))).
  Proof.
    intros Tt Tn N L. unfold ask_subset. rewrite ed_atts_are.
    rewrite (visit_walked _ ae (fun x => if selected t n (av x) then Some (told9 0 (av x)) else None) go (g_at g)).
    - rewrite (flat_selected (fun x => selected t n (av x)) (fun x => told9 0 (av x))). unfold with_told. rewrite d_atts_are, filter_maps, map_map. reflexivity.
    - intros x H. destruct (att_entry x H) as (_ & E2 & E3 & L8). pose proof (all_end N x H) as NE.
      assert (M1 : opt_match t (ae_type (ae x)) = Ok (match t with None => true | Some t => is_string t (at_type (av x)) end)).
      { rewrite E2. destruct t as [w|]; [|reflexivity]. cbn [opt_match]. apply strcmp_ok; [exact Tt|]. destruct (L w eq_refl) as [Q|Q]; [right; rewrite L8; exact Q|left].
        rewrite d_atts_are in Q. exact (proj1 (Forall_forall _ _) Q _ (in_map (fun y => (fst y, av y)) _ _ H)). }
      assert (M2 : opt_match n (ae_name (ae x)) = Ok (match n with None => true | Some n => is_string n (at_name (av x)) end)).
      { rewrite E3. destruct n as [w|]; [|reflexivity]. cbn [opt_match]. apply strcmp_ok; [exact Tn|now left]. }
      rewrite M1. cbn [bind]. unfold selected. destruct (match t with None => true | Some t => is_string t (at_type (av x)) end); cbn [andb]; [|reflexivity].
      rewrite M2. cbn [bind]. destruct (match n with None => true | Some n => is_string n (at_name (av x)) end); [|reflexivity]. now rewrite (info_told 0 x H NE).
  Qed.
  Lemma asked_meta : ask_meta strict s = Ok (d_meta d).
  Proof.
    unfold ask_meta. rewrite (i_meta _ _ _ _ I), (i_dmeta _ _ _ _ I). destruct (g_meta g) as [((p & al) & x)|] eqn:E; [|reflexivity]. cbn [option_map snd].
    assert (N : In (sp_seg OMeta (p, al, x)) (live g)). { unfold live. rewrite E. apply in_or_app; right. apply in_or_app; right. apply in_or_app; left. now left. }
    pose proof (intact_read strict _ _ (store_In _ _ _ _ (i_store _ _ _ _ I) N) Hs) as R. cbn [sp_seg s_p s_o rd fst snd] in R.
    change (sg_pos (sp_info (p, al, x))) with p. rewrite R. reflexivity.
  Qed.
End Ask.

(** ** any moment *)
Lemma create_new strict force guid f : 0 <= f_size f < 544 -> (strict = false \/ 0 < f_size f) -> length guid = 16%nat ->
  exists s g, ed_create strict force guid f = Ok s /\ inv strict s g no_doc.
Proof.
  intros Hf Hav Hg. pose proof (file_header_length guid 0 0 0 Hg) as L.
  set (f0 := fwrite f [(0, file_header guid 0 0 0)]).
  assert (S0 : f_size f0 = 544).
  { unfold f0, fwrite, file_size, end_of. cbn [f_size map fold_right fst snd]. rewrite L. change (544 =? 0)%nat with false. cbv iota. lia. }
  assert (M0 : mread (f_mem f0) 0 544 = file_header guid 0 0 0).
  { unfold f0. rewrite fwrite_mem. unfold apply_writes. cbn [fold_left fst snd]. rewrite <- L. apply mread_mwrite_same. }
  assert (H0 : holds f0 0 (file_header guid 0 0 0)) by (split; [lia|]; rewrite L; split; [lia|exact M0]).
  set (s := mkEd f0 (mkFh guid 0 0 0) 0 None [] 0 false [] 0 false None None None).
  assert (E : ed_create strict force guid f = Ok s).
  { unfold ed_create. unfold avail. destruct (Z.leb_spec (f_size f) 0).
    - destruct Hav as [->|?]; [|lia]. reflexivity.
    - replace (Z.min 544 (f_size f - 0) =? 544) with false by lia. reflexivity. }
  assert (Al : alloc_at f0 0 = 512).
  { unfold alloc_at. replace (mread (f_mem f0) (0 + 16) 8) with (slice (file_header guid 0 0 0) 16 8).
    - unfold file_header. rewrite slice_app_l by (vm_compute; lia). vm_compute. reflexivity.
    - symmetry. apply (mread_slice (f_mem f0) 0 (file_header guid 0 0 0) 16 8); [now rewrite L|]. rewrite L. lia. }
  set (g := mkGh [] [] None None None). exists s, g. split; [exact E|].
  constructor; cbn [s g ed_f ed_hdr ed_last ed_next ed_sb ed_sbn ed_smod ed_at ed_atn ed_amod ed_meta ed_sbdir ed_attdir g_sb g_at g_meta g_dir g_attdir no_doc d_subs d_subn d_atts d_attn d_meta map option_map seg_pos fh_dir fh_att]; try reflexivity; try (split; constructor); try constructor.
  - apply read_file_header_ok; auto; lia.
  - lia.
  - exists 544. unfold next_is, next_ok. cbn [s ed_next ed_f ed_last]. rewrite Al, S0. split; [|split; [lia|constructor]].
    repeat split; try lia. constructor.
Qed.
Theorem asked_any strict force guid f d os :
  started_on strict f d -> length guid = 16%nat -> Forall edit_ok os -> no_growth d os ->
  exists s0, ed_create strict force guid f = Ok s0 /\
  let s := fst (erun strict s0 os) in let now := fst (drun d os) in
  f_size (ed_f s) < 2 ^ 63 ->
  (forall go, ask_subs go s = Ok (walked go (with_told sub_told (d_subs now)))) /\
  (forall k, ask_sub s k = found sub_told k (d_subs now)) /\
  (forall k, ask_read strict s k = Ok (found sub_read k (d_subs now))) /\
  (Z.of_nat (length (d_atts now)) <= INT_MAX -> ask_count s = Z.of_nat (length (d_atts now))) /\
  (forall k, (forall v, lookup k (d_atts now) = Some v -> name_ends (snd v)) ->
     ask_att s k = Ok (found (told9 0) k (d_atts now)) /\ ask_data strict s k = Ok (found (fun a => (told9 0 a, at_data a)) k (d_atts now))) /\
  (Forall (fun x => name_ends (snd x)) (d_atts now) ->
     (forall junk go, ask_atts junk go s = Ok (walked go (with_told (told9 junk) (d_atts now)))) /\
     (forall t n go, text t -> text n -> (forall w, t = Some w -> (length w < 8)%nat \/ Forall (fun x => In 0 (at_type (snd x))) (d_atts now)) ->
        ask_subset t n go s = Ok (walked go (with_told (told9 0) (filter (fun x => selected t n (snd x)) (d_atts now)))))) /\
  ask_meta strict s = Ok (d_meta now).
Proof.
  intros D Hg Hok Hgr.
  assert (C : exists s0 g0, ed_create strict force guid f = Ok s0 /\ inv strict s0 g0 d).
  { destruct D as [(h & D & Hr)|(B & A & ->)].
    - destruct (create_ok strict force guid f h d D Hr Hg) as (s0 & g0 & E & I0 & _). eauto.
    - exact (create_new strict force guid f B A Hg). }
  destruct C as (s0 & g0 & E & I0). exists s0. split; [exact E|]. cbv zeta. intro Hs.
  destruct (erun strict s0 os) as [s rs] eqn:E1. cbn [fst] in Hs |- *.
  destruct (erun_ok strict os s0 g0 d s rs I0 Hok Hgr E1 Hs) as (g & I & _).
  split; [intro go; exact (asked_subs strict s g _ I go)|]. split; [intro k; exact (asked_sub strict s g _ I k)|]. split; [intro k; exact (asked_read strict s g _ I Hs k)|].
  split; [exact (asked_count strict s g _ I)|]. split; [intros k N; exact (asked_att strict s g _ I Hs k N)|].
  split; [|exact (asked_meta strict s g _ I Hs)]. intro N. split; [intros junk go; exact (asked_atts strict s g _ I junk go N)|].
  intros t n go T1 T2 L. exact (asked_subset strict s g _ I t n go T1 T2 N L).
Qed.
(** keys are never given again *)
Lemma dstep_keys d o : (forall k v, In (k, v) (d_atts d) -> k < d_attn d) -> let d' := fst (dstep d o) in
  d_attn d <= d_attn d' /\ (forall k v, In (k, v) (d_atts d') -> k < d_attn d' /\ ((exists v', In (k, v') (d_atts d)) \/ d_attn d <= k)).
Proof.
  intro H. assert (S0 : forall k v, In (k, v) (d_atts d) -> k < d_attn d /\ ((exists v', In (k, v') (d_atts d)) \/ d_attn d <= k)) by (intros k v Q; split; [eauto|left; eauto]).
  destruct o as [a|k0 a|k0|a|k0 a|k0|xml att]; cbn [dstep].
  - destruct (_ && _); cbn [fst d_attn d_atts]; split; try lia; exact S0.
  - destruct (lookup k0 (d_subs d)); cbn [fst d_attn d_atts]; split; try lia; exact S0.
  - destruct (lookup k0 (d_subs d)); cbn [fst d_attn d_atts]; split; try lia; exact S0.
  - destruct (existsb _ _); cbn [fst d_attn d_atts]; split; try lia; [exact S0|]. intros k v Q. apply in_app_or in Q as [Q|[Q|[]]].
    + destruct (S0 k v Q) as (A & B). split; [lia|exact B].
    + injection Q as <- <-. split; [lia|right; lia].
  - destruct (lookup k0 (d_atts d)); cbn [fst d_attn d_atts]; split; try lia; [|exact S0]. intros k v Q. unfold assign in Q. apply in_map_iff in Q as ((j, w) & Q & J).
    cbn [fst] in Q. destruct (j =? k0) eqn:E; injection Q as <- <-; [assert (j = k0) by lia; subst k0|]; exact (S0 j w J).
  - destruct (lookup k0 (d_atts d)); cbn [fst d_attn d_atts]; split; try lia; [|exact S0]. intros k v Q. apply filter_In in Q as (Q & _). exact (S0 k v Q).
  - cbn [fst d_attn d_atts]; split; try lia; exact S0.
Qed.
Lemma drun_keys os : forall d, (forall k v, In (k, v) (d_atts d) -> k < d_attn d) ->
  forall k v, In (k, v) (d_atts (fst (drun d os))) -> (exists v', In (k, v') (d_atts d)) \/ d_attn d <= k.
Proof.
  induction os as [|o os IH]; intros d H k v Q; [left; eauto|]. cbn [drun] in Q. destruct (dstep_keys d o H) as (A & B).
  destruct (dstep d o) as (d1, b). cbn [fst] in A, B. destruct (drun d1 os) as (d2, bs) eqn:E. cbn [fst] in Q.
  specialize (IH d1 (fun k v J => proj1 (B k v J)) k v). rewrite E in IH. cbn [fst] in IH. destruct (IH Q) as [(v' & J)|J]; [exact (proj2 (B k v' J))|right; lia].
Qed.
Lemma drun_mono os : forall d, (forall k v, In (k, v) (d_atts d) -> k < d_attn d) -> d_attn d <= d_attn (fst (drun d os)).
Proof.
  induction os as [|o os IH]; intros d H; [cbn [drun fst]; lia|]. cbn [drun]. destruct (dstep_keys d o H) as (A & B). destruct (dstep d o) as (d1, b). cbn [fst] in A, B.
  specialize (IH d1 (fun k v J => proj1 (B k v J))). destruct (drun d1 os) as (d2, bs). cbn [fst] in *. lia.
Qed.
Lemma drun_app os os' : forall d, fst (drun d (os ++ os')) = fst (drun (fst (drun d os)) os').
Proof.
  induction os as [|o os IH]; intros d; [reflexivity|]. cbn [app drun]. destruct (dstep d o) as (d1, b). specialize (IH d1).
  destruct (drun d1 (os ++ os')) as (x, bx). destruct (drun d1 os) as (y, by0). cbn [fst] in *. exact IH.
Qed.
Lemma erun_app strict os os' : forall s, fst (erun strict s (os ++ os')) = fst (erun strict (fst (erun strict s os)) os').
Proof.
  induction os as [|o os IH]; intros s; [reflexivity|]. cbn [app erun]. destruct (estep strict s o) as (s1, b). specialize (IH s1).
  destruct (erun strict s1 (os ++ os')) as (x, bx). destruct (erun strict s1 os) as (y, by0). cbn [fst] in *. exact IH.
Qed.
Lemma growth_app os os' : forall d, no_growth d (os ++ os') -> no_growth d os.
Proof. induction os as [|o os IH]; intros d H; [exact Logic.I|]. cbn [app no_growth] in *. destruct H as (A & B). split; [exact A|]. now apply IH. Qed.
Lemma asked_none strict s g d k : inv strict s g d -> (ask_att s k = Ok None <-> forall v, ~ In (k, v) (d_atts d)).
Proof.
  intro I. unfold ask_att. rewrite (i_at _ _ _ _ I), (i_dat _ _ _ _ I). unfold att_key, att_val.
  pose proof (find_maps (fun x : attx => fst (fst (snd x))) (fun x : attx => snd (snd x)) k (g_at g)) as F.
  destruct (find (fun x : Z * (attentry * Z * attinfo) => fst x =? k) (g_at g)) as [x|] eqn:E.
  - destruct F as (A & _ & H). apply find_some in E as (_ & K). assert (A' : afind k (map (fun x0 : attx => (fst x0, fst (fst (snd x0)))) (g_at g)) = Some (fst (fst (snd x)))) by exact A. rewrite A'.
    split; [destruct (info9 0 (fst (fst (snd x)))); discriminate|]. intro N. exfalso. apply (N (snd (snd x))). apply in_map_iff. exists x. split; [f_equal; lia|exact H].
  - destruct F as (A & _). assert (A' : afind k (map (fun x0 : attx => (fst x0, fst (fst (snd x0)))) (g_at g)) = None) by exact A. rewrite A'. split; [|reflexivity]. intros _ v N.
    apply in_map_iff in N as (x & N & H). injection N as N1 N2. apply (find_none _ _ E) in H. lia.
Qed.
Lemma keys_below strict s g d : inv strict s g d -> forall k v, In (k, v) (d_atts d) -> k < d_attn d.
Proof.
  intros I k v H. rewrite (i_dat _ _ _ _ I) in H. rewrite (i_atn _ _ _ _ I). apply in_map_iff in H as (x & E & J). injection E as <- <-.
  exact (proj1 (Forall_forall _ _) (proj2 (i_atk _ _ _ _ I)) x J).
Qed.
Theorem key_gone strict force guid f d os1 os2 os3 s0 k i :
  started_on strict f d -> length guid = 16%nat -> Forall edit_ok (os1 ++ os2 ++ os3) -> no_growth d (os1 ++ os2 ++ os3) ->
  ed_create strict force guid f = Ok s0 -> f_size (ed_f (fst (erun strict s0 (os1 ++ os2 ++ os3)))) < 2 ^ 63 ->
  ask_att (fst (erun strict s0 os1)) k = Ok (Some i) -> ask_att (fst (erun strict s0 (os1 ++ os2))) k = Ok None ->
  ask_att (fst (erun strict s0 (os1 ++ os2 ++ os3))) k = Ok None.
Proof.
  intros D Hg Hok Hgr E Hs A B.
  assert (C : exists g0, inv strict s0 g0 d).
  { destruct D as [(h & D & Hr)|(Q & A0 & ->)].
    - destruct (create_ok strict force guid f h d D Hr Hg) as (s & g0 & E' & I0 & _). rewrite E in E'. injection E' as <-. eauto.
    - destruct (create_new strict force guid f Q A0 Hg) as (s & g0 & E' & I0). rewrite E in E'. injection E' as <-. eauto. }
  destruct C as (g0 & I0).
  assert (P : forall os os', os1 ++ os2 ++ os3 = os ++ os' -> exists g, inv strict (fst (erun strict s0 os)) g (fst (drun d os))).
  { intros os os' Q. rewrite Q in Hok, Hgr, Hs. apply Forall_app in Hok as (Ho & _). apply growth_app in Hgr. rewrite erun_app in Hs.
    pose proof (erun_size strict os' (fst (erun strict s0 os))) as M. destruct (erun strict s0 os) as (s, rs) eqn:ER. cbn [fst] in *.
    destruct (erun_ok strict os s0 g0 d s rs I0 Ho Hgr ER ltac:(lia)) as (g & I & _). eauto. }
  destruct (P os1 (os2 ++ os3) eq_refl) as (g1 & I1). destruct (P (os1 ++ os2) os3 (app_assoc _ _ _)) as (g2 & I2). destruct (P (os1 ++ os2 ++ os3) [] (eq_sym (app_nil_r _))) as (g3 & I3).
  apply (asked_none strict _ g3 _ k I3). rewrite (asked_none strict _ g2 _ k I2) in B.
  assert (K : exists v, In (k, v) (d_atts (fst (drun d os1)))).
  { unfold ask_att in A. rewrite (i_at _ _ _ _ I1) in A. pose proof (find_maps (fun x : attx => fst (fst (snd x))) (fun x : attx => snd (snd x)) k (g_at g1)) as F.
    rewrite (i_dat _ _ _ _ I1). destruct (find (fun x : Z * (attentry * Z * attinfo) => fst x =? k) (g_at g1)) as [x|] eqn:EF.
    - destruct F as (_ & _ & H). apply find_some in EF as (_ & K). exists (snd (snd x)). apply in_map_iff. exists x. split; [unfold att_val; f_equal; lia|exact H].
    - destruct F as (F & _). assert (F' : afind k (map att_key (g_at g1)) = None) by exact F. rewrite F' in A. discriminate A. }
  destruct K as (v1 & K). pose proof (keys_below strict _ g1 _ I1 k v1 K) as L1. pose proof (drun_mono os2 _ (keys_below strict _ g1 _ I1)) as M. rewrite <- drun_app in M.
  intros v J. rewrite app_assoc, drun_app in J. destruct (drun_keys os3 _ (keys_below strict _ g2 _ I2) k v J) as [(v' & J')|J']; [exact (B v' J')|lia].
Qed.
