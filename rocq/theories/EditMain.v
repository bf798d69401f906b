(** The document before and after a session. *)
From Coq Require Import Permutation.
From Verif Require Import Base StatModel StatSpec StatProofs DirProofs CodecModel MemProofs CodecProofs WriterModel WriterProofs WriterSpec ReadProofs WriterInv WriterFin WriterOpen WriterMain WriterSession
  EditModel EditSpec EditSeg EditStore EditInv EditSteps EditRun.

Lemma number_snd {A} (l : list A) : forall k, map snd (number k l) = l.
Proof. induction l as [|x l IH]; intros k; [reflexivity|]. cbn [number map snd]. now rewrite IH. Qed.
Lemma number_length {A} (l : list A) : forall k, length (number k l) = length l.
Proof. induction l as [|x l IH]; intros k; [reflexivity|]. cbn [number length]. now rewrite IH. Qed.
Lemma keyed_number {A} (l : list A) : forall k, keyed k l = number k l.
Proof. induction l as [|x l IH]; intros k; [reflexivity|]. cbn [keyed number]. now rewrite IH. Qed.

Lemma owned_impl f p (P Q : file -> Prop) : (forall g, P g -> Q g) -> owned f p P -> owned f p Q.
Proof. intros H (H1 & H2 & H3 & H4 & H5). repeat split; auto. Qed.

Lemma with_pos_id e : with_pos e (e_pos e) = e.
Proof. destruct e. reflexivity. Qed.

Lemma fop_map {A B} (f : A -> B) (R : A -> A -> Prop) (Q : B -> B -> Prop) l :
  (forall x y, In x l -> In y l -> R x y -> Q (f x) (f y)) -> ForallOrdPairs R l -> ForallOrdPairs Q (map f l).
Proof.
  intros H F. induction F as [|x l Hx F IH]; [constructor|]. cbn [map]. constructor.
  - apply Forall_map. rewrite Forall_forall in *. intros y Hy. apply H; [now left|now right|auto].
  - apply IH. intros y z Hy Hz. apply H; now right.
Qed.

Lemma Forall2_maps {A B C} (R : B -> C -> Prop) (f : A -> B) (h : A -> C) l : Forall (fun x => R (f x) (h x)) l -> Forall2 R (map f l) (map h l).
Proof. induction 1; cbn [map]; constructor; auto. Qed.

(** A file holding a store, and a header pointing at it, is a document. *)
Lemma document_of_store strict f h g d gd ga :
  g_dir g = Some gd -> g_attdir g = ga ->
  store strict f (live g) -> f_size f < 2 ^ 63 -> read_file_header strict f = Ok h ->
  fh_dir h = fst (fst gd) -> snd gd = map snd (map sub_key (g_sb g)) ->
  fh_att h = seg_pos (option_map sp_info ga) ->
  match ga with Some x => snd x = map ae_norm (map snd (map att_key (g_at g))) | None => g_at g = [] end ->
  fh_meta h = seg_pos (option_map sp_info (g_meta g)) ->
  d_subs d = map sub_val (g_sb g) -> d_atts d = map att_val (g_at g) -> d_meta d = option_map snd (g_meta g) ->
  Forall sub_good (g_sb g) -> Forall att_good (g_at g) ->
  document_parts strict f h (map snd (map sub_key (g_sb g))) (map ae_norm (map snd (map att_key (g_at g)))) (reopened d).
Proof.
  intros Ed Ea [St Dj] Hs Hh Hd1 Hd2 Ha1 Ha2 Hm Ds Da Dm Gs Ga.
  unfold live in St. rewrite Ed, Ea in St. cbn [option_map opt_list] in St. rewrite !Forall_app in St.
  destruct St as (S1 & S2 & S3 & S4 & S5). inversion S4 as [|? ? S4' _]; subst. clear S4.
  destruct gd as ((pd & ad) & es). cbn [fst snd] in *. subst es.
  split; [assumption|]. split; [assumption|]. split.
  { rewrite Hd1. apply S4'. }
  split.
  { unfold reopened. cbn [d_subs]. rewrite number_snd, Ds, !map_map. apply Forall2_maps.
    rewrite Forall_map in S1. eapply Forall_impl; [|exact (Forall_and Gs S1)]. intros (k & (e & al) & v) [(Hw & Hv) Hi]. cbn [sub_key sub_val fst snd].
    split; [assumption|]. destruct Hi as [_ Hi]. cbn [sub_seg s_p s_o] in Hi.
    apply (owned_impl _ _ (rd strict (e_pos e) (OSub e v))); [|exact Hi]. intros f' H. cbn [rd] in H. now rewrite with_pos_id in H. }
  split.
  { destruct (g_attdir g) as [((pa & aa) & ats)|] eqn:Eg; cbn [option_map seg_pos opt_list snd] in *.
    - inversion S5 as [|? ? S5' _]; subst. change (sg_pos (sp_info (pa, aa, map ae_norm (map snd (map att_key (g_at g)))))) with pa in Ha1.
      rewrite Ha1. pose proof (intact_bounds _ _ _ S5') as (B & _). unfold sp_seg in B. cbn [s_p fst snd] in B.
      replace (pa =? 0) with false by lia. apply S5'.
    - rewrite Ha1. cbn [Z.eqb]. now rewrite Ha2. }
  split.
  { unfold reopened. cbn [d_atts]. rewrite number_snd, Da, !map_map. apply Forall2_maps.
    rewrite Forall_map in S2. eapply Forall_impl; [|exact (Forall_and Ga S2)]. intros (k & (e & al) & v) [((G1 & G2 & G3) & Ge & Gr) Hi].
    cbn [att_key att_val fst snd]. destruct Hi as [Hal Hi]. cbn [att_sg s_p s_a s_o rd] in Hal, Hi.
    rewrite Ge. cbn [ae_norm cut_name at_guid at_type at_name at_data ae_guid ae_type ae_name ae_pos].
    rewrite upd_length. rewrite Ge in Hal, Hi. cbn [ae_pos] in Hal, Hi. rewrite Hal.
    do 3 (split; [reflexivity|]). do 4 (split; [assumption|]). exact Hi. }
  split.
  { unfold reopened. cbn [d_meta]. rewrite Dm. destruct (g_meta g) as [((pm & am) & x)|]; cbn [option_map seg_pos opt_list snd] in *.
    - inversion S3 as [|? ? S3' _]; subst. change (sg_pos (sp_info (pm, am, x))) with pm in Hm.
      rewrite Hm. pose proof (intact_bounds _ _ _ S3') as (B & _). unfold sp_seg in B. cbn [s_p fst snd] in B.
      replace (pm =? 0) with false by lia. exists x. split; [reflexivity|]. apply S3'.
    - rewrite Hm. reflexivity. }
  assert (Epos : map e_pos (map snd (map sub_key (g_sb g))) ++ map ae_pos (map ae_norm (map snd (map att_key (g_at g))))
                 ++ opt_pos (fh_meta h) ++ [fh_dir h] ++ opt_pos (fh_att h) = map s_p (live g)).
  { unfold live. rewrite Ed. rewrite !map_app. repeat f_equal.
    - rewrite !map_map. apply map_ext. intros (k & (e & al) & v). reflexivity.
    - rewrite !map_map. apply map_ext. intros (k & (e & al) & v). reflexivity.
    - rewrite Hm. destruct (g_meta g) as [((pm & am) & x)|]; [|reflexivity]. cbn [option_map opt_list seg_pos] in *.
      inversion S3 as [|? ? S3' _]; subst. pose proof (intact_bounds _ _ _ S3') as (B & _). unfold sp_seg in B. cbn [s_p fst snd] in B.
      change (sg_pos (sp_info (pm, am, x))) with pm. unfold opt_pos. replace (pm =? 0) with false by lia. reflexivity.
    - cbn [option_map opt_list map sp_seg s_p fst snd]. now rewrite Hd1.
    - rewrite Ha1. destruct (g_attdir g) as [((pm & am) & x)|]; [|reflexivity]. cbn [option_map opt_list seg_pos] in *.
      inversion S5 as [|? ? S5' _]; subst. pose proof (intact_bounds _ _ _ S5') as (B & _). unfold sp_seg in B. cbn [s_p fst snd] in B.
      change (sg_pos (sp_info (pm, am, x))) with pm. unfold opt_pos. replace (pm =? 0) with false by lia. reflexivity. }
  rewrite Epos. apply (fop_map s_p sdis); [|exact Dj].
  assert (All : Forall (intact strict f) (live g)).
  { unfold live. rewrite Ed. cbn [option_map opt_list]. rewrite !Forall_app. repeat split; try assumption. constructor; [assumption|constructor]. }
  rewrite Forall_forall in All. intros x y Hx Hy Hxy. apply All in Hx, Hy. unfold apart, seg_stop, sdis, s_end in *.
  rewrite (proj1 Hx), (proj1 Hy). lia.
Qed.

Lemma close_sb_size strict s : f_size (ed_f s) <= f_size (ed_f (fst (close_sbdir strict s))).
Proof.
  pose proof (fwrite_size (ed_f s)) as F. unfold close_sbdir. destruct (ed_smod s); [|cbn [fst]; lia].
  apply eok_size; [lia|]. intros n. apply eok_size; [apply F|]. intros (pos & al). cbn [fst]. destruct (pos =? n); apply F.
Qed.
Lemma close_at_size strict s : f_size (ed_f s) <= f_size (ed_f (fst (close_attdir strict s))).
Proof.
  pose proof (fwrite_size (ed_f s)) as F. unfold close_attdir. destruct (ed_amod s); [|cbn [fst]; lia].
  apply eok_size; [lia|]. intros n. apply eok_size; [apply F|]. intros (pos & al). cbn [fst]. destruct (pos =? n); apply F.
Qed.
Lemma ed_close_size strict s : f_size (ed_f s) <= f_size (ed_f (fst (ed_close strict s))).
Proof.
  unfold ed_close. pose proof (close_sb_size strict s) as H1. destruct (close_sbdir strict s) as [s1 r1]. cbn [fst] in H1.
  apply eok_size; [assumption|]. intros _. pose proof (close_at_size strict s1) as H2. destruct (close_attdir strict s1) as [s2 r2]. cbn [fst] in H2.
  apply eok_size; [lia|]. intros _.
  destruct (_ || _ || _); cbn [fst]; [|lia]. unfold ed_write, set_f. cbn [ed_f]. pose proof (fwrite_size (ed_f s2)) as F.
  etransitivity; [|apply F]. lia.
Qed.

Lemma sp_pos_bounds {X} strict f (mk : X -> obj) (o : option (Z * Z * X)) :
  Forall (intact strict f) (opt_list (option_map (sp_seg mk) o)) -> f_size f < 2 ^ 63 -> 0 <= seg_pos (option_map sp_info o) < 2 ^ 63.
Proof.
  intros H Hs. destruct o as [((p & a) & x)|]; [|cbn; lia]. cbn [option_map opt_list] in H. inversion H as [|? ? Hi _]; subst.
  apply intact_bounds in Hi. unfold s_end, sp_seg in Hi. cbn [s_p s_a fst snd] in Hi. cbn [option_map seg_pos].
  change (sg_pos (sp_info (p, a, x))) with p. lia.
Qed.

Lemma file_header_length guid a b c : length guid = 16%nat -> length (file_header guid a b c) = 544%nat.
Proof. intros H. apply file_header_fields. exact H. Qed.

Lemma close_ok strict s g d s' r :
  inv strict s g d -> (strict = false \/ d_subs d <> []) -> counts_fit d -> length (fh_guid (ed_hdr s)) = 16%nat ->
  (ed_smod s = true \/ g_dir g <> None) ->
  (ed_amod s = false \/ attdir_size d = room g
   \/ (room g < attdir_size d /\ (ed_smod s = false \/ exists x, g_dir g = Some x /\ align32 (directory_size d) <= snd (fst x)))) ->
  ed_close strict s = (s', r) -> f_size (ed_f s') < 2 ^ 63 ->
  r = Ok tt /\ exists h', document strict (ed_f s') h' (reopened d) /\ fh_guid h' = fh_guid (ed_hdr s).
Proof.
  intros I Hst [Hc1 Hc2] Hguid Hdir Hsafe E Hs. pose proof (ed_close_size strict s) as Hm. rewrite E in Hm. cbn [fst] in Hm.
  unfold ed_close in E. destruct (close_sbdir strict s) as [s1 r1] eqn:E1. pose proof (close_sb_size strict s) as Hm1. rewrite E1 in Hm1. cbn [fst] in Hm1.
  pose proof (close_at_size strict s1) as Hm2. destruct (close_attdir strict s1) as [s2 r2] eqn:E2. cbn [fst] in Hm2.
  assert (Hm3 : f_size (ed_f s1) <= f_size (ed_f s') /\ f_size (ed_f s2) <= f_size (ed_f s') \/ (r1 <> Ok tt) \/ r2 <> Ok tt).
  { destruct r1 as [[]| | |]; [|right; left; discriminate..]. cbn [eok] in E. destruct r2 as [[]| | |]; [|right; right; discriminate..]. left. cbn [eok] in E.
    destruct (_ || _ || _) in E; injection E as <- <-; [|lia]. unfold ed_write, set_f. cbn [ed_f].
    pose proof (fwrite_size (ed_f s2)) as F. split; [etransitivity; [exact Hm2|apply F]|apply F]. }
  assert (Hs1 : f_size (ed_f s1) < 2 ^ 63).
  { destruct r1 as [[]| | |]; cbn [eok] in E; [|injection E as <- <-; exact Hs..].
    destruct r2 as [[]| | |]; cbn [eok] in E; [|injection E as <- <-; lia..]. destruct Hm3 as [?|[?|?]]; [lia|congruence|congruence]. }
  rewrite (i_dsb _ _ _ _ I) in Hst. rewrite (i_dsb _ _ _ _ I), map_length in Hc1. rewrite (i_dat _ _ _ _ I), map_length in Hc2.
  destruct (close_sb strict s g d s1 r1 I) as (-> & pd & ad & nx & E1s & S1 & H1 & B1 & M1 & N1); auto.
  { destruct Hst as [H|H]; [now left|right]. intros E0. rewrite E0 in H. now apply H. }
  cbn [eok] in E.
  assert (Hs2 : f_size (ed_f s2) < 2 ^ 63).
  { destruct r2 as [[]| | |]; cbn [eok] in E; [|injection E as <- <-; exact Hs..]. destruct Hm3 as [?|[?|?]]; [lia|congruence|congruence]. }
  assert (Hsize : attdir_size d = 256 + 128 * Z.of_nat (length (g_at g))).
  { unfold attdir_size. now rewrite (i_dat _ _ _ _ I), map_length. }
  assert (Hdsize : directory_size d = dir_used (map snd (ed_sb s))).
  { unfold directory_size. rewrite (i_dsb _ _ _ _ I), (i_sb _ _ _ _ I). symmetry. apply dir_used_size. apply I. }
  change (mkSeg pd ad false) with (sp_info (pd, ad, map snd (ed_sb s))) in E1s. cbv zeta in S1. set (gd := (pd, ad, map snd (ed_sb s))) in *.
  rewrite E1s in E2.
  destruct (close_at strict s g d (ed_f s1) gd nx s2 r2 I Hc2 S1 H1 B1) as (-> & ga & nx2 & E2s & S2 & H2 & B2 & M2 & A2).
  { destruct N1 as [(n & Hn)|(_ & _ & n & Hn)]; exists n; [now left|right]. exact Hn. }
  { rewrite <- Hsize. destruct Hsafe as [H|[H|[H H']]]; [now left|right; now left|right; right]. split; [assumption|].
    destruct N1 as [N1|(Hmod & Hmv & _)]; [exact N1|]. destruct H' as [H'|(x & Ex & Hx)]; [congruence|].
    rewrite Ex in Hmv. rewrite Hdsize in Hx. lia. }
  { exact E2. }
  { lia. }
  cbn [eok] in E. cbv zeta in S2. set (g2 := mkGh (g_sb g) (g_at g) (g_meta g) (Some gd) ga) in *.
  set (h := ed_hdr s) in *.
  assert (Eh : ed_hdr s2 = h) by (rewrite E2s; reflexivity). assert (Ea : ed_amod s2 = ed_amod s) by (rewrite E2s; reflexivity).
  assert (Em : ed_smod s2 = ed_smod s) by (rewrite E2s; reflexivity). assert (Ead : ed_attdir s2 = option_map sp_info ga) by (rewrite E2s; reflexivity).
  assert (Esd : ed_sbdir s2 = Some (sp_info gd)) by (rewrite E2s; reflexivity). assert (Emt : ed_meta s2 = option_map sp_info (g_meta g)) by (rewrite E2s; exact (i_meta _ _ _ _ I)).
  rewrite Eh, Ea, Em, Ead, Esd, Emt in E. cbn [seg_pos] in E. change (sg_pos (sp_info gd)) with pd in E.
  assert (Doc : forall f' h', store strict f' (live g2) -> f_size f' < 2 ^ 63 -> read_file_header strict f' = Ok h' ->
    fh_dir h' = pd -> fh_att h' = seg_pos (option_map sp_info ga) -> fh_meta h' = seg_pos (option_map sp_info (g_meta g)) ->
    document strict f' h' (reopened d)).
  { intros f' h' T1 T2 T3 T4 T5 T6.
    exists (map snd (map sub_key (g_sb g))), (map ae_norm (map snd (map att_key (g_at g)))).
    apply (document_of_store strict f' h' g2 d gd ga); auto.
    - cbn [gd snd]. now rewrite (i_sb _ _ _ _ I).
    - cbn [g2 g_at]. rewrite <- (i_at _ _ _ _ I). destruct ga; [exact A2|]. rewrite (i_at _ _ _ _ I) in A2. now apply map_eq_nil in A2.
    - apply I.
    - apply I.
    - apply I.
    - apply I.
    - apply I. }
  destruct (_ || _ || _) eqn:Ec in E; injection E as <- <-; split; try reflexivity.
  - unfold ed_write, set_f. cbn [ed_f]. set (f' := fwrite (ed_f s2) _).
    set (mp := seg_pos (option_map sp_info (g_meta g))) in *. set (ap := seg_pos (option_map sp_info ga)) in *.
    assert (L : length (file_header (fh_guid h) pd mp ap) = 544%nat) by (apply file_header_length; assumption).
    exists (mkFh (fh_guid h) pd mp ap). split; [|reflexivity].
    pose proof (proj1 S2) as Hin. unfold live, g2 in Hin. cbn [g_sb g_at g_meta g_dir g_attdir] in Hin. rewrite !Forall_app in Hin.
    destruct Hin as (_ & _ & I3 & I4 & I5).
    pose proof (sp_pos_bounds strict (ed_f s2) ODir (Some gd) I4 Hs2) as Q1. change (seg_pos (option_map sp_info (Some gd))) with pd in Q1.
    pose proof (sp_pos_bounds strict (ed_f s2) OMeta _ I3 Hs2) as Q2. pose proof (sp_pos_bounds strict (ed_f s2) OAttDir _ I5 Hs2) as Q3.
    fold mp in Q2. fold ap in Q3. unfold ed_write, set_f in Hs. cbn [ed_f] in Hs. fold f' in Hs.
    apply Doc; auto.
    + apply store_write; [exact S2|]. eapply Forall_impl; [|exact (proj1 S2)]. intros x Hx. apply intact_bounds in Hx.
      constructor; [|constructor]. left. cbn [fst snd]. rewrite L. lia.
    + apply read_file_header_ok; auto; try lia. split; [lia|]. rewrite L. split.
      * unfold f'. pose proof (fwrite_size (ed_f s2) [(0, file_header (fh_guid h) pd mp ap)]). lia.
      * unfold f'. rewrite fwrite_mem. unfold apply_writes. cbn [fold_left fst snd]. rewrite <- L. apply mread_mwrite_same.
  - exists h. split; [|reflexivity]. rewrite !orb_false_iff, !andb_false_iff, !negb_false_iff, !Z.eqb_eq in Ec. destruct Ec as [[C1 C2] C3].
    apply Doc; auto.
    + destruct C2 as [C2|C2]; [|assumption]. symmetry. apply M1. exact C2.
    + destruct C1 as [C1|C1]; [|assumption]. symmetry. apply M2. exact C1.
Qed.
