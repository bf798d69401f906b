(** Whole sessions of the editor: opening, the operations, closing. *)
From Coq Require Import Permutation.
From Verif Require Import Base StatModel StatSpec StatProofs DirProofs CodecModel MemProofs CodecProofs WriterModel WriterProofs WriterSpec ReadProofs WriterInv WriterFin WriterOpen WriterMain WriterSession
  EditModel EditSpec EditSeg EditStore EditInv EditSteps.

Lemma eok_size {A} s0 s (r : res A) k : f_size (ed_f s0) <= f_size (ed_f s) ->
  (forall a, f_size (ed_f s0) <= f_size (ed_f (fst (k a)))) -> f_size (ed_f s0) <= f_size (ed_f (fst (eok s r k))).
Proof. intros H Hk. destruct r; cbn [eok fst]; auto. Qed.

Lemma estep_size strict s o : f_size (ed_f s) <= f_size (ed_f (fst (estep strict s o))).
Proof.
  pose proof (fwrite_size (ed_f s)) as F.
  destruct o as [a|k a|k|a|k a|k|xml att]; cbn [estep].
  - unfold ed_add. destruct (negb _); [cbn [fst]; lia|]. apply eok_size; [lia|]. intros n.
    destruct (existsb _ _); [cbn [fst set_nx ed_f]; lia|]. apply eok_size; [|intros k]; apply F.
  - unfold ed_replace. destruct (afind _ _) as [old|]; [|cbn [fst]; lia]. apply eok_size; [lia|]. intros al.
    destruct (_ <? _).
    + apply eok_size; [lia|]. intros n. apply eok_size; [apply F|]. intros j. cbn [fst].
      etransitivity; [apply F|]. apply fwrite_size.
    + apply eok_size; [apply F|]. intros j. apply F.
  - unfold ed_remove. destruct (afind _ _) as [old|]; [|cbn [fst]; lia]. apply F.
  - unfold ed_add_att. apply eok_size; [lia|]. intros n.
    destruct (existsb _ _); [cbn [fst set_nx ed_f]; lia|]. apply eok_size; [|intros k]; apply F.
  - unfold ed_replace_att. destruct (afind _ _) as [old|]; [|cbn [fst]; lia]. apply eok_size; [lia|]. intros al.
    destruct (_ <? _).
    + apply eok_size; [lia|]. intros n. apply eok_size; [apply F|]. intros j. cbn [fst].
      etransitivity; [apply F|]. apply fwrite_size.
    + apply eok_size; [apply F|]. intros j. apply F.
  - unfold ed_remove_att. destruct (afind _ _) as [old|]; [|cbn [fst]; lia]. apply F.
  - unfold ed_write_meta. apply eok_size; [lia|]. intros n. apply eok_size; [apply F|]. intros (pos & al). cbn [fst].
    destruct (pos =? n); apply F.
Qed.

Lemma erun_size strict os : forall s, f_size (ed_f s) <= f_size (ed_f (fst (erun strict s os))).
Proof.
  induction os as [|o os IH]; intros s; cbn [erun]; [cbn [fst]; lia|].
  pose proof (estep_size strict s o) as H. destruct (estep strict s o) as [s1 r]. cbn [fst] in H. specialize (IH s1).
  destruct (erun strict s1 os) as [s2 rs]. cbn [fst] in *. lia.
Qed.

Lemma estep_ok strict s g d o s' r : inv strict s g d -> edit_ok o ->
  match o with EReplaceAtt k a => forall v, In (k, v) (d_atts d) -> (length (at_data a) <= length (at_data v))%nat | _ => True end ->
  estep strict s o = (s', r) -> f_size (ed_f s') < 2 ^ 63 -> good_step strict s g d o s' r.
Proof.
  intros I Hok Hg E Hs. pose proof (estep_size strict s o) as Hm. rewrite E in Hm. cbn [fst] in Hm.
  destruct o as [a|k a|k|a|k a|k|xml att]; cbn [estep] in E.
  - apply step_add; auto.
  - apply step_replace; auto.
  - apply step_remove; auto.
  - apply step_add_att; auto.
  - apply step_replace_att; auto.
  - apply step_remove_att; auto.
  - apply step_meta; auto.
Qed.

Lemma erun_ok strict os : forall s g d s' rs, inv strict s g d -> Forall edit_ok os -> no_growth d os ->
  erun strict s os = (s', rs) -> f_size (ed_f s') < 2 ^ 63 ->
  exists g', inv strict s' g' (fst (drun d os)) /\ rs = map outcome (snd (drun d os)) /\ g_dir g' = g_dir g /\ g_attdir g' = g_attdir g
    /\ ed_hdr s' = ed_hdr s
    /\ (forallb (fun o => negb (sub_op o)) os = true -> ed_smod s' = ed_smod s)
    /\ (forallb (fun o => negb (att_op o)) os = true -> ed_amod s' = ed_amod s)
    /\ (ed_smod s' = false -> ed_smod s = false /\ d_subn (fst (drun d os)) = d_subn d).
Proof.
  induction os as [|o os IH]; intros s g d s' rs I Hok Hg E Hs; cbn [erun drun] in *.
  - injection E as <- <-. exists g. cbn [fst snd map]. do 5 (split; [auto|]). auto.
  - inversion Hok as [|? ? Ho Hos]; subst. cbn [no_growth] in Hg. destruct Hg as [Hg1 Hg2].
    destruct (estep strict s o) as [s1 r] eqn:E1. pose proof (erun_size strict os s1) as Hm.
    destruct (erun strict s1 os) as [s2 rs2] eqn:E2. injection E as <- <-. cbn [fst] in Hm.
    destruct (estep_ok strict s g d o s1 r I Ho Hg1 E1) as (g1 & I1 & R1 & D1 & A1 & H1 & M1 & N1 & K1); [lia|].
    destruct (dstep d o) as [d1 b1]. cbn [fst snd] in *.
    destruct (IH s1 g1 d1 s2 rs2 I1 Hos Hg2 E2 Hs) as (g2 & I2 & R2 & D2 & A2 & H2 & M2 & N2 & K2).
    destruct (drun d1 os) as [d2 bs]. cbn [fst snd map forallb] in *. subst r rs2.
    exists g2. split; [assumption|]. split; [reflexivity|]. do 3 (split; [congruence|]).
    split; [rewrite andb_true_iff, negb_true_iff; intros [? ?]; rewrite M2, M1; auto|].
    split; [rewrite andb_true_iff, negb_true_iff; intros [? ?]; rewrite N2, N1; auto|].
    intros H. apply K2 in H. destruct H as [H Hk]. apply K1 in H. destruct H as [H Hk2]. split; [assumption|congruence].
Qed.

(** ** Closing *)
Lemma coord_dims_length c : forall chars, length chars = length c -> Z.of_nat (length (coord_dims chars c)) = count_some c.
Proof.
  unfold count_some. induction c as [|[v|] c IH]; intros [|ch chars] L; try discriminate; [reflexivity| |]; cbn [coord_dims filter length] in *;
    specialize (IH chars ltac:(lia)); lia.
Qed.
Lemma enc_dims_length ds : Z.of_nat (length (flat_map enc_dim ds)) = 20 * Z.of_nat (length ds).
Proof. induction ds as [|x ds IH]; [reflexivity|]. cbn [flat_map length]. rewrite app_length, enc_dim_length. lia. Qed.

Lemma entry_length e : length (e_coord e) = 9%nat -> Z.of_nat (length (enc_entry e)) = entry_size e.
Proof.
  intros L. unfold enc_entry, enc_dv, entry_size. set (ds := dims_of e (m_valid e)).
  rewrite !app_length, !le_length. cbn [length].
  assert (E : Z.of_nat (length ds) = 2 + (if e_m e =? INT_MIN then 0 else 1) + count_some (e_coord e)).
  { unfold ds, dims_of. rewrite !app_length, !Nat2Z.inj_add, coord_dims_length by (rewrite L; reflexivity). cbn [length].
    unfold m_valid. destruct (e_m e =? INT_MIN); cbn [negb length]; lia. }
  pose proof (enc_dims_length ds). lia.
Qed.

Lemma dir_used_size (l : list subx) : Forall sub_good l ->
  dir_used (map snd (map sub_key l)) = 128 + fold_right Z.add 0 (map (fun v => entry_size (ob_entry (snd v))) (map sub_val l)).
Proof.
  unfold dir_used. induction 1 as [|(k & (e & al) & v) l (Hw & Hv) _ IH]; [reflexivity|].
  cbn [map sub_key sub_val fst snd flat_map fold_right]. rewrite app_length, Nat2Z.inj_add, entry_length by apply Hw. rewrite Hv.
  change (entry_size (with_pos e 0)) with (entry_size e). lia.
Qed.

(** A sub-block directory just written. *)
Lemma close_sb strict s g d s1 r1 : inv strict s g d -> (strict = false \/ g_sb g <> []) -> Z.of_nat (length (g_sb g)) <= INT_MAX ->
  (ed_smod s = true \/ g_dir g <> None) -> close_sbdir strict s = (s1, r1) -> f_size (ed_f s) <= f_size (ed_f s1) < 2 ^ 63 ->
  r1 = Ok tt /\ exists pd ad nx,
    let g1 := mkGh (g_sb g) (g_at g) (g_meta g) (Some (pd, ad, map snd (ed_sb s))) (g_attdir g) in
    s1 = mkEd (ed_f s1) (ed_hdr s) (ed_last s) nx (ed_sb s) (ed_sbn s) (ed_smod s) (ed_at s) (ed_atn s) (ed_amod s)
              (ed_meta s) (Some (mkSeg pd ad false)) (ed_attdir s)
    /\ store strict (ed_f s1) (live g1) /\ read_file_header strict (ed_f s1) = Ok (ed_hdr s) /\ 544 <= f_size (ed_f s1)
    /\ (ed_smod s = false -> pd = fh_dir (ed_hdr s))
    /\ ((exists n, next_ok (ed_f s1) (ed_last s) nx (live g1) n)
        \/ (ed_smod s = true /\ match g_dir g with Some x => snd (fst x) < align32 (dir_used (map snd (ed_sb s))) | None => True end
            /\ exists n, nx = Some n /\ Forall (fun x => s_p x < n) (live g1) /\ 544 <= n)).
Proof.
  intros I Hst Hcnt Hd E Hsz. unfold close_sbdir in E. pose proof (i_size _ _ _ _ I) as Hs0.
  destruct (ed_smod s) eqn:Em.
  2: { injection E as <- <-. split; [reflexivity|]. destruct Hd as [Hd|Hd]; [discriminate|].
       destruct (i_smod _ _ _ _ I Em) as [M1 M2]. destruct (g_dir g) as [((pd & ad) & es)|] eqn:Eg; [|congruence]. cbn [snd] in M2. subst es.
       exists pd, ad, (ed_next s). cbv zeta.
       pose proof (i_sbdir _ _ _ _ I) as D. rewrite Eg in D. change (ed_sbdir s = Some (mkSeg pd ad false)) in D.
       split; [rewrite <- D, <- Em; destruct s; reflexivity|].
       assert (Eg2 : mkGh (g_sb g) (g_at g) (g_meta g) (Some (pd, ad, map snd (ed_sb s))) (g_attdir g) = g) by (rewrite <- Eg; destruct g; reflexivity).
       rewrite Eg2. split; [apply I|]. split; [apply I|]. split; [assumption|].
       split; [intros _; rewrite <- M1, D; reflexivity|]. left. apply I. }
  destruct (i_next _ _ _ _ I) as [n Hn]. rewrite (ensure_ok strict s g n) in E by (auto; lia). cbn [eok] in E.
  change (ed_sbdir (set_nx s n)) with (ed_sbdir s) in E. change (ed_sb (set_nx s n)) with (ed_sb s) in E.
  set (es := map snd (ed_sb s)) in *.
  set (g0 := mkGh (g_sb g) (g_at g) (g_meta g) None (g_attdir g)).
  assert (P : Permutation (opt_list (option_map (sp_seg ODir) (g_dir g)) ++ live g0) (live g)) by exact (perm_dir g (g_dir g)).
  pose proof (store_perm strict _ _ _ (Permutation_sym P) (i_store _ _ _ _ I)) as S.
  apply (next_ok_perm _ _ _ _ _ _ (Permutation_sym P)) in Hn. rewrite (i_sbdir _ _ _ _ I) in E.
  destruct (write_directory_spec (option_map sp_info (g_dir g)) n es) as (ms & p & al & bss & z & W & Pl & C & Hz & Hf & Hz2).
  { apply (alloc_ok_of strict (ed_f s) ODir _ (live g0)); [assumption|lia]. }
  rewrite W in E. cbn [fst snd eok] in E. pose proof Hn as (_ & Hn1 & Hn2).
  pose proof (dir_bytes_length al es) as Lb.
  assert (Hu : 128 <= dir_used es) by (unfold dir_used; lia).
  assert (Hwf : Forall sbe_wf es).
  { unfold es. rewrite (i_sb _ _ _ _ I). rewrite map_map. apply Forall_map. eapply Forall_impl; [|apply (i_sbg _ _ _ _ I)].
    intros (k & (e & a) & v) (H & _). exact H. }
  assert (Hne : strict = false \/ es <> []).
  { destruct Hst as [H|H]; [now left|right]. unfold es. rewrite (i_sb _ _ _ _ I). destruct (g_sb g); [congruence|discriminate]. }
  assert (Hlen : Z.of_nat (length es) <= INT_MAX) by (unfold es; rewrite (i_sb _ _ _ _ I), !map_length; assumption).
  assert (Rd : forall q a f', holds f' q (dir_bytes a es) -> f_size f' < 2 ^ 63 -> rd strict q (ODir es) f').
  { intros q a f' Hh Hs'. exact (read_directory_ok strict popts_lax f' q a es Hwf Hlen Hs' Hne Hh). }
  set (y := (p, al, es) : Z * Z * list sbe).
  assert (P2 : Permutation (sp_seg ODir y :: live g0) (live (mkGh (g_sb g) (g_at g) (g_meta g) (Some y) (g_attdir g)))) by exact (perm_dir g (Some y)).
  assert (Hsz' : f_size (fwrite (ed_f s) (ms ++ contig p bss)) < 2 ^ 63).
  { destruct (p =? n); injection E as <- <-; flat; unfold set_sbdir in Hsz; cbn [ed_f] in Hsz; lia. }
  destruct (placed_store strict (ed_f s) ODir (g_dir g) (live g0) n _ _ ms p al S Hn2 Hn1 Pl) as [(x0 & Eg & -> & Hne2 & Hpn)|(-> & -> & S1 & B1 & Wm & Hsm)].
  - replace (p =? n) with false in E by lia. injection E as <- <-. split; [reflexivity|]. flat. unfold set_sbdir in *. cbn [app ed_f ed_hdr ed_last ed_sb ed_sbn ed_smod ed_at ed_atn ed_amod ed_meta ed_sbdir ed_attdir ed_next] in *.
    rewrite Eg in S, Hn2, Hn. cbn [option_map opt_list app] in S, Hn2, Hn. pose proof (store_head _ _ _ _ S) as [X _].
    pose proof (intact_bounds _ _ _ X) as (Q1 & Q2 & Q3 & Q4). unfold s_end, sp_seg in Q1, Q2, Q3, Q4. cbn [s_p s_a fst snd] in Q1, Q2, Q3, Q4.
    destruct (intact_written strict (ed_f s) p al (ODir es) bss (dir_bytes al es) z) as [Y Wi]; try assumption; try lia; [reflexivity|exact (Rd p al)|].
    change (mkSg p al (ODir es)) with (sp_seg ODir y) in Y.
    destruct (store_inplace strict (ed_f s) (live g0) n (contig p bss) (sp_seg ODir (p, al, x0)) (sp_seg ODir y) S) as [S1 S2];
        try assumption; try reflexivity.
    exists p, al, (Some n). cbv zeta. split; [rewrite ?Em; reflexivity|].
    split; [apply (store_perm strict _ _ _ P2); exact S1|].
    split; [rewrite (header_write strict _ _ p (p + 32 + al)); [apply I|apply I|assumption|assumption]|].
    split; [lia|]. split; [discriminate|]. left. exists n. split; [reflexivity|]. split; [assumption|]. apply (below_perm _ _ _ P2). exact S2.
  - rewrite Z.eqb_refl in E. injection E as <- <-. split; [reflexivity|]. flat. unfold set_sbdir in *. cbn [ed_f ed_hdr ed_last ed_sb ed_sbn ed_smod ed_at ed_atn ed_amod ed_meta ed_sbdir ed_attdir ed_next] in *.
    rewrite <- fwrite_fwrite in *.
    destruct (align32_spec (dir_used es)) as [A1 A2]; [lia|].
    assert (Ez : z = align32 (dir_used es) - dir_used es) by (apply Hz2; lia).
    destruct (holds_written (fwrite (ed_f s) ms) n bss _ _ ltac:(lia) C) as [_ Hend]; [lia|].
    assert (Lc : Z.of_nat (length (concat bss)) = 32 + align32 (dir_used es)).
    { rewrite C, app_length, Nat2Z.inj_add, zeros_length, Lb by lia. lia. }
    destruct (intact_written strict (fwrite (ed_f s) ms) n (align32 (dir_used es)) (ODir es) bss
                (dir_bytes (align32 (dir_used es)) es) z) as [Y Wi]; try assumption; try lia; [reflexivity|exact (Rd n _)|].
    change (mkSg n (align32 (dir_used es)) (ODir es)) with (sp_seg ODir y) in Y.
    destruct (store_append strict (fwrite (ed_f s) ms) (live g0) n (contig n bss) (sp_seg ODir y) S1 B1 Wi eq_refl Y) as [S2 S3].
    exists n, (align32 (dir_used es)), (Some (n + align32 (dir_used es))). cbv zeta. split; [rewrite ?Em; reflexivity|].
    split; [apply (store_perm strict _ _ _ P2); exact S2|].
    split.
    { rewrite (header_write strict _ _ n (n + 32 + align32 (dir_used es)));
        [|pose proof (fwrite_size (ed_f s) ms); lia|assumption|assumption].
      rewrite (header_write strict _ _ 544 (f_size (ed_f s))); [apply I|apply I|assumption|lia]. }
    split; [lia|]. split; [discriminate|]. right. split; [reflexivity|]. split; [exact Hsm|].
    exists (n + align32 (dir_used es)). split; [reflexivity|]. split; [|lia].
    apply (Permutation_Forall P2). constructor; [unfold sp_seg, y; cbn [s_p fst]; lia|].
    eapply Forall_impl; [|exact (Forall_and B1 (proj1 S1))]. cbn beta. intros x [Hx Hi]. apply intact_bounds in Hi. unfold s_end in *. lia.
Qed.

Lemma contig_nil_in q bss lo hi : concat bss = [] -> lo <= q <= hi -> ws_in lo hi (contig q bss).
Proof.
  intros E H. apply (ws_in_weaken q (q + Z.of_nat (length (concat bss)))); [apply contig_in|lia|rewrite E; cbn [length]; lia].
Qed.

Lemma attdir_written strict f p es q bss : Forall (fun e => ae_ok e /\ 0 <= ae_pos e < 2 ^ 64) es -> Z.of_nat (length es) <= INT_MAX ->
  544 <= p -> concat bss = [] -> p <= q <= p + 32 + (256 + 128 * Z.of_nat (length es)) ->
  let al := 256 + 128 * Z.of_nat (length es) in
  let ws := contig p [attdir_head al (length es); flat_map enc_att es] ++ contig q bss in
  f_size (fwrite f ws) < 2 ^ 63 ->
  intact strict (fwrite f ws) (mkSg p al (OAttDir (map ae_norm es))) /\ ws_in p (p + 32 + al) ws.
Proof.
  intros Hes Hn Hp Hb Hq al ws Hs.
  assert (Lf : length (flat_map enc_att es) = (128 * length es)%nat).
  { apply flat_enc_att_length. eapply Forall_impl; [|exact Hes]. cbn beta. tauto. }
  assert (Lh : length (attdir_head al (length es)) = 288%nat) by apply attdir_head_length.
  set (b := attdir_head al (length es) ++ flat_map enc_att es).
  assert (Lb : Z.of_nat (length b) = 32 + al) by (unfold b; rewrite app_length, Lh, Lf; unfold al; lia).
  assert (C : concat [attdir_head al (length es); flat_map enc_att es] = b ++ zeros 0).
  { cbn [concat]. unfold b. change (zeros 0) with ([] : bytes). now rewrite !app_nil_r. }
  set (f1 := fwrite f (contig p [attdir_head al (length es); flat_map enc_att es])) in *.
  assert (Ef : fwrite f ws = fwrite f1 (contig q bss)) by (symmetry; apply fwrite_fwrite).
  assert (Hs1 : f_size f1 < 2 ^ 63) by (rewrite Ef in Hs; pose proof (fwrite_size f1 (contig q bss)); lia).
  destruct (holds_written f p [attdir_head al (length es); flat_map enc_att es] b 0 ltac:(lia) C ltac:(lia)) as [_ Hend]. fold f1 in Hend.
  assert (Lc : Z.of_nat (length (concat [attdir_head al (length es); flat_map enc_att es])) = 32 + al).
  { rewrite C. change (zeros 0) with ([] : bytes). now rewrite app_nil_r. }
  assert (Hal : al mod 32 = 0) by (unfold al; lia).
  destruct (intact_written strict f p al (OAttDir (map ae_norm es)) [attdir_head al (length es); flat_map enc_att es] b 0) as [Y W];
    try assumption; try lia.
  - reflexivity.
  - intros g Hg _. cbn [rd]. rewrite (read_attdir_payload strict g p al (length es) (flat_map enc_att es)) by auto.
    rewrite <- (app_nil_r (flat_map enc_att es)). now rewrite (dec_atts_enc es [] Hes).
  - split.
    + rewrite Ef. apply (intact_frame strict f1); [exact Y|apply fwrite_size|]. intros i _. rewrite fwrite_mem, apply_writes_contig, Hb. apply mwrite_nil.
    + apply ws_in_app. split; [exact W|]. apply contig_nil_in; [assumption|]. fold al in Hq. lia.
Qed.

Lemma exists_below L : exists n, below n L.
Proof.
  induction L as [|x L (n & H)]; [exists 0; constructor|]. exists (Z.max (s_end x) n). constructor; [lia|].
  apply (below_weaken n); [assumption|lia].
Qed.

Definition room (g : gh) : Z := match g_attdir g with Some x => snd (fst x) | None => 0 end.

Lemma close_at strict s g d f1 gd nx s2 r2 : inv strict s g d -> Z.of_nat (length (g_at g)) <= INT_MAX ->
  let g1 := mkGh (g_sb g) (g_at g) (g_meta g) (Some gd) (g_attdir g) in
  let s1 := mkEd f1 (ed_hdr s) (ed_last s) nx (ed_sb s) (ed_sbn s) (ed_smod s) (ed_at s) (ed_atn s) (ed_amod s)
              (ed_meta s) (Some (sp_info gd)) (ed_attdir s) in
  store strict f1 (live g1) -> read_file_header strict f1 = Ok (ed_hdr s) -> 544 <= f_size f1 ->
  (exists n, next_ok f1 (ed_last s) nx (live g1) n \/ (nx = Some n /\ Forall (fun x => s_p x < n) (live g1) /\ 544 <= n)) ->
  (ed_amod s = false \/ 256 + 128 * Z.of_nat (length (g_at g)) = room g
   \/ (room g < 256 + 128 * Z.of_nat (length (g_at g)) /\ exists n, next_ok f1 (ed_last s) nx (live g1) n)) ->
  close_attdir strict s1 = (s2, r2) -> f_size f1 <= f_size (ed_f s2) < 2 ^ 63 ->
  r2 = Ok tt /\ exists ga nx2,
    let g2 := mkGh (g_sb g) (g_at g) (g_meta g) (Some gd) ga in
    s2 = mkEd (ed_f s2) (ed_hdr s) (ed_last s) nx2 (ed_sb s) (ed_sbn s) (ed_smod s) (ed_at s) (ed_atn s) (ed_amod s)
              (ed_meta s) (Some (sp_info gd)) (option_map sp_info ga)
    /\ store strict (ed_f s2) (live g2) /\ read_file_header strict (ed_f s2) = Ok (ed_hdr s) /\ 544 <= f_size (ed_f s2)
    /\ (ed_amod s = false -> seg_pos (option_map sp_info ga) = fh_att (ed_hdr s))
    /\ match ga with Some x => snd x = map ae_norm (map snd (ed_at s)) | None => ed_at s = [] end.
Proof.
  intros I Hcnt g1 s1 S1 H1 Hs1 Hnx Hsafe E Hsz. unfold close_attdir in E. change (ed_amod s1) with (ed_amod s) in E.
  destruct (ed_amod s) eqn:Em.
  2: { injection E as <- <-. split; [reflexivity|]. destruct (i_amod _ _ _ _ I Em) as (M1 & M2 & M3).
       exists (g_attdir g), nx. cbv zeta. rewrite <- (i_attdir _ _ _ _ I). split; [unfold s1; rewrite ?Em; reflexivity|].
       split; [exact S1|]. split; [exact H1|]. split; [exact Hs1|]. split; [intros _; exact M1|].
       destruct (g_attdir g) as [x|]; [|exact M2]. rewrite M2. symmetry. rewrite <- (map_id (map snd (ed_at s))) at 2.
       apply map_ext_Forall. exact M3. }
  destruct Hsafe as [Hsafe|Hsafe]; [discriminate|].
  assert (Hens : exists n, ensure_next strict s1 = Ok n /\ 544 <= n /\ Forall (fun x => s_p x < n) (live g1)
                           /\ (room g < 256 + 128 * Z.of_nat (length (g_at g)) -> below n (live g1))).
  { assert (Hb : forall n, below n (live g1) -> Forall (fun x => s_p x < n) (live g1)).
    { intros n Hb. eapply Forall_impl; [|exact (Forall_and Hb (proj1 S1))]. cbn beta. intros x [Hx Hi]. apply intact_bounds in Hi. unfold s_end in *. lia. }
    assert (Ho : forall n, next_ok f1 (ed_last s) nx (live g1) n -> ensure_next strict s1 = Ok n /\ 544 <= n /\ below n (live g1)).
    { intros n Hn. split; [|split; apply Hn]. apply (ensure_ok strict s1 g1 n); [|exact Hn]. change (ed_f s1) with f1. lia. }
    destruct Hsafe as [Hr|[Hr (n & Hn)]].
    - destruct Hnx as [n [Hn|(-> & Hl & Hn)]].
      + destruct (Ho n Hn) as (? & ? & ?). exists n. auto.
      + exists n. split; [reflexivity|]. split; [assumption|]. split; [assumption|]. lia.
    - destruct (Ho n Hn) as (? & ? & ?). exists n. auto. }
  destruct Hens as (n & En & Hn544 & Hlt & Hbel). rewrite En in E. cbn [eok] in E.
  change (ed_attdir (set_nx s1 n)) with (ed_attdir s) in E. change (ed_at (set_nx s1 n)) with (ed_at s) in E.
  set (es := map snd (ed_at s)) in *.
  assert (Les : length es = length (g_at g)) by (unfold es; rewrite (i_at _ _ _ _ I), !map_length; reflexivity).
  set (g0 := mkGh (g_sb g) (g_at g) (g_meta g) (Some gd) None).
  assert (P : Permutation (opt_list (option_map (sp_seg OAttDir) (g_attdir g)) ++ live g0) (live g1)) by exact (perm_attdir g1 (g_attdir g)).
  pose proof (store_perm strict _ _ _ (Permutation_sym P) S1) as S. rewrite (i_attdir _ _ _ _ I) in E.
  assert (Hes : Forall (fun e => ae_ok e /\ 0 <= ae_pos e < 2 ^ 64) es).
  { assert (Hin : Forall (intact strict f1) (map att_sg (g_at g))).
    { pose proof (proj1 S1) as Hin. unfold live, g1 in Hin. cbn [g_sb g_at] in Hin. rewrite !Forall_app in Hin. apply Hin. }
    unfold es. rewrite (i_at _ _ _ _ I). rewrite map_map. apply Forall_map. rewrite Forall_map in Hin.
    eapply Forall_impl; [|exact (Forall_and (i_atg _ _ _ _ I) Hin)].
    intros (k & (e & a) & v) [(Hok & He & _) Hi]. cbn [att_key fst snd]. apply intact_bounds in Hi. unfold s_end in Hi. cbn [att_sg s_p s_a] in Hi.
    split; [|lia]. unfold ae_ok. rewrite He. exact Hok. }
  destruct (write_attdir_spec (option_map sp_info (g_attdir g)) n es) as (ms & p & al & bss & z & W & Pl & C & Hz & Hz0 & Hf).
  { apply (alloc_ok_of strict f1 OAttDir _ (live g0)); [assumption|lia]. }
  { eapply Forall_impl; [|exact Hes]. cbn beta. tauto. }
  rewrite W in E. cbn [fst snd eok] in E.
  assert (Hal : 256 + 128 * Z.of_nat (length es) = al /\ z = 0).
  { assert (Ha : 256 + 128 * Z.of_nat (length es) = al).
    { rewrite Les. unfold room in Hsafe.
      destruct Pl as [(g' & Eg & -> & -> & -> & Hne)|(-> & -> & _ & Hl)].
      - destruct (g_attdir g) as [((p0 & a0) & x0)|]; [|discriminate]. cbn [option_map] in Eg. injection Eg as <-.
        cbn [sp_info sg_alloc fst snd] in *. rewrite Les in Hne. lia.
      - rewrite Les. unfold align32. lia. }
    split; [exact Ha|]. rewrite Ha, Z.ltb_irrefl in Hz. exact Hz. }
  destruct Hal as [<- ->]. change (zeros 0) with ([] : bytes) in C.
  set (y := (p, 256 + 128 * Z.of_nat (length es), map ae_norm es) : Z * Z * list attentry).
  assert (P2 : Permutation (sp_seg OAttDir y :: live g0) (live (mkGh (g_sb g) (g_at g) (g_meta g) (Some gd) (Some y)))) by exact (perm_attdir g1 (Some y)).
  set (ws := contig p [attdir_head (256 + 128 * Z.of_nat (length es)) (length es); flat_map enc_att es] ++ contig (p + 128 * Z.of_nat (length es)) bss) in *.
  assert (Hsz' : f_size (fwrite f1 (ms ++ ws)) < 2 ^ 63).
  { destruct (p =? n); injection E as <- <-; unfold s1 in Hsz; flat; unfold set_attdir in Hsz; cbn [ed_f] in Hsz; lia. }
  destruct Pl as [(g' & Eg & -> & Ea & -> & Hne)|(-> & Ea & Hm & Hl)].
  - destruct (g_attdir g) as [((p0 & a0) & x0)|] eqn:Ega; [|discriminate]. cbn [option_map] in Eg. injection Eg as <-.
    change (sg_pos (sp_info (p0, a0, x0))) with p0 in *. change (sg_alloc (sp_info (p0, a0, x0))) with a0 in *.
    cbn [option_map opt_list app] in S, P. pose proof (store_head _ _ _ _ S) as [X _].
    pose proof (intact_bounds _ _ _ X) as (Q1 & Q2 & Q3 & Q4). unfold s_end, sp_seg in Q1, Q2, Q3, Q4. cbn [s_p s_a fst snd] in Q1, Q2, Q3, Q4.
    assert (Hpn : p0 < n).
    { apply (Permutation_Forall (Permutation_sym P)) in Hlt. inversion Hlt; subst. assumption. }
    replace (p0 =? n) with false in E by lia. injection E as <- <-. split; [reflexivity|]. unfold s1 in *. flat. unfold set_attdir in *.
    cbn [app ed_f ed_hdr ed_last ed_sb ed_sbn ed_smod ed_at ed_atn ed_amod ed_meta ed_sbdir ed_attdir ed_next] in *.
    destruct (attdir_written strict f1 p0 es (p0 + 128 * Z.of_nat (length es)) bss) as [Y Wi]; try assumption; try lia.
    fold ws in Y, Wi.
    change (mkSg p0 (256 + 128 * Z.of_nat (length es)) (OAttDir (map ae_norm es))) with (sp_seg OAttDir y) in Y.
    destruct (exists_below (sp_seg OAttDir (p0, a0, x0) :: live g0)) as [N HN].
    destruct (store_inplace strict f1 (live g0) N ws (sp_seg OAttDir (p0, a0, x0)) (sp_seg OAttDir y) S HN) as [T1 T2];
        try assumption; try reflexivity.
    { unfold s_end, sp_seg. cbn [s_p s_a fst snd]. rewrite <- Ea. exact Wi. }
    exists (Some y), (Some n). cbv zeta. split; [rewrite ?Em; reflexivity|].
    split; [apply (store_perm strict _ _ _ P2); exact T1|].
    split; [rewrite (header_write strict _ _ p0 (p0 + 32 + (256 + 128 * Z.of_nat (length es)))); [assumption|assumption|assumption|assumption]|].
    split; [lia|]. split; [discriminate|reflexivity].
  - rewrite Z.eqb_refl in E. injection E as <- <-. split; [reflexivity|]. unfold s1 in *. flat. unfold set_attdir in *.
    cbn [ed_f ed_hdr ed_last ed_sb ed_sbn ed_smod ed_at ed_atn ed_amod ed_meta ed_sbdir ed_attdir ed_next] in *.
    assert (Hbn : below n (live g1)).
    { apply Hbel. unfold room. destruct (g_attdir g) as [((p0 & a0) & x0)|]; cbn [option_map sp_info sg_alloc fst snd] in *; rewrite ?Les in Hl; [exact Hl|lia]. }
    pose proof (below_perm _ _ _ (Permutation_sym P) Hbn) as Hbn2.
    destruct (placed_store strict f1 OAttDir (g_attdir g) (live g0) n (256 + 128 * Z.of_nat (length es)) (align32 (256 + 128 * Z.of_nat (length es))) ms n (256 + 128 * Z.of_nat (length es)) S Hbn2 Hn544)
      as [(x0 & Eg & -> & Hne2 & Hpn)|(_ & _ & T1 & B1 & Wm & Hsm)].
    { right. auto. }
    { congruence. }
    rewrite <- fwrite_fwrite in *.
    destruct (attdir_written strict (fwrite f1 ms) n es (n + 128 * Z.of_nat (length es)) bss) as [Y Wi]; try assumption; try lia.
    fold ws in Y, Wi.
    change (mkSg n (256 + 128 * Z.of_nat (length es)) (OAttDir (map ae_norm es))) with (sp_seg OAttDir y) in Y.
    destruct (store_append strict (fwrite f1 ms) (live g0) n ws (sp_seg OAttDir y) T1 B1 Wi eq_refl Y) as [S2 S3].
    exists (Some y), (Some (n + (256 + 128 * Z.of_nat (length es)))). cbv zeta. split; [rewrite ?Em; reflexivity|].
    split; [apply (store_perm strict _ _ _ P2); exact S2|].
    split.
    { rewrite (header_write strict _ _ n (n + 32 + (256 + 128 * Z.of_nat (length es))));
        [|pose proof (fwrite_size f1 ms); lia|assumption|assumption].
      rewrite (header_write strict _ _ 544 (f_size f1)); [assumption|assumption|assumption|lia]. }
    split; [lia|]. split; [discriminate|reflexivity].
Qed.
