(** Every call of the editor keeps the invariant and does what it means. *)
From Coq Require Import Permutation.
From Verif Require Import Base StatModel StatSpec StatProofs DirProofs CodecModel MemProofs CodecProofs WriterModel WriterProofs WriterSpec ReadProofs WriterInv WriterFin WriterOpen WriterMain WriterSession
  EditModel EditSpec EditSeg EditStore EditInv.

(** ** Segments just written *)
Section New.
  Variable strict : bool.
  Lemma sub_slice al p a : slice (sb_seg_al al p a) 16 8 = le 8 al.
  Proof. reflexivity. Qed.

  Lemma new_sub f n a : add_ok a -> src_size (ai_data a) <= INT_MAX -> 544 <= n ->
    exists bss, write_subblock n a = (contig n bss, Ok (align32 (sb_used a)))
      /\ let x := mkSg n (align32 (sb_used a) - 32) (OSub (with_pos (entry_of_info a) n) (expected a)) in
         (f_size (fwrite f (contig n bss)) < 2 ^ 63 ->
          intact strict (fwrite f (contig n bss)) x /\ ws_in n (s_end x) (contig n bss) /\ n < 2 ^ 63).
  Proof.
    intros Hok Hd Hn. destruct (write_subblock_spec n a Hok) as (bss & E & C). exists bss. split; [assumption|].
    intros x Hs. rewrite sb_segment_al in C.
    pose proof (sb_seg_al_length (align32 (sb_used a) - 32) n a Hok) as L.
    assert (Hu : 288 <= sb_used a).
    { unfold sb_used, sb_header_size. destruct Hok as (_ & (A & _) & (B & _) & (D & _) & _). lia. }
    destruct (align32_spec (sb_used a)) as [A1 A2]; [lia|].
    destruct (holds_written f n bss _ _ ltac:(lia) C) as [_ Hsz]; [lia|].
    assert (Lc : Z.of_nat (length (concat bss)) = align32 (sb_used a)).
    { rewrite C, app_length, Nat2Z.inj_add, zeros_length, L by lia. lia. }
    destruct (intact_written strict f n (align32 (sb_used a) - 32) (OSub (with_pos (entry_of_info a) n) (expected a)) bss
                (sb_seg_al (align32 (sb_used a) - 32) n a) (align32 (sb_used a) - sb_used a)) as [I W]; try assumption; try lia.
    - reflexivity.
    - intros g Hg Hgs. cbn [rd]. exact (observe_al strict g _ n a Hok Hd Hg Hgs).
    - split; [exact I|]. split; [|lia]. unfold x, s_end. cbn [s_p s_a]. exact W.
  Qed.

  Lemma sub_in f p al e v a : intact strict f (mkSg p al (OSub e v)) -> f_size f < 2 ^ 63 ->
    add_ok a -> src_size (ai_data a) <= INT_MAX -> sb_used a <= al + 32 ->
    exists bss k, write_subblock_in al p a = (contig p bss, Ok k)
      /\ intact strict (fwrite f (contig p bss)) (mkSg p al (OSub (with_pos (entry_of_info a) p) (expected a)))
      /\ ws_in p (p + 32 + al) (contig p bss).
  Proof.
    intros I Hs Hok Hd Hu. pose proof (intact_bounds _ _ _ I) as (B1 & B2 & B3 & B4). unfold s_end in B4. cbn [s_p s_a] in *.
    pose proof (write_subblock_in_spec al p a Hok) as W. specialize (W ltac:(lia)).
    assert (Hu2 : 288 <= sb_used a).
    { unfold sb_used, sb_header_size. destruct Hok as (_ & (A & _) & (B & _) & (D & _) & _). lia. }
    replace (al <? align32 (sb_used a) - 32) with false in W by (unfold align32; lia).
    destruct W as (bss & z & k & E & C & Hz & Hf). exists bss, k. split; [assumption|].
    pose proof (sb_seg_al_length al p a Hok) as L.
    destruct (intact_written strict f p al (OSub (with_pos (entry_of_info a) p) (expected a)) bss (sb_seg_al al p a) z) as [J W];
      try assumption; try lia.
    - reflexivity.
    - intros g Hg Hgs. exact (observe_al strict g _ p a Hok Hd Hg Hgs).
    - split; assumption.
  Qed.

  Lemma new_att f n a : att_ok a -> Z.of_nat (length (at_data a)) <= INT_MAX -> 544 <= n ->
    exists bss, write_attachment n a = (contig n bss, Ok (att_total a))
      /\ let x := mkSg n (att_total a - 32) (OAtt (at_data a)) in
         (f_size (fwrite f (contig n bss)) < 2 ^ 63 ->
          intact strict (fwrite f (contig n bss)) x /\ ws_in n (s_end x) (contig n bss) /\ n < 2 ^ 63).
  Proof.
    intros Hok Hd Hn. destruct (write_attachment_spec n a Hok) as (bss & E & C). exists bss. split; [assumption|].
    intros x Hs. rewrite att_segment_al in C. unfold att_total in *. set (al := align32 (256 + Z.of_nat (length (at_data a)))) in *.
    pose proof (att_seg_al_length al n a Hok) as L.
    destruct (align32_spec (256 + Z.of_nat (length (at_data a)))) as [A1 A2]; [lia|]. fold al in A1, A2.
    destruct (holds_written f n bss _ _ ltac:(lia) C) as [_ Hsz]; [lia|].
    assert (Lc : Z.of_nat (length (concat bss)) = al + 32).
    { rewrite C, app_length, Nat2Z.inj_add, zeros_length, L by lia. lia. }
    unfold x. replace (al + 32 - 32) with al by lia.
    destruct (intact_written strict f n al (OAtt (at_data a)) bss
                (att_seg_al al n a) (al - (256 + Z.of_nat (length (at_data a))))) as [I W]; try assumption; try lia.
    - reflexivity.
    - intros g Hg Hgs. cbn [rd]. exact (read_attachment_al strict g al n a Hok Hd Hg).
    - split; [exact I|]. split; [|lia]. exact W.
  Qed.

  Lemma att_in f p al b a : intact strict f (mkSg p al (OAtt b)) -> f_size f < 2 ^ 63 ->
    att_ok a -> Z.of_nat (length (at_data a)) <= INT_MAX -> 256 + Z.of_nat (length (at_data a)) <= al ->
    exists bss k, write_attachment_in al p a = (contig p bss, Ok k)
      /\ intact strict (fwrite f (contig p bss)) (mkSg p al (OAtt (at_data a)))
      /\ ws_in p (p + 32 + al) (contig p bss).
  Proof.
    intros I Hs Hok Hd Hu. pose proof (intact_bounds _ _ _ I) as (B1 & B2 & B3 & B4). unfold s_end in B4. cbn [s_p s_a] in *.
    destruct (write_attachment_in_spec al p a Hok) as (bss & z & k & E & C & Hz & Hf); [lia|]. exists bss, k. split; [assumption|].
    pose proof (att_seg_al_length al p a Hok) as L.
    destruct (intact_written strict f p al (OAtt (at_data a)) bss (att_seg_al al p a) z) as [J W]; try assumption; try lia.
    - reflexivity.
    - intros g Hg Hgs. exact (read_attachment_al strict g al p a Hok Hd Hg).
    - split; assumption.
  Qed.
End New.

(** ** Reading the header of a live segment *)
Lemma read_seg_of strict f p h n magic : read_exact strict f p n = Ok h -> 32 <= n -> 0 <= p -> p + 32 <= f_size f ->
  eqbytes (slice h 0 16) magic = true -> read_seg magic strict f p = Ok (alloc_at f p).
Proof.
  intros E Hn Hp Hs Hm. unfold read_seg. pose proof (read_seg_any_ok strict f p Hp Hs) as A. unfold read_seg_any in A.
  assert (Hh : holds f p (mread (f_mem f) p 32)).
  { split; [assumption|]. rewrite mread_length. split; [lia|reflexivity]. }
  rewrite (read_exact_all strict f p _ 32 Hh) in * by (rewrite mread_length; lia). cbn [bind] in *.
  assert (E2 : slice h 0 16 = slice (mread (f_mem f) p 32) 0 16).
  { unfold read_exact, read_into in E. destruct (avail strict f p n) as [k|]; [|discriminate].
    destruct (n <? k); [discriminate|]. destruct (k =? n) eqn:Ek; [|discriminate]. assert (Eh : mread (f_mem f) p (Z.to_nat n) = h) by congruence.
    rewrite <- Eh.
    rewrite <- (mread_slice (f_mem f) p (mread (f_mem f) p (Z.to_nat n)) 0 16); [|now rewrite mread_length|rewrite mread_length; lia].
    apply (mread_slice (f_mem f) p (mread (f_mem f) p 32) 0 16); [now rewrite mread_length|rewrite mread_length; lia]. }
  rewrite <- E2, Hm. exact A.
Qed.

Lemma sub_magic strict f p e v : observe strict f (with_pos e p) = Ok v -> 0 <= p -> p + 32 <= f_size f ->
  read_seg MAGIC_SB strict f p = Ok (alloc_at f p).
Proof.
  intros H Hp Hs. unfold observe, read_subblock in H. cbn [with_pos e_pos] in H.
  destruct (read_exact strict f p 288) as [h| | |] eqn:E; cbn [bind] in H; try discriminate.
  destruct (eqbytes (slice h 0 16) MAGIC_SB) eqn:Em; cbn [negb bind] in H; [|discriminate].
  apply (read_seg_of strict f p h 288); auto. lia.
Qed.
Lemma att_magic strict f p b : read_attachment strict f p = Ok b -> 0 <= p -> p + 32 <= f_size f ->
  read_seg MAGIC_ATT strict f p = Ok (alloc_at f p).
Proof.
  intros H Hp Hs. unfold read_attachment in H.
  destruct (read_exact strict f p 288) as [h| | |] eqn:E; cbn [bind] in H; try discriminate.
  destruct (eqbytes (slice h 0 16) MAGIC_ATT) eqn:Em; cbn [negb] in H; [|discriminate].
  apply (read_seg_of strict f p h 288); auto. lia.
Qed.
Lemma meta_magic strict f p x : read_metadata strict f p = Ok x -> 0 <= p -> p + 32 <= f_size f ->
  read_seg MAGIC_META strict f p = Ok (alloc_at f p).
Proof.
  intros H Hp Hs. unfold read_metadata in H.
  destruct (read_exact strict f p 288) as [h| | |] eqn:E; cbn [bind] in H; try discriminate.
  destruct (eqbytes (slice h 0 16) MAGIC_META) eqn:Em; cbn [negb] in H; [|discriminate].
  apply (read_seg_of strict f p h 288); auto. lia.
Qed.

(** ** New states *)
Lemma keys_map {A B} (f : Z * A -> Z * B) l : (forall x, fst (f x) = fst x) -> map fst (map f l) = map fst l.
Proof. intros H. rewrite map_map. apply map_ext. exact H. Qed.

Section Build.
  Variable strict : bool.
  Variables (s : ed) (g : gh) (d : doc).
  Hypothesis I : inv strict s g d.

  Lemma inv_sub_set f' nxt' lsb n' dsb l :
    read_file_header strict f' = Ok (ed_hdr s) -> 544 <= f_size f' ->
    lsb = map sub_key l -> dsb = map sub_val l -> NoDup (map fst l) -> Forall (fun x => fst x < n') l -> Forall sub_good l ->
    let g' := mkGh l (g_at g) (g_meta g) (g_dir g) (g_attdir g) in
    store strict f' (live g') -> (exists n, next_ok f' (ed_last s) nxt' (live g') n) ->
    inv strict (mkEd f' (ed_hdr s) (ed_last s) nxt' lsb n' true (ed_at s) (ed_atn s) (ed_amod s) (ed_meta s) (ed_sbdir s) (ed_attdir s))
        g' (mkDoc dsb n' (d_atts d) (d_attn d) (d_meta d)).
  Proof.
    intros H1 H2 H3 H4 H5 H6 H7 g' H8 H9. destruct I. subst lsb dsb. constructor; unfold next_is;
      cbn [ed_f ed_hdr ed_last ed_next ed_sb ed_sbn ed_smod ed_at ed_atn ed_amod ed_meta ed_sbdir ed_attdir g' g_sb g_at g_meta g_dir g_attdir
           d_subs d_subn d_atts d_attn d_meta] in *; auto.
    discriminate.
  Qed.

  Lemma inv_att_set f' nxt' lat n' dat l :
    read_file_header strict f' = Ok (ed_hdr s) -> 544 <= f_size f' ->
    lat = map att_key l -> dat = map att_val l -> NoDup (map fst l) -> Forall (fun x => fst x < n') l -> Forall att_good l ->
    let g' := mkGh (g_sb g) l (g_meta g) (g_dir g) (g_attdir g) in
    store strict f' (live g') -> (exists n, next_ok f' (ed_last s) nxt' (live g') n) ->
    inv strict (mkEd f' (ed_hdr s) (ed_last s) nxt' (ed_sb s) (ed_sbn s) (ed_smod s) lat n' true (ed_meta s) (ed_sbdir s) (ed_attdir s))
        g' (mkDoc (d_subs d) (d_subn d) dat n' (d_meta d)).
  Proof.
    intros H1 H2 H3 H4 H5 H6 H7 g' H8 H9. destruct I. subst lat dat. constructor; unfold next_is;
      cbn [ed_f ed_hdr ed_last ed_next ed_sb ed_sbn ed_smod ed_at ed_atn ed_amod ed_meta ed_sbdir ed_attdir g' g_sb g_at g_meta g_dir g_attdir
           d_subs d_subn d_atts d_attn d_meta] in *; auto.
    discriminate.
  Qed.

  Lemma inv_meta_set f' nxt' m :
    read_file_header strict f' = Ok (ed_hdr s) -> 544 <= f_size f' ->
    let g' := mkGh (g_sb g) (g_at g) (Some m) (g_dir g) (g_attdir g) in
    store strict f' (live g') -> (exists n, next_ok f' (ed_last s) nxt' (live g') n) ->
    inv strict (mkEd f' (ed_hdr s) (ed_last s) nxt' (ed_sb s) (ed_sbn s) (ed_smod s) (ed_at s) (ed_atn s) (ed_amod s) (Some (sp_info m)) (ed_sbdir s) (ed_attdir s))
        g' (mkDoc (d_subs d) (d_subn d) (d_atts d) (d_attn d) (Some (snd m))).
  Proof.
    intros H1 H2 g' H8 H9. destruct I. constructor; unfold next_is;
      cbn [ed_f ed_hdr ed_last ed_next ed_sb ed_sbn ed_smod ed_at ed_atn ed_amod ed_meta ed_sbdir ed_attdir g' g_sb g_at g_meta g_dir g_attdir
           d_subs d_subn d_atts d_attn d_meta option_map] in *; auto.
  Qed.

  Lemma split_sb k : (exists l1 e al v l2, g_sb g = l1 ++ (k, (e, al, v)) :: l2 /\ ~ In k (map fst l1) /\ ~ In k (map fst l2))
    \/ (afind k (ed_sb s) = None /\ lookup k (d_subs d) = None).
  Proof.
    destruct (i_sbk _ _ _ _ I) as [N _]. destruct (split_key k _ N) as [(l1 & ((e & al) & v) & l2 & E & N1 & N2)|H].
    - left. exists l1, e, al, v, l2. auto.
    - right. rewrite (i_sb _ _ _ _ I), (i_dsb _ _ _ _ I). split.
      + apply afind_None. rewrite map_map. exact H.
      + apply lookup_none. rewrite map_map. exact H.
  Qed.
  Lemma split_at k : (exists l1 e al v l2, g_at g = l1 ++ (k, (e, al, v)) :: l2 /\ ~ In k (map fst l1) /\ ~ In k (map fst l2))
    \/ (afind k (ed_at s) = None /\ lookup k (d_atts d) = None).
  Proof.
    destruct (i_atk _ _ _ _ I) as [N _]. destruct (split_key k _ N) as [(l1 & ((e & al) & v) & l2 & E & N1 & N2)|H].
    - left. exists l1, e, al, v, l2. auto.
    - right. rewrite (i_at _ _ _ _ I), (i_dat _ _ _ _ I). split.
      + apply afind_None. rewrite map_map. exact H.
      + apply lookup_none. rewrite map_map. exact H.
  Qed.
End Build.

(** ** Duplicates *)
Lemma spot_dup a b : same_spot a b = true <-> duplicates a b.
Proof.
  unfold same_spot, duplicates. destruct (list_eq_dec opt_eq_dec (e_coord a) (e_coord b)) as [E|E]; cbn [andb].
  - rewrite !andb_true_iff, negb_true_iff, Z.eqb_eq, Z.eqb_neq. tauto.
  - split; [discriminate|]. tauto.
Qed.
Lemma equal_spot a b n : length (e_coord a) = 9%nat -> length (e_coord b) = 9%nat ->
  equal_entries a (with_pos b n) = same_spot (with_pos a 0) (with_pos b 0).
Proof.
  intros La Lb. apply Bool.eq_true_iff_eq. rewrite spot_dup, equal_entries_ok by assumption. reflexivity.
Qed.
Lemma existsb_map_ext {A B C} (p : A -> bool) (q : B -> bool) (f : C -> A) (h : C -> B) l :
  Forall (fun x => p (f x) = q (h x)) l -> existsb p (map f l) = existsb q (map h l).
Proof. induction 1 as [|x l E _ IH]; [reflexivity|]. cbn [map existsb]. now rewrite E, IH. Qed.

Lemma sub_dups strict s g d a n : inv strict s g d -> add_ok a ->
  existsb (fun x => equal_entries (snd x) (with_pos (entry_of_info a) n)) (ed_sb s)
  = existsb (fun v => same_spot (ob_entry (snd v)) (ob_entry (expected a))) (d_subs d).
Proof.
  intros I Hok. rewrite (i_sb _ _ _ _ I), (i_dsb _ _ _ _ I). apply existsb_map_ext.
  eapply Forall_impl; [|apply (i_sbg _ _ _ _ I)]. intros (k & (e & al) & v) (Hw & Hv). cbn [sub_key sub_val fst snd].
  rewrite Hv. apply (equal_spot e (entry_of_info a) n); [apply Hw|]. unfold entry_of_info. apply Hok.
Qed.

Lemma eqbytes_iff (a b : bytes) : eqbytes a b = true <-> a = b.
Proof. unfold eqbytes. destruct (list_eq_dec Z.eq_dec a b); split; congruence. Qed.
Lemma cstr_cstring : forall a b : bytes, length a = length b -> cstr_eq a b = eqbytes (cstring a) (cstring b).
Proof.
  intros a b L. apply Bool.eq_true_iff_eq. rewrite eqbytes_iff. revert b L.
  induction a as [|x a IH]; intros [|y b] L; try discriminate; [tauto|]. cbn [cstr_eq cstring length] in *.
  rewrite andb_true_iff, orb_true_iff, IH, Z.eqb_eq by lia.
  destruct (x =? 0) eqn:Ex, (y =? 0) eqn:Ey.
  - split; [reflexivity|]. split; [lia|now left].
  - split; [lia|discriminate].
  - split; [lia|discriminate].
  - split; [intros [-> [H|H]]; [discriminate|congruence]|]. intros H. injection H as -> H. auto.
Qed.

Lemma att_dups strict s g d a n : inv strict s g d -> att_ok a ->
  existsb (fun x => att_same_id (snd x) (att_entry_of a n)) (ed_at s)
  = existsb (fun v => same_attachment (snd v) a) (d_atts d).
Proof.
  intros I (A1 & A2 & A3). rewrite (i_at _ _ _ _ I), (i_dat _ _ _ _ I). apply existsb_map_ext.
  eapply Forall_impl; [|apply (i_atg _ _ _ _ I)]. intros (k & (e & al) & v) ((B1 & B2 & B3) & E & _). cbn [att_key att_val fst snd].
  rewrite E. unfold att_same_id, same_attachment, att_entry_of. cbn [ae_guid ae_name ae_type]. rewrite !cstr_cstring by congruence. reflexivity.
Qed.

(** ** Steps *)
Definition good_step (strict : bool) (s : ed) (g : gh) (d : doc) (o : eop) (s' : ed) (r : res unit) : Prop :=
  exists g', inv strict s' g' (fst (dstep d o)) /\ r = outcome (snd (dstep d o)) /\ g_dir g' = g_dir g /\ g_attdir g' = g_attdir g
    /\ ed_hdr s' = ed_hdr s
    /\ (sub_op o = false -> ed_smod s' = ed_smod s) /\ (att_op o = false -> ed_amod s' = ed_amod s)
    /\ (ed_smod s' = false -> ed_smod s = false /\ d_subn (fst (dstep d o)) = d_subn d).

Lemma good_refuse strict s g d o s' : inv strict s' g d -> dstep d o = (d, false) -> ed_hdr s' = ed_hdr s ->
  ed_smod s' = ed_smod s -> ed_amod s' = ed_amod s -> good_step strict s g d o s' Throw.
Proof.
  intros I E Eh Es Ea. exists g. rewrite E. cbn [fst snd outcome].
  do 5 (split; [auto|]). split; [auto|]. split; [auto|]. intros H. split; [congruence|reflexivity].
Qed.

Lemma add_ok_of a : request_ok INT_MAX (OpSub a None) -> add_ok a /\ src_size (ai_data a) <= INT_MAX.
Proof. intros H. split; [exact (op_ok_of_request _ _ H)|]. apply H. Qed.

Lemma step_add strict s g d a s' r : inv strict s g d -> edit_ok (EAdd a) -> ed_add strict s a = (s', r) ->
  f_size (ed_f s) <= f_size (ed_f s') < 2 ^ 63 -> good_step strict s g d (EAdd a) s' r.
Proof.
  intros I Hok E Hsz. cbn [edit_ok] in Hok. apply add_ok_of in Hok. destruct Hok as [Hok Hd].
  unfold ed_add in E. destruct (sub_args_ok a) eqn:Ea; cbn [negb] in E.
  2: { injection E as <- <-. apply good_refuse; auto. cbn [dstep]. now rewrite Ea. }
  destruct (i_next _ _ _ _ I) as [n Hn]. rewrite (ensure_ok strict s g n) in E by (auto; lia). cbn [eok] in E.
  change (ed_sb (set_nx s n)) with (ed_sb s) in E. rewrite (sub_dups strict s g d a n I Hok) in E.
  destruct (existsb _ (d_subs d)) eqn:Ed.
  { injection E as <- <-. apply good_refuse; auto. now apply inv_next. cbn [dstep]. now rewrite Ea, Ed. }
  destruct Hn as (Hn & Hn1 & Hn2).
  destruct (new_sub strict (ed_f s) n a Hok Hd Hn1) as (bss & W & X). rewrite W in E. cbn [fst snd eok] in E.
  injection E as <- <-. unfold set_nx, ed_write, set_f, set_sb in *. cbn [ed_f ed_hdr ed_last ed_next ed_sb ed_sbn ed_smod ed_at ed_atn ed_amod ed_meta ed_sbdir ed_attdir] in *.
  cbv zeta in X. specialize (X (proj2 Hsz)). destruct X as (X1 & X2 & X3).
  set (x := (ed_sbn s, (with_pos (entry_of_info a) n, align32 (sb_used a) - 32, expected a)) : subx).
  assert (Hseg : mkSg n (align32 (sb_used a) - 32) (OSub (with_pos (entry_of_info a) n) (expected a)) = sub_seg x) by reflexivity.
  rewrite Hseg in X1, X2.
  destruct (store_append strict (ed_f s) (live g) n (contig n bss) (sub_seg x) (i_store _ _ _ _ I) Hn2 X2 eq_refl X1) as [S1 S2].
  assert (K : ~ In (ed_sbn s) (map fst (g_sb g))).
  { destruct (i_sbk _ _ _ _ I) as [_ K]. rewrite Forall_forall in K. intros H. apply in_map_iff in H. destruct H as (y & H1 & H2).
    apply K in H2. lia. }
  eexists. split; [|cbn [dstep]; rewrite Ea, Ed; cbn [andb negb fst snd outcome]; split; [reflexivity|]].
  - cbn [dstep]. rewrite Ea, Ed. cbn [andb negb fst]. rewrite (i_sbn _ _ _ _ I).
    apply (inv_sub_set strict s g d I) with (l := g_sb g ++ [x]).
    + rewrite (header_write strict _ _ n (s_end (sub_seg x))); [apply I|apply I|assumption|assumption].
    + pose proof (i_size _ _ _ _ I). lia.
    + rewrite map_app. cbn [map]. now rewrite (i_sb _ _ _ _ I).
    + rewrite map_app. cbn [map]. now rewrite (i_dsb _ _ _ _ I).
    + rewrite map_app. cbn [map fst]. apply (Permutation_NoDup (l := fst x :: map fst (g_sb g))); [apply Permutation_cons_append|].
      constructor; [exact K|apply I].
    + apply Forall_app. split; [|repeat constructor; cbn [fst x]; lia]. eapply Forall_impl; [|apply (i_sbk _ _ _ _ I)]. cbn beta. intros y Hy. lia.
    + apply Forall_app. split; [apply I|]. constructor; [|constructor]. cbn [x sub_good]. split; [|reflexivity].
      apply entry_wf; [assumption|lia].
    + apply (store_perm strict _ _ _ (perm_sb_end g x)). exact S1.
    + exists (n + align32 (sb_used a)). split; [reflexivity|]. split; [|].
      { unfold s_end in S2. cbn [x sub_seg s_p s_a with_pos e_pos] in S2. apply intact_bounds in X1.
        cbn [x sub_seg s_p s_a with_pos e_pos] in X1. lia. }
      apply (below_perm _ _ _ (perm_sb_end g x)). apply (below_weaken (s_end (sub_seg x))); [assumption|].
      unfold s_end. cbn [x sub_seg s_p s_a with_pos e_pos]. lia.
  - do 3 (split; [auto|]). split; [discriminate|]. split; [auto|]. discriminate.
Qed.

Lemma live_eta g : live g = live (mkGh (g_sb g) (g_at g) (g_meta g) (g_dir g) (g_attdir g)).
Proof. reflexivity. Qed.

Section Found.
  Variable strict : bool.
  Variables (s : ed) (g : gh) (d : doc).
  Hypothesis I : inv strict s g d.
  Variables (k : Z) (al : Z).

  Lemma found_sb l1 e v l2 : g_sb g = l1 ++ (k, (e, al, v)) :: l2 -> ~ In k (map fst l1) -> ~ In k (map fst l2) ->
    afind k (ed_sb s) = Some e /\ lookup k (d_subs d) = Some (k, v)
    /\ (forall e' al' v', aset k e' (ed_sb s) = map sub_key (l1 ++ (k, (e', al', v')) :: l2)
                          /\ assign k v' (d_subs d) = map sub_val (l1 ++ (k, (e', al', v')) :: l2))
    /\ aerase k (ed_sb s) = map sub_key (l1 ++ l2) /\ discard k (d_subs d) = map sub_val (l1 ++ l2)
    /\ NoDup (map fst (l1 ++ l2)) /\ (forall y, NoDup (map fst (l1 ++ (k, y) :: l2)))
    /\ Forall (fun x => fst x < ed_sbn s) (l1 ++ l2) /\ (forall y, Forall (fun x => fst x < ed_sbn s) (l1 ++ (k, y) :: l2))
    /\ Forall sub_good (l1 ++ l2) /\ (forall y, sub_good (k, y) -> Forall sub_good (l1 ++ (k, y) :: l2)) /\ sub_good (k, (e, al, v))
    /\ Permutation (sub_seg (k, (e, al, v)) :: live (mkGh (l1 ++ l2) (g_at g) (g_meta g) (g_dir g) (g_attdir g))) (live g).
  Proof.
    intros E N1 N2.
    assert (K1 : ~ In k (map fst (map sub_key l1))) by (rewrite map_map; exact N1).
    assert (K2 : ~ In k (map fst (map sub_val l1))) by (rewrite map_map; exact N1).
    assert (K3 : ~ In k (map fst (map sub_val l2))) by (rewrite map_map; exact N2).
    pose proof (i_sb _ _ _ _ I) as E1. pose proof (i_dsb _ _ _ _ I) as E2. rewrite E, map_app in E1, E2. cbn [map] in E1, E2.
    unfold sub_key at 2 in E1. unfold sub_val at 2 in E2. cbn [fst snd] in E1, E2.
    destruct (i_sbk _ _ _ _ I) as [ND B]. rewrite E in ND, B. pose proof (i_sbg _ _ _ _ I) as G. rewrite E in G.
    rewrite E1, E2. split; [now apply afind_split|]. split; [now apply lookup_split|]. split.
    { intros e' al' v'. rewrite !map_app. cbn [map sub_key sub_val fst snd]. split; [now apply aset_split|now apply assign_split]. }
    split; [rewrite map_app; now apply aerase_split|]. split; [rewrite map_app; now apply discard_split|].
    apply Forall_app in B. destruct B as [B1 B2]. inversion B2; subst. apply Forall_app in G. destruct G as [G1 G2]. inversion G2; subst.
    split; [rewrite map_app in *; apply NoDup_remove_1 in ND; exact ND|].
    split; [intros y; rewrite map_app in *; exact ND|].
    split; [now apply Forall_app|]. split; [intros y; apply Forall_app; split; [assumption|now constructor]|].
    split; [now apply Forall_app|]. split; [intros y Hy; apply Forall_app; split; [assumption|now constructor]|]. split; [assumption|].
    pose proof (perm_sb g l1 (k, (e, al, v)) l2) as P. rewrite (live_eta g), E. exact P.
  Qed.

  Lemma found_at l1 e v l2 : g_at g = l1 ++ (k, (e, al, v)) :: l2 -> ~ In k (map fst l1) -> ~ In k (map fst l2) ->
    afind k (ed_at s) = Some e /\ lookup k (d_atts d) = Some (k, v)
    /\ (forall e' al' v', aset k e' (ed_at s) = map att_key (l1 ++ (k, (e', al', v')) :: l2)
                          /\ assign k v' (d_atts d) = map att_val (l1 ++ (k, (e', al', v')) :: l2))
    /\ aerase k (ed_at s) = map att_key (l1 ++ l2) /\ discard k (d_atts d) = map att_val (l1 ++ l2)
    /\ NoDup (map fst (l1 ++ l2)) /\ (forall y, NoDup (map fst (l1 ++ (k, y) :: l2)))
    /\ Forall (fun x => fst x < ed_atn s) (l1 ++ l2) /\ (forall y, Forall (fun x => fst x < ed_atn s) (l1 ++ (k, y) :: l2))
    /\ Forall att_good (l1 ++ l2) /\ (forall y, att_good (k, y) -> Forall att_good (l1 ++ (k, y) :: l2)) /\ att_good (k, (e, al, v))
    /\ Permutation (att_sg (k, (e, al, v)) :: live (mkGh (g_sb g) (l1 ++ l2) (g_meta g) (g_dir g) (g_attdir g))) (live g).
  Proof.
    intros E N1 N2.
    assert (K1 : ~ In k (map fst (map att_key l1))) by (rewrite map_map; exact N1).
    assert (K2 : ~ In k (map fst (map att_val l1))) by (rewrite map_map; exact N1).
    assert (K3 : ~ In k (map fst (map att_val l2))) by (rewrite map_map; exact N2).
    pose proof (i_at _ _ _ _ I) as E1. pose proof (i_dat _ _ _ _ I) as E2. rewrite E, map_app in E1, E2. cbn [map] in E1, E2.
    unfold att_key at 2 in E1. unfold att_val at 2 in E2. cbn [fst snd] in E1, E2.
    destruct (i_atk _ _ _ _ I) as [ND B]. rewrite E in ND, B. pose proof (i_atg _ _ _ _ I) as G. rewrite E in G.
    rewrite E1, E2. split; [now apply afind_split|]. split; [now apply lookup_split|]. split.
    { intros e' al' v'. rewrite !map_app. cbn [map att_key att_val fst snd]. split; [now apply aset_split|now apply assign_split]. }
    split; [rewrite map_app; now apply aerase_split|]. split; [rewrite map_app; now apply discard_split|].
    apply Forall_app in B. destruct B as [B1 B2]. inversion B2; subst. apply Forall_app in G. destruct G as [G1 G2]. inversion G2; subst.
    split; [rewrite map_app in *; apply NoDup_remove_1 in ND; exact ND|].
    split; [intros y; rewrite map_app in *; exact ND|].
    split; [now apply Forall_app|]. split; [intros y; apply Forall_app; split; [assumption|now constructor]|].
    split; [now apply Forall_app|]. split; [intros y Hy; apply Forall_app; split; [assumption|now constructor]|]. split; [assumption|].
    pose proof (perm_at g l1 (k, (e, al, v)) l2) as P. rewrite (live_eta g), E. exact P.
  Qed.
End Found.

Ltac flat := unfold set_nx, ed_write, set_f, set_sb, set_at, set_meta in *;
  cbn [ed_f ed_hdr ed_last ed_next ed_sb ed_sbn ed_smod ed_at ed_atn ed_amod ed_meta ed_sbdir ed_attdir] in *.

Lemma step_remove strict s g d k s' r : inv strict s g d -> ed_remove s k = (s', r) ->
  f_size (ed_f s) <= f_size (ed_f s') < 2 ^ 63 -> good_step strict s g d (ERemove k) s' r.
Proof.
  intros I E Hsz. unfold ed_remove in E. destruct (split_sb strict s g d I k) as [(l1 & e & al & v & l2 & El & N1 & N2)|[F1 F2]].
  2: { rewrite F1 in E. injection E as <- <-. apply good_refuse; auto. cbn [dstep]. now rewrite F2. }
  destruct (found_sb strict s g d I k al l1 e v l2 El N1 N2) as (F1 & F2 & F3 & F4 & F5 & F6 & F7 & F8 & F9 & F10 & F11 & F12 & P).
  rewrite F1 in E. injection E as <- <-. flat. set (g0 := mkGh (l1 ++ l2) _ _ _ _) in *. set (x := (k, (e, al, v)) : subx) in *.
  pose proof (store_perm strict _ _ _ (Permutation_sym P) (i_store _ _ _ _ I)) as S. pose proof (store_head _ _ _ _ S) as [X _].
  destruct (i_next _ _ _ _ I) as [n Hn]. apply (next_ok_perm _ _ _ _ _ _ (Permutation_sym P)) in Hn.
  pose proof (mark_in strict (ed_f s) (sub_seg x) X) as Wm. change (s_p (sub_seg x)) with (e_pos e) in *.
  exists g0. cbn [dstep]. rewrite F2. cbn [fst snd outcome]. split.
  - rewrite (i_sbn _ _ _ _ I), F5. apply (inv_sub_set strict s g d I); auto.
    + rewrite (header_write strict _ _ (e_pos e) (s_end (sub_seg x))); [apply I|apply I|assumption|]. apply intact_bounds in X. apply X.
    + pose proof (i_size _ _ _ _ I). lia.
    + apply (store_drop strict _ (live g0) _ (sub_seg x)); assumption.
    + exists n. apply (next_ok_mark strict (ed_f s) _ _ (sub_seg x)); assumption.
  - do 4 (split; [reflexivity|]). split; [discriminate|]. split; [auto|]. discriminate.
Qed.

Lemma step_remove_att strict s g d k s' r : inv strict s g d -> ed_remove_att s k = (s', r) ->
  f_size (ed_f s) <= f_size (ed_f s') < 2 ^ 63 -> good_step strict s g d (ERemoveAtt k) s' r.
Proof.
  intros I E Hsz. unfold ed_remove_att in E. destruct (split_at strict s g d I k) as [(l1 & e & al & v & l2 & El & N1 & N2)|[F1 F2]].
  2: { rewrite F1 in E. injection E as <- <-. apply good_refuse; auto. cbn [dstep]. now rewrite F2. }
  destruct (found_at strict s g d I k al l1 e v l2 El N1 N2) as (F1 & F2 & F3 & F4 & F5 & F6 & F7 & F8 & F9 & F10 & F11 & F12 & P).
  rewrite F1 in E. injection E as <- <-. flat. set (g0 := mkGh _ (l1 ++ l2) _ _ _) in *. set (x := (k, (e, al, v)) : attx) in *.
  pose proof (store_perm strict _ _ _ (Permutation_sym P) (i_store _ _ _ _ I)) as S. pose proof (store_head _ _ _ _ S) as [X _].
  destruct (i_next _ _ _ _ I) as [n Hn]. apply (next_ok_perm _ _ _ _ _ _ (Permutation_sym P)) in Hn.
  pose proof (mark_in strict (ed_f s) (att_sg x) X) as Wm. change (s_p (att_sg x)) with (ae_pos e) in *.
  exists g0. cbn [dstep]. rewrite F2. cbn [fst snd outcome]. split.
  - rewrite (i_atn _ _ _ _ I), F5. apply (inv_att_set strict s g d I); auto.
    + rewrite (header_write strict _ _ (ae_pos e) (s_end (att_sg x))); [apply I|apply I|assumption|]. apply intact_bounds in X. apply X.
    + pose proof (i_size _ _ _ _ I). lia.
    + apply (store_drop strict _ (live g0) _ (att_sg x)); assumption.
    + exists n. apply (next_ok_mark strict (ed_f s) _ _ (att_sg x)); assumption.
  - do 4 (split; [reflexivity|]). split; [auto|]. split; [discriminate|]. intros H. split; [exact H|reflexivity].
Qed.

Lemma step_add_att strict s g d a s' r : inv strict s g d -> edit_ok (EAddAtt a) -> ed_add_att strict s a = (s', r) ->
  f_size (ed_f s) <= f_size (ed_f s') < 2 ^ 63 -> good_step strict s g d (EAddAtt a) s' r.
Proof.
  intros I [Hok Hd] E Hsz. change (att_ok a) in Hok. unfold ed_add_att in E.
  destruct (i_next _ _ _ _ I) as [n Hn]. rewrite (ensure_ok strict s g n) in E by (auto; lia). cbn [eok] in E.
  change (ed_at (set_nx s n)) with (ed_at s) in E. rewrite (att_dups strict s g d a n I Hok) in E.
  destruct (existsb _ (d_atts d)) eqn:Ed.
  { injection E as <- <-. apply good_refuse; auto. now apply inv_next. cbn [dstep]. now rewrite Ed. }
  destruct Hn as (Hn & Hn1 & Hn2).
  destruct (new_att strict (ed_f s) n a Hok Hd Hn1) as (bss & W & X). rewrite W in E. cbn [fst snd eok] in E.
  injection E as <- <-. flat.
  cbv zeta in X. specialize (X (proj2 Hsz)). destruct X as (X1 & X2 & X3).
  set (x := (ed_atn s, (att_entry_of a n, att_total a - 32, a)) : attx).
  assert (Hseg : mkSg n (att_total a - 32) (OAtt (at_data a)) = att_sg x) by reflexivity.
  rewrite Hseg in X1, X2.
  destruct (store_append strict (ed_f s) (live g) n (contig n bss) (att_sg x) (i_store _ _ _ _ I) Hn2 X2 eq_refl X1) as [S1 S2].
  assert (K : ~ In (ed_atn s) (map fst (g_at g))).
  { destruct (i_atk _ _ _ _ I) as [_ K]. rewrite Forall_forall in K. intros H. apply in_map_iff in H. destruct H as (y & H1 & H2).
    apply K in H2. lia. }
  eexists. split; [|cbn [dstep]; rewrite Ed; cbn [fst snd outcome]; split; [reflexivity|]].
  - cbn [dstep]. rewrite Ed. cbn [fst]. rewrite (i_atn _ _ _ _ I).
    apply (inv_att_set strict s g d I) with (l := g_at g ++ [x]).
    + rewrite (header_write strict _ _ n (s_end (att_sg x))); [apply I|apply I|assumption|assumption].
    + pose proof (i_size _ _ _ _ I). lia.
    + rewrite map_app. cbn [map]. now rewrite (i_at _ _ _ _ I).
    + rewrite map_app. cbn [map]. now rewrite (i_dat _ _ _ _ I).
    + rewrite map_app. cbn [map fst]. apply (Permutation_NoDup (l := fst x :: map fst (g_at g))); [apply Permutation_cons_append|].
      constructor; [exact K|apply I].
    + apply Forall_app. split; [|repeat constructor; cbn [fst x]; lia]. eapply Forall_impl; [|apply (i_atk _ _ _ _ I)]. cbn beta. intros y Hy. lia.
    + apply Forall_app. split; [apply I|]. constructor; [|constructor]. cbn [x att_good]. split; [assumption|]. split; [reflexivity|].
      unfold att_total. destruct (align32_spec (256 + Z.of_nat (length (at_data a)))); lia.
    + apply (store_perm strict _ _ _ (perm_at_end g x)). exact S1.
    + exists (n + att_total a). split; [reflexivity|]. split; [|].
      { apply intact_bounds in X1. cbn [x att_sg s_p s_a att_entry_of ae_pos] in X1. lia. }
      apply (below_perm _ _ _ (perm_at_end g x)). apply (below_weaken (s_end (att_sg x))); [assumption|].
      unfold s_end. cbn [x att_sg s_p s_a att_entry_of ae_pos]. lia.
  - do 3 (split; [auto|]). split; [auto|]. split; [discriminate|]. intros H. split; [exact H|reflexivity].
Qed.

Lemma step_replace strict s g d k a s' r : inv strict s g d -> edit_ok (EReplace k a) -> ed_replace strict s k a = (s', r) ->
  f_size (ed_f s) <= f_size (ed_f s') < 2 ^ 63 -> good_step strict s g d (EReplace k a) s' r.
Proof.
  intros I Hok E Hsz. cbn [edit_ok] in Hok. apply add_ok_of in Hok. destruct Hok as [Hok Hd]. unfold ed_replace in E.
  destruct (split_sb strict s g d I k) as [(l1 & e & al & v & l2 & El & N1 & N2)|[F1 F2]].
  2: { rewrite F1 in E. injection E as <- <-. apply good_refuse; auto. cbn [dstep]. now rewrite F2. }
  destruct (found_sb strict s g d I k al l1 e v l2 El N1 N2) as (F1 & F2 & F3 & F4 & F5 & F6 & F7 & F8 & F9 & F10 & F11 & F12 & P).
  rewrite F1 in E. set (g0 := mkGh (l1 ++ l2) _ _ _ _) in *. set (x := (k, (e, al, v)) : subx) in *.
  pose proof (store_perm strict _ _ _ (Permutation_sym P) (i_store _ _ _ _ I)) as S. pose proof (store_head _ _ _ _ S) as [X _].
  pose proof (i_next _ _ _ _ I) as [n Hn]. pose proof Hn as Hen. apply (next_ok_perm _ _ _ _ _ _ (Permutation_sym P)) in Hn.
  pose proof (intact_bounds _ _ _ X) as (B1 & B2 & B3 & B4). pose proof (intact_read _ _ _ X ltac:(lia)) as R.
  unfold s_end in B4. cbn [x sub_seg s_p s_a s_o rd] in B1, B2, B3, B4, R.
  rewrite (sub_magic strict (ed_f s) (e_pos e) e v R) in E by lia. cbn [eok] in E.
  assert (Eal : alloc_at (ed_f s) (e_pos e) = al) by apply X. rewrite Eal in E. rewrite (u64_id (al + 32)) in E by lia.
  destruct (al + 32 <? sb_used a) eqn:Eu.
  - (* moved *)
    rewrite (ensure_ok strict s g n) in E by (auto; lia). cbn [eok] in E.
    destruct Hn as (_ & Hn1 & Hn2).
    destruct (new_sub strict (ed_f s) n a Hok Hd Hn1) as (bss & W & Y). rewrite W in E. cbn [fst snd eok] in E.
    injection E as <- <-. flat. cbv zeta in Y.
    pose proof (fwrite_size (fwrite (ed_f s) (contig n bss)) [(e_pos e, MAGIC_DELETED)]) as Hsz2.
    specialize (Y ltac:(lia)). destruct Y as (Y1 & Y2 & Y3).
    set (y := (k, (with_pos (entry_of_info a) n, align32 (sb_used a) - 32, expected a)) : subx).
    change (mkSg n (align32 (sb_used a) - 32) (OSub (with_pos (entry_of_info a) n) (expected a))) with (sub_seg y) in Y1, Y2.
    destruct (store_append strict (ed_f s) _ n (contig n bss) (sub_seg y) S Hn2 Y2 eq_refl Y1) as [S1 S2].
    apply (store_perm strict _ _ _ (perm_swap (sub_seg x) (sub_seg y) (live g0))) in S1.
    pose proof (store_head _ _ _ _ S1) as [X1 _].
    pose proof (mark_in strict _ (sub_seg x) X1) as Wm.
    apply (store_drop strict _ _ [(e_pos e, MAGIC_DELETED)] (sub_seg x)) in S1; [|exact Wm].
    set (g2 := mkGh (l1 ++ y :: l2) (g_at g) (g_meta g) (g_dir g) (g_attdir g)).
    assert (P2 : Permutation (sub_seg y :: live g0) (live g2)) by exact (perm_sb g l1 y l2).
    exists g2. cbn [dstep]. rewrite F2. cbn [fst snd outcome]. split.
    + rewrite (i_sbn _ _ _ _ I).
      apply (inv_sub_set strict s g d I) with (l := l1 ++ y :: l2).
      * rewrite (header_write strict _ _ (e_pos e) (s_end (sub_seg x)));
          [|pose proof (fwrite_size (ed_f s) (contig n bss)); pose proof (i_size _ _ _ _ I); lia|exact Wm|lia].
        rewrite (header_write strict _ _ n (s_end (sub_seg y))); [apply I|apply I|assumption|assumption].
      * pose proof (i_size _ _ _ _ I). lia.
      * apply F3.
      * apply (F3 (with_pos (entry_of_info a) n)).
      * apply F7.
      * apply F9.
      * apply F11. cbn [sub_good]. split; [|reflexivity]. apply entry_wf; [assumption|lia].
      * apply (store_perm strict _ _ _ P2). exact S1.
      * exists (n + align32 (sb_used a) + 32). split; [reflexivity|].
        assert (S3 : below (s_end (sub_seg y)) (live g0)) by (unfold below in S2; rewrite !Forall_cons_iff in S2; apply S2).
        apply intact_bounds in Y1. cbn [y sub_seg s_p s_a with_pos e_pos] in Y1. split; [lia|].
        apply (below_perm _ _ _ P2). apply (below_weaken (s_end (sub_seg y))); [|unfold s_end; cbn [y sub_seg s_p s_a with_pos e_pos]; lia].
        constructor; [lia|exact S3].
    + do 4 (split; [reflexivity|]). split; [discriminate|]. split; [auto|]. discriminate.
  - (* in place *)
    rewrite (u64_id al) in E by lia.
    destruct (sub_in strict (ed_f s) (e_pos e) al e v a X ltac:(lia) Hok Hd ltac:(lia)) as (bss & kk & W & Y1 & Y2).
    rewrite W in E. cbn [fst snd eok] in E. injection E as <- <-. flat.
    set (y := (k, (with_pos (entry_of_info a) (e_pos e), al, expected a)) : subx).
    change (mkSg (e_pos e) al (OSub (with_pos (entry_of_info a) (e_pos e)) (expected a))) with (sub_seg y) in Y1.
    change (e_pos e + 32 + al) with (s_end (sub_seg x)) in Y2.
    destruct (store_inplace strict (ed_f s) (live g0) n (contig (e_pos e) bss) (sub_seg x) (sub_seg y) S) as [S1 S2]; try assumption; try reflexivity.
    { apply Hn. }
    set (g2 := mkGh (l1 ++ y :: l2) (g_at g) (g_meta g) (g_dir g) (g_attdir g)).
    assert (P2 : Permutation (sub_seg y :: live g0) (live g2)) by exact (perm_sb g l1 y l2).
    exists g2. cbn [dstep]. rewrite F2. cbn [fst snd outcome]. split.
    + rewrite (i_sbn _ _ _ _ I).
      apply (inv_sub_set strict s g d I) with (l := l1 ++ y :: l2).
      * rewrite (header_write strict _ _ (e_pos e) (s_end (sub_seg x))); [apply I|apply I|assumption|lia].
      * pose proof (i_size _ _ _ _ I). lia.
      * apply F3.
      * apply (F3 (with_pos (entry_of_info a) (e_pos e))).
      * apply F7.
      * apply F9.
      * apply F11. cbn [sub_good]. split; [|reflexivity]. apply entry_wf; [assumption|lia].
      * apply (store_perm strict _ _ _ P2). exact S1.
      * exists n. apply (next_ok_perm _ _ _ _ _ _ P2).
        apply (next_ok_inplace strict (ed_f s) _ _ (sub_seg x)); try assumption; reflexivity.
    + do 4 (split; [reflexivity|]). split; [discriminate|]. split; [auto|]. discriminate.
Qed.

Lemma step_replace_att strict s g d k a s' r : inv strict s g d -> edit_ok (EReplaceAtt k a) -> ed_replace_att strict s k a = (s', r) ->
  (forall v, In (k, v) (d_atts d) -> (length (at_data a) <= length (at_data v))%nat) ->
  f_size (ed_f s) <= f_size (ed_f s') < 2 ^ 63 -> good_step strict s g d (EReplaceAtt k a) s' r.
Proof.
  intros I [Hok Hd] E Hgr Hsz. change (att_ok a) in Hok. unfold ed_replace_att in E.
  destruct (split_at strict s g d I k) as [(l1 & e & al & v & l2 & El & N1 & N2)|[F1 F2]].
  2: { rewrite F1 in E. injection E as <- <-. apply good_refuse; auto. cbn [dstep]. now rewrite F2. }
  destruct (found_at strict s g d I k al l1 e v l2 El N1 N2) as (F1 & F2 & F3 & F4 & F5 & F6 & F7 & F8 & F9 & F10 & F11 & F12 & P).
  rewrite F1 in E. set (g0 := mkGh _ (l1 ++ l2) _ _ _) in *. set (x := (k, (e, al, v)) : attx) in *.
  pose proof (store_perm strict _ _ _ (Permutation_sym P) (i_store _ _ _ _ I)) as S. pose proof (store_head _ _ _ _ S) as [X _].
  pose proof (i_next _ _ _ _ I) as [n Hn]. apply (next_ok_perm _ _ _ _ _ _ (Permutation_sym P)) in Hn.
  pose proof (intact_bounds _ _ _ X) as (B1 & B2 & B3 & B4). pose proof (intact_read _ _ _ X ltac:(lia)) as R.
  unfold s_end in B4. cbn [x att_sg s_p s_a s_o rd] in B1, B2, B3, B4, R.
  rewrite (att_magic strict (ed_f s) (ae_pos e) _ R) in E by lia. cbn [eok] in E.
  assert (Eal : alloc_at (ed_f s) (ae_pos e) = al) by apply X. rewrite Eal in E. rewrite (u64_id al) in E by lia.
  cbn [x att_good] in F12. destruct F12 as (_ & _ & Hroom).
  assert (Hlen : (length (at_data a) <= length (at_data v))%nat).
  { apply Hgr. unfold lookup in F2. apply find_some in F2. apply F2. }
  replace (al <? 256 + Z.of_nat (length (at_data a))) with false in E by lia.
  destruct (att_in strict (ed_f s) (ae_pos e) al (at_data v) a X ltac:(lia) Hok Hd ltac:(lia)) as (bss & kk & W & Y1 & Y2).
  rewrite W in E. cbn [fst snd eok] in E. injection E as <- <-. flat.
  set (y := (k, (att_entry_of a (ae_pos e), al, a)) : attx).
  change (mkSg (ae_pos e) al (OAtt (at_data a))) with (att_sg y) in Y1.
  change (ae_pos e + 32 + al) with (s_end (att_sg x)) in Y2.
  destruct (store_inplace strict (ed_f s) (live g0) n (contig (ae_pos e) bss) (att_sg x) (att_sg y) S) as [S1 S2]; try assumption; try reflexivity.
  { apply Hn. }
  set (g2 := mkGh (g_sb g) (l1 ++ y :: l2) (g_meta g) (g_dir g) (g_attdir g)).
  assert (P2 : Permutation (att_sg y :: live g0) (live g2)) by exact (perm_at g l1 y l2).
  exists g2. cbn [dstep]. rewrite F2. cbn [fst snd outcome]. split.
  - rewrite (i_atn _ _ _ _ I).
    apply (inv_att_set strict s g d I) with (l := l1 ++ y :: l2).
    + rewrite (header_write strict _ _ (ae_pos e) (s_end (att_sg x))); [apply I|apply I|assumption|lia].
    + pose proof (i_size _ _ _ _ I). lia.
    + apply F3.
    + apply (F3 (att_entry_of a (ae_pos e))).
    + apply F7.
    + apply F9.
    + apply F11. cbn [att_good]. split; [assumption|]. split; [reflexivity|lia].
    + apply (store_perm strict _ _ _ P2). exact S1.
    + exists n. apply (next_ok_perm _ _ _ _ _ _ P2).
      apply (next_ok_inplace strict (ed_f s) _ _ (att_sg x)); try assumption; reflexivity.
  - do 4 (split; [reflexivity|]). split; [auto|]. split; [discriminate|]. intros H. split; [exact H|reflexivity].
Qed.

(** What the function choosing the place for a segment leaves behind, before
    the segment is written. *)
Lemma placed_store {X} strict f (mk : X -> obj) (old : option (Z * Z * X)) L n need alloc0 ms p al :
  store strict f (opt_list (option_map (sp_seg mk) old) ++ L) -> below n (opt_list (option_map (sp_seg mk) old) ++ L) -> 544 <= n ->
  placed (option_map sp_info old) n need alloc0 ms p al ->
  (exists x0, old = Some (p, al, x0) /\ ms = [] /\ need <= al /\ p <> n)
  \/ (p = n /\ al = alloc0 /\ store strict (fwrite f ms) L /\ below n L /\ ws_in 544 (f_size f) ms
      /\ match old with Some o => snd (fst o) < need | None => True end).
Proof.
  intros S B Hn [(g & Eg & -> & -> & -> & Hne)|(-> & -> & Hm & Hl)].
  - left. destruct old as [((p0 & a0) & x0)|]; [|discriminate]. cbn [option_map] in Eg. injection Eg as <-. cbn [sp_info sg_pos sg_alloc fst snd].
    exists x0. do 3 (split; [auto|]).
    cbn [option_map opt_list app] in *. apply store_head in S. destruct S as [I _]. apply intact_bounds in I. inversion B; subst.
    unfold s_end, sp_seg in *. cbn [s_p s_a fst snd] in *. lia.
  - right. do 2 (split; [reflexivity|]). unfold below in *. rewrite Forall_app in B.
    assert (Hl2 : match old with Some o => snd (fst o) < need | None => True end) by (destruct old as [((p0 & a0) & x0)|]; exact Hl).
    destruct Hm as [->|(g & Eg & _ & ->)].
    + split; [|split; [apply B|split; [constructor|assumption]]]. apply store_app_tail in S. apply store_write; [assumption|].
      apply Forall_forall. intros y _. constructor.
    + destruct old as [((p0 & a0) & x0)|]; [|discriminate]. cbn [option_map] in Eg. injection Eg as <-. cbn [option_map opt_list app] in *.
      pose proof (store_head _ _ _ _ S) as [I _]. pose proof (mark_in strict f _ I) as W. cbn [sp_info sg_pos fst snd].
      change p0 with (s_p (sp_seg mk (p0, a0, x0))).
      split; [apply (store_drop strict f L _ _ S W)|]. split; [apply B|]. split; [|assumption].
      apply intact_bounds in I. apply (ws_in_weaken _ _ 544 (f_size f) _ W); lia.
Qed.

Lemma alloc_ok_of {X} strict f (mk : X -> obj) (old : option (Z * Z * X)) L :
  store strict f (opt_list (option_map (sp_seg mk) old) ++ L) -> f_size f < 2 ^ 63 -> seg_alloc_ok (option_map sp_info old).
Proof.
  intros S Hs. destruct old as [((p0 & a0) & x0)|]; [|exact I]. cbn [option_map opt_list app] in S. apply store_head in S. destruct S as [J _].
  apply intact_bounds in J. unfold s_end, sp_seg in J. cbn [s_p s_a fst snd] in J. cbn [option_map sp_info seg_alloc_ok sg_alloc fst snd]. lia.
Qed.

Lemma step_meta strict s g d xml att s' r : inv strict s g d -> edit_ok (EMeta xml att) -> ed_write_meta strict s xml att = (s', r) ->
  f_size (ed_f s) <= f_size (ed_f s') < 2 ^ 63 -> good_step strict s g d (EMeta xml att) s' r.
Proof.
  intros I [Hx Ha] E Hsz. unfold ed_write_meta in E. destruct (i_next _ _ _ _ I) as [n Hn].
  rewrite (ensure_ok strict s g n) in E by (auto; lia). cbn [eok] in E. change (ed_meta (set_nx s n)) with (ed_meta s) in E.
  set (g0 := mkGh (g_sb g) (g_at g) None (g_dir g) (g_attdir g)).
  assert (P : Permutation (opt_list (option_map (sp_seg OMeta) (g_meta g)) ++ live g0) (live g)) by exact (perm_meta g (g_meta g)).
  pose proof (store_perm strict _ _ _ (Permutation_sym P) (i_store _ _ _ _ I)) as S.
  apply (next_ok_perm _ _ _ _ _ _ (Permutation_sym P)) in Hn. rewrite (i_meta _ _ _ _ I) in E.
  destruct (write_metadata_spec (option_map sp_info (g_meta g)) n xml att) as (ms & p & al & bss & z & W & Pl & C & Hz & Hf & Hz2).
  { apply (alloc_ok_of strict (ed_f s) OMeta _ (live g0)); [assumption|lia]. }
  { unfold INT_MAX in *. lia. }
  rewrite W in E. cbn [fst snd eok] in E. pose proof Hn as (_ & Hn1 & Hn2).
  assert (Lb : Z.of_nat (length (meta_bytes al xml att)) = 32 + meta_used xml att) by apply meta_bytes_length.
  assert (Hu : 256 <= meta_used xml att) by (unfold meta_used; lia).
  set (y := (p, al, (xml, att)) : Z * Z * (bytes * bytes)).
  assert (P2 : Permutation (sp_seg OMeta y :: live g0) (live (mkGh (g_sb g) (g_at g) (Some y) (g_dir g) (g_attdir g)))) by exact (perm_meta g (Some y)).
  assert (Hsz' : f_size (fwrite (ed_f s) (ms ++ contig p bss)) < 2 ^ 63).
  { destruct (p =? n); injection E as <- <-; flat; lia. }
  destruct (placed_store strict (ed_f s) OMeta (g_meta g) (live g0) n _ _ ms p al S Hn2 Hn1 Pl) as [(x0 & Eg & -> & Hne & Hpn)|(-> & -> & S1 & B1 & Wm & _)].
  - replace (p =? n) with false in E by lia. injection E as <- <-. flat. cbn [app] in *.
    rewrite Eg in S, Hn2, Hn. cbn [option_map opt_list app] in S, Hn2, Hn. pose proof (store_head _ _ _ _ S) as [X _].
    pose proof (intact_bounds _ _ _ X) as (Q1 & Q2 & Q3 & Q4). unfold s_end, sp_seg in Q1, Q2, Q3, Q4. cbn [s_p s_a fst snd] in Q1, Q2, Q3, Q4.
    destruct (intact_written strict (ed_f s) p al (OMeta (xml, att)) bss (meta_bytes al xml att) z) as [Y Wi]; try assumption; try lia.
    + reflexivity.
    + intros f' Hh Hs'. exact (read_metadata_ok strict f' p al xml att Hx Ha Hs' Hh).
    + change (mkSg p al (OMeta (xml, att))) with (sp_seg OMeta y) in Y.
      destruct (store_inplace strict (ed_f s) (live g0) n (contig p bss) (sp_seg OMeta (p, al, x0)) (sp_seg OMeta y) S) as [S1 S2];
        try assumption; try reflexivity.
      eexists. cbn [dstep fst snd outcome]. split; [|split; [reflexivity|]].
      * replace (ed_meta s) with (Some (sp_info y)) by (rewrite (i_meta _ _ _ _ I), Eg; reflexivity).
        apply (inv_meta_set strict s g d I).
        -- rewrite (header_write strict _ _ p (p + 32 + al)); [apply I|apply I|assumption|assumption].
        -- pose proof (i_size _ _ _ _ I). lia.
        -- apply (store_perm strict _ _ _ P2). exact S1.
        -- exists n. split; [reflexivity|]. split; [assumption|]. apply (below_perm _ _ _ P2). exact S2.
      * do 3 (split; [reflexivity|]). split; [auto|]. split; [auto|]. intros H. split; [exact H|reflexivity].
  - rewrite Z.eqb_refl in E. injection E as <- <-. flat. rewrite <- fwrite_fwrite in *.
    destruct (align32_spec (meta_used xml att)) as [A1 A2]; [lia|].
    assert (Ez : z = align32 (meta_used xml att) - meta_used xml att) by (apply Hz2; lia).
    destruct (holds_written (fwrite (ed_f s) ms) n bss _ _ ltac:(lia) C) as [_ Hend]; [lia|].
    assert (Lc : Z.of_nat (length (concat bss)) = 32 + align32 (meta_used xml att)).
    { rewrite C, app_length, Nat2Z.inj_add, zeros_length, Lb by lia. lia. }
    destruct (intact_written strict (fwrite (ed_f s) ms) n (align32 (meta_used xml att)) (OMeta (xml, att)) bss
                (meta_bytes (align32 (meta_used xml att)) xml att) z) as [Y Wi]; try assumption; try lia.
    + reflexivity.
    + intros f' Hh Hs'. exact (read_metadata_ok strict f' n _ xml att Hx Ha Hs' Hh).
    + change (mkSg n (align32 (meta_used xml att)) (OMeta (xml, att))) with (sp_seg OMeta y) in Y.
      destruct (store_append strict (fwrite (ed_f s) ms) (live g0) n (contig n bss) (sp_seg OMeta y) S1 B1 Wi eq_refl Y) as [S2 S3].
      eexists. cbn [dstep fst snd outcome]. split; [|split; [reflexivity|]].
      * apply (inv_meta_set strict s g d I) with (m := y).
        -- rewrite (header_write strict _ _ n (n + 32 + align32 (meta_used xml att)));
             [|pose proof (fwrite_size (ed_f s) ms); pose proof (i_size _ _ _ _ I); lia|assumption|assumption].
           rewrite (header_write strict _ _ 544 (f_size (ed_f s))); [apply I|apply I|assumption|lia].
        -- pose proof (i_size _ _ _ _ I). lia.
        -- apply (store_perm strict _ _ _ P2). exact S2.
        -- exists (n + align32 (meta_used xml att) + 32). split; [reflexivity|]. split; [lia|]. apply (below_perm _ _ _ P2).
           apply (below_weaken (s_end (sp_seg OMeta y))); [exact S3|]. unfold s_end, sp_seg, y. cbn [s_p s_a fst snd]. lia.
      * do 3 (split; [reflexivity|]). split; [auto|]. split; [auto|]. intros H. split; [exact H|reflexivity].
Qed.
