(** The state of the in-place editor, and what every call does to it. *)
From Coq Require Import Permutation.
From Verif Require Import Base StatModel StatSpec StatProofs DirProofs CodecModel MemProofs CodecProofs WriterModel WriterProofs WriterSpec ReadProofs WriterInv WriterFin WriterOpen WriterMain
  EditModel EditSpec EditSeg EditStore.

(** ** Lists with keys *)
Lemma split_key {A} k (l : list (Z * A)) : NoDup (map fst l) ->
  (exists l1 a l2, l = l1 ++ (k, a) :: l2 /\ ~ In k (map fst l1) /\ ~ In k (map fst l2)) \/ ~ In k (map fst l).
Proof.
  intros N. destruct (in_dec Z.eq_dec k (map fst l)) as [H|H]; [left|now right].
  apply in_map_iff in H. destruct H as ((j & a) & E & H). cbn [fst] in E. subst j. apply in_split in H.
  destruct H as (l1 & l2 & ->). exists l1, a, l2. split; [reflexivity|]. rewrite map_app in N. cbn [map fst] in N.
  apply NoDup_remove_2 in N. rewrite in_app_iff in N. tauto.
Qed.

Section Split.
  Context {A : Type} (k : Z) (l1 l2 : list (Z * A)) (a b : A).
  Hypothesis (N1 : ~ In k (map fst l1)) (N2 : ~ In k (map fst l2)).
  Lemma afind_split : afind k (l1 ++ (k, a) :: l2) = Some a.
  Proof.
    clear N2. induction l1 as [|[j c] l IH]; cbn [app afind]; [now rewrite Z.eqb_refl|].
    cbn [map fst In] in N1. replace (j =? k) with false by (symmetry; apply Z.eqb_neq; tauto). apply IH. tauto.
  Qed.
  Lemma aset_split : aset k b (l1 ++ (k, a) :: l2) = l1 ++ (k, b) :: l2.
  Proof.
    clear N2. induction l1 as [|[j c] l IH]; cbn [app aset]; [now rewrite Z.eqb_refl|].
    cbn [map fst In] in N1. replace (j =? k) with false by (symmetry; apply Z.eqb_neq; tauto). f_equal. apply IH. tauto.
  Qed.
  Lemma aerase_split : aerase k (l1 ++ (k, a) :: l2) = l1 ++ l2.
  Proof.
    clear N2. induction l1 as [|[j c] l IH]; cbn [app aerase]; [now rewrite Z.eqb_refl|].
    cbn [map fst In] in N1. replace (j =? k) with false by (symmetry; apply Z.eqb_neq; tauto). f_equal. apply IH. tauto.
  Qed.
  Lemma lookup_split : lookup k (l1 ++ (k, a) :: l2) = Some (k, a).
  Proof.
    clear N2. unfold lookup. induction l1 as [|[j c] l IH]; cbn [app find fst]; [now rewrite Z.eqb_refl|].
    cbn [map fst In] in N1. replace (j =? k) with false by (symmetry; apply Z.eqb_neq; tauto). apply IH. tauto.
  Qed.
  Lemma assign_out (l : list (Z * A)) : ~ In k (map fst l) -> assign k b l = l.
  Proof.
    induction l as [|[j c] l IH]; cbn [assign map fst In]; [reflexivity|]. intros H.
    replace (j =? k) with false by (symmetry; apply Z.eqb_neq; tauto). f_equal. apply IH. tauto.
  Qed.
  Lemma assign_split : assign k b (l1 ++ (k, a) :: l2) = l1 ++ (k, b) :: l2.
  Proof.
    unfold assign. rewrite map_app. cbn [map fst]. rewrite Z.eqb_refl.
    change (map (fun x => if fst x =? k then (k, b) else x) l1) with (assign k b l1).
    change (map (fun x => if fst x =? k then (k, b) else x) l2) with (assign k b l2). now rewrite !assign_out.
  Qed.
  Lemma discard_out (l : list (Z * A)) : ~ In k (map fst l) -> discard k l = l.
  Proof.
    unfold discard. induction l as [|[j c] l IH]; cbn [filter map fst In]; [reflexivity|]. intros H.
    replace (j =? k) with false by (symmetry; apply Z.eqb_neq; tauto). cbn [negb]. f_equal. apply IH. tauto.
  Qed.
  Lemma discard_split : discard k (l1 ++ (k, a) :: l2) = l1 ++ l2.
  Proof.
    unfold discard. rewrite filter_app. cbn [filter fst]. rewrite Z.eqb_refl. cbn [negb].
    change (filter (fun x => negb (fst x =? k)) l1) with (discard k l1).
    change (filter (fun x => negb (fst x =? k)) l2) with (discard k l2). now rewrite !discard_out.
  Qed.
End Split.

Lemma lookup_none {A} k (l : list (Z * A)) : ~ In k (map fst l) -> lookup k l = None.
Proof.
  unfold lookup. induction l as [|[j c] l IH]; cbn [find map fst In]; [reflexivity|]. intros H.
  replace (j =? k) with false by (symmetry; apply Z.eqb_neq; tauto). apply IH. tauto.
Qed.

(** ** The invariant *)
Definition subx := (Z * (sbe * Z * observed))%type.
Definition attx := (Z * (attentry * Z * attinfo))%type.
Definition sub_key (x : subx) : Z * sbe := (fst x, fst (fst (snd x))).
Definition sub_val (x : subx) : Z * observed := (fst x, snd (snd x)).
Definition sub_seg (x : subx) : sg := let '(_, (e, al, v)) := x in mkSg (e_pos e) al (OSub e v).
Definition att_key (x : attx) : Z * attentry := (fst x, fst (fst (snd x))).
Definition att_val (x : attx) : Z * attinfo := (fst x, snd (snd x)).
Definition att_sg (x : attx) : sg := let '(_, (e, al, v)) := x in mkSg (ae_pos e) al (OAtt (at_data v)).
Definition sub_good (x : subx) : Prop := let '(_, (e, al, v)) := x in sbe_wf e /\ ob_entry v = with_pos e 0.
Definition att_good (x : attx) : Prop :=
  let '(_, (e, al, v)) := x in
  att_ok v /\ e = mkAttEntry (at_guid v) (at_type v) (at_name v) (ae_pos e) /\ 256 + Z.of_nat (length (at_data v)) <= al.

Record gh := mkGh {
  g_sb : list subx; g_at : list attx;
  g_meta : option (Z * Z * (bytes * bytes)); g_dir : option (Z * Z * list sbe); g_attdir : option (Z * Z * list attentry) }.

Definition sp_seg {X} (mk : X -> obj) (x : Z * Z * X) : sg := mkSg (fst (fst x)) (snd (fst x)) (mk (snd x)).
Definition sp_info {X} (x : Z * Z * X) : seginfo := mkSeg (fst (fst x)) (snd (fst x)) false.
Definition live (g : gh) : list sg :=
  map sub_seg (g_sb g) ++ map att_sg (g_at g)
  ++ opt_list (option_map (sp_seg OMeta) (g_meta g)) ++ opt_list (option_map (sp_seg ODir) (g_dir g))
  ++ opt_list (option_map (sp_seg OAttDir) (g_attdir g)).

(** [n] is where the next segment goes. *)
Definition next_ok (f : file) (last : Z) (nxt : option Z) (L : list sg) (n : Z) : Prop :=
  match nxt with
  | Some m => n = m
  | None => n = alloc_at f last + 32 + last /\ 0 <= last /\ last + 32 <= f_size f /\ n <= f_size f
            /\ Forall (fun x => s_p x = last \/ s_end x <= last) L
  end /\ 544 <= n /\ below n L.
Definition next_is (s : ed) (g : gh) (n : Z) : Prop := next_ok (ed_f s) (ed_last s) (ed_next s) (live g) n.

Record inv (strict : bool) (s : ed) (g : gh) (d : doc) : Prop := mkInv {
  i_hdr : read_file_header strict (ed_f s) = Ok (ed_hdr s);
  i_size : 544 <= f_size (ed_f s);
  i_sb : ed_sb s = map sub_key (g_sb g);
  i_dsb : d_subs d = map sub_val (g_sb g);
  i_sbn : d_subn d = ed_sbn s;
  i_sbk : NoDup (map fst (g_sb g)) /\ Forall (fun x => fst x < ed_sbn s) (g_sb g);
  i_sbg : Forall sub_good (g_sb g);
  i_at : ed_at s = map att_key (g_at g);
  i_dat : d_atts d = map att_val (g_at g);
  i_atn : d_attn d = ed_atn s;
  i_atk : NoDup (map fst (g_at g)) /\ Forall (fun x => fst x < ed_atn s) (g_at g);
  i_atg : Forall att_good (g_at g);
  i_meta : ed_meta s = option_map sp_info (g_meta g);
  i_dmeta : d_meta d = option_map snd (g_meta g);
  i_sbdir : ed_sbdir s = option_map sp_info (g_dir g);
  i_attdir : ed_attdir s = option_map sp_info (g_attdir g);
  i_store : store strict (ed_f s) (live g);
  i_next : exists n, next_is s g n;
  i_smod : ed_smod s = false -> seg_pos (ed_sbdir s) = fh_dir (ed_hdr s)
           /\ match g_dir g with Some x => snd x = map snd (ed_sb s) | None => ed_sb s = [] end;
  i_amod : ed_amod s = false -> seg_pos (ed_attdir s) = fh_att (ed_hdr s)
           /\ match g_attdir g with Some x => snd x = map snd (ed_at s) | None => ed_at s = [] end
           /\ Forall (fun e => ae_norm e = e) (map snd (ed_at s)) }.

Lemma header_frame strict f g : f_size f <= f_size g -> 544 <= f_size f -> (forall i, 0 <= i < 544 -> f_mem g i = f_mem f i) ->
  read_file_header strict g = read_file_header strict f.
Proof.
  intros Hs Hf Hm. unfold read_file_header, read_exact, read_into, avail.
  replace (f_size g <=? 0) with false by lia. replace (f_size f <=? 0) with false by lia.
  replace (Z.min 544 (f_size g - 0)) with 544 by lia. replace (Z.min 544 (f_size f - 0)) with 544 by lia.
  change (544 <? 544) with false. change (544 =? 544) with true. cbv iota.
  replace (mread (f_mem g) 0 (Z.to_nat 544)) with (mread (f_mem f) 0 (Z.to_nat 544)); [reflexivity|].
  apply mread_same. intros i Hi. symmetry. apply Hm. lia.
Qed.

Lemma header_write strict f ws lo hi : 544 <= f_size f -> ws_in lo hi ws -> 544 <= lo ->
  read_file_header strict (fwrite f ws) = read_file_header strict f.
Proof.
  intros Hf Hw Hlo. apply header_frame; [apply fwrite_size|assumption|]. intros i Hi. rewrite fwrite_mem.
  apply (ws_in_out lo hi); [assumption|lia].
Qed.

Lemma read_seg_any_ok strict f p : 0 <= p -> p + 32 <= f_size f -> read_seg_any strict f p = Ok (alloc_at f p).
Proof.
  intros Hp Hs. unfold read_seg_any.
  assert (Hh : holds f p (mread (f_mem f) p 32)).
  { split; [assumption|]. rewrite mread_length. split; [lia|reflexivity]. }
  rewrite (read_exact_all strict f p _ 32 Hh) by (rewrite mread_length; lia). cbn [bind]. unfold alloc_at. do 3 f_equal.
  symmetry. replace (p + 16) with (p + Z.of_nat 16) by lia. apply mread_slice; [now rewrite mread_length|rewrite mread_length; lia].
Qed.

Lemma ensure_ok strict s g n : f_size (ed_f s) < 2 ^ 63 -> next_is s g n -> ensure_next strict s = Ok n.
Proof.
  intros Hs (H & Hn & _). unfold ensure_next. destruct (ed_next s) as [m|]; [now subst|].
  destruct H as (-> & H1 & H2 & H3 & _). rewrite read_seg_any_ok by assumption. cbn [bind]. f_equal. apply u64_id. lia.
Qed.

Lemma next_set s g n : next_is s g n -> next_is (set_nx s n) g n.
Proof. intros (_ & H1 & H2). split; [reflexivity|]. split; assumption. Qed.

Lemma inv_next strict s g d n : inv strict s g d -> next_is s g n -> inv strict (set_nx s n) g d.
Proof. intros [] Hn. constructor; try assumption. exists n. now apply next_set with (s := s). Qed.

(** ** Permutations of the live segments *)
Lemma perm_sb_end g x : Permutation (sub_seg x :: live g)
  (live (mkGh (g_sb g ++ [x]) (g_at g) (g_meta g) (g_dir g) (g_attdir g))).
Proof.
  unfold live. cbn [g_sb g_at g_meta g_dir g_attdir]. rewrite map_app, <- app_assoc. cbn [map app]. apply Permutation_middle.
Qed.
Lemma perm_sb g l1 x l2 : Permutation (sub_seg x :: live (mkGh (l1 ++ l2) (g_at g) (g_meta g) (g_dir g) (g_attdir g)))
  (live (mkGh (l1 ++ x :: l2) (g_at g) (g_meta g) (g_dir g) (g_attdir g))).
Proof.
  unfold live. cbn [g_sb g_at g_meta g_dir g_attdir]. rewrite !map_app, <- !app_assoc. cbn [map app]. apply Permutation_middle.
Qed.
Lemma perm_at_end g x : Permutation (att_sg x :: live g)
  (live (mkGh (g_sb g) (g_at g ++ [x]) (g_meta g) (g_dir g) (g_attdir g))).
Proof.
  unfold live. cbn [g_sb g_at g_meta g_dir g_attdir]. rewrite map_app, <- app_assoc. cbn [map app].
  rewrite (app_assoc (map sub_seg (g_sb g)) (map att_sg (g_at g))).
  rewrite (app_assoc (map sub_seg (g_sb g)) (map att_sg (g_at g)) (att_sg x :: _)). apply Permutation_middle.
Qed.
Lemma perm_at g l1 x l2 : Permutation (att_sg x :: live (mkGh (g_sb g) (l1 ++ l2) (g_meta g) (g_dir g) (g_attdir g)))
  (live (mkGh (g_sb g) (l1 ++ x :: l2) (g_meta g) (g_dir g) (g_attdir g))).
Proof.
  unfold live. cbn [g_sb g_at g_meta g_dir g_attdir]. rewrite !map_app, <- !app_assoc. cbn [map app].
  rewrite (app_assoc (map sub_seg (g_sb g)) (map att_sg l1)).
  rewrite (app_assoc (map sub_seg (g_sb g)) (map att_sg l1) (att_sg x :: _)). apply Permutation_middle.
Qed.
Lemma perm_meta g x : Permutation (opt_list (option_map (sp_seg OMeta) x) ++ live (mkGh (g_sb g) (g_at g) None (g_dir g) (g_attdir g)))
  (live (mkGh (g_sb g) (g_at g) x (g_dir g) (g_attdir g))).
Proof.
  unfold live. cbn [g_sb g_at g_meta g_dir g_attdir option_map opt_list app]. rewrite !app_assoc.
  rewrite <- (app_assoc _ (opt_list (option_map (sp_seg ODir) (g_dir g)))).
  rewrite <- (app_assoc _ (opt_list (option_map (sp_seg ODir) (g_dir g)))). apply Permutation_app_tail.
  rewrite <- app_assoc. apply Permutation_app_comm.
Qed.
Lemma perm_dir g x : Permutation (opt_list (option_map (sp_seg ODir) x) ++ live (mkGh (g_sb g) (g_at g) (g_meta g) None (g_attdir g)))
  (live (mkGh (g_sb g) (g_at g) (g_meta g) x (g_attdir g))).
Proof.
  unfold live. cbn [g_sb g_at g_meta g_dir g_attdir option_map opt_list app]. rewrite !app_assoc. apply Permutation_app_tail.
  rewrite <- !app_assoc. apply (Permutation_trans (Permutation_app_comm _ _)). rewrite <- !app_assoc. reflexivity.
Qed.
Lemma perm_attdir g x : Permutation (opt_list (option_map (sp_seg OAttDir) x) ++ live (mkGh (g_sb g) (g_at g) (g_meta g) (g_dir g) None))
  (live (mkGh (g_sb g) (g_at g) (g_meta g) (g_dir g) x)).
Proof.
  unfold live. cbn [g_sb g_at g_meta g_dir g_attdir option_map opt_list app]. rewrite app_nil_r.
  apply (Permutation_trans (Permutation_app_comm _ _)). rewrite <- !app_assoc. reflexivity.
Qed.

(** ** What writing does to the place of the next segment *)
Lemma fwrite_fwrite f a b : fwrite (fwrite f a) b = fwrite f (a ++ b).
Proof. destruct (fwrite_app f a b) as [H1 H2]. unfold fwrite in *. cbn [f_mem f_size] in *. congruence. Qed.

Lemma next_ok_perm f last nxt L L' n : Permutation L L' -> next_ok f last nxt L n -> next_ok f last nxt L' n.
Proof.
  intros P (H & Hn & Hb). split; [|split; [assumption|eapply Permutation_Forall; eauto]].
  destruct nxt; [assumption|]. destruct H as (H1 & H2 & H3 & H4 & H5). repeat split; try assumption. eapply Permutation_Forall; eauto.
Qed.

Lemma next_ok_mark strict f last nxt x L n : next_ok f last nxt (x :: L) n -> intact strict f x ->
  next_ok (fwrite f [(s_p x, MAGIC_DELETED)]) last nxt L n.
Proof.
  intros (H & Hn & Hb) Hx. inversion Hb; subst. split; [|split; assumption]. destruct nxt as [m|]; [assumption|].
  destruct H as (H1 & H4 & H5 & H6 & H7). inversion H7; subst. pose proof (fwrite_size f [(s_p x, MAGIC_DELETED)]).
  pose proof (intact_bounds _ _ _ Hx) as (B1 & B2 & B3 & B4).
  repeat split; try assumption; try lia. do 2 f_equal. unfold alloc_at. do 2 f_equal. apply mread_same. intros i Hi.
  rewrite fwrite_mem. symmetry. apply (ws_in_out (s_p x) (s_p x + 16)).
  - constructor; [|constructor]. cbn [fst snd]. change (Z.of_nat (length MAGIC_DELETED)) with 16. lia.
  - unfold s_end in *. lia.
Qed.

Lemma next_ok_inplace strict f last nxt x y L n ws : next_ok f last nxt (x :: L) n -> intact strict f x ->
  ws_in (s_p x) (s_end x) ws -> s_p y = s_p x -> s_a y = s_a x -> intact strict (fwrite f ws) y ->
  next_ok (fwrite f ws) last nxt (y :: L) n.
Proof.
  intros (H & Hn & Hb) Hx Hw Ep Ea Hy. inversion Hb; subst. assert (Ee : s_end y = s_end x) by (unfold s_end; lia).
  split; [|split; [assumption|constructor; [lia|assumption]]]. destruct nxt as [m|]; [assumption|].
  destruct H as (H1 & H4 & H5 & H6 & H7). inversion H7; subst. pose proof (fwrite_size f ws).
  pose proof (intact_bounds _ _ _ Hx) as (B1 & B2 & B3 & B4).
  repeat split; try assumption; try lia.
  - do 2 f_equal. destruct (Z.eq_dec (s_p x) last) as [El|El].
    + destruct Hx as [Hx _], Hy as [Hy _]. rewrite <- El at 1 2. rewrite <- Ep at 2. congruence.
    + unfold alloc_at. do 2 f_equal. apply mread_same. intros i Hi. rewrite fwrite_mem. symmetry.
      apply (ws_in_out (s_p x) (s_end x)); [assumption|]. lia.
  - constructor; [|assumption]. lia.
Qed.

Lemma next_ok_some f g last last' nxt L n : next_ok f last nxt L n -> next_ok g last' (Some n) L n.
Proof. intros (_ & H1 & H2). split; [reflexivity|]. split; assumption. Qed.
