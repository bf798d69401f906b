(** Invariants of the append-only writer: regions, protection, memory. *)
From Coq Require Import Permutation.
From Verif Require Import Base CodecModel MemProofs CodecProofs WriterModel WriterProofs ReadProofs.

(** ** Segments which may be rewritten *)

Definition placed (existing : option seginfo) (next need alloc0 : Z) (mk : list wr) (p al : Z) : Prop :=
  (exists g, existing = Some g /\ p = sg_pos g /\ al = sg_alloc g /\ mk = [] /\ need <= al)
  \/ (p = next /\ al = alloc0 /\
      (mk = [] \/ exists g, existing = Some g /\ sg_deleted g = false /\ mk = [(sg_pos g, MAGIC_DELETED)])
      /\ match existing with Some g => sg_alloc g < need | None => True end).

Lemma place_spec existing next need alloc0 : 0 < need ->
  exists mk p al, place existing next need alloc0 = (mk, Ok (p, al)) /\ placed existing next need alloc0 mk p al.
Proof.
  intros Hn. unfold place. destruct existing as [g|].
  - destruct (need <=? sg_alloc g) eqn:E.
    + exists [], (sg_pos g), (sg_alloc g). split; [reflexivity|]. left. exists g. repeat split; lia.
    + destruct ((0 <? sg_alloc g) && (0 <? sg_pos g) && negb (sg_deleted g)) eqn:E2.
      * exists [(sg_pos g, MAGIC_DELETED)], next, alloc0. split; [reflexivity|]. right. repeat split; [|lia]. right. exists g.
        repeat split. destruct (sg_deleted g); [|reflexivity]. rewrite andb_false_r in E2. discriminate.
      * exists [], next, alloc0. split; [reflexivity|]. right. repeat split; [now left|lia].
  - replace (need <=? 0) with false by lia. cbn [andb Z.ltb Z.compare].
    exists [], next, alloc0. split; [reflexivity|]. right. repeat split. now left.
Qed.

Definition seg_alloc_ok (existing : option seginfo) : Prop :=
  match existing with Some g => 0 < sg_alloc g < 2 ^ 63 | None => True end.

(** Padding as done by the three writers of rewritable segments. *)
Lemma pad_spec pos n total : total - n < 2 ^ 64 - 4096 ->
  exists bss z, (if n <? total then write_zeroes (pos + n) (total - n) else wret 0) = (contig (pos + n) bss, Ok z)
    /\ concat bss = zeros z /\ 0 <= z /\ n + z <= Z.max n total /\ (total - n <= 4096 -> n + z = Z.max n total).
Proof.
  intros Ht. destruct (n <? total) eqn:E.
  - destruct (write_zeroes_spec (pos + n) (total - n)) as (bss & H1 & H2 & H3); [lia|].
    exists bss, (zero_total 0 (total - n)). rewrite H1. repeat split; try assumption; try lia.
    intros Hs. unfold zero_total. replace ((0 =? 0) && (total - n <=? 4096)) with true by lia. lia.
  - exists [], 0. repeat split; lia.
Qed.

Definition meta_used (xml att : bytes) : Z := 256 + (Z.of_nat (length xml) + Z.of_nat (length att)).
Definition meta_bytes (alloc : Z) (xml att : bytes) : bytes :=
  (seg_header MAGIC_META alloc (meta_used xml att) ++ le 4 (Z.of_nat (length xml)) ++ le 4 (Z.of_nat (length att)) ++ zeros 248)
  ++ xml ++ att.

Lemma meta_head_length alloc xml att :
  length (seg_header MAGIC_META alloc (meta_used xml att) ++ le 4 (Z.of_nat (length xml)) ++ le 4 (Z.of_nat (length att)) ++ zeros 248)
  = 288%nat.
Proof. reflexivity. Qed.

Lemma meta_bytes_length alloc xml att : Z.of_nat (length (meta_bytes alloc xml att)) = 32 + meta_used xml att.
Proof. unfold meta_bytes. rewrite app_length, meta_head_length, app_length. unfold meta_used. lia. Qed.

Lemma align32_pos n : 0 < n -> 0 < align32 n.
Proof. unfold align32. lia. Qed.

Lemma write_metadata_spec existing next xml att :
  seg_alloc_ok existing -> Z.of_nat (length xml) + Z.of_nat (length att) < 2 ^ 62 ->
  exists mk p al bss z,
    write_metadata existing next xml att = (mk ++ contig p bss, Ok (p, al))
    /\ placed existing next (align32 (meta_used xml att)) (align32 (meta_used xml att)) mk p al
    /\ concat bss = meta_bytes al xml att ++ zeros z /\ 0 <= z /\ 32 + meta_used xml att + z <= al + 32
    /\ (al - meta_used xml att <= 4096 -> z = al - meta_used xml att).
Proof.
  intros Hg Hlen. unfold write_metadata. fold (meta_used xml att).
  assert (Hu : 256 <= meta_used xml att) by (unfold meta_used; lia).
  destruct (align32_spec (meta_used xml att)) as [Hal _]; [lia|].
  destruct (place_spec existing next (align32 (meta_used xml att)) (align32 (meta_used xml att))) as (mk & p & al & E & Hp); [lia|].
  rewrite E, wbind_ok.
  assert (Hal2 : align32 (meta_used xml att) <= al < 2 ^ 63).
  { destruct Hp as [(g & -> & _ & -> & _ & Hn)|(_ & -> & _)]; [cbn in Hg; lia|]. unfold meta_used in *. lia. }
  exists mk, p, al. cbn [fst snd].
  set (hd := seg_header MAGIC_META al (meta_used xml att) ++ le 4 (Z.of_nat (length xml)) ++ le 4 (Z.of_nat (length att)) ++ zeros 248).
  change (wput p hd) with ([(p, hd)], Ok (Z.of_nat 288)). rewrite wbind_ok.
  assert (X1 : exists b1, (if 0 <? Z.of_nat (length xml) then wput (p + Z.of_nat 288) xml else wret 0)
             = (contig (p + Z.of_nat 288) b1, Ok (Z.of_nat (length xml))) /\ concat b1 = xml).
  { destruct (0 <? Z.of_nat (length xml)) eqn:E0.
    - exists [xml]. split; [reflexivity|]. cbn [concat]. apply app_nil_r.
    - exists []. destruct xml; [split; reflexivity|cbn [length] in E0; lia]. }
  destruct X1 as (b1 & -> & C1). rewrite wbind_ok.
  assert (X2 : exists b2, (if 0 <? Z.of_nat (length att) then wput (p + Z.of_nat 288 + Z.of_nat (length xml)) att else wret 0)
             = (contig (p + Z.of_nat 288 + Z.of_nat (length xml)) b2, Ok (Z.of_nat (length att))) /\ concat b2 = att).
  { destruct (0 <? Z.of_nat (length att)) eqn:E0.
    - exists [att]. split; [reflexivity|]. cbn [concat]. apply app_nil_r.
    - exists []. destruct att; [split; reflexivity|cbn [length] in E0; lia]. }
  destruct X2 as (b2 & -> & C2). rewrite wbind_ok.
  destruct (pad_spec p (Z.of_nat 288 + Z.of_nat (length xml) + Z.of_nat (length att)) (al + 32)) as (b3 & z & E3 & C3 & Hz & Hz2 & Hz4); [unfold meta_used in *; lia|].
  rewrite E3, wbind_ok. cbn [fst snd wret].
  exists ([hd] ++ b1 ++ b2 ++ b3), z. repeat split.
  - do 2 f_equal. rewrite app_nil_r. rewrite !contig_app. cbn [contig app].
    replace (length (concat [hd])) with 288%nat by (cbn [concat]; rewrite app_nil_r; reflexivity).
    rewrite C1, C2.
    replace (p + (Z.of_nat 288 + Z.of_nat (length xml) + Z.of_nat (length att)))
      with (p + Z.of_nat 288 + Z.of_nat (length xml) + Z.of_nat (length att)) by lia.
    reflexivity.
  - exact Hp.
  - rewrite !concat_app, C1, C2, C3. unfold meta_bytes. fold hd. cbn [concat]. now rewrite app_nil_r, <- !app_assoc.
  - lia.
  - unfold meta_used in *. lia.
  - intros. unfold meta_used in *. lia.
Qed.

Definition dir_used (es : list sbe) : Z := 128 + Z.of_nat (length (flat_map enc_entry es)).
Definition dir_bytes (alloc : Z) (es : list sbe) : bytes :=
  seg_header MAGIC_DIR alloc (dir_used es) ++ le 4 (Z.of_nat (length es)) ++ zeros 124 ++ flat_map enc_entry es.

Lemma dir_bytes_length alloc es : Z.of_nat (length (dir_bytes alloc es)) = 32 + dir_used es.
Proof.
  unfold dir_bytes, seg_header. rewrite !app_length, !le_length. unfold dir_used.
  replace (length MAGIC_DIR) with 16%nat by reflexivity. replace (length (zeros 124)) with 124%nat by reflexivity. lia.
Qed.

Lemma write_directory_spec existing next es :
  seg_alloc_ok existing ->
  exists mk p al bss z,
    write_directory existing next es = (mk ++ contig p bss, Ok (p, al))
    /\ placed existing next (align32 (dir_used es)) (align32 (dir_used es)) mk p al
    /\ concat bss = dir_bytes al es ++ zeros z /\ 0 <= z /\ 32 + dir_used es + z <= al + 32
    /\ (al - dir_used es <= 4096 -> z = al - dir_used es).
Proof.
  intros Hg. unfold write_directory. fold (dir_used es).
  assert (Hu : 128 <= dir_used es) by (unfold dir_used; lia).
  destruct (align32_spec (dir_used es)) as [Hal _]; [lia|].
  destruct (place_spec existing next (align32 (dir_used es)) (align32 (dir_used es))) as (mk & p & al & E & Hp); [lia|].
  rewrite E, wbind_ok.
  exists mk, p, al. cbn [fst snd].
  fold (dir_bytes al es).
  change (wput p (dir_bytes al es)) with ([(p, dir_bytes al es)], Ok (Z.of_nat (length (dir_bytes al es)))). rewrite wbind_ok. rewrite dir_bytes_length.
  destruct (pad_spec p (32 + dir_used es) (al + 32)) as (b3 & z & E3 & C3 & Hz & Hz2 & Hz4).
  { destruct Hp as [(g & -> & _ & -> & _ & Hn)|(_ & -> & _)]; [cbn in Hg; lia|lia]. }
  rewrite E3, wbind_ok. cbn [fst snd wret].
  assert (Hal2 : align32 (dir_used es) <= al) by (destruct Hp as [(g & -> & _ & -> & _ & Hn)|(_ & -> & _)]; lia).
  exists ([dir_bytes al es] ++ b3), z. repeat split.
  - do 2 f_equal. rewrite app_nil_r. rewrite contig_app. cbn [contig app concat].
    rewrite app_nil_r, dir_bytes_length. reflexivity.
  - exact Hp.
  - rewrite concat_app, C3. cbn [concat]. now rewrite app_nil_r.
  - lia.
  - lia.
  - intros. lia.
Qed.

Definition attdir_head (alloc : Z) (n : nat) : bytes :=
  seg_header MAGIC_ATTDIR alloc (256 + 128 * Z.of_nat n) ++ le 4 (Z.of_nat n) ++ zeros 252.

Lemma attdir_head_length al n : length (attdir_head al n) = 288%nat.
Proof. reflexivity. Qed.

Definition ae_ok (e : attentry) : Prop :=
  length (ae_guid e) = 16%nat /\ length (ae_type e) = 8%nat /\ length (ae_name e) = 80%nat.

Lemma flat_enc_att_length es : Forall ae_ok es -> length (flat_map enc_att es) = (128 * length es)%nat.
Proof.
  induction 1 as [|e es (H1 & H2 & H3) _ IH]; [reflexivity|].
  cbn [flat_map length]. rewrite app_length, IH, enc_att_length by assumption. lia.
Qed.

Lemma write_attdir_spec existing next es :
  seg_alloc_ok existing -> Forall ae_ok es ->
  exists mk p al bss z,
    write_attdir existing next es
    = (mk ++ contig p [attdir_head al (length es); flat_map enc_att es]
          ++ contig (p + 128 * Z.of_nat (length es)) bss, Ok (p, al))
    /\ placed existing next (256 + 128 * Z.of_nat (length es)) (align32 (256 + 128 * Z.of_nat (length es))) mk p al
    /\ concat bss = zeros z
    /\ (if 256 + 128 * Z.of_nat (length es) <? al then z = zero_total 0 (al + 32 - 128 * Z.of_nat (length es)) else z = 0)
    /\ 0 <= z /\ 128 * Z.of_nat (length es) + z <= al + 32.
Proof.
  intros Hg Hes. unfold write_attdir.
  assert (Hu : 256 <= 256 + 128 * Z.of_nat (length es)) by lia.
  destruct (align32_spec (256 + 128 * Z.of_nat (length es))) as [Hal _]; [lia|].
  destruct (place_spec existing next (256 + 128 * Z.of_nat (length es)) (align32 (256 + 128 * Z.of_nat (length es)))) as (mk & p & al & E & Hp); [lia|].
  rewrite E, wbind_ok.
  assert (Hal2 : 256 + 128 * Z.of_nat (length es) <= al) by (destruct Hp as [(g & -> & _ & -> & _ & Hn)|(_ & -> & _)]; lia).
  cbn [fst snd].
  fold (attdir_head al (length es)).
  change (wput p (attdir_head al (length es))) with ([(p, attdir_head al (length es))], Ok (Z.of_nat 288)). rewrite wbind_ok.
  change (wput (p + Z.of_nat 288) (flat_map enc_att es))
    with ([(p + Z.of_nat 288, flat_map enc_att es)], Ok (Z.of_nat (length (flat_map enc_att es)))). rewrite wbind_ok.
  pose proof (flat_enc_att_length es Hes) as Lp. rewrite Lp.
  replace (Z.of_nat (128 * length es)) with (128 * Z.of_nat (length es)) by lia.
  destruct (Z.of_nat 288 + 128 * Z.of_nat (length es) <? al + 32) eqn:E0.
  - destruct (write_zeroes_spec (p + 128 * Z.of_nat (length es)) (al + 32 - 128 * Z.of_nat (length es))) as (bss & E1 & C1 & Hz).
    { destruct Hp as [(g & -> & _ & -> & _ & Hn)|(_ & -> & _)]; [cbn in Hg; lia|lia]. }
    exists mk, p, al, bss, (zero_total 0 (al + 32 - 128 * Z.of_nat (length es))).
    rewrite E1, wbind_ok. cbn [fst snd wret contig app]. repeat split; try assumption; try lia.
    + rewrite attdir_head_length, app_nil_r. reflexivity.
    + replace (256 + 128 * Z.of_nat (length es) <? al) with true by lia. reflexivity.
  - exists mk, p, al, [], 0. change (let! _ := wret 0 in wret (p, al)) with (@wret (Z * Z) (p, al)). unfold wret. cbn [fst snd contig app]. repeat split; try assumption; try lia.
    replace (256 + 128 * Z.of_nat (length es) <? al) with false by lia. reflexivity.
Qed.

(** ** Regions of the file *)

Definition opt_list {A} (o : option A) : list A := match o with Some x => [x] | None => [] end.
Definition specials (s : wstate) : list seginfo := opt_list (w_meta s) ++ opt_list (w_sbdir s) ++ opt_list (w_attdir s).
Definition seg_end (g : seginfo) : Z := sg_pos g + sg_alloc g + 32.
Definition seg_in (next : Z) (g : seginfo) : Prop :=
  544 <= sg_pos g /\ sg_pos g mod 32 = 0 /\ 0 < sg_alloc g < 2 ^ 63 /\ sg_alloc g mod 32 = 0 /\ seg_end g <= next.
Definition seg_disj (g h : seginfo) : Prop := seg_end g <= sg_pos h \/ seg_end h <= sg_pos g.

Definition seg_inv (s : wstate) : Prop :=
  544 <= w_next s /\ w_next s mod 32 = 0 /\ Forall (seg_in (w_next s)) (specials s)
  /\ ForallOrdPairs seg_disj (specials s).

(** A byte range outside of all segments which may still be rewritten. *)
Definition protected (s : wstate) (lo hi : Z) : Prop :=
  544 <= lo /\ lo <= hi <= w_next s /\ Forall (fun g => hi <= sg_pos g \/ seg_end g <= lo) (specials s).
(** No write touches the range. *)
Definition avoid (lo hi : Z) (ws : list wr) : Prop :=
  Forall (fun w => fst w + Z.of_nat (length (snd w)) <= lo \/ hi <= fst w) ws.

Lemma avoid_app lo hi a b : avoid lo hi (a ++ b) <-> avoid lo hi a /\ avoid lo hi b.
Proof. apply Forall_app. Qed.

Lemma avoid_of_in lo hi l h ws : ws_in l h ws -> h <= lo \/ hi <= l -> avoid lo hi ws.
Proof. intros H Hd. eapply Forall_impl; [|exact H]. cbn beta. intros w Hw. destruct w as [o d]; cbn [fst snd] in *. lia. Qed.

Lemma avoid_mread lo hi ws m p n : avoid lo hi ws -> lo <= p -> p + Z.of_nat n <= hi ->
  mread (apply_writes m ws) p n = mread m p n.
Proof.
  intros H Hl Hh. apply mread_same. intros i Hi. apply apply_writes_out. intros w Hw Hc.
  unfold avoid in H. rewrite Forall_forall in H. specialize (H _ Hw). unfold in_wr in Hc.
  destruct w as [o d]; cbn [fst snd] in *. lia.
Qed.

Lemma seg_in_weaken n n' g : seg_in n g -> n <= n' -> seg_in n' g.
Proof. unfold seg_in. intuition lia. Qed.

Lemma seg_in_forall_weaken n n' l : Forall (seg_in n) l -> n <= n' -> Forall (seg_in n') l.
Proof. intros H Hn. eapply Forall_impl; [|exact H]. intros g Hg. now apply (seg_in_weaken n). Qed.

Lemma fop_tail {A} (R : A -> A -> Prop) a l : ForallOrdPairs R (a ++ l) -> ForallOrdPairs R l.
Proof. induction a as [|x a IH]; cbn [app]; intros H; [assumption|]. inversion H; subst. auto. Qed.

(** Advancing the end of the file by a new, never rewritten segment. *)
Lemma seg_inv_advance s s' n :
  seg_inv s -> 0 <= n -> n mod 32 = 0 -> w_next s' = w_next s + n ->
  w_meta s' = w_meta s -> w_sbdir s' = w_sbdir s -> w_attdir s' = w_attdir s ->
  seg_inv s' /\ (forall lo hi, protected s lo hi -> protected s' lo hi) /\ protected s' (w_next s) (w_next s + n).
Proof.
  intros (H1 & H2 & H3 & H4) Hn Hm En Em Es Ea.
  assert (Esp : specials s' = specials s) by (unfold specials; now rewrite Em, Es, Ea).
  split; [|split].
  - unfold seg_inv. rewrite Esp, En. repeat split; try assumption; try lia.
    now apply (seg_in_forall_weaken (w_next s)); [|lia].
  - unfold protected. rewrite Esp, En. intros lo hi (A & B & C). repeat split; try assumption; lia.
  - unfold protected. rewrite Esp, En. repeat split; try lia.
    eapply Forall_impl; [|exact H3]. unfold seg_in. intros g Hg. lia.
Qed.

(** Requests considered: well-formed additions, metadata of representable
    size. *)
Definition op_ok (o : wop) : Prop :=
  match o with
  | OpSub a _ => add_ok a
  | OpAtt a => att_ok a
  | OpMeta xml att => Z.of_nat (length xml) <= INT_MAX /\ Z.of_nat (length att) <= INT_MAX
  end.

Lemma sb_used_nonneg a : add_ok a -> 288 <= sb_used a.
Proof.
  intros (Hw & Hm & Hd & Ha & _). unfold sb_used, sb_header_size.
  destruct Hm as [? _], Hd as [? _], Ha as [? _]. lia.
Qed.

Lemma wstep_sub s a slot ws s' r : add_ok a -> wstep s (OpSub a slot) = (ws, s', r) ->
  (r = Throw /\ ws = [] /\ s' = s)
  \/ (r = Ok tt /\ sub_args_ok a = true /\ exists k bss, slot = Some k /\ ws = contig (w_next s) bss /\ concat bss = sb_segment (w_next s) a
      /\ s' = mkW (w_next s + align32 (sb_used a)) (insert_at k (with_pos (entry_of_info a) (w_next s)) (w_dir s))
                  (w_atts s) (w_meta s) (w_sbdir s) (w_attdir s)).
Proof.
  intros Hok H. unfold wstep in H. destruct (sub_args_ok a) eqn:Ea; cbn [negb] in H; [|injection H as <- <- <-; now left].
  destruct slot as [k|]; [|injection H as <- <- <-; now left].
  destruct (write_subblock_spec (w_next s) a Hok) as (bss & E & C). rewrite E in H. cbn [fst snd] in H.
  injection H as <- <- <-. right. split; [reflexivity|]. split; [reflexivity|]. exists k, bss. repeat split; assumption.
Qed.

Definition att_entry (p : Z) (a : attinfo) : attentry := mkAttEntry (at_guid a) (at_type a) (at_name a) p.

Lemma wstep_att s a ws s' r : att_ok a -> wstep s (OpAtt a) = (ws, s', r) ->
  (r = Throw /\ ws = [] /\ s' = s)
  \/ (r = Ok tt /\ exists bss, ws = contig (w_next s) bss /\ concat bss = att_segment (w_next s) a
      /\ s' = mkW (w_next s + att_total a) (w_dir s) (w_atts s ++ [att_entry (w_next s) a])
                  (w_meta s) (w_sbdir s) (w_attdir s)).
Proof.
  intros Hok H. unfold wstep in H. destruct (existsb _ _); [injection H as <- <- <-; now left|].
  destruct (write_attachment_spec (w_next s) a Hok) as (bss & E & C). rewrite E in H. cbn [fst snd] in H.
  injection H as <- <- <-. right. split; [reflexivity|]. exists bss. repeat split; assumption.
Qed.

Lemma seg_inv_meta s : seg_inv s -> seg_alloc_ok (w_meta s).
Proof.
  intros (_ & _ & H & _). unfold specials in H. destruct (w_meta s) as [g|]; [|exact I].
  cbn in H. apply Forall_inv in H. unfold seg_in in H. cbn. lia.
Qed.

Lemma wstep_meta s xml att ws s' r :
  seg_inv s -> Z.of_nat (length xml) <= INT_MAX /\ Z.of_nat (length att) <= INT_MAX ->
  wstep s (OpMeta xml att) = (ws, s', r) ->
  r = Ok tt /\ exists mk p al bss z,
    ws = mk ++ contig p bss
    /\ placed (w_meta s) (w_next s) (align32 (meta_used xml att)) (align32 (meta_used xml att)) mk p al
    /\ concat bss = meta_bytes al xml att ++ zeros z /\ 0 <= z /\ 32 + meta_used xml att + z <= al + 32
    /\ s' = mkW (if p =? w_next s then w_next s + al + 32 else w_next s) (w_dir s) (w_atts s)
                (Some (mkSeg p al false)) (w_sbdir s) (w_attdir s).
Proof.
  intros Hi Hl H. unfold wstep in H.
  destruct (write_metadata_spec (w_meta s) (w_next s) xml att (seg_inv_meta s Hi)) as (mk & p & al & bss & z & E & Hp & C & Hz & Hz2 & _);
    [unfold INT_MAX in *; lia|].
  rewrite E in H. cbn [fst snd] in H. injection H as <- <- <-. split; [reflexivity|].
  exists mk, p, al, bss, z. repeat split; assumption.
Qed.

Lemma ws_in_contig p bss hi : Z.of_nat (length (concat bss)) <= hi - p -> ws_in p hi (contig p bss).
Proof. intros H. apply (ws_in_weaken p (p + Z.of_nat (length (concat bss)))); [apply contig_in|lia|lia]. Qed.

(** A segment placed by [placed] lies in the old segment or behind the end. *)
Lemma wstep_meta_inv s xml att ws s' r :
  seg_inv s -> Z.of_nat (length xml) <= INT_MAX /\ Z.of_nat (length att) <= INT_MAX ->
  wstep s (OpMeta xml att) = (ws, s', r) ->
  seg_inv s' /\ w_next s <= w_next s' /\ (forall lo hi, protected s lo hi -> avoid lo hi ws /\ protected s' lo hi).
Proof.
  intros Hi Hl H. destruct (wstep_meta _ _ _ _ _ _ Hi Hl H) as (_ & mk & p & al & bss & z & -> & Hp & C & Hz & Hz2 & ->).
  pose proof Hi as (H1 & H2 & H3 & H4).
  assert (L : Z.of_nat (length (concat bss)) <= al + 32).
  { rewrite C, app_length, Nat2Z.inj_add, meta_bytes_length, zeros_length by lia. lia. }
  set (rest := opt_list (w_sbdir s) ++ opt_list (w_attdir s)).
  assert (Esp : specials s = opt_list (w_meta s) ++ rest) by reflexivity.
  rewrite Esp in H3, H4. apply Forall_app in H3. destruct H3 as [H3m H3r]. pose proof (fop_tail _ _ _ H4) as H4r.
  unfold seg_inv, protected. rewrite Esp.
  destruct Hp as [(g & Eg & -> & -> & -> & Hn)|(-> & -> & Hmk & _)].
  - rewrite Eg in *. cbn [opt_list app] in *.
    apply Forall_inv in H3m. inversion H4 as [|? ? Hd _]; subst.
    unfold specials; cbn [w_meta w_next w_sbdir w_attdir opt_list app]. fold rest.
    replace (sg_pos g =? w_next s) with false by (unfold seg_in, seg_end in H3m; lia).
    split; [|split].
    + split; [lia|]. split; [lia|]. split.
      * apply Forall_cons; [|assumption]. exact H3m.
      * apply FOP_cons; [|assumption]. exact Hd.
    + lia.
    + intros lo hi (A & B & D). inversion D as [|? ? D1 D2]; subst. split.
      * apply (avoid_of_in lo hi (sg_pos g) (seg_end g)); [apply ws_in_contig; unfold seg_end; lia|lia].
      * repeat split; try lia. now apply Forall_cons.
  - unfold specials; cbn [w_meta w_next w_sbdir w_attdir opt_list app]. fold rest.
    rewrite Z.eqb_refl.
    set (al := align32 (meta_used xml att)) in *.
    assert (Hu : 256 <= meta_used xml att <= 256 + 2 * INT_MAX) by (unfold meta_used, INT_MAX in *; lia).
    destruct (align32_spec (meta_used xml att)) as [Hal Ham]; [lia|]. fold al in Hal, Ham.
    split; [|split].
    + split; [lia|]. split; [lia|]. split.
      * apply Forall_cons; [|apply (seg_in_forall_weaken (w_next s)); [assumption|lia]].
        unfold seg_in, seg_end; cbn [sg_pos sg_alloc]. unfold INT_MAX in *. lia.
      * apply FOP_cons; [|assumption]. eapply Forall_impl; [|exact H3r].
        unfold seg_in, seg_disj, seg_end; cbn [sg_pos sg_alloc]. intros h Hh. lia.
    + lia.
    + intros lo hi (A & B & D). apply Forall_app in D. destruct D as [D1 D2]. split.
      * apply avoid_app. split.
        -- destruct Hmk as [->|(g & Eg & _ & ->)]; [apply Forall_nil|].
           rewrite Eg in D1, H3m. apply Forall_inv in D1, H3m. cbn [opt_list] in *.
           apply Forall_cons; [|apply Forall_nil]. cbn [fst snd]. change (Z.of_nat (length MAGIC_DELETED)) with 16.
           unfold seg_in, seg_end in *. lia.
        -- apply (avoid_of_in lo hi (w_next s) (w_next s + al + 32)); [apply ws_in_contig; lia|lia].
      * repeat split; try lia. apply Forall_cons; [|assumption]. cbn [sg_pos]. lia.
Qed.

Lemma att_total_pos a : 0 <= att_total a /\ att_total a mod 32 = 0.
Proof.
  unfold att_total. destruct (align32_spec (256 + Z.of_nat (length (at_data a)))); lia.
Qed.

Lemma wstep_inv s o ws s' r :
  seg_inv s -> op_ok o -> wstep s o = (ws, s', r) ->
  seg_inv s' /\ w_next s <= w_next s' /\ (forall lo hi, protected s lo hi -> avoid lo hi ws /\ protected s' lo hi).
Proof.
  intros Hi Ho H. destruct o as [a slot|a|xml att].
  - apply wstep_sub in H; [|exact Ho].
    destruct H as [(-> & -> & ->)|(-> & _ & k & bss & -> & -> & C & ->)].
    { split; [assumption|]. split; [lia|]. intros; split; [apply Forall_nil|assumption]. }
    pose proof (sb_used_nonneg a Ho) as Hu. destruct (align32_spec (sb_used a)) as [Hal Ham]; [lia|].
    pose proof (sb_segment_length (w_next s) a Ho) as L. rewrite <- C in L.
    destruct (seg_inv_advance s (mkW (w_next s + align32 (sb_used a)) (insert_at k (with_pos (entry_of_info a) (w_next s)) (w_dir s))
                  (w_atts s) (w_meta s) (w_sbdir s) (w_attdir s)) (align32 (sb_used a))) as (A & B & _); auto; try lia.
    split; [assumption|]. split; [cbn [w_next]; lia|]. intros lo hi Hp. split; [|now apply B].
    apply (avoid_of_in lo hi (w_next s) (w_next s + align32 (sb_used a))); [apply ws_in_contig; lia|]. destruct Hp; lia.
  - apply wstep_att in H; [|exact Ho].
    destruct H as [(-> & -> & ->)|(-> & bss & -> & C & ->)].
    { split; [assumption|]. split; [lia|]. intros; split; [apply Forall_nil|assumption]. }
    destruct (att_total_pos a) as [Hal Ham].
    pose proof (att_segment_length (w_next s) a Ho) as L. rewrite <- C in L.
    destruct (seg_inv_advance s (mkW (w_next s + att_total a) (w_dir s) (w_atts s ++ [att_entry (w_next s) a])
                  (w_meta s) (w_sbdir s) (w_attdir s)) (att_total a)) as (A & B & _); auto; try lia.
    split; [assumption|]. split; [cbn [w_next]; lia|]. intros lo hi Hp. split; [|now apply B].
    apply (avoid_of_in lo hi (w_next s) (w_next s + att_total a)); [apply ws_in_contig; lia|]. destruct Hp; lia.
  - now apply wstep_meta_inv in H.
Qed.

Lemma wrun_inv ops : forall s ws s' rs,
  seg_inv s -> Forall op_ok ops -> wrun s ops = (ws, s', rs) ->
  seg_inv s' /\ w_next s <= w_next s' /\ (forall lo hi, protected s lo hi -> avoid lo hi ws /\ protected s' lo hi).
Proof.
  induction ops as [|o ops IH]; intros s ws s' rs Hi Ho H; cbn [wrun] in H.
  - injection H as <- <- <-. split; [assumption|]. split; [lia|]. intros; split; [apply Forall_nil|assumption].
  - destruct (wstep s o) as [[w1 s1] r] eqn:E1. destruct (wrun s1 ops) as [[w2 s2] rs2] eqn:E2.
    injection H as <- <- <-. inversion Ho; subst.
    destruct (wstep_inv _ _ _ _ _ Hi ltac:(eassumption) E1) as (A1 & B1 & C1).
    destruct (IH _ _ _ _ A1 ltac:(eassumption) E2) as (A2 & B2 & C2).
    split; [assumption|]. split; [lia|]. intros lo hi Hp. destruct (C1 lo hi Hp) as [D1 D2]. destruct (C2 lo hi D2) as [D3 D4].
    split; [apply avoid_app; now split|assumption].
Qed.
