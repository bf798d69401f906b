(** Creation and completion of a document, memory invariant, re-opening. *)
From Coq Require Import Permutation.
From Verif Require Import Base CodecModel MemProofs CodecProofs WriterModel WriterProofs WriterSpec ReadProofs WriterInv.

(** ** File size *)
Lemma file_size_nonneg ws : 0 <= file_size ws.
Proof. unfold file_size. induction ws as [|w ws IH]; cbn [map fold_right]; lia. Qed.

Lemma file_size_app a b : file_size (a ++ b) = Z.max (file_size a) (file_size b).
Proof.
  unfold file_size. induction a as [|w a IH]; cbn [app map fold_right].
  - pose proof (file_size_nonneg b). unfold file_size in *. lia.
  - rewrite IH. lia.
Qed.

Lemma file_size_contig bss : forall p, 0 <= p -> (0 < length (concat bss))%nat ->
  p + Z.of_nat (length (concat bss)) <= file_size (contig p bss).
Proof.
  induction bss as [|b bss IH]; intros p Hp Hl; cbn [concat contig] in *; [cbn in Hl; lia|].
  rewrite app_length in *. unfold file_size. cbn [map fold_right]. fold (file_size (contig (p + Z.of_nat (length b)) bss)).
  destruct (length (concat bss)) as [|n] eqn:E.
  - unfold end_of at 1; cbn [fst snd]. replace (length b =? 0)%nat with false by lia. lia.
  - specialize (IH (p + Z.of_nat (length b))). lia.
Qed.

Lemma file_size_in w ws : In w ws -> end_of w <= file_size ws.
Proof.
  unfold file_size. induction ws as [|x ws IH]; cbn [In map fold_right]; [tauto|].
  intros [->|H]; [lia|]. specialize (IH H). lia.
Qed.

(** ** Creation *)
Definition opt_range (o : option Z) : Prop := match o with Some n => 0 <= n < 2 ^ 32 | None => True end.
Definition winfo_ok (i : winfo) : Prop :=
  length (wi_guid i) = 16%nat /\ opt_range (wi_rmeta i) /\ opt_range (wi_rdir i) /\ opt_range (wi_ratt i).

Definition opt_deleted (o : option seginfo) : Prop := match o with Some g => sg_deleted g = true | None => True end.

Definition attdir_alloc (o : option Z) : option Z :=
  match o with Some n => Some (align32 (256 + ratt_bytes n)) | None => None end.

Lemma reserve_spec hdr w n ws g : 64 <= hdr < 2 ^ 32 -> 0 <= n < 2 ^ 60 -> 544 <= w -> w mod 32 = 0 -> reserve hdr w n = (ws, g) ->
  sg_pos g = w /\ sg_deleted g = true /\ sg_alloc g = align32 (hdr - 32 + n) /\ seg_in (seg_end g) g /\ ws_in w (seg_end g) ws.
Proof.
  intros Hh Hn Hw Hm H. unfold reserve in H. apply pair_equal_spec in H. destruct H as [<- <-].
  destruct (align32_spec (hdr - 32 + n)) as [E F]; [lia|].
  unfold seg_in, seg_end; cbn [sg_pos sg_alloc sg_deleted].
  split; [reflexivity|]. split; [reflexivity|]. split; [reflexivity|]. split; [lia|].
  apply Forall_cons; [|apply Forall_nil]. cbn [fst snd].
  assert (L : Z.of_nat (length (seg_header MAGIC_DELETED (align32 (hdr - 32 + n)) (hdr - 32 + n) ++ zeros (hdr - 32))) = hdr).
  { rewrite app_length, Nat2Z.inj_add, zeros_length by lia.
    change (Z.of_nat (length (seg_header MAGIC_DELETED (align32 (hdr - 32 + n)) (hdr - 32 + n)))) with 32. lia. }
  rewrite L. lia.
Qed.

Lemma seg_inv_reserve s s' g :
  seg_inv s -> specials s' = specials s ++ [g] -> sg_pos g = w_next s -> w_next s' = seg_end g -> seg_in (seg_end g) g -> seg_inv s'.
Proof.
  intros (H1 & H2 & H3 & H4) Es Ep En Hg. unfold seg_inv. rewrite Es, En.
  assert (Hn : w_next s <= seg_end g) by (unfold seg_in, seg_end in *; lia).
  split; [lia|]. split; [unfold seg_in, seg_end in *; lia|]. split.
  - apply Forall_app. split; [now apply (seg_in_forall_weaken (w_next s))|]. now apply Forall_cons.
  - apply fop_app; [assumption|repeat constructor|].
    intros a b Ha [<-|[]]. rewrite Forall_forall in H3. specialize (H3 _ Ha). unfold seg_disj, seg_in in *. lia.
Qed.

Lemma rmeta_range n : 0 <= n < 2 ^ 32 -> 0 <= rmeta_bytes n < 2 ^ 60.
Proof. unfold rmeta_bytes. destruct (n =? 0); lia. Qed.
Lemma rdir_range n : 0 <= n < 2 ^ 32 -> 0 <= rdir_bytes n < 2 ^ 60.
Proof. unfold rdir_bytes, MAXDIMENSIONS. lia. Qed.
Lemma ratt_range n : 0 <= n < 2 ^ 32 -> 0 <= ratt_bytes n < 2 ^ 60.
Proof. unfold ratt_bytes. destruct (n =? 0); lia. Qed.

(** One reservation step of [create]. *)
Definition res_step (hdr : Z) (o : option Z) (set : wstate -> seginfo -> wstate) (s : wstate) : list wr * wstate :=
  match o with
  | Some n => let '(ws, g) := reserve hdr (w_next s) n in (ws, set s g)
  | None => ([], s)
  end.

Lemma res_step_spec hdr o set s ws s' :
  seg_inv s -> 64 <= hdr < 2 ^ 32 -> (forall n, o = Some n -> 0 <= n < 2 ^ 60) ->
  (forall g, specials (set s g) = specials s ++ [g] /\ w_next (set s g) = w_next s + 32 + sg_alloc g) ->
  res_step hdr o set s = (ws, s') ->
  seg_inv s' /\ w_next s <= w_next s' /\ ws_in (w_next s) (w_next s') ws
  /\ ((o = None /\ s' = s) \/ exists n g, o = Some n /\ s' = set s g /\ sg_deleted g = true /\ sg_alloc g = align32 (hdr - 32 + n)).
Proof.
  intros Hi Hh Ho Hs H. unfold res_step in H. destruct o as [n|].
  - destruct (reserve hdr (w_next s) n) as [w g] eqn:E. injection H as <- <-.
    pose proof Hi as (H1 & H2 & _).
    apply reserve_spec in E; auto. destruct E as (E1 & E2 & E3 & E4 & E5). destruct (Hs g) as [S1 S2].
    assert (Een : w_next (set s g) = seg_end g) by (unfold seg_end; lia).
    split; [apply (seg_inv_reserve s _ g); auto|].
    rewrite Een. split; [unfold seg_in, seg_end in *; lia|]. split; [assumption|].
    right. exists n, g. auto.
  - injection H as <- <-. split; [assumption|]. split; [lia|]. split; [apply Forall_nil|]. now left.
Qed.

Lemma create_steps i :
  create i =
  let s0 := mkW 544 [] [] None None None in
  let '(ws1, s1) := res_step 288 (option_map rmeta_bytes (wi_rmeta i))
                      (fun s g => mkW (w_next s + 32 + sg_alloc g) [] [] (Some g) None None) s0 in
  let '(ws2, s2) := res_step 160 (option_map rdir_bytes (wi_rdir i))
                      (fun s g => mkW (w_next s + 32 + sg_alloc g) [] [] (w_meta s) (Some g) None) s1 in
  let '(ws3, s3) := res_step 288 (option_map ratt_bytes (wi_ratt i))
                      (fun s g => mkW (w_next s + 32 + sg_alloc g) [] [] (w_meta s) (w_sbdir s) (Some g)) s2 in
  ([(0, file_header (wi_guid i) 0 0 0)] ++ ws1 ++ ws2 ++ ws3, s3).
Proof. unfold create, res_step. destruct (wi_rmeta i), (wi_rdir i), (wi_ratt i); reflexivity. Qed.

Lemma create_spec i ws s : winfo_ok i -> create i = (ws, s) ->
  seg_inv s /\ w_dir s = [] /\ w_atts s = [] /\ opt_deleted (w_meta s) /\ opt_deleted (w_sbdir s) /\ opt_deleted (w_attdir s)
  /\ option_map sg_alloc (w_attdir s) = attdir_alloc (wi_ratt i)
  /\ exists ws', ws = (0, file_header (wi_guid i) 0 0 0) :: ws' /\ ws_in 544 (w_next s) ws'.
Proof.
  intros (Hg & Hm & Hd & Ha) H. rewrite create_steps in H. cbv zeta in H.
  set (s0 := mkW 544 [] [] None None None) in *.
  assert (I0 : seg_inv s0).
  { unfold seg_inv. cbn. split; [lia|]. split; [reflexivity|]. split; [apply Forall_nil|apply FOP_nil]. }
  destruct (res_step 288 (option_map rmeta_bytes (wi_rmeta i)) _ s0) as [ws1 s1] eqn:E1.
  apply res_step_spec in E1; [|assumption|lia| |intros g; split; reflexivity].
  2:{ intros n En. destruct (wi_rmeta i); [|discriminate]. injection En as <-. now apply rmeta_range. }
  destruct E1 as (I1 & N1 & W1 & F1).
  assert (P1 : w_dir s1 = [] /\ w_atts s1 = [] /\ opt_deleted (w_meta s1) /\ w_sbdir s1 = None /\ w_attdir s1 = None).
  { destruct F1 as [[_ ->]|(n & g & _ & -> & Dg & _)]; cbn; auto. }
  destruct P1 as (P1a & P1b & P1c & P1d & P1e).
  destruct (res_step 160 (option_map rdir_bytes (wi_rdir i)) _ s1) as [ws2 s2] eqn:E2.
  apply res_step_spec in E2; [|assumption|lia| |].
  2:{ intros n En. destruct (wi_rdir i); [|discriminate]. injection En as <-. now apply rdir_range. }
  2:{ intros g. split; [|reflexivity]. unfold specials. cbn [w_meta w_sbdir w_attdir]. rewrite P1d, P1e. cbn [opt_list app].
      now rewrite app_nil_r. }
  destruct E2 as (I2 & N2 & W2 & F2).
  assert (P2 : w_dir s2 = [] /\ w_atts s2 = [] /\ opt_deleted (w_meta s2) /\ opt_deleted (w_sbdir s2) /\ w_attdir s2 = None).
  { destruct F2 as [[_ ->]|(n & g & _ & -> & Dg & _)]; cbn; rewrite ?P1d; cbn; auto. }
  destruct P2 as (P2a & P2b & P2c & P2d & P2e).
  destruct (res_step 288 (option_map ratt_bytes (wi_ratt i)) _ s2) as [ws3 s3] eqn:E3.
  apply res_step_spec in E3; [|assumption|lia| |].
  2:{ intros n En. destruct (wi_ratt i); [|discriminate]. injection En as <-. now apply ratt_range. }
  2:{ intros g. split; [|reflexivity]. unfold specials. cbn [w_meta w_sbdir w_attdir]. rewrite P2e. cbn [opt_list app].
      now rewrite app_nil_r, app_assoc. }
  destruct E3 as (I3 & N3 & W3 & F3). injection H as <- <-.
  cbn [w_next s0] in *.
  assert (P3 : w_dir s3 = [] /\ w_atts s3 = [] /\ opt_deleted (w_meta s3) /\ opt_deleted (w_sbdir s3) /\ opt_deleted (w_attdir s3)
               /\ option_map sg_alloc (w_attdir s3) = attdir_alloc (wi_ratt i)).
  { destruct F3 as [[F ->]|(n & g & F & -> & Dg & Al)]; cbn; rewrite ?P2e; cbn; repeat split; auto.
    - destruct (wi_ratt i); [discriminate|reflexivity].
    - rewrite Al. destruct (wi_ratt i); [|discriminate]. injection F as <-. reflexivity. }
  destruct P3 as (A & B & C & D & E & F). do 7 (split; [assumption|]).
  exists (ws1 ++ ws2 ++ ws3). split; [reflexivity|]. apply ws_in_app. split; [|apply ws_in_app; split].
  - eapply ws_in_weaken; [exact W1|lia|lia].
  - eapply ws_in_weaken; [exact W2|lia|lia].
  - eapply ws_in_weaken; [exact W3|lia|lia].
Qed.

(** ** Contents *)
Lemma mread_prefix m p bs n : mread m p (length bs) = bs -> (n <= length bs)%nat -> mread m p n = slice bs 0 n.
Proof. intros H Hn. rewrite <- (mread_slice m p bs 0 n) by (auto; lia). f_equal. lia. Qed.

Definition kept (s : wstate) (ws : list wr) (p : Z) (bs : bytes) : Prop :=
  protected s p (p + Z.of_nat (length bs)) /\ (forall m0, mread (apply_writes m0 ws) p (length bs) = bs)
  /\ p + Z.of_nat (length bs) <= file_size ws.

Lemma kept_step s s' ws ws' p bs :
  kept s ws p bs -> (forall lo hi, protected s lo hi -> avoid lo hi ws' /\ protected s' lo hi) -> kept s' (ws ++ ws') p bs.
Proof.
  intros (H1 & H2 & H3) H. destruct (H _ _ H1) as [A B]. split; [assumption|]. split.
  - intros m0. rewrite apply_writes_app. rewrite (avoid_mread _ _ _ _ _ _ A) by lia. apply H2.
  - rewrite file_size_app. lia.
Qed.

Lemma kept_new s' ws p bss bs :
  concat bss = bs -> (0 < length bs)%nat -> protected s' p (p + Z.of_nat (length bs)) -> kept s' (ws ++ contig p bss) p bs.
Proof.
  intros C Hl Hp. split; [assumption|]. split.
  - intros m0. rewrite apply_writes_app, <- C. apply mread_contig.
  - rewrite file_size_app. pose proof (file_size_contig bss p). rewrite C in *. destruct Hp. lia.
Qed.

Definition meta_state (s : wstate) (ws : list wr) (md : option (bytes * bytes)) : Prop :=
  match md with
  | None => opt_deleted (w_meta s)
  | Some (xml, att) => exists g, w_meta s = Some g /\ sg_deleted g = false
      /\ (forall m0, mread (apply_writes m0 ws) (sg_pos g) (length (meta_bytes (sg_alloc g) xml att)) = meta_bytes (sg_alloc g) xml att)
      /\ Z.of_nat (length (meta_bytes (sg_alloc g) xml att)) <= sg_alloc g + 32
      /\ sg_pos g + Z.of_nat (length (meta_bytes (sg_alloc g) xml att)) <= file_size ws
      /\ Z.of_nat (length xml) <= INT_MAX /\ Z.of_nat (length att) <= INT_MAX
  end.

(** Writes which spare the metadata segment keep it. *)
Lemma meta_state_step s s' ws ws' md :
  meta_state s ws md -> w_meta s' = w_meta s ->
  (forall g, w_meta s = Some g -> avoid (sg_pos g) (seg_end g) ws') -> meta_state s' (ws ++ ws') md.
Proof.
  intros H E Ha. destruct md as [[xml att]|]; cbn [meta_state] in *; [|now rewrite E].
  destruct H as (g & Eg & Dg & M & L & F & B). exists g. rewrite E. repeat split; try assumption; try lia.
  - intros m0. rewrite apply_writes_app. rewrite (avoid_mread _ _ _ _ _ _ (Ha g Eg)); [apply M|lia|unfold seg_end; lia].
  - rewrite file_size_app. lia.
Qed.

Record winv (s : wstate) (ws : list wr) (subs : list (Z * addinfo)) (atts : list (Z * attinfo))
            (md : option (bytes * bytes)) : Prop := {
  v_seg : seg_inv s;
  v_subs : Forall (fun x => add_ok (snd x) /\ kept s ws (fst x) (sb_segment (fst x) (snd x))) subs;
  v_atts : Forall (fun x => att_ok (snd x) /\ kept s ws (fst x) (att_segment (fst x) (snd x))) atts;
  v_dir : Permutation (w_dir s) (map (fun x => with_pos (entry_of_info (snd x)) (fst x)) subs);
  v_watts : w_atts s = map (fun x => att_entry (fst x) (snd x)) atts;
  v_meta : meta_state s ws md;
  v_sbdir : opt_deleted (w_sbdir s);
  v_attdir : opt_deleted (w_attdir s) }.

Lemma insert_at_perm {A} k (x : A) l : Permutation (insert_at k x l) (x :: l).
Proof.
  unfold insert_at. rewrite <- (firstn_skipn k l) at 3. symmetry. apply Permutation_middle.
Qed.

Lemma forall_kept_step {A} (P : A -> Prop) (f : A -> Z) (g : A -> bytes) s s' ws ws' (l : list A) :
  (forall lo hi, protected s lo hi -> avoid lo hi ws' /\ protected s' lo hi) ->
  Forall (fun x => P x /\ kept s ws (f x) (g x)) l -> Forall (fun x => P x /\ kept s' (ws ++ ws') (f x) (g x)) l.
Proof. intros H. apply Forall_impl. intros x [Hp Hk]. split; [assumption|]. now apply (kept_step s). Qed.

Lemma seg_meta_in s g : seg_inv s -> w_meta s = Some g -> seg_in (w_next s) g.
Proof.
  intros (_ & _ & H & _) E. unfold specials in H. rewrite E in H. cbn [opt_list app] in H. now apply Forall_inv in H.
Qed.

Lemma winv_refl s ws subs atts md : winv s ws subs atts md -> winv s (ws ++ []) subs atts md.
Proof. now rewrite app_nil_r. Qed.

Definition subs_after (s : wstate) (o : wop) (r : res unit) (subs : list (Z * addinfo)) : list (Z * addinfo) :=
  match o, r with OpSub a _, Ok _ => subs ++ [(w_next s, a)] | _, _ => subs end.
Definition atts_after (s : wstate) (o : wop) (r : res unit) (atts : list (Z * attinfo)) : list (Z * attinfo) :=
  match o, r with OpAtt a, Ok _ => atts ++ [(w_next s, a)] | _, _ => atts end.
Definition md_after (o : wop) (r : res unit) (md : option (bytes * bytes)) : option (bytes * bytes) :=
  match o, r with OpMeta xml att, Ok _ => Some (xml, att) | _, _ => md end.

Lemma wstep_winv s ws subs atts md o w s' r :
  winv s ws subs atts md -> op_ok o -> wstep s o = (w, s', r) ->
  winv s' (ws ++ w) (subs_after s o r subs) (atts_after s o r atts) (md_after o r md).
Proof.
  intros V Ho H. pose proof V as [Vs Vsub Vatt Vdir Vwatts Vmeta Vsb Vat].
  destruct (wstep_inv s o w s' r Vs Ho H) as (Is & Nx & Pr).
  destruct o as [a slot|a|xml att].
  - apply wstep_sub in H; [|exact Ho].
    destruct H as [(-> & -> & ->)|(-> & _ & k & bss & -> & -> & C & Es)]; cbn [subs_after atts_after md_after].
    { now apply winv_refl. }
    pose proof (sb_segment_length (w_next s) a Ho) as L.
    pose proof (sb_used_nonneg a Ho) as Hu. destruct (align32_spec (sb_used a)) as [Hal Ham]; [lia|].
    destruct (seg_inv_advance s s' (align32 (sb_used a))) as (_ & _ & Pn); auto; try lia; try (subst s'; reflexivity).
    split; try (subst s'; assumption).
    + apply Forall_app. split; [now apply (forall_kept_step _ _ _ s)|].
      apply Forall_cons; [|apply Forall_nil]. cbn [fst snd]. split; [assumption|].
      apply kept_new; [assumption|lia|]. now rewrite L.
    + now apply (forall_kept_step _ _ _ s).
    + subst s'. cbn [w_dir]. rewrite insert_at_perm, map_app. cbn [map fst snd]. rewrite Vdir. apply Permutation_cons_append.
    + apply (meta_state_step s); [assumption|subst s'; reflexivity|]. intros g Eg. apply (seg_meta_in s) in Eg; [|assumption].
      apply (avoid_of_in _ _ (w_next s) (w_next s + align32 (sb_used a))); [|unfold seg_in in Eg; lia].
      apply ws_in_contig. rewrite C. lia.
  - apply wstep_att in H; [|exact Ho].
    destruct H as [(-> & -> & ->)|(-> & bss & -> & C & Es)]; cbn [subs_after atts_after md_after].
    { now apply winv_refl. }
    pose proof (att_segment_length (w_next s) a Ho) as L.
    destruct (att_total_pos a) as [Hal Ham].
    assert (Hpos : 0 < att_total a) by (unfold att_total, align32; lia).
    destruct (seg_inv_advance s s' (att_total a)) as (_ & _ & Pn); auto; try lia; try (subst s'; reflexivity).
    split; try (subst s'; assumption).
    + now apply (forall_kept_step _ _ _ s).
    + apply Forall_app. split; [now apply (forall_kept_step _ _ _ s)|].
      apply Forall_cons; [|apply Forall_nil]. cbn [fst snd]. split; [assumption|].
      apply kept_new; [assumption|lia|]. now rewrite L.
    + subst s'. cbn [w_atts]. rewrite map_app, Vwatts. reflexivity.
    + apply (meta_state_step s); [assumption|subst s'; reflexivity|]. intros g Eg. apply (seg_meta_in s) in Eg; [|assumption].
      apply (avoid_of_in _ _ (w_next s) (w_next s + att_total a)); [|unfold seg_in in Eg; lia].
      apply ws_in_contig. rewrite C. lia.
  - destruct (wstep_meta _ _ _ _ _ _ Vs Ho H) as (-> & mk & p & al & bss & z & -> & Hp & C & Hz & Hz2 & Es).
    cbn [subs_after atts_after md_after].
    split; try (subst s'; assumption).
    + now apply (forall_kept_step _ _ _ s).
    + now apply (forall_kept_step _ _ _ s).
    + cbn [meta_state]. exists (mkSeg p al false). cbn [sg_pos sg_alloc sg_deleted].
      assert (Pp : 0 <= p).
      { destruct Hp as [(g & Eg & -> & _)|(-> & _)]; [apply (seg_meta_in s) in Eg; [|assumption]; unfold seg_in in Eg; lia|].
        destruct Vs; lia. }
      split; [subst s'; reflexivity|]. split; [reflexivity|].
      assert (Lb : Z.of_nat (length (concat bss)) = Z.of_nat (length (meta_bytes al xml att)) + z).
      { rewrite C, app_length, Nat2Z.inj_add, zeros_length by lia. reflexivity. }
      pose proof (meta_bytes_length al xml att) as Lm. assert (0 <= meta_used xml att) by (unfold meta_used; lia).
      split; [|split; [lia|split]].
      * intros m0. rewrite app_assoc, apply_writes_app.
        rewrite (mread_prefix _ p (concat bss)); [|apply mread_contig|lia].
        rewrite C. rewrite slice_app_l by lia. now apply slice_all.
      * rewrite !file_size_app. pose proof (file_size_contig bss p). lia.
      * exact Ho.
Qed.

Lemma map_snd_subs s o r subs : map snd (subs_after s o r subs)
  = map snd subs ++ (match o, r with OpSub a _, Ok _ => [a] | _, _ => [] end).
Proof. destruct o, r; cbn [subs_after]; rewrite ?map_app, ?app_nil_r; reflexivity. Qed.
Lemma map_snd_atts s o r atts : map snd (atts_after s o r atts)
  = map snd atts ++ (match o, r with OpAtt a, Ok _ => [a] | _, _ => [] end).
Proof. destruct o, r; cbn [atts_after]; rewrite ?map_app, ?app_nil_r; reflexivity. Qed.

Lemma wrun_winv ops : forall s ws subs atts md w s' rs,
  winv s ws subs atts md -> Forall op_ok ops -> wrun s ops = (w, s', rs) ->
  exists subs' atts', winv s' (ws ++ w) subs' atts' (last_meta md ops rs)
    /\ map snd subs' = map snd subs ++ added ops rs /\ map snd atts' = map snd atts ++ attached ops rs.
Proof.
  induction ops as [|o ops IH]; intros s ws subs atts md w s' rs V Ho H; cbn [wrun] in H.
  - injection H as <- <- <-. exists subs, atts. rewrite app_nil_r. cbn. rewrite !app_nil_r. auto.
  - destruct (wstep s o) as [[w1 s1] r] eqn:E1. destruct (wrun s1 ops) as [[w2 s2] rs2] eqn:E2.
    injection H as <- <- <-. inversion Ho; subst.
    pose proof (wstep_winv _ _ _ _ _ _ _ _ _ V ltac:(eassumption) E1) as V1.
    destruct (IH _ _ _ _ _ _ _ _ V1 ltac:(eassumption) E2) as (subs' & atts' & V2 & M1 & M2).
    exists subs', atts'. rewrite app_assoc. split; [|split].
    + replace (last_meta md (o :: ops) (r :: rs2)) with (last_meta (md_after o r md) ops rs2); [exact V2|].
      destruct o, r; reflexivity.
    + rewrite M1, map_snd_subs, <- app_assoc. f_equal. destruct o, r; reflexivity.
    + rewrite M2, map_snd_atts, <- app_assoc. f_equal. destruct o, r; reflexivity.
Qed.
