(** The statements about complete writer sessions. *)
From Coq Require Import Permutation.
From Verif Require Import Base CodecModel MemProofs CodecProofs WriterModel WriterProofs WriterSpec ReadProofs WriterInv WriterFin WriterOpen WriterSession.

Lemma creation_winfo i : creation_ok i -> winfo_ok i.
Proof.
  intros (H1 & H2 & H3 & H4). unfold winfo_ok.
  assert (Q : forall o, reservation_ok o -> opt_range o) by (intros [n|]; cbn; auto).
  auto.
Qed.

Lemma entry_wf p a : add_ok a -> 0 <= p < 2 ^ 64 -> sbe_wf (with_pos (entry_of_info a) p).
Proof.
  intros (Hw & _) Hp. unfold sbe_wf in *. unfold entry_of_info.
  cbn [with_pos with_m e_coord e_m e_x e_y e_w e_h e_sw e_sh e_pt e_pos e_comp e_pyr] in *.
  destruct Hw as (A1 & A2 & A3 & A4 & A5 & A6 & A7 & A8 & A9 & A10 & A11 & A12).
  split; [assumption|]. split; [destruct (ai_mv a); [assumption|unfold in_i32, INT_MIN, INT_MAX; lia]|].
  repeat (split; [assumption|]). assumption.
Qed.

Lemma added_length ops : forall rs, (length (added ops rs) <= length ops)%nat.
Proof.
  induction ops as [|o ops IH]; intros [|r rs]; cbn [added length]; [lia|lia|destruct o; cbn; lia|].
  specialize (IH rs). destruct o; [destruct r|..]; cbn [length]; lia.
Qed.
Lemma attached_length ops : forall rs, (length (attached ops rs) <= length ops)%nat.
Proof.
  induction ops as [|o ops IH]; intros [|r rs]; cbn [attached length]; [lia|lia|destruct o; cbn; lia|].
  specialize (IH rs). destruct o; [|destruct r|]; cbn [length]; lia.
Qed.

Lemma map_snd_nil {A B} (l : list (A * B)) : map snd l = [] -> l = [].
Proof. now destruct l. Qed.

(** What the reader makes of the file. *)
Lemma open_final strict po i ops rs f subs atts dir dp mp ap :
  winfo_ok i -> final i ops rs f subs atts dir dp mp ap ->
  f_size f < 2 ^ 63 -> Z.of_nat (length ops) <= INT_MAX -> strict = false \/ added ops rs <> [] ->
  0 <= dp < 2 ^ 63 -> 0 <= mp < 2 ^ 63 ->
  exists al pay, open_file strict po f = Ok (mkOpened (wi_guid i) dir
      (if ap =? 0 then [] else dec_atts (length atts) pay) mp)
    /\ (ap <> 0 -> atts <> [] /\ length pay = (128 * length atts)%nat
        /\ al = match attdir_alloc (wi_ratt i) with
                | Some k => if 256 + 128 * Z.of_nat (length atts) <=? k then k else align32 (256 + 128 * Z.of_nat (length atts))
                | None => align32 (256 + 128 * Z.of_nat (length atts)) end
        /\ (if 256 + 128 * Z.of_nat (length atts) <? al then exists pre, pay = pre ++ zeros 128
            else pay = flat_map enc_att (map (fun x => att_entry (fst x) (snd x)) atts)))
    /\ (ap = 0 -> atts = []).
Proof.
  intros Hi [Nh Ns Na (dal & Nd) Np Nadd Natt _ Nad] Hs Hc Hst Hdp Hmp. cbv zeta in Nad.
  assert (Ldir : length dir = length (added ops rs)).
  { rewrite (Permutation_length Np), map_length, <- Nadd, map_length. reflexivity. }
  assert (Latts : length atts = length (attached ops rs)) by (rewrite <- Natt, map_length; reflexivity).
  pose proof (added_length ops rs). pose proof (attached_length ops rs).
  assert (Hd : read_directory strict po f dp = Ok dir).
  { apply (read_directory_ok strict po f dp dal); try assumption.
    - rewrite Forall_forall. intros e He. apply (Permutation_in _ Np) in He. apply in_map_iff in He.
      destruct He as (x & <- & Hx). rewrite Forall_forall in Ns. destruct (Ns x Hx) as [Hok (B1 & B2 & _)].
      apply entry_wf; [assumption|]. change (2 ^ 64) with (2 * 2 ^ 63). lia.
    - lia.
    - destruct Hst as [|Hst]; [now left|right]. intros ->. destruct (added ops rs); [congruence|discriminate Ldir]. }
  destruct Nad as [(Ea & ->)|(Ea & Hap & al & pay & Hh & Lp & Hal & Hif)].
  - exists 0, []. unfold open_file.
    rewrite (read_file_header_ok strict f (wi_guid i) dp mp 0) by (try apply Hi; try assumption; change (2 ^ 64) with (2 * 2 ^ 63); lia).
    cbn [bind fh_dir fh_att fh_guid fh_meta]. rewrite Hd. cbn [bind]. split; [reflexivity|]. split; [congruence|auto].
  - exists al, pay. assert (ap < 2 ^ 63) by (destruct Hh as (B1 & B2 & _); lia). unfold open_file.
    rewrite (read_file_header_ok strict f (wi_guid i) dp mp ap) by (try apply Hi; try assumption; change (2 ^ 64) with (2 * 2 ^ 63); lia).
    cbn [bind fh_dir fh_att fh_guid fh_meta]. rewrite Hd. cbn [bind].
    replace (ap =? 0) with false by lia.
    rewrite (read_attdir_payload strict f ap al (length atts) pay) by (auto; lia). cbn [bind].
    split; [reflexivity|]. split; [intros _; repeat split; assumption|lia].
Qed.

Lemma final_bounds i ops rs f subs atts dir dp mp ap :
  final i ops rs f subs atts dir dp mp ap -> f_size f < 2 ^ 63 -> 0 <= dp < 2 ^ 63 /\ 0 <= mp < 2 ^ 63.
Proof.
  intros [_ _ _ (dal & Nd) _ _ _ Nm _] Hs. split.
  - destruct Nd as (A & B & _). pose proof (dir_bytes_length dal dir). assert (128 <= dir_used dir) by (unfold dir_used; lia). lia.
  - destruct (last_meta None ops rs) as [[xml att]|].
    + destruct Nm as ((al & A & B & _) & _). pose proof (meta_bytes_length al xml att).
      assert (0 <= meta_used xml att) by (unfold meta_used; lia). lia.
    + subst. split; [lia|reflexivity].
Qed.

(** C03 *)
Lemma observe_expected strict f p a :
  add_ok a -> src_size (ai_data a) <= INT_MAX -> holds f p (sb_segment p a) -> f_size f < 2 ^ 63 ->
  observe strict f (with_pos (entry_of_info a) p) = Ok (expected a).
Proof.
  intros Hok Hd Hh Hs. unfold observe. cbn [with_pos e_pos entry_of_info].
  pose proof (sb_segment_length p a Hok) as L.
  rewrite (read_subblock_ok strict f p a Hok Hd Hh) by (destruct Hh as (_ & B & _); lia). reflexivity.
Qed.

Lemma session_roundtrip : forall m0 strict po i ops ws rs r,
  session i ops = (ws, rs, r) -> creation_ok i -> Forall (request_ok INT_MAX) ops ->
  file_size ws < 2 ^ 63 -> Z.of_nat (length ops) <= INT_MAX -> strict = false \/ added ops rs <> [] ->
  r = Ok tt /\ exists o, open_file strict po (file_of m0 ws) = Ok o /\ op_guid o = wi_guid i
    /\ Permutation (map (observe strict (file_of m0 ws)) (op_dir o)) (map (fun a => Ok (expected a)) (added ops rs)).
Proof.
  intros m0 strict po i ops ws rs r H Hi Ho Hs Hn Hst. apply creation_winfo in Hi.
  assert (Hop : Forall op_ok ops) by (eapply Forall_impl; [apply op_ok_of_request|exact Ho]).
  destruct (session_final m0 i ops ws rs r Hi Hop H) as (-> & subs & atts & dir & dp & mp & ap & F).
  split; [reflexivity|].
  destruct (final_bounds _ _ _ _ _ _ _ _ _ _ F Hs) as [Hdp Hmp].
  destruct (open_final strict po _ _ _ _ _ _ _ _ _ _ Hi F Hs Hn Hst Hdp Hmp) as (al & pay & E & _).
  eexists. split; [exact E|]. split; [reflexivity|]. cbn [op_dir].
  destruct F as [_ Ns _ _ Np Nadd _ _ _]. eapply Permutation_trans; [apply Permutation_map, Np|].
  rewrite <- Nadd, !map_map. erewrite map_ext_in; [apply Permutation_refl|]. intros x Hx. cbn beta.
  rewrite Forall_forall in Ns. destruct (Ns x Hx) as [Hok Hh]. apply observe_expected; try assumption.
  apply (added_request INT_MAX ops rs); [assumption|]. rewrite <- Nadd. now apply in_map.
Qed.

(** Attachments and metadata. *)
Lemma session_attachments : forall m0 strict po i ops ws rs r,
  session i ops = (ws, rs, r) -> creation_ok i -> Forall (request_ok INT_MAX) ops ->
  file_size ws < 2 ^ 63 -> Z.of_nat (length ops) <= INT_MAX -> strict = false \/ added ops rs <> [] ->
  Forall (fun a => Z.of_nat (length (at_data a)) <= INT_MAX) (attached ops rs) ->
  match wi_ratt i with Some k => (if k =? 0 then 10 else k) <= Z.of_nat (length (attached ops rs)) | None => True end ->
  exists o, open_file strict po (file_of m0 ws) = Ok o
    /\ map (fun e => (ae_guid e, ae_type e, ae_name e, read_attachment strict (file_of m0 ws) (ae_pos e))) (op_atts o)
       = map (fun a => (at_guid a, at_type a, upd (at_name a) 79 0, Ok (at_data a))) (attached ops rs)
    /\ match last_meta None ops rs with
       | Some (xml, att) => op_metapos o <> 0 /\ read_metadata strict (file_of m0 ws) (op_metapos o) = Ok (xml, att)
       | None => op_metapos o = 0
       end.
Proof.
  intros m0 strict po i ops ws rs r H Hi Ho Hs Hn Hst Hd Hr. apply creation_winfo in Hi.
  assert (Hop : Forall op_ok ops) by (eapply Forall_impl; [apply op_ok_of_request|exact Ho]).
  destruct (session_final m0 i ops ws rs r Hi Hop H) as (-> & subs & atts & dir & dp & mp & ap & F).
  destruct (final_bounds _ _ _ _ _ _ _ _ _ _ F Hs) as [Hdp Hmp].
  destruct (open_final strict po _ _ _ _ _ _ _ _ _ _ Hi F Hs Hn Hst Hdp Hmp) as (al & pay & E & P1 & P2).
  eexists. split; [exact E|]. cbn [op_atts op_metapos].
  destruct F as [_ _ Na _ _ _ Natt Nm _]. split.
  - rewrite <- Natt, map_map.
    destruct (Z.eq_dec ap 0) as [Ez|Ez].
    + subst ap. rewrite (P2 eq_refl). reflexivity.
    + destruct (P1 Ez) as (Hne & Lp & Hal & Hif). replace (ap =? 0) with false by lia.
      assert (Latt : length atts = length (attached ops rs)) by (rewrite <- Natt, map_length; reflexivity).
      assert (Efit : (256 + 128 * Z.of_nat (length atts) <? al) = false).
      { rewrite Hal. assert (A : align32 (256 + 128 * Z.of_nat (length atts)) = 256 + 128 * Z.of_nat (length atts)) by (unfold align32; lia).
        destruct (wi_ratt i) as [k|]; cbn [attdir_alloc]; [|rewrite A; lia].
        destruct (_ <=? align32 (256 + ratt_bytes k)) eqn:E2; [|rewrite A; lia].
        unfold ratt_bytes in *. rewrite Latt in *. unfold align32 in *. destruct (k =? 0); lia. }
      rewrite Efit in Hif. subst pay.
      set (es := map (fun x => att_entry (fst x) (snd x)) atts) in *.
      assert (Les : length atts = length es) by (unfold es; now rewrite map_length).
      rewrite Les, <- (app_nil_r (flat_map enc_att es)), dec_atts_enc.
      * unfold es. rewrite !map_map. apply map_ext_in. intros x Hx. cbn [ae_norm att_entry ae_guid ae_type ae_name ae_pos].
        rewrite Forall_forall in Na. destruct (Na x Hx) as [Hok Hh].
        rewrite (read_attachment_ok strict _ (fst x) (snd x)); [reflexivity|assumption| |assumption].
        rewrite Forall_forall in Hd. apply Hd. rewrite <- Natt. now apply in_map.
      * unfold es. apply Forall_map. rewrite Forall_forall in *. intros x Hx. destruct (Na x Hx) as [Hok (B1 & B2 & _)].
        split; [exact Hok|]. cbn [att_entry ae_pos].
        change (2 ^ 64) with (2 * 2 ^ 63). change (f_size (file_of m0 ws)) with (file_size ws) in B2. lia.
  - destruct (last_meta None ops rs) as [[xml att]|]; [|assumption].
    destruct Nm as ((al' & Hh) & Hz & Hx & Ha). split; [assumption|]. now apply (read_metadata_ok strict _ mp al').
Qed.

(** C07: a reserved attachment directory which is not filled. *)
Lemma dec_atts_length n : forall bs, (length (dec_atts n bs) <= n)%nat.
Proof.
  induction n as [|n IH]; intros bs; cbn [dec_atts]; [cbn; lia|]. specialize (IH (skipn 128 bs)).
  destruct (dec_att _); cbn [length]; lia.
Qed.

Lemma dec_atts_lost n : forall pre, length (pre ++ zeros 128) = (128 * n)%nat -> (0 < n)%nat ->
  (length (dec_atts n (pre ++ zeros 128)) < n)%nat.
Proof.
  assert (Z128 : length (zeros 128) = 128%nat) by reflexivity.
  induction n as [|n IH]; intros pre L Hn; [lia|]. cbn [dec_atts].
  rewrite app_length, Z128 in L.
  destruct n as [|n].
  - assert (L0 : length pre = 0%nat) by lia. destruct pre; [apply Nat.ltb_lt; vm_compute; reflexivity|discriminate L0].
  - rewrite skipn_app. replace (128 - length pre)%nat with 0%nat by lia. rewrite skipn_O.
    assert (Q := IH (skipn 128 pre)). rewrite app_length, skipn_length, Z128 in Q.
    specialize (Q ltac:(lia) ltac:(lia)). destruct (dec_att _); cbn [length]; lia.
Qed.

Lemma session_attdir_lost : forall m0 strict po i ops ws rs r k,
  session i ops = (ws, rs, r) -> creation_ok i -> Forall (request_ok INT_MAX) ops ->
  file_size ws < 2 ^ 63 -> Z.of_nat (length ops) <= INT_MAX -> strict = false \/ added ops rs <> [] ->
  wi_ratt i = Some k -> attached ops rs <> [] -> Z.of_nat (length (attached ops rs)) < (if k =? 0 then 10 else k) ->
  exists o, open_file strict po (file_of m0 ws) = Ok o /\ (length (op_atts o) < length (attached ops rs))%nat.
Proof.
  intros m0 strict po i ops ws rs r k H Hi Ho Hs Hn Hst Hk Hne Hr. apply creation_winfo in Hi.
  assert (Hop : Forall op_ok ops) by (eapply Forall_impl; [apply op_ok_of_request|exact Ho]).
  destruct (session_final m0 i ops ws rs r Hi Hop H) as (-> & subs & atts & dir & dp & mp & ap & F).
  destruct (final_bounds _ _ _ _ _ _ _ _ _ _ F Hs) as [Hdp Hmp].
  destruct (open_final strict po _ _ _ _ _ _ _ _ _ _ Hi F Hs Hn Hst Hdp Hmp) as (al & pay & E & P1 & P2).
  eexists. split; [exact E|]. cbn [op_atts]. destruct F as [_ _ _ _ _ _ Natt _ _].
  assert (Latt : length atts = length (attached ops rs)) by (rewrite <- Natt, map_length; reflexivity).
  assert (Hpos : (0 < length (attached ops rs))%nat) by (destruct (attached ops rs); [congruence|cbn; lia]).
  destruct (Z.eq_dec ap 0) as [Ez|Ez]; [subst ap; exact Hpos|].
  destruct (P1 Ez) as (_ & Lp & Hal & Hif). replace (ap =? 0) with false by lia.
  rewrite Hk in Hal. cbn [attdir_alloc] in Hal. rewrite Latt in *.
  assert (A : align32 (256 + ratt_bytes k) = 256 + 128 * (if k =? 0 then 10 else k)) by (unfold align32, ratt_bytes; destruct (k =? 0); lia).
  rewrite A in Hal. set (K := if k =? 0 then 10 else k) in *. clearbody K.
  replace (256 + 128 * Z.of_nat (length (attached ops rs)) <=? 256 + 128 * K) with true in Hal by lia.
  replace (256 + 128 * Z.of_nat (length (attached ops rs)) <? al) with true in Hif by lia.
  destruct Hif as (pre & ->). now apply dec_atts_lost.
Qed.

(** C04 *)
Lemma wstep_below s o ws s' r : seg_inv s -> op_ok o -> wstep s o = (ws, s', r) -> ws_in 544 (w_next s') ws.
Proof.
  intros Hi Ho H. pose proof Hi as (H1 & H2 & H3 & H4). destruct o as [a slot|a|xml att].
  - apply wstep_sub in H; [|exact Ho].
    destruct H as [(-> & -> & ->)|(-> & _ & k & bss & -> & -> & C & ->)]; [apply Forall_nil|]. cbn [w_next].
    pose proof (sb_segment_length (w_next s) a Ho) as L. rewrite <- C in L.
    apply (ws_in_weaken (w_next s) (w_next s + align32 (sb_used a))); [apply ws_in_contig; lia|lia|lia].
  - apply wstep_att in H; [|exact Ho].
    destruct H as [(-> & -> & ->)|(-> & bss & -> & C & ->)]; [apply Forall_nil|]. cbn [w_next].
    pose proof (att_segment_length (w_next s) a Ho) as L. rewrite <- C in L.
    apply (ws_in_weaken (w_next s) (w_next s + att_total a)); [apply ws_in_contig; lia|lia|lia].
  - destruct (wstep_meta _ _ _ _ _ _ Hi Ho H) as (_ & mk & p & al & bss & z & -> & Hp & C & Hz & Hz2 & ->).
    assert (L : Z.of_nat (length (concat bss)) <= al + 32).
    { rewrite C, app_length, Nat2Z.inj_add, meta_bytes_length, zeros_length by lia. lia. }
    assert (Hm : forall g, w_meta s = Some g -> seg_in (w_next s) g) by (intros g; now apply seg_meta_in).
    cbn [w_next]. destruct Hp as [(g & Eg & -> & -> & -> & Hn)|(-> & -> & Hmk & _)].
    + specialize (Hm g Eg). unfold seg_in, seg_end in Hm. replace (sg_pos g =? w_next s) with false by lia. cbn [app].
      apply (ws_in_weaken (sg_pos g) (sg_pos g + (sg_alloc g + 32))); [apply ws_in_contig; lia|lia|lia].
    + rewrite Z.eqb_refl. apply ws_in_app. split.
      * destruct Hmk as [->|(g & Eg & _ & ->)]; [apply Forall_nil|]. specialize (Hm g Eg). unfold seg_in, seg_end in Hm.
        destruct (align32_spec (meta_used xml att)); [unfold meta_used; lia|].
        assert (0 <= meta_used xml att) by (unfold meta_used; lia).
        apply Forall_cons; [|apply Forall_nil]. cbn [fst snd]. change (Z.of_nat (length MAGIC_DELETED)) with 16. lia.
      * apply (ws_in_weaken (w_next s) (w_next s + (align32 (meta_used xml att) + 32))); [apply ws_in_contig; lia|lia|lia].
Qed.

Lemma wrun_below ops : forall s ws s' rs, seg_inv s -> Forall op_ok ops -> wrun s ops = (ws, s', rs) -> ws_in 544 (w_next s') ws.
Proof.
  induction ops as [|o ops IH]; intros s ws s' rs Hi Ho H; cbn [wrun] in H.
  - injection H as <- <- <-. apply Forall_nil.
  - destruct (wstep s o) as [[w1 s1] r] eqn:E1. destruct (wrun s1 ops) as [[w2 s2] rs2] eqn:E2.
    injection H as <- <- <-. inversion Ho; subst.
    destruct (wstep_inv _ _ _ _ _ Hi ltac:(eassumption) E1) as (A1 & B1 & _).
    destruct (wrun_inv _ _ _ _ _ A1 ltac:(eassumption) E2) as (A2 & B2 & _).
    apply ws_in_app. split; [|now apply (IH s1 _ _ rs2)].
    apply (ws_in_weaken 544 (w_next s1)); [now apply (wstep_below s o _ _ r)|lia|lia].
Qed.

Lemma session_no_overlap : forall i ops1 o ops2 ws0 s0 ws1 s1 rs1 ws2 s2 ws3 s3 rs3,
  creation_ok i -> Forall (request_ok (2 ^ 64)) (ops1 ++ o :: ops2) ->
  create i = (ws0, s0) -> wrun s0 ops1 = (ws1, s1, rs1) -> wstep s1 o = (ws2, s2, Ok tt) -> wrun s2 ops2 = (ws3, s3, rs3) ->
  (match o with OpMeta _ _ => False | _ => True end) ->
  exists p bss, ws2 = contig p bss /\ 544 <= p /\ p mod 32 = 0 /\ Z.of_nat (length (concat bss)) mod 32 = 0
    /\ (0 < length (concat bss))%nat
    /\ Forall (fun w => fst w + Z.of_nat (length (snd w)) <= p) (ws0 ++ ws1)
    /\ Forall (fun w => fst w + Z.of_nat (length (snd w)) <= p \/ p + Z.of_nat (length (concat bss)) <= fst w)
              (ws3 ++ fst (finish (wi_guid i) s3)).
Proof.
  intros i ops1 o ops2 ws0 s0 ws1 s1 rs1 ws2 s2 ws3 s3 rs3 Hi Hops Ec E1 E2 E3 Hnm. apply creation_winfo in Hi.
  assert (Hop : Forall op_ok (ops1 ++ o :: ops2)) by (eapply Forall_impl; [apply op_ok_of_request|exact Hops]).
  apply Forall_app in Hop. destruct Hop as [Hop1 Hop2]. inversion Hop2 as [|? ? Ho Hop3]; subst.
  destruct (create_spec i ws0 s0 Hi Ec) as (I0 & D0 & A0 & M0 & S0 & T0 & AL & ws0' & W0 & In0).
  assert (V0 : winv s0 ws0 [] [] None).
  { split; try assumption; try apply Forall_nil; now rewrite D0. }
  destruct (wrun_inv ops1 s0 ws1 s1 rs1 I0 Hop1 E1) as (I1 & N1 & _).
  destruct (wstep_inv s1 o ws2 s2 (Ok tt) I1 Ho E2) as (I2 & N2 & _).
  assert (Efull : wrun s0 (ops1 ++ o :: ops2) = (ws1 ++ ws2 ++ ws3, s3, rs1 ++ Ok tt :: rs3)).
  { assert (G : forall l s wa sa ra wb sb rb l', wrun s l = (wa, sa, ra) -> wrun sa l' = (wb, sb, rb) -> wrun s (l ++ l') = (wa ++ wb, sb, ra ++ rb)).
    { clear. induction l as [|x l IH]; intros s wa sa ra wb sb rb l' Ha Hb; cbn [wrun app] in *.
      - injection Ha as <- <- <-. exact Hb.
      - destruct (wstep s x) as [[w1 t] r]. destruct (wrun t l) as [[w2 t2] r2] eqn:E2. injection Ha as <- <- <-.
        rewrite (IH t w2 t2 r2 wb sb rb l' E2 Hb). cbn [app]. now rewrite app_assoc. }
    apply (G _ _ _ s1 _ _ s3 (Ok tt :: rs3)); [assumption|]. cbn [wrun]. now rewrite E2, E3. }
  destruct (wrun_winv _ s0 ws0 [] [] None _ s3 _ V0 ltac:(apply Forall_app; split; [exact Hop1|exact Hop2]) Efull) as (subs & atts & V & _ & _).
  destruct V as [Vs Vsub Vatt Vdir Vwatts Vmeta Vsb Vat].
  assert (Hae : Forall ae_ok (w_atts s3)).
  { rewrite Vwatts. apply Forall_map. eapply Forall_impl; [|exact Vatt]. cbn beta. intros x [Hx _]. exact Hx. }
  destruct (finish_spec (wi_guid i) s3 Vs Vsb Vat Hae)
    as (dp & dal & dbss & z & attws & ap & Ef & _ & _ & _ & Fav & _).
  assert (K : exists bss, ws2 = contig (w_next s1) bss /\ w_next s2 = w_next s1 + Z.of_nat (length (concat bss))
              /\ (0 < length (concat bss))%nat /\ specials s2 = specials s1).
  { destruct o as [a slot|a|xml att]; [| |destruct Hnm].
    - apply wstep_sub in E2; [|exact Ho].
      destruct E2 as [(Q & _)|(_ & _ & k & bss & -> & -> & C & ->)]; [discriminate|]. exists bss. cbn [w_next].
      pose proof (sb_segment_length (w_next s1) a Ho) as L. rewrite <- C in L. pose proof (sb_used_nonneg a Ho).
      split; [reflexivity|]. split; [lia|]. split; [|reflexivity]. rewrite C. unfold sb_segment. rewrite !app_length.
      assert (0 < length (sb_header (w_next s1) a))%nat; [|lia]. unfold sb_header. rewrite app_length. cbn [length app seg_header MAGIC_SB].  lia.
    - apply wstep_att in E2; [|exact Ho].
      destruct E2 as [(Q & _)|(_ & bss & -> & C & ->)]; [discriminate|]. exists bss. cbn [w_next].
      pose proof (att_segment_length (w_next s1) a Ho) as L. rewrite <- C in L.
      assert (32 <= att_total a) by (unfold att_total; pose proof (align32_spec (256 + Z.of_nat (length (at_data a)))); lia).
      split; [reflexivity|]. split; [lia|]. split; [lia|reflexivity]. }
  destruct K as (bss & -> & N2' & Hpos & Hsp). exists (w_next s1), bss.
  pose proof I1 as (B1 & B2 & B3 & _). pose proof I2 as (B4 & B5 & _).
  assert (P : protected s2 (w_next s1) (w_next s1 + Z.of_nat (length (concat bss)))).
  { unfold protected. split; [lia|]. split; [lia|]. rewrite Hsp. eapply Forall_impl; [|exact B3].
    intros g Hg. unfold seg_in in Hg. lia. }
  destruct (wrun_inv ops2 s2 ws3 s3 rs3 I2 Hop3 E3) as (_ & _ & Hpr). destruct (Hpr _ _ P) as [Av P3].
  split; [reflexivity|]. split; [lia|]. split; [assumption|]. split; [lia|]. split; [assumption|]. split.
  - apply Forall_app. split.
    + rewrite W0. apply Forall_cons.
      * assert (Lh : length (file_header (wi_guid i) 0 0 0) = 544%nat) by (apply file_header_fields; apply Hi).
        unfold fst, snd. rewrite Lh. lia.
      * eapply Forall_impl; [|exact In0]. cbn beta. intros w Hw. lia.
    + eapply Forall_impl; [|exact (wrun_below ops1 s0 ws1 s1 rs1 I0 Hop1 E1)]. cbn beta. intros w Hw. lia.
  - apply avoid_app. split; [assumption|]. rewrite Ef. unfold fst at 1. rewrite app_assoc. apply avoid_app. split; [now apply Fav|].
    apply Forall_cons; [|apply Forall_nil]. left. unfold fst, snd.
    assert (Lh : length (file_header (wi_guid i) dp (seg_pos_valid (w_meta s3)) ap) = 544%nat) by (apply file_header_fields; apply Hi).
    rewrite Lh. lia.
Qed.
