(** A whole session: create, operations, close, re-open. *)
From Coq Require Import Permutation.
From Verif Require Import Base CodecModel MemProofs CodecProofs WriterModel WriterProofs WriterSpec ReadProofs WriterInv WriterFin WriterOpen.

Lemma wstep_attdir s o : w_attdir (snd (fst (wstep s o))) = w_attdir s.
Proof.
  destruct o as [a slot|a|xml att]; unfold wstep.
  - destruct (negb _); [reflexivity|]. destruct slot; [|reflexivity]. destruct (snd (write_subblock _ _)); reflexivity.
  - destruct (existsb _ _); [reflexivity|]. destruct (snd (write_attachment _ _)); reflexivity.
  - destruct (snd (write_metadata _ _ _ _)) as [[p al]| | |]; reflexivity.
Qed.

Lemma wrun_attdir ops : forall s, w_attdir (snd (fst (wrun s ops))) = w_attdir s.
Proof.
  induction ops as [|o ops IH]; intros s; cbn [wrun]; [reflexivity|].
  pose proof (wstep_attdir s o) as E. destruct (wstep s o) as [[w1 s1] r]. cbn [fst snd] in E.
  specialize (IH s1). destruct (wrun s1 ops) as [[w2 s2] rs]. cbn [fst snd] in *. congruence.
Qed.

Lemma op_ok_of_request mx o : request_ok mx o -> op_ok o.
Proof.
  destruct o as [a slot|a|xml att]; cbn [request_ok op_ok]; intros H; [|exact H|exact H].
  destruct H as (H1 & H2 & H3 & H4 & H5 & H6 & H7). unfold add_ok. repeat split; try assumption; try apply H1; try apply H2; try apply H3; try apply H4.
Qed.

Lemma added_request mx ops : forall rs a, Forall (request_ok mx) ops -> In a (added ops rs) -> src_size (ai_data a) <= mx.
Proof.
  induction ops as [|o ops IH]; intros rs a H Hin; [destruct Hin|]. inversion H; subst.
  destruct rs as [|r rs]; [destruct o; destruct Hin|].
  destruct o as [b slot|b|xml att]; cbn [added] in Hin.
  - destruct r; try (now apply (IH rs)). destruct Hin as [<-|Hin]; [|now apply (IH rs)]. cbn [request_ok] in *. tauto.
  - now apply (IH rs).
  - now apply (IH rs).
Qed.

(** Everything a completed session leaves in the file. *)
Record final (i : winfo) (ops : list wop) (rs : list (res unit)) (f : file)
             (subs : list (Z * addinfo)) (atts : list (Z * attinfo)) (dir : list sbe) (dp mp ap : Z) : Prop := {
  n_head : holds f 0 (file_header (wi_guid i) dp mp ap);
  n_subs : Forall (fun x => add_ok (snd x) /\ holds f (fst x) (sb_segment (fst x) (snd x))) subs;
  n_atts : Forall (fun x => att_ok (snd x) /\ holds f (fst x) (att_segment (fst x) (snd x))) atts;
  n_dir : exists dal, holds f dp (dir_bytes dal dir);
  n_perm : Permutation dir (map (fun x => with_pos (entry_of_info (snd x)) (fst x)) subs);
  n_added : map snd subs = added ops rs;
  n_attached : map snd atts = attached ops rs;
  n_meta : match last_meta None ops rs with
           | None => mp = 0
           | Some (xml, att) => (exists al, holds f mp (meta_bytes al xml att)) /\ mp <> 0
                                /\ Z.of_nat (length xml) <= INT_MAX /\ Z.of_nat (length att) <= INT_MAX
           end;
  n_attdir : let n := length atts in
             let es := map (fun x => att_entry (fst x) (snd x)) atts in
             (atts = [] /\ ap = 0)
             \/ (atts <> [] /\ 544 <= ap /\ exists al pay, holds f ap (attdir_head al n ++ pay) /\ length pay = (128 * n)%nat
                 /\ al = match attdir_alloc (wi_ratt i) with
                         | Some k => if 256 + 128 * Z.of_nat n <=? k then k else align32 (256 + 128 * Z.of_nat n)
                         | None => align32 (256 + 128 * Z.of_nat n) end
                 /\ (if 256 + 128 * Z.of_nat n <? al
                     then exists pre, pay = pre ++ zeros 128
                     else pay = flat_map enc_att es)) }.

Lemma zero_total_ge n : 4096 < n -> 4096 <= zero_total 0 n.
Proof. intros H. unfold zero_total. replace ((0 =? 0) && (n <=? 4096)) with false by lia. unfold blocks. lia. Qed.

Lemma attdir_head_tail al n : exists pre, attdir_head al n = pre ++ zeros 252 /\ length pre = 36%nat.
Proof. exists (seg_header MAGIC_ATTDIR al (256 + 128 * Z.of_nat n) ++ le 4 (Z.of_nat n)). unfold attdir_head. now rewrite <- app_assoc. Qed.

Lemma nth_zeros n k : nth k (zeros n) 0 = 0.
Proof. unfold zeros. revert k. induction (Z.to_nat n) as [|m IH]; intros [|k]; cbn; auto. Qed.

(** Effect of the misplaced padding of the attachment directory. *)
Lemma attdir_overlay m ap al n pay bss z :
  (0 < n)%nat -> length pay = (128 * n)%nat -> concat bss = zeros z -> 288 <= z ->
  exists pre, mread (apply_writes (apply_writes m (contig ap [attdir_head al n; pay])) (contig (ap + 128 * Z.of_nat n) bss)) ap (288 + 128 * n)
              = attdir_head al n ++ pre ++ zeros 128 /\ length (pre ++ zeros 128) = (128 * n)%nat.
Proof.
  intros Hn L C Hz.
  set (m1 := apply_writes m (contig ap [attdir_head al n; pay])).
  set (m2 := apply_writes m1 (contig (ap + 128 * Z.of_nat n) bss)).
  assert (M1 : mread m1 ap (288 + 128 * n) = attdir_head al n ++ pay).
  { unfold m1. rewrite <- L. replace (288 + length pay)%nat with (length (concat [attdir_head al n; pay])).
    - rewrite mread_contig. cbn [concat]. now rewrite app_nil_r.
    - cbn [concat]. rewrite !app_length, attdir_head_length. cbn [length]. lia. }
  assert (Mz : forall a, m2 a = mwrite m1 (ap + 128 * Z.of_nat n) (zeros z) a).
  { intros a. unfold m2. rewrite apply_writes_contig, C. reflexivity. }
  exists (mread m2 (ap + 288) (128 * (n - 1))). split.
  - replace (288 + 128 * n)%nat with (288 + (128 * (n - 1) + 128))%nat by lia.
    rewrite !mread_app. f_equal; [|f_equal].
    + apply (nth_ext _ _ 0 0); [now rewrite mread_length|]. intros k Hk. rewrite mread_length in Hk.
      rewrite mread_nth by assumption. rewrite Mz.
      destruct (Z_lt_dec (Z.of_nat k) (128 * Z.of_nat n)) as [Hlt|Hge].
      * rewrite mwrite_out by lia. rewrite <- (mread_nth m1 ap (288 + 128 * n) k 0) by lia. rewrite M1.
        rewrite app_nth1 by (rewrite attdir_head_length; lia). reflexivity.
      * rewrite mwrite_in by (rewrite zeros_length by lia; lia). rewrite nth_zeros.
        destruct (attdir_head_tail al n) as (pre & -> & Lp). rewrite app_nth2 by lia. now rewrite nth_zeros.
    + apply (nth_ext _ _ 0 0); [now rewrite mread_length|]. intros k Hk. rewrite mread_length in Hk.
      rewrite mread_nth by assumption. rewrite Mz. rewrite mwrite_in by (rewrite zeros_length by lia; lia).
      now rewrite !nth_zeros.
  - rewrite app_length, mread_length. change (length (zeros 128)) with 128%nat. lia.
Qed.

Lemma holds_intro m ws p bs : 0 <= p -> p + Z.of_nat (length bs) <= file_size ws ->
  mread (apply_writes m ws) p (length bs) = bs -> holds (file_of m ws) p bs.
Proof. intros. repeat split; assumption. Qed.

Lemma session_final m0 i ops ws rs r :
  winfo_ok i -> Forall op_ok ops -> session i ops = (ws, rs, r) ->
  r = Ok tt /\ exists subs atts dir dp mp ap, final i ops rs (file_of m0 ws) subs atts dir dp mp ap.
Proof.
  intros Hi Hops H. unfold session in H.
  destruct (create i) as [ws0 s0] eqn:Ec. destruct (wrun s0 ops) as [[ws1 s1] rs1] eqn:Er. injection H as <- <- <-.
  destruct (create_spec i ws0 s0 Hi Ec) as (I0 & D0 & A0 & M0 & S0 & T0 & AL & ws0' & W0 & In0).
  assert (V0 : winv s0 ws0 [] [] None).
  { split; try assumption; try apply Forall_nil; now rewrite D0. }
  destruct (wrun_winv ops s0 ws0 [] [] None ws1 s1 rs1 V0 Hops Er) as (subs & atts & V & Ms & Ma).
  cbn [map app] in Ms, Ma. pose proof V as [Vs Vsub Vatt Vdir Vwatts Vmeta Vsb Vat].
  assert (Hae : Forall ae_ok (w_atts s1)).
  { rewrite Vwatts. apply Forall_map. eapply Forall_impl; [|exact Vatt]. cbn beta. intros x [Hx _]. exact Hx. }
  destruct (finish_spec (wi_guid i) s1 Vs Vsb Vat Hae)
    as (dp & dal & dbss & z & attws & ap & Ef & Hdp & Cd & Hz & Fav & Fmeta & Fdir & Fge & Fatt).
  set (hdr := file_header (wi_guid i) dp (seg_pos_valid (w_meta s1)) ap) in *.
  assert (Lh : length hdr = 544%nat) by (apply file_header_fields; apply Hi).
  rewrite Ef. cbn [fst snd]. split; [reflexivity|].
  set (wsf := contig dp dbss ++ attws) in *.
  assert (Eall : ws0 ++ ws1 ++ contig dp dbss ++ attws ++ [(0, hdr)] = ((ws0 ++ ws1) ++ wsf) ++ [(0, hdr)]).
  { unfold wsf. now rewrite <- !app_assoc. }
  rewrite Eall.
  assert (Hav : forall lo hi, 544 <= lo -> avoid lo hi [(0, hdr)]).
  { intros lo hi Hlo. apply Forall_cons; [|apply Forall_nil]. left. unfold fst, snd. rewrite Lh. lia. }
  (* a region kept by the session is in the file *)
  assert (K : forall p bs, kept s1 (ws0 ++ ws1) p bs -> holds (file_of m0 (((ws0 ++ ws1) ++ wsf) ++ [(0, hdr)])) p bs).
  { intros p bs (K1 & K2 & K3). pose proof K1 as (K4 & _). apply holds_intro.
    - lia.
    - rewrite file_size_app, (file_size_app (ws0 ++ ws1)). lia.
    - rewrite apply_writes_app. rewrite (avoid_mread _ _ _ _ _ _ (Hav p (p + Z.of_nat (length bs)) K4)) by lia.
      rewrite apply_writes_app. rewrite (avoid_mread _ _ _ _ _ _ (Fav _ _ K1)) by lia. apply K2. }
  exists subs, atts, (w_dir s1), dp, (seg_pos_valid (w_meta s1)), ap. split.
  - apply holds_intro; [lia| |].
    + rewrite file_size_app. pose proof (file_size_in (0, hdr) [(0, hdr)] ltac:(now left)) as Q.
      unfold end_of in Q; cbn [fst snd] in Q. rewrite Lh in Q. cbn [Nat.eqb] in Q. fold hdr. lia.
    + rewrite apply_writes_app. cbn [apply_writes fold_left fst snd]. apply mread_mwrite_same.
  - eapply Forall_impl; [|exact Vsub]. cbn beta. intros x [Hx Hk]. split; [assumption|now apply K].
  - eapply Forall_impl; [|exact Vatt]. cbn beta. intros x [Hx Hk]. split; [assumption|now apply K].
  - exists dal. pose proof (dir_bytes_length dal (w_dir s1)) as Ld. assert (0 <= dir_used (w_dir s1)) by (unfold dir_used; lia).
    assert (Lc : length (concat dbss) = (length (dir_bytes dal (w_dir s1)) + length (zeros z))%nat) by now rewrite Cd, app_length.
    apply holds_intro; [lia| |].
    + unfold wsf. rewrite !file_size_app. pose proof (file_size_contig dbss dp). lia.
    + rewrite apply_writes_app. rewrite (avoid_mread _ _ _ _ _ _ (Hav dp (dp + Z.of_nat (length (dir_bytes dal (w_dir s1)))) Hdp)) by lia.
      unfold wsf. rewrite !apply_writes_app.
      rewrite (avoid_mread _ _ _ _ _ _ Fdir) by lia.
      rewrite (mread_prefix _ dp (concat dbss)); [|apply mread_contig|lia].
      rewrite Cd, slice_app_l by lia. now apply slice_all.
  - exact Vdir.
  - exact Ms.
  - exact Ma.
  - destruct (last_meta None ops rs1) as [[xml att]|]; cbn [meta_state] in Vmeta.
    + destruct Vmeta as (g & Eg & Dg & M & L & F & B).
      pose proof (seg_meta_in s1 g Vs Eg) as Sg. unfold seg_in in Sg.
      rewrite Eg. cbn [seg_pos_valid]. rewrite Dg. split; [|split; [lia|exact B]].
      exists (sg_alloc g). apply holds_intro; [lia| |].
      * rewrite !file_size_app in *. lia.
      * rewrite apply_writes_app.
        rewrite (avoid_mread _ _ _ _ _ _ (Hav (sg_pos g) (seg_end g) ltac:(lia))) by (unfold seg_end; lia).
        rewrite apply_writes_app. rewrite (avoid_mread _ _ _ _ _ _ (Fmeta g Eg)) by (unfold seg_end; lia). apply M.
    + destruct (w_meta s1) as [g|]; cbn in *; [now rewrite Vmeta|reflexivity].
  - cbv zeta. rewrite <- Vwatts.
    assert (Len : length (w_atts s1) = length atts) by (rewrite Vwatts; apply map_length).
    destruct Fatt as [(Ea & -> & ->)|(Ea & al & bss & z' & Eaw & Cb & Hz' & Hap & Hif & Hal)].
    + left. split; [|reflexivity]. destruct atts; [reflexivity|]. rewrite Vwatts in Ea. discriminate.
    + right. split; [intros ->; rewrite Vwatts in Ea; now apply Ea|]. split; [assumption|].
      assert (Hn : (0 < length atts)%nat) by (destruct (w_atts s1); [congruence|cbn [length] in Len; lia]).
      rewrite Len in *.
      set (n := length atts) in *. set (pay := flat_map enc_att (w_atts s1)) in *.
      assert (Lp : length pay = (128 * n)%nat) by (unfold pay; rewrite flat_enc_att_length by assumption; now rewrite Len).
      assert (Hal2 : al = match attdir_alloc (wi_ratt i) with
                         | Some k => if 256 + 128 * Z.of_nat n <=? k then k else align32 (256 + 128 * Z.of_nat n)
                         | None => align32 (256 + 128 * Z.of_nat n) end).
      { rewrite Hal, <- AL. pose proof (wrun_attdir ops s0) as Q. rewrite Er in Q. cbn [fst snd] in Q. rewrite Q.
        destruct (w_attdir s0); reflexivity. }
      assert (Fs : ap + 288 + 128 * Z.of_nat n <= file_size (((ws0 ++ ws1) ++ wsf) ++ [(0, hdr)])).
      { unfold wsf. rewrite Eaw, !file_size_app.
        pose proof (file_size_contig [attdir_head al n; pay] ap) as Q. cbn [concat] in Q. rewrite !app_length, attdir_head_length, Lp in Q.
        cbn [length] in Q. lia. }
      exists al. destruct (256 + 128 * Z.of_nat n <? al) eqn:Efit.
      * assert (Hz288 : 288 <= z').
        { rewrite Hif. destruct (Z_le_dec (al + 32 - 128 * Z.of_nat n) 4096) as [Hs|Hs].
          - unfold zero_total. replace ((0 =? 0) && (al + 32 - 128 * Z.of_nat n <=? 4096)) with true by lia. lia.
          - pose proof (zero_total_ge (al + 32 - 128 * Z.of_nat n)). lia. }
        destruct (attdir_overlay (apply_writes (apply_writes m0 (ws0 ++ ws1)) (contig dp dbss)) ap al n pay bss z' Hn Lp Cb Hz288)
          as (pre & Ov & Lov).
        exists (pre ++ zeros 128). split; [|split; [exact Lov|split; [exact Hal2|now exists pre]]].
        assert (Lf : length (attdir_head al n ++ pre ++ zeros 128) = (288 + 128 * n)%nat) by (rewrite app_length, attdir_head_length; lia).
        apply holds_intro; [lia|lia|]. rewrite Lf.
        rewrite apply_writes_app. rewrite (avoid_mread _ _ _ _ _ _ (Hav ap (ap + 288 + 128 * Z.of_nat n) Hap)) by lia.
        unfold wsf. rewrite Eaw, !apply_writes_app. rewrite !apply_writes_app in Ov. exact Ov.
      * exists pay. split; [|split; [exact Lp|split; [exact Hal2|reflexivity]]].
        assert (bss = [] \/ concat bss = []) as Hb by (right; rewrite Cb, Hif; reflexivity).
        assert (Lf : length (attdir_head al n ++ pay) = (288 + 128 * n)%nat) by (rewrite app_length, attdir_head_length; lia).
        apply holds_intro; [lia|lia|].
        rewrite apply_writes_app.
        rewrite (avoid_mread _ _ _ _ _ _ (Hav ap (ap + 288 + 128 * Z.of_nat n) Hap)) by lia.
        unfold wsf. rewrite Eaw, !apply_writes_app.
        transitivity (mread (apply_writes (apply_writes (apply_writes (apply_writes m0 ws0) ws1) (contig dp dbss)) (contig ap [attdir_head al n; pay])) ap
                        (length (attdir_head al n ++ pay))).
        -- apply mread_same. intros k _. rewrite apply_writes_contig. rewrite Cb, Hif. apply mwrite_nil.
        -- replace (attdir_head al n ++ pay) with (concat [attdir_head al n; pay]) by (cbn [concat]; now rewrite app_nil_r).
           apply mread_contig.
Qed.
