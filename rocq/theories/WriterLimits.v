(** Sub-blocks of 2 GiB and more: written, listed, but not readable. *)
From Coq Require Import Permutation.
From Verif Require Import Base CodecModel MemProofs CodecProofs WriterModel WriterProofs WriterSpec ReadProofs WriterInv WriterFin WriterOpen WriterSession WriterMain WriterCrash.

Lemma read_large strict f p a d :
  add_ok a -> INT_MAX < src_size (ai_data a) -> holds f p (sb_segment p a) -> f_size f < 2 ^ 63 ->
  read_subblock strict f p <> Ok d.
Proof.
  intros Hok Hd Hh Hs H. pose proof (sb_segment_length p a Hok) as Lseg. pose proof (sb_used_nonneg a Hok) as Hu.
  destruct (align32_spec (sb_used a)) as [Hal _]; [lia|].
  assert (H288 : 288 + src_size (ai_data a) <= sb_used a).
  { pose proof Hok as (_ & [A1 _] & [A2 _] & [A3 _] & _). unfold sb_used, sb_header_size in *. lia. }
  assert (Hsz : src_size (ai_data a) < 2 ^ 63) by (destruct Hh as (B1 & B2 & _); lia).
  unfold read_subblock in H. apply bind_ok_inv in H. destruct H as (h & Eh & H).
  pose proof (read_exact_holds strict f p (sb_segment p a) 0 288 Hh) as Q. replace (p + Z.of_nat 0) with p in Q by lia.
  change (Z.of_nat 288) with 288 in Q. rewrite Q in Eh by (unfold INT_MAX in *; lia). injection Eh as <-.
  change (slice (sb_segment p a) 0 288) with (firstn 288 (sb_segment p a)) in H.
  rewrite sb_segment_split in H. rewrite (firstn_pre _ _ 80) in H by (reflexivity || lia).
  match type of H with context [sb_pre p a ++ ?r] => destruct (sb_pre_fields p a r) as (_ & _ & _ & F4 & _) end.
  cbv zeta in F4. rewrite F4 in H.
  destruct (negb _); [discriminate|]. cbv zeta in H.
  apply bind_ok_inv in H. destruct H as ([e len0] & _ & H).
  apply bind_ok_inv in H. destruct H as (md & _ & H).
  apply bind_ok_inv in H. destruct H as (da & Hda & _).
  rewrite s64_unle_le8 in Hda by (unfold INT_MAX in *; lia).
  replace (0 <? src_size (ai_data a)) with true in Hda by (unfold INT_MAX in *; lia).
  apply read_cast32_limit in Hda. lia.
Qed.

(** What the reader delivers, if anything. *)
Definition delivered (strict : bool) (f : file) (e : sbe) : option observed :=
  match observe strict f e with Ok x => Some x | _ => None end.

Lemma session_readable : forall m0 strict po i ops ws rs r,
  session i ops = (ws, rs, r) -> creation_ok i -> Forall (request_ok (2 ^ 63)) ops ->
  file_size ws < 2 ^ 63 -> Z.of_nat (length ops) <= INT_MAX -> strict = false \/ added ops rs <> [] ->
  r = Ok tt /\ exists o, open_file strict po (file_of m0 ws) = Ok o
    /\ Permutation (map (delivered strict (file_of m0 ws)) (op_dir o))
                   (map (fun a => if src_size (ai_data a) <=? INT_MAX then Some (expected a) else None) (added ops rs)).
Proof.
  intros m0 strict po i ops ws rs r H Hi Ho Hs Hn Hst. apply creation_winfo in Hi.
  assert (Hop : Forall op_ok ops) by (eapply Forall_impl; [apply op_ok_of_request|exact Ho]).
  destruct (session_final m0 i ops ws rs r Hi Hop H) as (-> & subs & atts & dir & dp & mp & ap & F).
  split; [reflexivity|].
  destruct (final_bounds _ _ _ _ _ _ _ _ _ _ F Hs) as [Hdp Hmp].
  destruct (open_final strict po _ _ _ _ _ _ _ _ _ _ Hi F Hs Hn Hst Hdp Hmp) as (al & pay & E & _).
  eexists. split; [exact E|]. cbn [op_dir].
  destruct F as [_ Ns _ _ Np Nadd _ _ _]. eapply Permutation_trans; [apply Permutation_map, Np|].
  rewrite <- Nadd, !map_map. erewrite map_ext_in; [apply Permutation_refl|]. intros x Hx. cbn beta.
  rewrite Forall_forall in Ns. destruct (Ns x Hx) as [Hok Hh]. unfold delivered.
  destruct (src_size (ai_data (snd x)) <=? INT_MAX) eqn:Esz.
  - rewrite observe_expected by (assumption || lia). reflexivity.
  - unfold observe. cbn [with_pos e_pos entry_of_info].
    destruct (read_subblock strict (file_of m0 ws) (fst x)) as [d| | |] eqn:Er; cbn [bind]; try reflexivity.
    exfalso. apply (read_large strict (file_of m0 ws) (fst x) (snd x) d); try assumption; lia.
Qed.

(** A session with one sub-block of exactly 2 GiB. *)
Definition big_geo : sbe := mkSbe no_coord 0 0 0 65536 32768 65536 32768 0 0 0 0.
Definition big_of (cs : list (option bytes)) : addinfo := mkAdd big_geo false (mkSrc 0 []) (mkSrc (2 ^ 31) cs) (mkSrc 0 []).
Definition big_add : addinfo := big_of [Some (zeros (2 ^ 31))].
Definition big_info : winfo := mkWInfo (repeat 7 16) None None None.

Lemma empty_source_ok : source_ok (mkSrc 0 []).
Proof. split; [cbn; lia|cbn; tauto]. Qed.

Lemma big_of_request cs : source_ok (mkSrc (2 ^ 31) cs) -> request_ok (2 ^ 31) (OpSub (big_of cs) (Some 0%nat)).
Proof.
  intros H. unfold request_ok. cbn [big_of ai_e ai_meta ai_data ai_att src_size].
  split; [|split; [exact empty_source_ok|]; split; [exact H|split; [exact empty_source_ok|unfold INT_MAX; lia]]].
  unfold geometry_ok, big_geo, sbe_wf, coord_wf, with_pos, no_coord, in_i32, INT_MIN, INT_MAX.
  cbn [e_coord e_m e_x e_y e_w e_h e_sw e_sh e_pt e_pos e_comp e_pyr].
  split; [split; [reflexivity|repeat (apply Forall_cons; [exact I|]); apply Forall_nil]|].
  change (2 ^ 64) with 18446744073709551616. lia.
Qed.

Lemma big_source : source_ok (mkSrc (2 ^ 31) [Some (zeros (2 ^ 31))]).
Proof.
  unfold source_ok. cbn [src_size src_chunks flat_map app]. rewrite app_nil_r.
  split; [|intros [Q|[]]; discriminate Q].
  assert (L : Z.of_nat (length (zeros (2 ^ 31))) = 2 ^ 31) by (apply zeros_length; lia). lia.
Qed.

Lemma big_request : request_ok (2 ^ 31) (OpSub big_add (Some 0%nat)).
Proof. exact (big_of_request _ big_source). Qed.

Lemma big_session cs : source_ok (mkSrc (2 ^ 31) cs) -> exists ws, session big_info [OpSub (big_of cs) (Some 0%nat)] = (ws, [Ok tt], Ok tt) /\ file_size ws < 2 ^ 63.
Proof.
  intros Hcs.
  assert (Hok : add_ok (big_of cs)) by exact (op_ok_of_request _ _ (big_of_request cs Hcs)).
  set (s0 := mkW 544 [] [] None None None).
  set (h0 := file_header (repeat 7 16) 0 0 0).
  assert (Ec : create big_info = ([(0, h0)], s0)) by reflexivity.
  destruct (wstep s0 (OpSub (big_of cs) (Some 0%nat))) as [[ws s1] r] eqn:E.
  pose proof E as E'. apply wstep_sub in E; [|assumption].
  destruct E as [(-> & Ews & Es)|(-> & _ & k & bss & Ek & Ews & C & Es)].
  { exfalso. unfold wstep in E'. replace (sub_args_ok (big_of cs)) with true in E' by reflexivity. cbn [negb] in E'. cbv zeta in E'.
    destruct (write_subblock_spec (w_next s0) (big_of cs) Hok) as (bss & W & _). rewrite W in E'. cbn [fst snd] in E'.
    apply pair_equal_spec in E'. destruct E' as [_ Q]. clear -Q. discriminate Q. }
  pose proof (sb_segment_length (w_next s0) (big_of cs) Hok) as L. rewrite <- C in L.
  assert (Eu : align32 (sb_used (big_of cs)) = 2147483936).
  { unfold sb_used, sb_header_size, ndims. cbn [big_of ai_e ai_mv ai_meta ai_data ai_att src_size].
    change (length (dims_of big_geo false)) with 2%nat. vm_compute. reflexivity. } rewrite Eu in *.
  injection Ek as <-.
  assert (Es1 : s1 = mkW 2147484480 [with_pos (with_m big_geo INT_MIN) 544] [] None None None) by exact Es.
  unfold session. rewrite Ec. cbn [wrun]. rewrite E'. eexists. split.
  - rewrite Es1. reflexivity.
  - rewrite file_size_app. cbn [app]. rewrite app_nil_r, file_size_app, Ews.
    assert (F1 : file_size [(0, h0)] = 544) by (vm_compute; reflexivity). rewrite F1.
    assert (F2 : file_size (fst (finish (wi_guid big_info) s1)) <= 2147485000) by (rewrite Es1; vm_compute; discriminate).
    assert (F3 : file_size (contig (w_next s0) bss) <= 2147484480).
    { assert (I : ws_in 544 2147484480 (contig (w_next s0) bss)) by (apply ws_in_contig; cbn [s0 w_next]; lia).
      clear -I. revert I. generalize (contig (w_next s0) bss). intros l I. unfold file_size.
      induction I as [|w l Hw _ IH]; cbn [map fold_right]; [lia|].
      assert (end_of w <= 2147484480) by (unfold end_of; destruct w as [q d]; cbn [fst snd] in *; destruct (length d =? 0)%nat; lia). lia. }
    change (2 ^ 63) with 9223372036854775808. lia.
Qed.

Lemma big_unreadable_of cs : source_ok (mkSrc (2 ^ 31) cs) -> exists ws, session big_info [OpSub (big_of cs) (Some 0%nat)] = (ws, [Ok tt], Ok tt)
  /\ forall m0 strict po, exists e o, open_file strict po (file_of m0 ws) = Ok o /\ op_dir o = [e]
     /\ forall d, read_subblock strict (file_of m0 ws) (e_pos e) <> Ok d.
Proof.
  intros Hcs.
  destruct (big_session cs Hcs) as (ws & E & Hf). exists ws. split; [exact E|]. intros m0 strict po.
  assert (Hi : creation_ok big_info) by (repeat split).
  assert (Hr : Forall (request_ok (2 ^ 63)) [OpSub (big_of cs) (Some 0%nat)]).
  { apply Forall_cons; [|apply Forall_nil]. destruct (big_of_request cs Hcs) as (A1 & A2 & A3 & A4 & A5 & A6 & A7).
    change (2 ^ 31) with 2147483648 in A7. unfold request_ok. change (2 ^ 63) with 9223372036854775808.
    split; [assumption|]. split; [assumption|]. split; [assumption|]. split; [assumption|]. split; [assumption|]. split; [assumption|]. lia. }
  assert (Hadd : added [OpSub (big_of cs) (Some 0%nat)] [Ok tt] = [(big_of cs)]) by reflexivity.
  destruct (session_readable m0 strict po _ _ _ _ _ E Hi Hr Hf) as (_ & o & Eo & P); [unfold INT_MAX; cbn; lia|right; rewrite Hadd; discriminate|].
  rewrite Hadd in P. cbn [map] in P. pose proof (Permutation_length P) as Lp. rewrite map_length in Lp. cbn [length] in Lp.
  destruct (op_dir o) as [|e [|e2 l]] eqn:Ed; try discriminate Lp.
  exists e, o. split; [exact Eo|]. split; [exact Ed|]. intros d Hd. cbn [map] in P.
  apply Permutation_length_1 in P. unfold delivered, observe in P. rewrite Hd in P. cbn [bind] in P.
  replace (src_size (ai_data (big_of cs)) <=? INT_MAX) with false in P by reflexivity. discriminate P.
Qed.

Lemma big_unreadable : exists ws, session big_info [OpSub big_add (Some 0%nat)] = (ws, [Ok tt], Ok tt)
  /\ forall m0 strict po, exists e o, open_file strict po (file_of m0 ws) = Ok o /\ op_dir o = [e]
     /\ forall d, read_subblock strict (file_of m0 ws) (e_pos e) <> Ok d.
Proof. exact (big_unreadable_of _ big_source). Qed.

(** Refused arguments *)
Lemma bad_arguments s a slot : e_comp (ai_e a) = INT_MIN \/ e_w (ai_e a) < 0 \/ e_h (ai_e a) < 0 \/ e_sw (ai_e a) < 0 \/ e_sh (ai_e a) < 0 -> wstep s (OpSub a slot) = ([], s, Throw).
Proof.
  intros H. unfold wstep. replace (sub_args_ok a) with false; [reflexivity|]. unfold sub_args_ok. symmetry. apply negb_false_iff. rewrite !orb_true_iff. lia.
Qed.
