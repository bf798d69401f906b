(** C32, C33, C34, C70: statistics, pyramid layers, editing a sub-block directory *)
From Verif Require Import Base RectModel CodecModel CoordModel StatModel StatSpec StatProofs LayerProofs PyrProofs DirProofs StatExamples.
Open Scope Z_scope.

(** C32.  The M range disregards sub-blocks without dimensions; bounds which do not fit an int are undefined behaviour. *)
Theorem C32_m_range_refuted : exists es u, Forall entry_ok es /\ bounds_fit es /\ open_stats es = Ok u /\ ~ describes es (get_stats u).
Proof. exact m_range_lost. Qed.
Print Assumptions C32_m_range_refuted.
Theorem C32_far_tiles_refuted : exists es, Forall entry_ok es /\ length es = 2%nat /\ open_stats es = UB.
Proof. exact far_tiles_ub. Qed.
Print Assumptions C32_far_tiles_refuted.
Theorem C32_last_coordinate_refuted : exists es, Forall entry_ok es /\ length es = 2%nat /\ (forall e, In e es -> e_x e = 0 /\ e_w e = 10 /\ e_y e = 0 /\ e_h e = 10) /\ open_stats es = UB.
Proof. exact last_coordinate_ub. Qed.
Print Assumptions C32_last_coordinate_refuted.
(** Otherwise every statistic is tight, in whatever order the sub-blocks come. *)
Theorem C32_statistics_partial : forall es, Forall entry_ok es -> bounds_fit es ->
  exists u, open_stats es = Ok u /\ describes_dim_m es (get_stats u) /\ pyramid es (fst (get_pyr u)).
Proof. exact open_stats_ok. Qed.
Print Assumptions C32_statistics_partial.
Example C32_example : Forall entry_ok doc /\ bounds_fit doc /\ exists u, open_stats doc = Ok u /\
  st_count (get_stats u) = 5 /\ st_box (get_stats u) = mkRect (-50) 0 240 264 /\ st_minm (get_stats u) = 0 /\ st_maxm (get_stats u) = 1 /\
  st_dims (get_stats u) = [None; Some (0, 2); None; None; Some (0, 3); None; None; None; None] /\
  st_scenes (get_stats u) = [(0, (mkRect 0 0 190 80, mkRect 0 0 190 80)); (2, (mkRect (-50) 200 64 64, mkRect (-50) 200 64 64))] /\
  fst (get_pyr u) = [(0, [((0, 0), 2); ((2, 1), 1)]); (2, [((0, 0), 1); ((3, 2), 1)])].
Proof. exact (conj doc_ok (conj doc_fits doc_result)). Qed.

(** C70.  The layer computed with doubles is the one exact arithmetic gives, and no sub-block fits two layers. *)
Theorem C70_layer_exact : forall e, 0 < e_w e <= INT_MAX -> 0 < e_h e <= INT_MAX -> 0 < e_sw e <= INT_MAX -> 0 < e_sh e <= INT_MAX -> layer_info e = layer_of e.
Proof. exact layer_exact. Qed.
Print Assumptions C70_layer_exact.
Theorem C70_layer_unique : forall e a b, 0 < e_sw e -> 0 < e_sh e -> In a known_layers -> In b known_layers -> fits_layer e a = true -> fits_layer e b = true -> a = b.
Proof. exact fits_unique. Qed.
Print Assumptions C70_layer_unique.
(** at the border of the tolerance: 21 / 10 = 2 + 1/10 is on layer 1, 2101 / 1000 is not *)
Example C70_example : layer_info (tile 0 0 0 0 0 21 21 10 10) = (2, 1) /\ layer_info (tile 0 0 0 0 0 2101 2101 1000 1000) = (255, 255) /\
  layer_info (tile 0 0 0 0 0 825 10 10 1) = (3, 4) /\ layer_info (tile 0 0 0 0 0 826 10 10 1) = (255, 255).
Proof. vm_compute. repeat split; reflexivity. Qed.

(** C33.  Replacing or removing a sub-block leaves it in the pyramid statistics. *)
Theorem C33_pyramid_modify_refuted : Forall entry_ok (flat_map given [DAdd t0; DModify 0 t1]) /\ bounds_fit (flat_map given [DAdd t0; DModify 0 t1]) /\
  exists rs l p d, rw_run ([DAdd t0; DModify 0 t1] ++ [DEnum; DPyr]) rwdir0 = Ok (rs ++ [REntries l; RPyr p], d) /\ length rs = 2%nat /\
    length l = 1%nat /\ p = [(0, [((0, 0), 2)])] /\ ~ pyramid (map snd l) p.
Proof. exact pyramid_counted_twice. Qed.
Print Assumptions C33_pyramid_modify_refuted.
Theorem C33_pyramid_remove_refuted : exists rs p d, rw_run ([DAdd t0; DRemove 0] ++ [DEnum; DPyr]) rwdir0 = Ok (rs ++ [REntries []; RPyr p], d) /\ ~ pyramid [] p.
Proof. exact pyramid_keeps_removed. Qed.
Print Assumptions C33_pyramid_remove_refuted.
(** After any history the statistics are those of the entries enumerated then; the pyramid statistics too if nothing was
    replaced or removed. *)
Theorem C33_statistics_partial : forall os, Forall entry_ok (flat_map given os) -> bounds_fit (flat_map given os) -> Z.of_nat (length os) + 3 <= INT_MAX ->
  exists rs l s p d, rw_run (os ++ [DEnum; DStats; DPyr]) rwdir0 = Ok (rs ++ [REntries l; RStats s; RPyr p], d) /\ length rs = length os /\ describes_dim_m (map snd l) s /\
    (Forall (fun o => match o with DModify _ _ | DRemove _ => False | _ => True end) os -> pyramid (map snd l) p).
Proof. exact stats_after. Qed.
Print Assumptions C33_statistics_partial.
Example C33_example : Forall entry_ok (flat_map given session) /\ bounds_fit (flat_map given session) /\
  exists s p d, rw_run (session ++ [DEnum; DStats; DPyr]) rwdir0 =
    Ok ([RKey (Some 0); RKey (Some 1); RKey None; REntry (Some t0); RKey (Some 2); RBool true; REntry None; RBool false] ++
        [REntries [(1, t2); (2, t0)]; RStats s; RPyr p], d) /\
    st_count s = 2 /\ st_box s = mkRect 0 0 350 80 /\ st_minm s = 0 /\ st_maxm s = 2.
Proof. exact (conj (proj1 session_ok) (conj (proj2 session_ok) session_result)). Qed.

(** C34.  Every history refines a map whose keys are the numbers of the additions. *)
Theorem C34_map : forall os, Forall entry_ok (flat_map given os) -> bounds_fit (flat_map given os) -> Z.of_nat (length os) <= INT_MAX ->
  exists rs d, rw_run os rwdir0 = Ok (rs, d) /\ spec_run os rs world0.
Proof. exact editor_refines. Qed.
Print Assumptions C34_map.
Example C34_example : Forall entry_ok (flat_map given session) /\ bounds_fit (flat_map given session) /\ Z.of_nat (length session) = 8.
Proof. exact (conj (proj1 session_ok) (conj (proj2 session_ok) eq_refl)). Qed.
