(** Concrete documents for the statistics and the directory of the editor. *)
From Verif Require Import Base RectModel CodecModel CoordModel StatModel StatSpec StatProofs LayerProofs PyrProofs DirProofs.
From Coq Require Import Sorted.
Open Scope Z_scope.

Definition tile (c s m x y w h sw sh : Z) : sbe := mkSbe [None; Some c; None; None; Some s; None; None; None; None] m x y w h sw sh 0 0 0 0.
Definition doc : list sbe :=
  [tile 0 0 0 0 0 100 80 100 80; tile 0 0 1 90 0 100 80 100 80; tile 1 2 0 (-50) 200 64 64 64 64; tile 0 0 INT_MIN 0 0 190 80 95 40; tile 1 2 INT_MIN (-50) 200 64 64 7 7].

Ltac ok_entries := repeat first [apply Forall_nil | apply Forall_cons; [unfold entry_ok, in_i32, INT_MIN, INT_MAX; cbn; repeat split; try lia; repeat constructor; lia|]].
Lemma doc_ok : Forall entry_ok doc.
Proof. unfold doc, tile. ok_entries. Qed.
(** decision procedure for the bounds *)
Definition fitb (a b : sbe) : bool :=
  (e_x a + e_w a <=? INT_MAX) && (e_y a + e_h a <=? INT_MAX) && (e_x a + e_w a - e_x b <=? INT_MAX) && (e_y a + e_h a - e_y b <=? INT_MAX) &&
  forallb (fun i => match nth i (e_coord a) None, nth i (e_coord b) None with Some v, Some v' => (v + 1 <=? INT_MAX) && (v + 1 - v' <=? INT_MAX) | _, _ => true end) (seq 0 9).
Lemma fitb_ok es : forallb (fun a => (length (e_coord a) =? 9)%nat && forallb (fitb a) es) es = true -> bounds_fit es.
Proof.
  intros H a b Ha Hb. rewrite forallb_forall in H. specialize (H a Ha). apply andb_true_iff in H. destruct H as [L H]. rewrite forallb_forall in H. specialize (H b Hb). unfold fitb in H.
  rewrite !andb_true_iff in H. destruct H as ((((H1 & H2) & H3) & H4) & H5). repeat (split; [lia|]). intros i v v' Hv Hv'. rewrite forallb_forall in H5.
  assert (Hi : (i < 9)%nat). { destruct (Nat.lt_ge_cases i 9) as [X|X]; [exact X|]. rewrite nth_overflow in Hv by lia. discriminate. }
  specialize (H5 i ltac:(apply in_seq; lia)). rewrite Hv, Hv' in H5. lia.
Qed.
Lemma doc_fits : bounds_fit doc.
Proof. apply fitb_ok. vm_compute. reflexivity. Qed.

Example doc_result : exists u, open_stats doc = Ok u /\
  st_count (get_stats u) = 5 /\ st_box (get_stats u) = mkRect (-50) 0 240 264 /\ st_minm (get_stats u) = 0 /\ st_maxm (get_stats u) = 1 /\
  st_dims (get_stats u) = [None; Some (0, 2); None; None; Some (0, 3); None; None; None; None] /\
  st_scenes (get_stats u) = [(0, (mkRect 0 0 190 80, mkRect 0 0 190 80)); (2, (mkRect (-50) 200 64 64, mkRect (-50) 200 64 64))] /\
  fst (get_pyr u) = [(0, [((0, 0), 2); ((2, 1), 1)]); (2, [((0, 0), 1); ((3, 2), 1)])].
Proof. eexists. split; [vm_compute; reflexivity|]. vm_compute. repeat split; reflexivity. Qed.

(** M index without any dimension *)
Definition lone : sbe := mkSbe (repeat None 9) 5 0 0 10 10 10 10 0 0 0 0.
Lemma lone_ok : entry_ok lone.
Proof. unfold lone, entry_ok, in_i32, INT_MIN, INT_MAX. cbn. repeat split; try lia. repeat constructor. Qed.
Lemma lone_no_m : Forall entry_ok [lone] /\ bounds_fit [lone] /\ exists u, open_stats [lone] = Ok u /\ st_minm (get_stats u) = INT_MAX /\ ~ describes [lone] (get_stats u).
Proof.
  split; [repeat constructor; apply lone_ok|]. split; [apply fitb_ok; vm_compute; reflexivity|]. eexists. split; [vm_compute; reflexivity|]. split; [reflexivity|].
  intros (_ & _ & _ & _ & M & _). destruct M as [(M & _)|(_ & _ & M)].
  - vm_compute in M. discriminate.
  - specialize (M 5 ltac:(vm_compute; now left)). cbn in M. unfold INT_MAX, INT_MIN in M. lia.
Qed.
Lemma m_range_lost : exists es u, Forall entry_ok es /\ bounds_fit es /\ open_stats es = Ok u /\ ~ describes es (get_stats u).
Proof. destruct lone_no_m as (A & B & u & C & _ & D). exists [lone], u. auto. Qed.
(** a single tile at the end of the range, then another one *)
Lemma far_tiles_ub : exists es, Forall entry_ok es /\ length es = 2%nat /\ open_stats es = UB.
Proof.
  exists [tile 0 0 0 (-2000000000) 0 10 10 10 10; tile 0 0 1 2000000000 0 10 10 10 10]. split; [unfold tile; ok_entries|]. split; [reflexivity|]. vm_compute. reflexivity.
Qed.
Lemma last_coordinate_ub : exists es, Forall entry_ok es /\ length es = 2%nat /\ (forall e, In e es -> e_x e = 0 /\ e_w e = 10 /\ e_y e = 0 /\ e_h e = 10) /\ open_stats es = UB.
Proof.
  exists [tile INT_MAX 0 0 0 0 10 10 10 10; tile INT_MAX 0 1 0 0 10 10 10 10]. split; [unfold tile, INT_MAX; ok_entries|]. split; [reflexivity|]. split; [|vm_compute; reflexivity].
  intros e [<-|[<-|[]]]; repeat split; reflexivity.
Qed.

(** ** Editing *)
Definition t0 : sbe := tile 0 0 0 0 0 100 80 100 80.
Definition t1 : sbe := tile 0 0 1 90 0 100 80 100 80.
Definition t2 : sbe := tile 0 0 2 300 0 50 50 50 50.
Definition session : list dop := [DAdd t0; DAdd t1; DTryAdd t0; DRemove 0; DTryAdd t0; DModify 1 t2; DGet 0; DModify 0 t1].
Lemma session_ok : Forall entry_ok (flat_map given session) /\ bounds_fit (flat_map given session).
Proof.
  split; [|apply fitb_ok; vm_compute; reflexivity]. unfold session. cbn [flat_map given app]. unfold t0, t1, t2, tile. ok_entries.
Qed.
Example session_result : exists s p d, rw_run (session ++ [DEnum; DStats; DPyr]) rwdir0 =
  Ok ([RKey (Some 0); RKey (Some 1); RKey None; REntry (Some t0); RKey (Some 2); RBool true; REntry None; RBool false] ++
      [REntries [(1, t2); (2, t0)]; RStats s; RPyr p], d) /\
  st_count s = 2 /\ st_box s = mkRect 0 0 350 80 /\ st_minm s = 0 /\ st_maxm s = 2.
Proof. do 3 eexists. split; [vm_compute; reflexivity|]. repeat split; reflexivity. Qed.

(** the pyramid statistics count a replaced sub-block twice and keep a removed one *)
Lemma pyramid_counted_twice : Forall entry_ok (flat_map given [DAdd t0; DModify 0 t1]) /\ bounds_fit (flat_map given [DAdd t0; DModify 0 t1]) /\
  exists rs l p d, rw_run ([DAdd t0; DModify 0 t1] ++ [DEnum; DPyr]) rwdir0 = Ok (rs ++ [REntries l; RPyr p], d) /\ length rs = 2%nat /\
    length l = 1%nat /\ p = [(0, [((0, 0), 2)])] /\ ~ pyramid (map snd l) p.
Proof.
  split; [cbn [flat_map given app]; unfold t0, t1, tile; ok_entries|]. split; [apply fitb_ok; vm_compute; reflexivity|].
  exists [RKey (Some 0); RBool true], [(0, t1)], [(0, [((0, 0), 2)])]. eexists. split; [vm_compute; reflexivity|]. repeat split.
  intros (_ & _ & H). destruct (H 0 _ (or_introl eq_refl)) as [(_ & _ & C) _]. specialize (C (0, 0) 2 (or_introl eq_refl)). vm_compute in C. discriminate.
Qed.
Lemma pyramid_keeps_removed : exists rs p d, rw_run ([DAdd t0; DRemove 0] ++ [DEnum; DPyr]) rwdir0 = Ok (rs ++ [REntries []; RPyr p], d) /\ ~ pyramid [] p.
Proof.
  exists [RKey (Some 0); REntry (Some t0)], [(0, [((0, 0), 1)])]. eexists. split; [vm_compute; reflexivity|].
  intros (_ & H & _). destruct (proj1 (H 0) (or_introl eq_refl)) as (e & [] & _).
Qed.
