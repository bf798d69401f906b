(** Concrete documents seen through the accessors. *)
From Coq Require Import Floats.SpecFloat.
From Verif Require Import Base RectModel CodecModel WriterModel WriterExamples CodesModel CopyModel TextModel CoordModel StatModel PixelModel AccessModel AccessExamples ScaleModel ScaleExamples
  EditExamples ReaderModel ReaderSpec ReaderExamples CacheModel ZstdModel HiLoModel SubMetaModel SubMetaExamples ChunkExamples ViewModel ViewSpec ViewProofs.
Open Scope Z_scope.

Definition no_zstd : zstd := mkZstd (fun _ => None) (fun _ => None) (fun _ _ => None).
Definition ex_outer : outer := mkOuter no_zstd Scalar (fun _ => Throw) (fun _ => 0) (fun _ => 0) (fun _ => 0).
Definition opened (f : file) (o : ropts) : rstate := fst (rstep reader0 (ROpen false f o)).
(** a document whose first sub-block has a mask *)
Definition masked_file : file := file_of (fun _ => 0) (fst (fst (session ex_info (ex_mops ex_ctext ex_mask)))).
Definition masked_doc : rstate := opened masked_file ropts0.
Definition plane0 : CodecModel.coord := [None; Some 1; None; None; None; None; None; None; None].
Definition dst9 (w h : Z) : bmp := mkBmp w h w 1 (w * h) (fun _ => 99).
Definition ask (m : bool) : vopts := mkVo m false false None true None.
Definition tile_of_doc (m : bool) (x y w h : Z) : vop := OGet (ask m) (QTile plane0 x y) CodesModel.Gray8 (dst9 w h).
Definition seen (l : list (res bmp)) : list (res bytes) := map (fun r => let* d := r in Ok (mread (bdata d) 0 (Z.to_nat (bsize d)))) l.
Definition vr := vrun sort_m by_zoom_m by_zoom ex_outer.
Definition al := alone sort_m by_zoom_m by_zoom ex_outer.

(** a call which does not ask for masks spoils the cache for one which does, and vice versa *)
Lemma masks_mixed : let b := tile_of_doc false 0 (-4) 2 2 in let m := tile_of_doc true 0 (-4) 2 2 in
  seen (al masked_doc [b; m]) = [Ok [1; 2; 3; 4]; Ok [1; 99; 3; 4]] /\
  seen (vr masked_doc shelf0 [b; m]) = [Ok [1; 2; 3; 4]; Ok [1; 2; 3; 4]] /\
  seen (vr masked_doc shelf0 [m; b]) = [Ok [1; 99; 3; 4]; Ok [1; 99; 3; 4]].
Proof. cbv zeta. split; [|split]; vm_compute; reflexivity. Qed.
(** the directory says X starts at 0, the header of the sub-block says 9 *)
Definition moved_doc (policy : Z) : rstate := opened file_x9 (with_policy policy).
Lemma moves : let a := tile_of_doc false 0 (-4) 12 1 in
  seen (al (moved_doc 129) [a; a]) = [Ok [99; 99; 99; 99; 99; 99; 99; 99; 99; 1; 2; 99]; Ok [99; 99; 99; 99; 99; 99; 99; 99; 99; 1; 2; 99]] /\
  seen (vr (moved_doc 129) shelf0 [a; a]) = [Ok [99; 99; 99; 99; 99; 99; 99; 99; 99; 1; 2; 99]; Ok [1; 2; 99; 99; 99; 99; 99; 99; 99; 99; 99; 99]] /\
  seen (vr (moved_doc 128) shelf0 [a; a]) = [Ok [1; 2; 99; 99; 99; 99; 99; 99; 99; 99; 99; 99]; Ok [1; 2; 99; 99; 99; 99; 99; 99; 99; 99; 99; 99]].
Proof. cbv zeta. split; [|split]; vm_compute; reflexivity. Qed.

(** calls of all three accessors, with pruning in between *)
Definition all_calls : list vop :=
  [tile_of_doc true 0 (-4) 9 2; OPrune 4 1; OGet (mkVo true false false None true (Some 100%nat)) (QTile plane0 0 (-4)) CodesModel.Gray8 (dst9 9 2);
   OGet (mkVo true false true (Some (mkRgbf (f32_of_Z 0) (f32_of_Z 0) (f32_of_Z 0))) false None) (QPyramid 40 plane0 None 2 0 0 (-4)) CodesModel.Gray8 (dst9 9 2); OPrune 100 100;
   OGet (ask true) (QScale plane0 None (f32_of_Z 1) (mkRect 0 (-4) 9 2)) CodesModel.Gray8 (dst9 9 2)].
Lemma all_calls_uniform : uniform all_calls.
Proof. exists true. intros p [<-|[<-|[<-|[<-|[<-|[<-|[]]]]]]]; auto. Qed.
Lemma all_calls_seen : seen (vr masked_doc shelf0 all_calls) =
  [Ok [1; 99; 99; 99; 99; 99; 99; 9; 8; 3; 4; 99; 99; 99; 99; 99; 7; 6]; Ok [1; 99; 99; 99; 99; 99; 99; 9; 8; 3; 4; 99; 99; 99; 99; 99; 7; 6];
   Ok [1; 0; 0; 0; 0; 0; 0; 0; 0; 3; 4; 0; 0; 0; 0; 0; 0; 0]; Ok [1; 99; 99; 99; 99; 99; 99; 9; 8; 3; 4; 99; 99; 99; 99; 99; 7; 6]].
Proof. vm_compute. reflexivity. Qed.
Lemma masked_policy : Z.testbit (r_policy masked_doc) 0 = false. Proof. vm_compute. reflexivity. Qed.

(** two threads ask for the same picture; the second is served from the cache *)
Definition call9 : call := mkCall (ask true) (QTile plane0 0 (-4)) CodesModel.Gray8 (dst9 2 2).
Definition sys0 : vsys := mkVsys shelf0 (fun _ => VIdle) [].
Definition vok (a : call) : Prop := vo_mask (ca_o a) = true.
(** the next step of a thread; an idle one asks for [call9] *)
Definition next (y : vsys) (t : nat) : vsys :=
  let r := masked_doc in let th := y_thr y in let log := y_log y in
  match th t with
  | VIdle => match jobs sort_m by_zoom_m by_zoom r (ask true) (QTile plane0 0 (-4)) CodesModel.Gray8 (dst9 2 2), r_op r with
             | Ok l, true => mkVsys (y_shelf y) (at_thr th t (VDraw call9 l (dst9 2 2))) log
             | _, _ => y end
  | VDraw a [] d => mkVsys (y_shelf y) (at_thr th t VIdle) (log ++ [(a, Ok d)])
  | VDraw a ((k, f) :: l) d =>
    match shelf_get (y_shelf y) k with
    | (Some x, s1) => let (p, e) := drawn a f l (from_shelf r k x) d in mkVsys s1 (at_thr th t p) (log ++ e)
    | (None, s1) => mkVsys s1 (at_thr th t (VMiss a k f l d)) log
    end
  | VMiss a k f l d => match load_block ex_outer r (vo_mask (ca_o a)) k with Ok v => mkVsys (y_shelf y) (at_thr th t (VHave a k v f l d)) log | _ => y end
  | VHave a k v f l d => let (p, e) := drawn a f l (Ok v) d in
    mkVsys (if to_be_added (vo_only (ca_o a)) v then shelf_add (y_shelf y) k (v_obj v) else y_shelf y) (at_thr th t p) (log ++ e)
  end.
Lemma next_reach y t : vreach sort_m by_zoom_m by_zoom ex_outer masked_doc vok y -> vreach sort_m by_zoom_m by_zoom ex_outer masked_doc vok (next y t).
Proof.
  intros R. destruct y as [s th log]. unfold next. cbn [y_shelf y_thr y_log]. destruct (th t) as [|a [|[k f] l] d|a k f l d|a k v f l d] eqn:T.
  - destruct (jobs _ _ _ masked_doc _ _ _ _) as [l| | |] eqn:J; try exact R. destruct (r_op masked_doc) eqn:O; [|exact R].
    eapply VReachS; [exact R|]. apply VStart with (a := call9); [exact T|reflexivity|exact O|exact J|reflexivity].
  - eapply VReachS; [exact R|]. now apply VDone.
  - destruct (shelf_get s k) as [[x|] s1] eqn:G.
    + destruct (drawn a f l (from_shelf masked_doc k x) d) as [p e] eqn:D. eapply VReachS; [exact R|]. eapply VHit; eassumption.
    + eapply VReachS; [exact R|]. eapply VNoHit; eassumption.
  - destruct (load_block _ _ _ k) as [v| | |] eqn:L; try exact R. eapply VReachS; [exact R|]. eapply VLoad; eassumption.
  - destruct (drawn a f l (Ok v) d) as [p e] eqn:D. eapply VReachS; [exact R|]. eapply VStore; eassumption.
Qed.
Definition raced : vsys := fold_left next [0%nat; 1%nat; 0%nat; 0%nat; 2%nat; 1%nat; 0%nat; 2%nat; 1%nat; 1%nat; 0%nat; 2%nat; 1%nat] sys0.
Lemma raced_reach : vreach sort_m by_zoom_m by_zoom ex_outer masked_doc vok raced.
Proof. unfold raced. cbn [fold_left]. repeat apply next_reach. apply VReach0. Qed.
Lemma raced_log : map fst (y_log raced) = [call9; call9; call9] /\ seen (map snd (y_log raced)) = [Ok [1; 99; 3; 4]; Ok [1; 99; 3; 4]; Ok [1; 99; 3; 4]].
Proof. split; vm_compute; reflexivity. Qed.
