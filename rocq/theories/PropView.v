(** C108: a cache does not change the picture *)
From Verif Require Import Base RectModel CodecModel CodesModel CopyModel CoordModel AccessModel AccessExamples ScaleModel ScaleExamples ReaderModel CacheModel ViewModel ViewSpec ViewProofs ViewExamples ViewScale.
Open Scope Z_scope.

(** Full statement of C108: for a document which is open, calls of the accessors which share a sub-block cache deliver exactly the pictures (or
    errors) which they deliver without a cache, whatever was called before with the same cache, whatever the cache was told to drop, and
    whichever threads made the calls.

    This is so if every sub-block is where the directory says it is, and the calls agree in whether they ask for masks (or there are no masks).
    The calls are any mixture of calls of the tile, the pyramid and the scaling accessor with any other options *)
Theorem C108_same_picture_partial : forall sort zm z g r ops, places_agree r -> uniform ops \/ unmasked r ->
  vrun sort zm z g r shelf0 ops = alone sort zm z g r ops.
Proof. exact same_picture. Qed.
Print Assumptions C108_same_picture_partial.
Example C108_same_picture_meets : places_agree masked_doc /\ uniform all_calls /\ seen (vr masked_doc shelf0 all_calls) =
  [Ok [1; 99; 99; 99; 99; 99; 99; 9; 8; 3; 4; 99; 99; 99; 99; 99; 7; 6]; Ok [1; 99; 99; 99; 99; 99; 99; 9; 8; 3; 4; 99; 99; 99; 99; 99; 7; 6];
   Ok [1; 0; 0; 0; 0; 0; 0; 0; 0; 3; 4; 0; 0; 0; 0; 0; 0; 0]; Ok [1; 99; 99; 99; 99; 99; 99; 9; 8; 3; 4; 99; 99; 99; 99; 99; 7; 6]].
Proof. exact (conj (policy_places _ (or_introl masked_policy)) (conj all_calls_uniform all_calls_seen)). Qed.

(** ... also if the calls are made by many threads at the same time *)
Theorem C108_threads_partial : forall sort zm z g r (ok : call -> Prop) y, places_agree r -> (exists m, forall a, ok a -> vo_mask (ca_o a) = m) \/ unmasked r ->
  vreach sort zm z g r ok y -> forall a p, In (a, p) (y_log y) -> p = fst (view sort zm z g r (ca_o a) (ca_q a) (ca_t a) None (ca_dst a)).
Proof. exact same_picture_threads. Qed.
Print Assumptions C108_threads_partial.
Example C108_threads_meets : vreach sort_m by_zoom_m by_zoom ex_outer masked_doc vok raced /\ (forall a, vok a -> vo_mask (ca_o a) = true) /\
  map fst (y_log raced) = [call9; call9; call9] /\ seen (map snd (y_log raced)) = [Ok [1; 99; 3; 4]; Ok [1; 99; 3; 4]; Ok [1; 99; 3; 4]].
Proof. exact (conj raced_reach (conj (fun a H => H) raced_log)). Qed.

(** the scaling accessor without masks delivers the same picture with a cache whatever else uses the cache: calls with and without masks, of other accessors, for
    documents with any policy *)
Theorem C108_scale : forall sort zm z g r ops o q t dst, plain_scale o q ->
  nth_error (vrun sort zm z g r shelf0 (ops ++ [OGet o q t dst])) (gets ops) = Some (fst (view sort zm z g r o q t None dst)).
Proof. exact scale_undisturbed. Qed.
Print Assumptions C108_scale.
Example C108_scale_ex : seen (vr masked_doc shelf0 [tile_of_doc true 0 (-4) 2 2; scale_of_doc false; tile_of_doc false 0 (-4) 2 2; scale_of_doc true]) =
  [Ok [1; 99; 3; 4]; Ok [1; 2; 3; 4]; Ok [1; 99; 3; 4]; Ok [1; 99; 3; 4]].
Proof. exact ex_undisturbed. Qed.
Theorem C108_scale_threads : forall sort zm z g r (ok : call -> Prop) y, vreach sort zm z g r ok y ->
  forall a p, In (a, p) (y_log y) -> plain_scale (ca_o a) (ca_q a) -> p = fst (view sort zm z g r (ca_o a) (ca_q a) (ca_t a) None (ca_dst a)).
Proof. exact scale_undisturbed_threads. Qed.
Print Assumptions C108_scale_threads.

(** every sub-block is where the directory says unless the document was opened with precedence of the sub-block header and discrepancies
    ignored *)
Theorem C108_places : forall r, Z.testbit (r_policy r) 0 = false \/ Z.testbit (r_policy r) 7 = false -> places_agree r.
Proof. exact policy_places. Qed.
Print Assumptions C108_places.
Example C108_places_meets : Z.testbit (r_policy masked_doc) 0 = false.
Proof. exact masked_policy. Qed.

(** false: what was put into the cache by a call which does not ask for masks is used, without its mask, by a call which does; and the mask put
    into the cache by a call which asks for it is used by a call which does not *)
Theorem C108_mask_refuted : let b := tile_of_doc false 0 (-4) 2 2 in let m := tile_of_doc true 0 (-4) 2 2 in
  seen (al masked_doc [b; m]) = [Ok [1; 2; 3; 4]; Ok [1; 99; 3; 4]] /\
  seen (vr masked_doc shelf0 [b; m]) = [Ok [1; 2; 3; 4]; Ok [1; 2; 3; 4]] /\
  seen (vr masked_doc shelf0 [m; b]) = [Ok [1; 99; 3; 4]; Ok [1; 99; 3; 4]].
Proof. exact masks_mixed. Qed.
Print Assumptions C108_mask_refuted.

(** false: if the header of a sub-block has precedence the first call places it where the header says, later ones where the directory says *)
Theorem C108_position_refuted : let a := tile_of_doc false 0 (-4) 12 1 in
  seen (al (moved_doc 129) [a; a]) = [Ok [99; 99; 99; 99; 99; 99; 99; 99; 99; 1; 2; 99]; Ok [99; 99; 99; 99; 99; 99; 99; 99; 99; 1; 2; 99]] /\
  seen (vr (moved_doc 129) shelf0 [a; a]) = [Ok [99; 99; 99; 99; 99; 99; 99; 99; 99; 1; 2; 99]; Ok [1; 2; 99; 99; 99; 99; 99; 99; 99; 99; 99; 99]] /\
  seen (vr (moved_doc 128) shelf0 [a; a]) = [Ok [1; 2; 99; 99; 99; 99; 99; 99; 99; 99; 99; 99]; Ok [1; 2; 99; 99; 99; 99; 99; 99; 99; 99; 99; 99]].
Proof. exact moves. Qed.
Print Assumptions C108_position_refuted.
