(** C10, C11, C12, C58: the sub-block cache. *)
From Verif Require Import Base CacheModel CacheProofs CacheConc CacheExamples.
From Coq Require Import Permutation.

(** C10: in every state of every interleaving of any number of threads in which no operation is in flight, the reported
    numbers are the sum of the sizes and the number of the cached elements (as long as these fit the counters). *)
Theorem C10_cache_accounting : forall K, reach K -> (forall t, k_thr K t = Idle) ->
  total (c_map (k_cache K)) < 2 ^ 64 -> len (c_map (k_cache K)) < 2 ^ 32 ->
  c_size (k_cache K) = total (c_map (k_cache K)) /\ c_count (k_cache K) = len (c_map (k_cache K)).
Proof. exact conc_accounting. Qed.
Print Assumptions C10_cache_accounting.

Example C10_example : exists K, reach K /\ (forall t, k_thr K t = Idle) /\
  contents (c_map (k_cache K)) = [(7, img 1)] /\
  k_log K = [EvAdd 7 (img 1); EvAdd 3 (img 2); EvGet 7 (Some (img 1)); EvEvict 3] /\ c_size (k_cache K) = 2130.
Proof. exact ex_conc. Qed.

(** C10: the size of an element is that of its pixels and of the rows of its mask, padded to whole bytes: the least
    number of bytes holding the bits of a row. *)
Theorem C10_item_size : forall i, 0 <= it_w i -> 0 <= it_h i -> 0 < it_bpp i -> it_w i * it_h i * it_bpp i < 2 ^ 62 ->
  (it_mask i = None -> item_size i = it_w i * it_h i * it_bpp i) /\
  (forall mw mh, it_mask i = Some (mw, mh) -> 0 <= mw < 2 ^ 32 - 7 -> 0 <= mh < 2 ^ 32 ->
     exists row, item_size i = it_w i * it_h i * it_bpp i + row * mh /\ 8 * (row - 1) < mw <= 8 * row).
Proof. exact item_size_ok. Qed.
Print Assumptions C10_item_size.
Example C10_item_size_example : item_size (mkItem 1 5 4 3 (Some (9, 2))) = 64.
Proof. reflexivity. Qed.

(** C10, second half: a combined query returns the two numbers of one and the same state, even while other operations are
    waiting or drawing their numbers. *)
Theorem C10_combined_statistics : forall K t m c, reach K -> k_thr K t = StatDone m c true ->
  total (c_map (k_cache K)) < 2 ^ 64 -> len (c_map (k_cache K)) < 2 ^ 32 ->
  m = Some (total (c_map (k_cache K))) /\ c = Some (len (c_map (k_cache K))).
Proof. exact conc_stats. Qed.
Print Assumptions C10_combined_statistics.

(** C11: after any history, Prune leaves at most [m] bytes and [n] elements; evicted elements were last used before every
    surviving one; and, taking the evicted elements in order of eviction, keeping any of them together with all younger
    ones would have exceeded a limit. *)
Theorem C11_prune : forall ops m n s,
  crun cache_empty ops = Ok s -> 0 <= m <= U64_MAX -> 0 <= n <= UINT_MAX ->
  total (c_map s) < 2 ^ 64 -> len (c_map s) < 2 ^ 32 ->
  exists s' ev, cache_prune s m n = Ok s' /\
    Permutation (c_map s) (ev ++ c_map s') /\
    (total (c_map s') <= m /\ len (c_map s') <= n) /\
    (forall x y, In x ev -> In y (c_map s') -> (last_touch ops (fst x) < last_touch ops (fst y))%nat) /\
    (forall a x b, ev = a ++ x :: b ->
       (m < total (x :: b ++ c_map s') \/ n < len (x :: b ++ c_map s')) /\
       forall y, In y b -> (last_touch ops (fst x) < last_touch ops (fst y))%nat).
Proof. exact prune_limits. Qed.
Print Assumptions C11_prune.

Example C11_example : exists s s', crun cache_empty ex_ops = Ok s /\ total (c_map s) = 6390 /\ len (c_map s) = 3 /\
  cache_prune s 4300 10 = Ok s' /\ keys (c_map s') = [1; 2] /\ fst (cache_get s' 2) = Some (img 4) /\ fst (cache_get s' 3) = None.
Proof. exact ex_seq. Qed.

(** C12: what Get returns was the last thing added under that key ... *)
Theorem C12_get_returns_last_added : forall ops s k i, crun cache_empty ops = Ok s -> fst (cache_get s k) = Some i ->
  exists ops1 ops2, ops = ops1 ++ CAdd k i :: ops2 /\ existsb (adds k) ops2 = false.
Proof. exact get_sound. Qed.
Print Assumptions C12_get_returns_last_added.

(** ... and it is returned unless there has been a Prune. *)
Theorem C12_get_finds : forall ops1 ops2 s k i, crun cache_empty (ops1 ++ CAdd k i :: ops2) = Ok s ->
  existsb (adds k) ops2 = false -> existsb prunes ops2 = false -> fst (cache_get s k) = Some i.
Proof. exact get_complete. Qed.
Print Assumptions C12_get_finds.

(** Every history can be executed. *)
Theorem C12_operations_total : forall ops, exists s, crun cache_empty ops = Ok s.
Proof. exact crun_total. Qed.
Print Assumptions C12_operations_total.

(** C12 with any number of threads: every Get which has been answered was answered with the bitmap added last for its key
    and not evicted since, or with nothing if there is none. *)
Theorem C12_concurrent_get : forall K l1 k r l2, reach K -> k_log K = l1 ++ EvGet k r :: l2 -> forall i,
  r = Some i <-> exists a b, l1 = a ++ EvAdd k i :: b /\ existsb (about k) b = false.
Proof. exact conc_get. Qed.
Print Assumptions C12_concurrent_get.

Theorem C12_concurrent_get_logged : forall K t k r, reach K -> k_thr K t = GetDone k r -> In (EvGet k r) (k_log K).
Proof. exact conc_get_logged. Qed.
Print Assumptions C12_concurrent_get_logged.

Example C12_example : exists K, reach K /\ (forall t, k_thr K t = Idle) /\
  contents (c_map (k_cache K)) = [(7, img 1)] /\
  k_log K = [EvAdd 7 (img 1); EvAdd 3 (img 2); EvGet 7 (Some (img 1)); EvEvict 3] /\ c_size (k_cache K) = 2130.
Proof. exact ex_conc. Qed.

(** C58: no deadlock - the holder of the mutex can always take another step, and when it is free every thread with an
    operation in flight can. *)
Theorem C58_cache_progress : forall K t, reach K ->
  (k_lock K = Some t \/ (k_lock K = None /\ k_thr K t <> Idle)) -> exists K', kstep K K' /\ k_thr K' t <> k_thr K t.
Proof. exact conc_progress. Qed.
Print Assumptions C58_cache_progress.
