(** Concrete executions of the cache. *)
From Verif Require Import Base CacheModel CacheProofs CacheConc.

Definition img (id : Z) : item := mkItem id 100 10 2 (Some (100, 10)).

(** A scheduler: [st] is the operation an idle thread starts. *)
Definition tnext (t : nat) (s : cache) (l : option nat) (p st : pc) : option (cache * option nat * pc * list event) :=
  match p with
  | Idle => match st with
            | GetWait _ | AddStart _ _ | StatMem | StatCount | StatWait => Some (s, l, st, [])
            | PruneWait m n => if (m =? U64_MAX) && (n =? UINT_MAX) then None else Some (s, l, st, [])
            | _ => None
            end
  | GetWait k => match l with None => Some (s, Some t, GetFind k, []) | _ => None end
  | GetFind k => match mfind k (c_map s) with Some e => Some (s, l, GetCount k e, []) | None => Some (s, l, GetDone k None, [EvGet k None]) end
  | GetCount k e => Some (mkCache (c_map s) (c_lru s + 1) (c_size s) (c_count s), l, GetStamp k e (c_lru s), [])
  | GetStamp k e v => Some (mkCache (mreplace k (mkEntry (en_item e) v) (c_map s)) (c_lru s) (c_size s) (c_count s), l,
                            GetDone k (Some (en_item e)), [EvGet k (Some (en_item e))])
  | GetDone k r => Some (s, None, Idle, [])
  | AddStart k i => Some (mkCache (c_map s) (c_lru s + 1) (c_size s) (c_count s), l, AddWait k i (c_lru s), [])
  | AddWait k i v => match l with None => Some (s, Some t, AddInsert k i v, []) | _ => None end
  | AddInsert k i v => match mfind k (c_map s) with
      | None => Some (mkCache (minsert k (mkEntry i v) (c_map s)) (c_lru s) (c_size s) (c_count s), l, AddSize i, [EvAdd k i])
      | Some old => Some (s, l, AddSub k i v old, []) end
  | AddSize i => Some (mkCache (c_map s) (c_lru s) (u64 (c_size s + item_size i)) (c_count s), l, AddCount, [])
  | AddCount => Some (mkCache (c_map s) (c_lru s) (c_size s) (u32 (c_count s + 1)), l, AddDone, [])
  | AddSub k i v old => Some (mkCache (c_map s) (c_lru s) (u64 (c_size s - item_size (en_item old))) (c_count s), l, AddStore k i v old, [])
  | AddStore k i v old => Some (mkCache (mreplace k (mkEntry i v) (c_map s)) (c_lru s) (c_size s) (c_count s), l, AddPlus i old, [EvAdd k i])
  | AddPlus i old => Some (mkCache (c_map s) (c_lru s) (u64 (c_size s + item_size i)) (c_count s), l, AddDone, [])
  | AddDone => Some (s, None, Idle, [])
  | PruneWait m n => match l with None => Some (s, Some t, PruneLoadSize m n, []) | _ => None end
  | PruneLoadSize m n => Some (s, l, if m <? c_size s then PruneFind m n else PruneLoadCount m n, [])
  | PruneLoadCount m n => Some (s, l, if n <? c_count s then PruneFind m n else PruneDone, [])
  | PruneFind m n => match oldest (c_map s) with Some (k, e) => Some (s, l, PruneSub m n k e, []) | None => Some (s, l, PruneDone, []) end
  | PruneSub m n k e => Some (mkCache (c_map s) (c_lru s) (u64 (c_size s - item_size (en_item e))) (c_count s), l, PruneDec m n k e, [])
  | PruneDec m n k e => Some (mkCache (c_map s) (c_lru s) (c_size s) (u32 (c_count s - 1)), l, PruneErase m n k e, [])
  | PruneErase m n k e => Some (mkCache (merase k (c_map s)) (c_lru s) (c_size s) (c_count s), l, PruneLoadSize m n, [EvEvict k])
  | PruneDone => Some (s, None, Idle, [])
  | StatMem => Some (s, l, StatDone (Some (c_size s)) None false, [])
  | StatCount => Some (s, l, StatDone None (Some (c_count s)) false, [])
  | StatWait => match l with None => Some (s, Some t, StatBothMem, []) | _ => None end
  | StatBothMem => Some (s, l, StatBothCount (c_size s), [])
  | StatBothCount m => Some (s, l, StatDone (Some m) (Some (c_count s)) true, [])
  | StatDone m c b => Some (s, if b then None else l, Idle, [])
  end.
Lemma tnext_sound t s l p st s' l' p' evs : tnext t s l p st = Some (s', l', p', evs) -> tstep t s l p s' l' p' evs.
Proof.
  unfold tnext. intros H. destruct p;
    repeat match type of H with
    | context [match ?x with _ => _ end] => destruct x eqn:?; try discriminate
    end; inversion H; subst; try (constructor; auto; fail).
  - constructor. apply andb_false_iff in Heqb. lia.
  - pose proof (TPruneSize t s' l' m n) as X. rewrite Heqb in X. exact X.
  - pose proof (TPruneSize t s' l' m n) as X. rewrite Heqb in X. exact X.
  - pose proof (TPruneCount t s' l' m n) as X. rewrite Heqb in X. exact X.
  - pose proof (TPruneCount t s' l' m n) as X. rewrite Heqb in X. exact X.
Qed.
Definition kexec1 (K : conc) (x : nat * pc) : option conc :=
  match tnext (fst x) (k_cache K) (k_lock K) (k_thr K (fst x)) (snd x) with
  | Some (s', l', p', evs) => Some (mkConc s' l' (set_thr (k_thr K) (fst x) p') (k_log K ++ evs))
  | None => None
  end.
Fixpoint kexec (K : conc) (xs : list (nat * pc)) : option conc :=
  match xs with [] => Some K | x :: xs' => match kexec1 K x with Some K' => kexec K' xs' | None => None end end.
Lemma kexec_reach xs : forall K K', reach K -> kexec K xs = Some K' -> reach K'.
Proof.
  induction xs as [|x xs IH]; intros K K' R H; cbn [kexec] in H; [congruence|].
  destruct (kexec1 K x) as [K1|] eqn:E; [|discriminate]. apply (IH K1); auto. clear H IH.
  unfold kexec1 in E. destruct (tnext _ _ _ _ _) as [[[[s' l'] p'] evs]|] eqn:T; [|discriminate]. inversion E; subst.
  apply tnext_sound in T. destruct K as [s l f log]. cbn [k_cache k_lock k_thr k_log] in *. eapply ReachStep; eauto. constructor. exact T.
Qed.

(** Thread 0 draws its LRU number for key 3 and waits; thread 1 adds under key 7; thread 0 finishes; thread 1 reads key 7
    and prunes to one element. *)
Definition ex_schedule : list (nat * pc) :=
  repeat (0%nat, AddStart 3 (img 2)) 2 ++ repeat (1%nat, AddStart 7 (img 1)) 7 ++ repeat (0%nat, Idle) 5 ++
  repeat (1%nat, GetWait 7) 6 ++ repeat (1%nat, PruneWait U64_MAX 1) 11.
Definition is_idle (p : pc) : bool := match p with Idle => true | _ => false end.
Lemma sched_other t xs : forall K K', kexec K xs = Some K' -> (forall x, In x xs -> fst x <> t) -> k_thr K' t = k_thr K t.
Proof.
  induction xs as [|x xs IH]; intros K K' H D; cbn [kexec] in H; [congruence|].
  destruct (kexec1 K x) as [K1|] eqn:E; [|discriminate]. rewrite (IH K1 K'); auto; [|intros y Y; apply D; now right].
  unfold kexec1 in E. destruct (tnext _ _ _ _ _) as [[[[s' l'] p'] evs]|]; [|discriminate]. inversion E; subst. cbn [k_thr].
  unfold set_thr. specialize (D x (or_introl eq_refl)). destruct (t =? fst x)%nat eqn:X; auto. apply Nat.eqb_eq in X. congruence.
Qed.
Lemma ex_final_eq : option_map (fun K => (k_cache K, k_log K, is_idle (k_thr K 0%nat), is_idle (k_thr K 1%nat))) (kexec (mkConc cache_empty None (fun _ => Idle) []) ex_schedule) =
              Some (mkCache [(7, mkEntry (img 1) 2)] 3 2130 1,
                    [EvAdd 7 (img 1); EvAdd 3 (img 2); EvGet 7 (Some (img 1)); EvEvict 3], true, true).
Proof. vm_compute. reflexivity. Qed.
Lemma ex_conc : exists K, reach K /\ (forall t, k_thr K t = Idle) /\
  contents (c_map (k_cache K)) = [(7, img 1)] /\
  k_log K = [EvAdd 7 (img 1); EvAdd 3 (img 2); EvGet 7 (Some (img 1)); EvEvict 3] /\ c_size (k_cache K) = 2130.
Proof.
  pose proof ex_final_eq as C.
  destruct (kexec (mkConc cache_empty None (fun _ => Idle) []) ex_schedule) as [K|] eqn:E; [|discriminate C].
  cbn [option_map] in C. injection C as C1 C2 C3 C4.
  exists K. split; [exact (kexec_reach _ _ _ ReachInit E)|]. split; [|rewrite C1, C2; split; [|split]; reflexivity].
  intros t. destruct t as [|[|t]].
  - clear -C3. destruct (k_thr K 0%nat); try discriminate C3. reflexivity.
  - clear -C4. destruct (k_thr K 1%nat); try discriminate C4. reflexivity.
  - refine (sched_other _ _ _ _ E _). intros x X. clear - X. unfold ex_schedule in X. rewrite !in_app_iff in X.
    destruct X as [X|[X|[X|[X|X]]]]; apply repeat_spec in X; subst; discriminate.
Qed.

Definition ex_ops : list cop := [CAdd 1 (img 1); CAdd 2 (img 2); CAdd 3 (img 3); CGet 1; CAdd 2 (img 4)].
Lemma ex_seq : exists s s', crun cache_empty ex_ops = Ok s /\ total (c_map s) = 6390 /\ len (c_map s) = 3 /\
  cache_prune s 4300 10 = Ok s' /\ keys (c_map s') = [1; 2] /\ fst (cache_get s' 2) = Some (img 4) /\ fst (cache_get s' 3) = None.
Proof. do 2 eexists. split; [vm_compute; reflexivity|]. split; [reflexivity|]. split; [reflexivity|]. split; [vm_compute; reflexivity|]. repeat split. Qed.
