(** The sub-block cache (Src/libCZI/subblock_cache.h, subblock_cache.cpp). *)
From Verif Require Import Base.

(** A cached bitmap with optional mask: identity and the properties its size is
    computed from.  A null bitmap (undefined behaviour at l.109) is not
    modelled. *)
Record item := mkItem { it_id : Z; it_w : Z; it_h : Z; it_bpp : Z; it_mask : option (Z * Z) }.

(** CalculateSizeInBytes (l.109-136): 64-bit products; the width of the mask
    is rounded up in 32-bit arithmetic. *)
Definition item_size (i : item) : Z :=
  u64 (u64 (u64 (it_w i * it_h i) * it_bpp i)
       + match it_mask i with Some (w, h) => u64 (u32 (w + 7) / 8 * h) | None => 0 end).

(** CacheEntry (subblock_cache.h l.22-27). *)
Record entry := mkEntry { en_item : item; en_lru : Z }.

(** std::map<int, CacheEntry> as list of pairs in ascending key order. *)
Definition cmap := list (Z * entry).
Fixpoint mfind (k : Z) (c : cmap) : option entry :=
  match c with
  | [] => None
  | (j, e) :: c' => if j =? k then Some e else mfind k c'
  end.
Fixpoint minsert (k : Z) (e : entry) (c : cmap) : cmap :=
  match c with
  | [] => [(k, e)]
  | (j, f) :: c' => if k <? j then (k, e) :: c else (j, f) :: minsert k e c'
  end.
Fixpoint mreplace (k : Z) (e : entry) (c : cmap) : cmap :=
  match c with
  | [] => []
  | (j, f) :: c' => if j =? k then (j, e) :: c' else (j, f) :: mreplace k e c'
  end.
Fixpoint merase (k : Z) (c : cmap) : cmap :=
  match c with
  | [] => []
  | (j, f) :: c' => if j =? k then c' else (j, f) :: merase k c'
  end.
(** std::min_element with CompareForLruValue (l.96, l.138-141): the first
    element with the smallest value. *)
Fixpoint oldest_from (best : Z * entry) (c : cmap) : Z * entry :=
  match c with
  | [] => best
  | x :: c' => oldest_from (if en_lru (snd x) <? en_lru (snd best) then x else best) c'
  end.
Definition oldest (c : cmap) : option (Z * entry) :=
  match c with [] => None | x :: c' => Some (oldest_from x c') end.

(** The object.  The 64-bit counter lru_counter_ does not wrap in the model. *)
Record cache := mkCache { c_map : cmap; c_lru : Z; c_size : Z; c_count : Z }.
Definition cache_empty : cache := mkCache [] 0 0 0.

(** ** One thread at a time *)

(** Get (l.42-53). *)
Definition cache_get (s : cache) (k : Z) : option item * cache :=
  match mfind k (c_map s) with
  | Some e => (Some (en_item e), mkCache (mreplace k (mkEntry (en_item e) (c_lru s)) (c_map s)) (c_lru s + 1) (c_size s) (c_count s))
  | None => (None, s)
  end.

(** Add (l.55-76). *)
Definition cache_add (s : cache) (k : Z) (i : item) : cache :=
  let e := mkEntry i (c_lru s) in
  match mfind k (c_map s) with
  | None => mkCache (minsert k e (c_map s)) (c_lru s + 1) (u64 (c_size s + item_size i)) (u32 (c_count s + 1))
  | Some old => mkCache (mreplace k e (c_map s)) (c_lru s + 1)
                        (u64 (u64 (c_size s - item_size (en_item old)) + item_size i)) (c_count s)
  end.

(** PruneByMemoryUsageAndElementCount (l.88-107). *)
Fixpoint prune_loop (fuel : nat) (s : cache) (maxmem maxcnt : Z) : res cache :=
  if (maxmem <? c_size s) || (maxcnt <? c_count s) then
    match oldest (c_map s) with
    | None => Ok s
    | Some (k, e) =>
        match fuel with
        | O => OutOfFuel
        | S fuel' => prune_loop fuel' (mkCache (merase k (c_map s)) (c_lru s) (u64 (c_size s - item_size (en_item e)))
                                               (u32 (c_count s - 1))) maxmem maxcnt
        end
    end
  else Ok s.
Definition U64_MAX : Z := 2 ^ 64 - 1.
(** Prune (l.78-86). *)
Definition cache_prune (s : cache) (maxmem maxcnt : Z) : res cache :=
  if negb (maxmem =? U64_MAX) || negb (maxcnt =? UINT_MAX) then prune_loop (length (c_map s)) s maxmem maxcnt else Ok s.

Inductive cop := CGet (k : Z) | CAdd (k : Z) (i : item) | CPrune (maxmem maxcnt : Z).
Definition cstep (s : cache) (o : cop) : res cache :=
  match o with
  | CGet k => Ok (snd (cache_get s k))
  | CAdd k i => Ok (cache_add s k i)
  | CPrune m n => cache_prune s m n
  end.
Fixpoint crun (s : cache) (ops : list cop) : res cache :=
  match ops with
  | [] => Ok s
  | o :: ops' => let* s1 := cstep s o in crun s1 ops'
  end.

(** ** Many threads

    Every atomic access and every access under the mutex is a step of its own.
    An idle thread may start any operation at any time.  [EvAdd], [EvEvict],
    [EvGet] are recorded (ghost) when the map is changed or looked up. *)
Inductive event := EvAdd (k : Z) (i : item) | EvEvict (k : Z) | EvGet (k : Z) (r : option item).

Inductive pc :=
| Idle
(* Get *)
| GetWait (k : Z) | GetFind (k : Z) | GetCount (k : Z) (e : entry) | GetStamp (k : Z) (e : entry) (l : Z)
| GetDone (k : Z) (r : option item)
(* Add: l.57-58, l.60, l.61, l.65, l.66, l.71, l.72, l.73 *)
| AddStart (k : Z) (i : item) | AddWait (k : Z) (i : item) (l : Z) | AddInsert (k : Z) (i : item) (l : Z)
| AddSize (i : item) | AddCount | AddSub (k : Z) (i : item) (l : Z) (old : entry) | AddStore (k : Z) (i : item) (l : Z) (old : entry)
| AddPlus (i : item) (old : entry) | AddDone
(* Prune: l.83, l.94 (two loads), l.96, l.102, l.103, l.104 *)
| PruneWait (m n : Z) | PruneLoadSize (m n : Z) | PruneLoadCount (m n : Z) | PruneFind (m n : Z)
| PruneSub (m n k : Z) (e : entry) | PruneDec (m n k : Z) (e : entry) | PruneErase (m n k : Z) (e : entry) | PruneDone
(* GetStatistics: l.19-39 *)
| StatMem | StatCount | StatWait | StatBothMem | StatBothCount (mem : Z) | StatDone (mem : option Z) (cnt : option Z) (locked : bool).

Record conc := mkConc { k_cache : cache; k_lock : option nat; k_thr : nat -> pc; k_log : list event }.

Definition set_thr (f : nat -> pc) (t : nat) (p : pc) : nat -> pc := fun u => if (u =? t)%nat then p else f u.

(** Effect of one step of thread [t]: new shared object, lock, program counter
    and logged events. *)
Inductive tstep (t : nat) : cache -> option nat -> pc -> cache -> option nat -> pc -> list event -> Prop :=
| TGet s l k : tstep t s l Idle s l (GetWait k) []
| TGetLock s k : tstep t s None (GetWait k) s (Some t) (GetFind k) []
| TGetHit s l k e : mfind k (c_map s) = Some e -> tstep t s l (GetFind k) s l (GetCount k e) []
| TGetMiss s l k : mfind k (c_map s) = None -> tstep t s l (GetFind k) s l (GetDone k None) [EvGet k None]
| TGetCount s l k e : tstep t s l (GetCount k e)
    (mkCache (c_map s) (c_lru s + 1) (c_size s) (c_count s)) l (GetStamp k e (c_lru s)) []
| TGetStamp s l k e v : tstep t s l (GetStamp k e v)
    (mkCache (mreplace k (mkEntry (en_item e) v) (c_map s)) (c_lru s) (c_size s) (c_count s)) l
    (GetDone k (Some (en_item e))) [EvGet k (Some (en_item e))]
| TGetDone s l k r : tstep t s l (GetDone k r) s None Idle []
| TAdd s l k i : tstep t s l Idle s l (AddStart k i) []
| TAddLru s l k i : tstep t s l (AddStart k i) (mkCache (c_map s) (c_lru s + 1) (c_size s) (c_count s)) l (AddWait k i (c_lru s)) []
| TAddLock s k i v : tstep t s None (AddWait k i v) s (Some t) (AddInsert k i v) []
| TAddNew s l k i v : mfind k (c_map s) = None -> tstep t s l (AddInsert k i v)
    (mkCache (minsert k (mkEntry i v) (c_map s)) (c_lru s) (c_size s) (c_count s)) l (AddSize i) [EvAdd k i]
| TAddOld s l k i v old : mfind k (c_map s) = Some old -> tstep t s l (AddInsert k i v) s l (AddSub k i v old) []
| TAddSize s l i : tstep t s l (AddSize i) (mkCache (c_map s) (c_lru s) (u64 (c_size s + item_size i)) (c_count s)) l AddCount []
| TAddCount s l : tstep t s l AddCount (mkCache (c_map s) (c_lru s) (c_size s) (u32 (c_count s + 1))) l AddDone []
| TAddSub s l k i v old : tstep t s l (AddSub k i v old)
    (mkCache (c_map s) (c_lru s) (u64 (c_size s - item_size (en_item old))) (c_count s)) l (AddStore k i v old) []
| TAddStore s l k i v old : tstep t s l (AddStore k i v old)
    (mkCache (mreplace k (mkEntry i v) (c_map s)) (c_lru s) (c_size s) (c_count s)) l (AddPlus i old) [EvAdd k i]
| TAddPlus s l i old : tstep t s l (AddPlus i old)
    (mkCache (c_map s) (c_lru s) (u64 (c_size s + item_size i)) (c_count s)) l AddDone []
| TAddDone s l : tstep t s l AddDone s None Idle []
| TPrune s l m n : m <> U64_MAX \/ n <> UINT_MAX -> tstep t s l Idle s l (PruneWait m n) []
| TPruneLock s m n : tstep t s None (PruneWait m n) s (Some t) (PruneLoadSize m n) []
| TPruneSize s l m n : tstep t s l (PruneLoadSize m n) s l (if m <? c_size s then PruneFind m n else PruneLoadCount m n) []
| TPruneCount s l m n : tstep t s l (PruneLoadCount m n) s l (if n <? c_count s then PruneFind m n else PruneDone) []
| TPruneFind s l m n k e : oldest (c_map s) = Some (k, e) -> tstep t s l (PruneFind m n) s l (PruneSub m n k e) []
| TPruneNone s l m n : oldest (c_map s) = None -> tstep t s l (PruneFind m n) s l PruneDone []
| TPruneSub s l m n k e : tstep t s l (PruneSub m n k e)
    (mkCache (c_map s) (c_lru s) (u64 (c_size s - item_size (en_item e))) (c_count s)) l (PruneDec m n k e) []
| TPruneDec s l m n k e : tstep t s l (PruneDec m n k e)
    (mkCache (c_map s) (c_lru s) (c_size s) (u32 (c_count s - 1))) l (PruneErase m n k e) []
| TPruneErase s l m n k e : tstep t s l (PruneErase m n k e)
    (mkCache (merase k (c_map s)) (c_lru s) (c_size s) (c_count s)) l (PruneLoadSize m n) [EvEvict k]
| TPruneDone s l : tstep t s l PruneDone s None Idle []
| TStatMem s l : tstep t s l Idle s l StatMem []
| TStatMem2 s l : tstep t s l StatMem s l (StatDone (Some (c_size s)) None false) []
| TStatCount s l : tstep t s l Idle s l StatCount []
| TStatCount2 s l : tstep t s l StatCount s l (StatDone None (Some (c_count s)) false) []
| TStat s l : tstep t s l Idle s l StatWait []
| TStatLock s : tstep t s None StatWait s (Some t) StatBothMem []
| TStatBoth s l : tstep t s l StatBothMem s l (StatBothCount (c_size s)) []
| TStatBoth2 s l m : tstep t s l (StatBothCount m) s l (StatDone (Some m) (Some (c_count s)) true) []
| TStatDone s l m c (b : bool) : tstep t s l (StatDone m c b) s (if b then None else l) Idle [].

Inductive kstep : conc -> conc -> Prop :=
| KStep t s l f log s' l' p' evs :
    tstep t s l (f t) s' l' p' evs ->
    kstep (mkConc s l f log) (mkConc s' l' (set_thr f t p') (log ++ evs)).

Inductive reach : conc -> Prop :=
| ReachInit : reach (mkConc cache_empty None (fun _ => Idle) [])
| ReachStep a b : reach a -> kstep a b -> reach b.
