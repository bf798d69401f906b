(** Lock counting of bitmaps (Src/libCZI/bitmapData.h l.39-72) and the scope guard
    (Src/libCZI/libCZI_Pixels.h l.308-417). *)
From Verif Require Import Base.

(** ** Any number of threads using one bitmap

    [lk_cnt] is lockCnt (not wrapping at 2^31).  A thread is either outside, or
    has found a violation and is about to undo its decrement (l.64).  Ghost:
    [held] = number of Locks minus number of Unlocks which returned normally,
    [threw] = number of Unlocks which threw. *)
Inductive lpc := LOut | LUndo.
Record lthread := mkLThread { lt_pc : lpc; held : Z; threw : Z }.
Record lstate := mkLState { lk_cnt : Z; lk_thr : list lthread }.

Definition set_nth {A} (i : nat) (x : A) (l : list A) : list A := firstn i l ++ x :: skipn (S i) l.

Inductive lact := ALock | AUnlock | AUndo.
Inductive lstep : lstate -> nat -> lact -> lstate -> Prop :=
(** Lock (l.45-54): atomic_fetch_add *)
| LLock c ts i h w : nth_error ts i = Some (mkLThread LOut h w) ->
    lstep (mkLState c ts) i ALock (mkLState (c + 1) (set_nth i (mkLThread LOut (h + 1) w) ts))
(** Unlock (l.56-60): atomic_fetch_sub, the previous value was at least one *)
| LUnlock c ts i h w : nth_error ts i = Some (mkLThread LOut h w) -> 1 <= c ->
    lstep (mkLState c ts) i AUnlock (mkLState (c - 1) (set_nth i (mkLThread LOut (h - 1) w) ts))
(** ... the previous value was less than one *)
| LBad c ts i h w : nth_error ts i = Some (mkLThread LOut h w) -> c < 1 ->
    lstep (mkLState c ts) i AUnlock (mkLState (c - 1) (set_nth i (mkLThread LUndo h w) ts))
(** l.62-63: atomic_fetch_add, throw *)
| LThrow c ts i h w : nth_error ts i = Some (mkLThread LUndo h w) ->
    lstep (mkLState c ts) i AUndo (mkLState (c + 1) (set_nth i (mkLThread LOut h (w + 1)) ts)).

Inductive lrun : lstate -> list (nat * lact) -> lstate -> Prop :=
| LRnil s : lrun s [] s
| LRcons s i a s1 tr s2 : lstep s i a s1 -> lrun s1 tr s2 -> lrun s ((i, a) :: tr) s2.
Definition lstart (n : nat) : lstate := mkLState 0 (repeat (mkLThread LOut 0 0) n).

(** ** Scope guards

    A guard variable which exists holds a bitmap or nothing.  Bitmaps are
    numbered; [g_cnt] gives the lock counts.  *)
Record gstate := mkGState { g_vars : list (nat * option nat); g_cnt : nat -> Z }.
Fixpoint gfind (v : nat) (l : list (nat * option nat)) : option (option nat) :=
  match l with [] => None | (w, b) :: l' => if (w =? v)%nat then Some b else gfind v l' end.
Fixpoint gset (v : nat) (b : option nat) (l : list (nat * option nat)) : list (nat * option nat) :=
  match l with [] => [] | (w, c) :: l' => if (w =? v)%nat then (w, b) :: l' else (w, c) :: gset v b l' end.
Fixpoint gdel (v : nat) (l : list (nat * option nat)) : list (nat * option nat) :=
  match l with [] => [] | (w, c) :: l' => if (w =? v)%nat then l' else (w, c) :: gdel v l' end.

(** Lock / Unlock of one bitmap, uninterrupted. *)
Definition b_lock (ob : option nat) (f : nat -> Z) : nat -> Z :=
  match ob with None => f | Some b => fun x => if (x =? b)%nat then f x + 1 else f x end.
Definition b_unlock (ob : option nat) (f : nat -> Z) : res (nat -> Z) :=
  match ob with
  | None => Ok f
  | Some b => if f b <? 1 then Throw else Ok (fun x => if (x =? b)%nat then f x - 1 else f x)
  end.

Inductive gop :=
| GNew (v b : nat)            (* constructor l.317 *)
| GCopy (v w : nat)           (* copy constructor l.333 *)
| GMove (v w : nat)           (* move constructor l.346 *)
| GAssign (v w : nat)         (* copy assignment l.379 *)
| GMoveAssign (v w : nat)     (* move assignment l.358 *)
| GDestroy (v : nat).         (* destructor l.410 *)

(** Operations on variables which do not exist (or constructing one which
    does) cannot be written in C++; they are skipped.  *)
Definition gstep (s : gstate) (o : gop) : res gstate :=
  match o with
  | GNew v b =>
      match gfind v (g_vars s) with
      | None => Ok (mkGState ((v, Some b) :: g_vars s) (b_lock (Some b) (g_cnt s)))
      | Some _ => Ok s
      end
  | GCopy v w =>
      match gfind v (g_vars s), gfind w (g_vars s) with
      | None, Some ob => Ok (mkGState ((v, ob) :: g_vars s) (b_lock ob (g_cnt s)))
      | _, _ => Ok s
      end
  | GMove v w =>
      match gfind v (g_vars s), gfind w (g_vars s) with
      | None, Some ob => Ok (mkGState ((v, ob) :: gset w None (g_vars s)) (g_cnt s))
      | _, _ => Ok s
      end
  | GAssign v w =>
      match gfind v (g_vars s), gfind w (g_vars s) with
      | Some oa, Some ob =>
          if (v =? w)%nat then Ok s
          else let* f := b_unlock oa (g_cnt s) in
               Ok (mkGState (gset v ob (g_vars s)) (b_lock ob f))
      | _, _ => Ok s
      end
  | GMoveAssign v w =>
      match gfind v (g_vars s), gfind w (g_vars s) with
      | Some oa, Some ob =>
          if (v =? w)%nat then Ok s
          else let* f := b_unlock oa (g_cnt s) in
               Ok (mkGState (gset w None (gset v ob (g_vars s))) f)
      | _, _ => Ok s
      end
  | GDestroy v =>
      match gfind v (g_vars s) with
      | Some ob => let* f := b_unlock ob (g_cnt s) in Ok (mkGState (gdel v (g_vars s)) f)
      | None => Ok s
      end
  end.
Fixpoint grun (s : gstate) (ops : list gop) : res gstate :=
  match ops with [] => Ok s | o :: ops' => let* s1 := gstep s o in grun s1 ops' end.
Definition gstart : gstate := mkGState [] (fun _ => 0).
