(** Several threads using one reader object: reading sub-blocks, attachments or metadata while another thread closes it
    (Src/libCZI/CZIReader.cpp l.43-81 Open, l.203-213/321-339 ReadSubBlock, l.310-320/405-420 ReadAttachment, l.428-445
    ReadMetadataSegment, l.243-254 Close).  Every access to a member is one step; the plain flag isOperational is taken to be
    atomic (formally its unsynchronised use is a data race).  Streams are numbered; stream [d] belongs to document [d]. *)
From Verif Require Import Base LockModel.

(** Where a thread is.  [d], [k]: the entry which was looked up, part [k] of document [d]. *)
Inductive cpc :=
| PIdle
| PWant (d k : nat)                    (* operational, entry copied; about to lock stream_mutex_ *)
| PIn (d k : nat)                      (* has the mutex; about to copy the member stream: load the pointer, ... *)
| PLoad (d k : nat) (p : option nat)   (* ... then increment the reference count *)
| PHave (d k : nat) (p : option nat)   (* about to unlock *)
| PUse (d k : nat) (p : option nat)    (* tests the pointer; reads from the stream *)
| PDrop (d k s : nat)                  (* read; about to release its reference and return *)
| CFlag | CWant | CIn                  (* Close: about to clear the flag; to lock; to take the pointer out of the member *)
| CTook (p : option nat) | CLeave      (* about to decrement the count; to unlock and return *)
| OAssign (d : nat) | OPtr (d : nat) | OFlag (d : nat).   (* Open: about to assign the directories; the stream; the flag *)

(** What calls returned: part [k] as found in document [d], read from stream [s]; an exception; Close, Open done *)
Inductive ev := EData (d k s : nat) | EThrow | EClosed | EOpened (d : nat).
(** [c_cnt]: reference counts; the object exists as long as its count is positive.  [c_bad]: an object was used which
    does not exist, or the member was modified while another thread was using it. *)
Record cstate := mkC {
  c_op : bool; c_dir : nat; c_ptr : option nat; c_lock : option nat; c_cnt : nat -> Z; c_bad : bool; c_thr : list (cpc * list ev) }.

Inductive cact := ARead (k : nat) | AClose | AOpen (d : nat) | AGo.

Definition bump (f : nat -> Z) (s : nat) (x : Z) : nat -> Z := fun t => if (t =? s)%nat then f t + x else f t.
Definition gone (c : cstate) (s : nat) : bool := c_cnt c s <=? 0.
Definition put (c : cstate) (i : nat) (p : cpc) (l : list ev) : list (cpc * list ev) := set_nth i (p, l) (c_thr c).

Definition cstep (c : cstate) (i : nat) (a : cact) : option cstate :=
  let '(mkC op dir ptr lock cnt bad thr) := c in
  match nth_error thr i with
  | None => None
  | Some (pc, l) =>
    let thr' p l' := set_nth i (p, l') thr in
    match pc, a with
    | PIdle, ARead k => Some (mkC op dir ptr lock cnt bad (if op then thr' (PWant dir k) l else thr' PIdle (l ++ [EThrow])))
    | PWant d k, AGo => match lock with None => Some (mkC op dir ptr (Some i) cnt bad (thr' (PIn d k) l)) | Some _ => None end
    | PIn d k, AGo => Some (mkC op dir ptr lock cnt bad (thr' (PLoad d k ptr) l))
    | PLoad d k None, AGo => Some (mkC op dir ptr lock cnt bad (thr' (PHave d k None) l))
    | PLoad d k (Some s), AGo => Some (mkC op dir ptr lock (bump cnt s 1) (bad || gone c s) (thr' (PHave d k (Some s)) l))
    | PHave d k p, AGo => Some (mkC op dir ptr None cnt bad (thr' (PUse d k p) l))
    | PUse d k None, AGo => Some (mkC op dir ptr lock cnt bad (thr' PIdle (l ++ [EThrow])))
    | PUse d k (Some s), AGo => Some (mkC op dir ptr lock cnt (bad || gone c s) (thr' (PDrop d k s) l))
    | PDrop d k s, AGo => Some (mkC op dir ptr lock (bump cnt s (-1)) (bad || gone c s) (thr' PIdle (l ++ [EData d k s])))
    | PIdle, AClose => Some (mkC op dir ptr lock cnt bad (if op then thr' CFlag l else thr' PIdle (l ++ [EThrow])))
    | CFlag, AGo => Some (mkC false dir ptr lock cnt bad (thr' CWant l))
    | CWant, AGo => match lock with None => Some (mkC op dir ptr (Some i) cnt bad (thr' CIn l)) | Some _ => None end
    | CIn, AGo => Some (mkC op dir None lock cnt bad (thr' (CTook ptr) l))
    | CTook None, AGo => Some (mkC op dir ptr lock cnt bad (thr' CLeave l))
    | CTook (Some s), AGo => Some (mkC op dir ptr lock (bump cnt s (-1)) (bad || gone c s) (thr' CLeave l))
    | CLeave, AGo => Some (mkC op dir ptr None cnt bad (thr' PIdle (l ++ [EClosed])))
    | PIdle, AOpen d => Some (mkC op dir ptr lock cnt bad (if op then thr' PIdle (l ++ [EThrow]) else thr' (OAssign d) l))
    | OAssign d, AGo => Some (mkC op d ptr lock cnt bad (thr' (OPtr d) l))
    | OPtr d, AGo =>
        let cnt' := bump (match ptr with Some s => bump cnt s (-1) | None => cnt end) d 1 in
        Some (mkC op dir (Some d) lock cnt' (bad || match lock with Some _ => true | None => false end) (thr' (OFlag d) l))
    | OFlag d, AGo => Some (mkC true dir ptr lock cnt bad (thr' PIdle (l ++ [EOpened d])))
    | _, _ => None
    end
  end.
Fixpoint crun (c : cstate) (tr : list (nat * cact)) : option cstate :=
  match tr with [] => Some c | (i, a) :: tr' => match cstep c i a with Some c' => crun c' tr' | None => None end end.
(** Document 0 has been opened; [ext]: references to the streams held by others; [n] threads. *)
Definition cstart (ext : nat -> Z) (n : nat) : cstate := mkC true 0 (Some 0%nat) None (bump ext 0 1) false (repeat (PIdle, []) n).
