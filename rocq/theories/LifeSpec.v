(** How long a stream of the caller is used: as long as some handle keeps it. *)
From Verif Require Import Base LifeModel.
Open Scope nat_scope.

(** the kinds of handles; what a handle keeps: a stream itself, a reader the stream it was opened with, an accessor the one of its reader,
    a writer the one it writes to; None: the handle was released *)
Inductive kind := KIn | KOut | KReader | KAccessor | KWriter | KPlain.
Definition handles : Type := list (option (kind * option nat)).
Definition keeps (hs : handles) (s : nat) : Prop := exists h k, nth_error hs h = Some (Some (k, Some s)).
Definition kept (hs : handles) (s : nat) : bool :=
  existsb (fun e => match e with Some (_, Some t) => t =? s | _ => false end) hs.
(** the stream is closed if nothing keeps it any longer *)
Definition let_go (hs : handles) (s : option nat) : list event :=
  match s with Some s => if kept hs s then [] else [EClose s] | None => [] end.
(** what the caller sees: the handles, the calls of the functions of streams, the code; None: a handle was used after it was released *)
Definition seen : Type := (handles * list event * code)%type.
Definition live (hs : handles) (h : nat) : option (kind * option nat) := match nth_error hs h with Some (Some e) => Some e | _ => None end.
Definition fresh (hs : handles) (e : kind * option nat) : handles := hs ++ [Some e].
Definition result (hs : handles) (ev : list event) (ok : bool) : option seen :=
  Some (if ok then (fresh hs (KPlain, None), ev, COk) else (hs, ev, CUnspecified)).
Definition refused (hs : handles) (c : code) : option seen := Some (hs, [], c).
Definition spec_step (hs : handles) (o : op) : option seen :=
  let n := List.length hs in
  match o with
  | NewIn => Some (fresh hs (KIn, Some n), [EOpen n], COk)
  | NewOut => Some (fresh hs (KOut, Some n), [EOpen n], COk)
  | NewReader => Some (fresh hs (KReader, None), [], COk)
  | NewWriter => Some (fresh hs (KWriter, None), [], COk)
  | Open r s m ok =>
    match live hs r, live hs s with
    | Some (KReader, None), Some (KIn, _) =>
      Some (if ok then (put hs r (Some (KReader, Some s)), repeat (ECall s) m, COk) else (hs, repeat (ECall s) m, CUnspecified))
    | Some (KReader, Some _), Some (KIn, _) => refused hs CUnspecified
    | Some _, Some _ => refused hs CInvalidHandle
    | _, _ => None
    end
  | Ask r m ok =>
    match live hs r with
    | Some (KReader, Some s) => result hs (repeat (ECall s) m) ok
    | Some (KReader, None) => refused hs CUnspecified
    | Some _ => refused hs CInvalidHandle
    | None => None
    end
  | MakeAccessor r =>
    match live hs r with
    | Some (KReader, Some s) => Some (fresh hs (KAccessor, Some s), [], COk)
    | Some (KReader, None) => refused hs CUnspecified
    | Some _ => refused hs CInvalidHandle
    | None => None
    end
  | Get a m ok =>
    match live hs a with
    | Some (KAccessor, Some s) => result hs (repeat (ECall s) m) ok
    | Some _ => refused hs CInvalidHandle
    | None => None
    end
  | Derive h =>
    match live hs h with
    | Some (KPlain, _) => Some (fresh hs (KPlain, None), [], COk)
    | Some _ => refused hs CInvalidHandle
    | None => None
    end
  | Create w s m ok =>
    match live hs w, live hs s with
    | Some (KWriter, None), Some (KOut, _) => Some (put hs w (Some (KWriter, Some s)), repeat (ECall s) m, if ok then COk else CUnspecified)
    | Some (KWriter, Some _), Some (KOut, _) => refused hs CUnspecified
    | Some _, Some _ => refused hs CInvalidHandle
    | _, _ => None
    end
  | Write w m ok =>
    match live hs w with
    | Some (KWriter, Some s) => Some (hs, repeat (ECall s) m, if ok then COk else CUnspecified)
    | Some (KWriter, None) => refused hs CUnspecified
    | Some _ => refused hs CInvalidHandle
    | None => None
    end
  | Close w m ok =>
    match live hs w with
    | Some (KWriter, Some s) =>
      Some (if ok then let hs' := put hs w (Some (KWriter, None)) in (hs', repeat (ECall s) m ++ let_go hs' (Some s), COk)
            else (hs, repeat (ECall s) m, CUnspecified))
    | Some (KWriter, None) => refused hs CUnspecified
    | Some _ => refused hs CInvalidHandle
    | None => None
    end
  | Release h =>
    match live hs h with
    | Some (_, s) => let hs' := put hs h None in Some (hs', let_go hs' s, COk)
    | None => None
    end
  end.
Fixpoint spec_run (hs : handles) (os : list op) : option (handles * list event * list code) :=
  match os with
  | [] => Some (hs, [], [])
  | o :: os' =>
    match spec_step hs o with
    | Some (hs1, ev1, c) => match spec_run hs1 os' with Some (hs2, ev2, cs) => Some (hs2, ev1 ++ ev2, c :: cs) | None => None end
    | None => None
    end
  end.
(** a trace in which the stream is used properly: opened once, called only while open, closed at most once *)
Definition opened (ev : list event) (s : nat) : Prop := In (EOpen s) ev.
Definition closed (ev : list event) (s : nat) : Prop := In (EClose s) ev.
Definition proper (ev : list event) : Prop :=
  forall a e b, ev = a ++ e :: b ->
    match e with
    | EOpen s => ~ opened a s /\ ~ closed a s
    | ECall s => opened a s /\ ~ closed a s
    | EClose s => opened a s /\ ~ closed a s
    end.
