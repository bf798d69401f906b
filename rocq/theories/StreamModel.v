(** Streams (Src/libCZI/StreamImpl.cpp, Src/libCZI/StreamsLib) and handles of the C API
    (Src/libCZIAPI/src). *)
From Verif Require Import Base CopyModel HiLoModel.

(** ** Stream in memory (StreamImpl.cpp l.141-163)

    [buf]: the content; [dst], [dsz]: memory behind pv and its size, [None] for a null pointer.
    Result: memory behind pv and *ptrBytesRead.  offset and size are 64 bit, as is size_t. *)
Definition mem_read (buf : bytes) (offset size : Z) (dst : option mem) (dsz : Z) : res (mem * Z) :=
  match dst with
  | None => Throw
  | Some m =>
      if Z.of_nat (length buf) <=? offset then Throw
      else
        let n := Z.min size (Z.of_nat (length buf) - offset) in
        if (0 <=? offset) && (offset + n <=? Z.of_nat (length buf)) then
          let* m := st m dsz 0 (slice buf (Z.to_nat offset) (Z.to_nat n)) in
          Ok (m, n)
        else UB
  end.

(** ** Output stream on a FILE (StreamImpl.cpp l.232-256; l.424-447 is the same)

    Any number of threads; each has a list of calls Write(offset, data) to make.  fseeko and fwrite
    are atomic each; there is no lock around the two.  Errors are not modelled. *)
Definition wcall : Type := Z * bytes.
Record ostate := mkO { o_pos : Z; o_file : mem; o_seeked : nat -> bool; o_todo : nat -> list wcall }.
Definition upd {A} (f : nat -> A) (t : nat) (v : A) : nat -> A := fun x => if (x =? t)%nat then v else f x.
Definition ostep (s : ostate) (t : nat) : ostate :=
  match o_todo s t with
  | [] => s
  | (off, d) :: r =>
      if o_seeked s t then
        mkO (o_pos s + Z.of_nat (length d)) (mwrite (o_file s) (o_pos s) d) (upd (o_seeked s) t false) (upd (o_todo s) t r)
      else mkO off (o_file s) (upd (o_seeked s) t true) (o_todo s)
  end.
Definition oexec (s : ostate) (sched : list nat) : ostate := fold_left ostep sched s.
Definition ostart (m : mem) (todo : nat -> list wcall) : ostate := mkO 0 m (fun _ => false) todo.

(** ** Output stream with pwrite (StreamImpl.cpp l.56-71, l.300-316): one atomic step.  The number of
    bytes written is the requested one. *)
Record pstate := mkP { p_file : mem; p_todo : nat -> list wcall }.
Definition pstep (s : pstate) (t : nat) : pstate :=
  match p_todo s t with
  | [] => s
  | (off, d) :: r => mkP (mwrite (p_file s) off d) (upd (p_todo s) t r)
  end.
Definition pexec (s : pstate) (sched : list nat) : pstate := fold_left pstep sched s.

(** ** Input stream on a FILE (simplefileinputstream.cpp l.62-84): fseeko and fread under a mutex.
    Result of a call: the bytes, or [None] for the exception if fseeko fails (negative off_t). *)
Definition rcall : Type := Z * Z.
Inductive rpc := RIdle | RLocked | RSeeked | RUnlock.
Record istate := mkI { i_pos : Z; i_lock : option nat; i_pc : nat -> rpc; i_todo : nat -> list rcall;
                       i_log : nat -> list (rcall * option bytes) }.
Definition fread (file : bytes) (pos n : Z) : bytes := slice file (Z.to_nat pos) (Z.to_nat n).
Definition istep (file : bytes) (s : istate) (t : nat) : istate :=
  match i_pc s t, i_todo s t with
  | RIdle, _ :: _ =>
      match i_lock s with
      | None => mkI (i_pos s) (Some t) (upd (i_pc s) t RLocked) (i_todo s) (i_log s)
      | Some _ => s                                            (* waits *)
      end
  | RLocked, (off, n) :: r =>
      if off <? 9223372036854775808 then mkI off (i_lock s) (upd (i_pc s) t RSeeked) (i_todo s) (i_log s)
      else mkI (i_pos s) (i_lock s) (upd (i_pc s) t RUnlock) (upd (i_todo s) t r)
             (upd (i_log s) t (i_log s t ++ [((off, n), None)]))
  | RSeeked, (off, n) :: r =>
      let d := fread file (i_pos s) n in
      mkI (i_pos s + Z.of_nat (length d)) (i_lock s) (upd (i_pc s) t RUnlock) (upd (i_todo s) t r)
        (upd (i_log s) t (i_log s t ++ [((off, n), Some d)]))
  | RUnlock, _ => mkI (i_pos s) None (upd (i_pc s) t RIdle) (i_todo s) (i_log s)
  | _, _ => s
  end.
Definition iexec (file : bytes) (s : istate) (sched : list nat) : istate := fold_left (istep file) sched s.
Definition istart (todo : nat -> list rcall) : istate := mkI 0 None (fun _ => RIdle) todo (fun _ => []).

(** ** Receiving data from a server (curlhttpinputstream.cpp l.267-286, l.301-318)

    libcurl calls WriteData for each piece of data; a result different from the size of the piece
    makes curl_easy_perform fail.  CURLE_WRITE_ERROR is 23. *)
Definition CURLE_WRITE_ERROR : Z := 23.
Definition write_data (size : Z) (piece : bytes) (s : mem * Z) : res (Z * (mem * Z)) :=
  let (m, count) := s in
  let total := Z.of_nat (length piece) in
  if size <? count + total then Ok (CURLE_WRITE_ERROR, (m, count))
  else let* m' := st m size count piece in Ok (total, (m', count + total)).
Fixpoint perform (size : Z) (pieces : list bytes) (s : mem * Z) : res (mem * Z) :=
  match pieces with
  | [] => Ok s
  | p :: ps =>
      let* (r, s') := write_data size p s in
      if r =? Z.of_nat (length p) then perform size ps s' else Throw
  end.
(** CurlHttpInputStream::Read (l.237-286): pv points to [size] bytes *)
Definition curl_read (pieces : list bytes) (size : Z) (m : mem) : res (mem * Z) :=
  if size =? 0 then Ok (m, 0) else perform size pieces (m, 0).

(** ** Handles of the C API (sharedptrwrapper.h l.11-24, l.39-59; libCZIApi.cpp) *)
Inductive kind := KReader | KSubBlock | KStream | KBitmap | KMetadataSegment | KAttachment | KOutputStream | KWriter
                | KAccessor | KDocInfo | KDisplaySettings | KChannelDisplay.
Definition magic (k : kind) : Z :=
  match k with
  | KReader => 0x48EE87D2 | KSubBlock => 0x27AD4774 | KStream => 0xF2BB50D4 | KBitmap => 0x9155FC95
  | KMetadataSegment => 0x7A3D4A3A | KAttachment => 0x3A4A3D7A | KOutputStream => 0x8020FAA3 | KWriter => 0xF8384829
  | KAccessor => 0xE34C94D7 | KDocInfo => 0x3A4A3D7A | KDisplaySettings => 0xE67C5A4C | KChannelDisplay => 0x88265932
  end.
(** what a handle points to: magic_, the kind of the object and the object; [None]: not allocated *)
Record slot := mkSlot { h_magic : Z; h_kind : kind; h_obj : nat }.
Definition heap := nat -> option slot.
Inductive hop :=
| HCreate (k : kind) (a : nat) (obj : nat)   (* new SharedPtrWrapper at address a, e.g. l.186 *)
| HUse (k : kind) (a : nat)                  (* a function taking a handle of kind k, e.g. l.193-204 *)
| HRelease (k : kind) (a : nat).             (* e.g. l.510-526; the refusal to release a locked bitmap (l.1043-1056) is not modelled *)
(** HConfused: the object is used as an object of another kind; HUB: the handle is read although it
    points to nothing *)
Inductive hres := HOk (obj : nat) | HInvalidArgument | HInvalidHandle | HConfused | HUB.
Definition kind_eqb (a b : kind) : bool :=
  match a, b with
  | KReader, KReader | KSubBlock, KSubBlock | KStream, KStream | KBitmap, KBitmap | KMetadataSegment, KMetadataSegment
  | KAttachment, KAttachment | KOutputStream, KOutputStream | KWriter, KWriter | KAccessor, KAccessor | KDocInfo, KDocInfo
  | KDisplaySettings, KDisplaySettings | KChannelDisplay, KChannelDisplay => true
  | _, _ => false
  end.
Definition hcheck (h : heap) (k : kind) (a : nat) : hres :=
  if (a =? 0)%nat then HInvalidArgument
  else match h a with
       | None => HUB
       | Some s => if h_magic s =? magic k then (if kind_eqb (h_kind s) k then HOk (h_obj s) else HConfused) else HInvalidHandle
       end.
Definition hstep (h : heap) (o : hop) : heap * hres :=
  match o with
  | HCreate k a obj => (upd h a (Some (mkSlot (magic k) k obj)), HOk obj)
  | HUse k a => (h, hcheck h k a)
  | HRelease k a => match hcheck h k a with HOk x => (upd h a None, HOk x) | HConfused => (upd h a None, HConfused) | r => (h, r) end
  end.
Fixpoint hrun (h : heap) (ops : list hop) : heap * list hres :=
  match ops with
  | [] => (h, [])
  | o :: os => let (h', r) := hstep h o in let (h'', rs) := hrun h' os in (h'', r :: rs)
  end.
