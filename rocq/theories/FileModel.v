(** Files: the streams which the library creates for names of files (Src/libCZI/StreamImpl.cpp, StreamsLib/preadfileinputstream.cpp,
    StreamsLib/simplefileinputstream.cpp, StreamsLib/windowsfileinputstream.cpp, libCZI_Lib.cpp l.113-157), together with what
    open, pread, pwrite, fopen, fseeko, fread, fwrite, fclose, CreateFile, ReadFile and WriteFile do.
    Simplifications: there are regular files only, no directories, no links made or removed while running; the numbers of
    Windows handles are taken to be those of descriptors; its sharing modes are left out (no other handle is open on the file); a
    FILE keeps what is written until the next fseeko or fclose. *)
From Verif Require Import Base.
Open Scope Z_scope.

Inductive api := Posix | CRuntime | Windows.
(** content, and whether this process may read and write it *)
Record file := mkFile { f_data : bytes; f_r : bool; f_w : bool }.
(** an open file: which one, open for reading, open for writing *)
Record desc := mkDesc { d_file : nat; d_r : bool; d_w : bool }.
(** a stream: the descriptor; what a FILE holds back (position, bytes) *)
Record stream := mkStream { s_api : api; s_fd : nat; s_wait : option (Z * bytes) }.
Record world := mkWorld { w_names : nat -> option nat; w_files : list file; w_fds : list (option desc); w_streams : list (option stream) }.

Fixpoint set_at {A} (l : list A) (k : nat) (a : A) : list A :=
  match l, k with
  | [], _ => []
  | _ :: t, O => a :: t
  | x :: t, S k' => x :: set_at t k' a
  end.
(** the lowest free number *)
Fixpoint first_free {A} (l : list (option A)) : nat :=
  match l with Some _ :: t => S (first_free t) | _ => O end.
Definition take {A} (l : list (option A)) (a : A) : list (option A) :=
  if (first_free l <? length l)%nat then set_at l (first_free l) (Some a) else l ++ [Some a].

(** ** the system *)
Record flags := mkFlags { o_r : bool; o_w : bool; o_creat : bool; o_excl : bool; o_trunc : bool }.
Definition with_files (w : world) (l : list file) : world := mkWorld (w_names w) l (w_fds w) (w_streams w).
Definition with_fds (w : world) (l : list (option desc)) : world := mkWorld (w_names w) (w_files w) l (w_streams w).
Definition with_streams (w : world) (l : list (option stream)) : world := mkWorld (w_names w) (w_files w) (w_fds w) l.
(** open (2): the new world and the descriptor; [None]: it fails *)
Definition sys_open (w : world) (n : nat) (fl : flags) : option (world * nat) :=
  match w_names w n with
  | Some i =>
      match nth_error (w_files w) i with
      | None => None
      | Some f =>
          if o_creat fl && o_excl fl then None
          else if (o_r fl && negb (f_r f)) || (o_w fl && negb (f_w f)) then None
          else
            let files := if o_trunc fl then set_at (w_files w) i (mkFile [] (f_r f) (f_w f)) else w_files w in
            Some (with_fds (with_files w files) (take (w_fds w) (mkDesc i (o_r fl) (o_w fl))), first_free (w_fds w))
      end
  | None =>
      if o_creat fl then
        let i := length (w_files w) in
        Some (mkWorld (fun m => if (m =? n)%nat then Some i else w_names w m) (w_files w ++ [mkFile [] true true])
                      (take (w_fds w) (mkDesc i (o_r fl) (o_w fl))) (w_streams w), first_free (w_fds w))
      else None
  end.
Definition sys_close (w : world) (fd : nat) : world := with_fds w (set_at (w_fds w) fd None).

(** what may happen to a transfer: all of it, an error, or only so many bytes *)
Inductive io := Fine | Fail | Cut (k : nat).
Definition io_count (o : io) (n : nat) : option nat :=
  match o with Fine => Some n | Fail => None | Cut k => Some (Nat.min k n) end.
(** the bytes at a position of a file; a gap is filled with zeros *)
Definition put_at (d : bytes) (off : nat) (x : bytes) : bytes :=
  match x with [] => d | _ => firstn off (d ++ repeat 0 (off - length d)) ++ x ++ skipn (off + length x) d end.
Definition open_file (w : world) (fd : nat) : option (desc * file) :=
  match nth_error (w_fds w) fd with
  | Some (Some d) => match nth_error (w_files w) (d_file d) with Some f => Some (d, f) | None => None end
  | _ => None
  end.
Definition OFF_MAX : Z := 9223372036854775807.
(** pwrite (2), and WriteFile with a position: at most [limit] bytes are transferred *)
Definition sys_pwrite (w : world) (fd : nat) (off : Z) (x : bytes) (limit : option Z) (o : io) : option (world * nat) :=
  match open_file w fd with
  | Some (d, f) =>
      if negb (d_w d) || (OFF_MAX <? off + Z.of_nat (length x)) then None
      else
        let n := match limit with None => length x | Some l => if Z.of_nat (length x) <=? l then length x else Z.to_nat l end in
        match io_count o n with
        | None => None
        | Some k => Some (with_files w (set_at (w_files w) (d_file d) (mkFile (put_at (f_data f) (Z.to_nat off) (firstn k x)) (f_r f) (f_w f))), k)
        end
  | None => None
  end.
(** pread (2), and ReadFile with a position *)
Definition sys_pread (w : world) (fd : nat) (off size : Z) (limit : option Z) (o : io) : option bytes :=
  match open_file w fd with
  | Some (d, f) =>
      if negb (d_r d) || (OFF_MAX <? off) then None
      else
        let n := match limit with None => size | Some l => Z.min size l end in
        let x := slice (f_data f) (Z.to_nat off) (Z.to_nat n) in
        match io_count o (length x) with None => None | Some k => Some (firstn k x) end
  | None => None
  end.
(** Linux transfers at most 0x7ffff000 bytes at a time (man 2 read) *)
Definition linux_limit : option Z := Some 2147479552.

(** ** the streams *)
(** libCZI_Lib.cpp l.113-157, streamsFactory.cpp l.222-236: which of the three is used is chosen when the library is built.
    The flags: COutputStreamImplPwrite l.25-46, CSimpleOutputStreamImplWindows l.78-92 (CREATE_ALWAYS, CREATE_NEW), the "wb" of
    CSimpleOutputStreamStreams l.207 *)
Definition out_flags (a : api) (overwrite : bool) : flags :=
  match a with
  | Posix | Windows => mkFlags false true true (negb overwrite) true
  | CRuntime => mkFlags false true true false true
  end.
(** CInputOutputStreamImplPreadPwrite l.258-273; CSimpleInputOutputStreamImplWindows l.321-333 (OPEN_EXISTING);
    CSimpleInputOutputStreamImpl l.398-427: fopen with "rwb", which is "r" *)
Definition inout_flags (a : api) : flags :=
  match a with
  | Posix => mkFlags true true true false false
  | Windows => mkFlags true true false false false
  | CRuntime => mkFlags true false false false false
  end.
(** preadfileinputstream.cpp l.20, windowsfileinputstream.cpp l.22, simplefileinputstream.cpp l.43 ("rb") *)
Definition in_flags : flags := mkFlags true false false false false.

(** what other processes do: a file of this name gets this content and these permissions; or the name is removed *)
Inductive other := OPut (n : nat) (f : file) | ORemove (n : nat).
Definition others1 (w : world) (x : other) : world :=
  match x with
  | OPut n f =>
      match w_names w n with
      | Some i => with_files w (set_at (w_files w) i f)
      | None => mkWorld (fun m => if (m =? n)%nat then Some (length (w_files w)) else w_names w m) (w_files w ++ [f]) (w_fds w) (w_streams w)
      end
  | ORemove n => mkWorld (fun m => if (m =? n)%nat then None else w_names w m) (w_files w) (w_fds w) (w_streams w)
  end.
Definition others (w : world) (l : list other) : world := fold_left others1 l w.

Inductive op :=
  | MakeOut (a : api) (n : nat) (overwrite : bool) (between : list other) (allow : bool)
  | MakeInOut (a : api) (n : nat) (allow : bool)
  | MakeIn (a : api) (n : nat) (allow : bool)
  | Write (s : nat) (off : Z) (x : bytes) (o : io)
  | Read (s : nat) (off size : Z) (o : io)
  | Destroy (s : nat) (o : io)
  | Other (x : other).
Inductive result := RThrow | RStream (s : nat) | RCount (n : nat) | RBytes (x : bytes) | RDone.

(** the constructors; [allow] is false if the system refuses for another reason (no more descriptors, no space, ...) *)
Definition make (w : world) (a : api) (n : nat) (fl : flags) (allow : bool) : world * result :=
  if allow then
    match sys_open w n fl with
    | Some (w', fd) => (with_streams w' (w_streams w' ++ [Some (mkStream a fd None)]), RStream (length (w_streams w')))
    | None => (w, RThrow)
    end
  else (w, RThrow).
(** CSimpleOutputStreamStreams l.195-205: is there a file?  fopen with "rb" and fclose *)
Definition can_read (w : world) (n : nat) : bool :=
  match sys_open w n in_flags with Some _ => true | None => false end.
Definition make_out (w : world) (a : api) (n : nat) (overwrite : bool) (between : list other) (allow : bool) : world * result :=
  match a with
  | CRuntime =>
      if negb overwrite && can_read w n then (w, RThrow)
      else make (others w between) a n (out_flags a overwrite) allow
  | _ => make w a n (out_flags a overwrite) allow
  end.

Definition set_stream (w : world) (s : nat) (x : option stream) : world := with_streams w (set_at (w_streams w) s x).
(** what a FILE holds back is written; [false]: not all of it *)
Definition flush (w : world) (s : nat) (x : stream) (o : io) : world * bool :=
  match s_wait x with
  | None => (w, true)
  | Some (p, d) =>
      match sys_pwrite w (s_fd x) p d None o with
      | None => (w, false)
      | Some (w', k) => if (k =? length d)%nat then (set_stream w' s (Some (mkStream (s_api x) (s_fd x) None)), true) else (w', false)
      end
  end.
Definition DWORD_MAX : Z := 4294967295.
(** the functions Write: StreamImpl.cpp l.56-72 and l.300-316 (pwrite), l.103-128 and l.369-394 (WriteFile), l.232-254 and l.434-455 (fwrite) *)
Definition write_stream (w : world) (s : nat) (x : stream) (off : Z) (d : bytes) (o : io) : world * result :=
  match s_api x with
  | Posix => match sys_pwrite w (s_fd x) off d linux_limit o with Some (w', k) => (w', RCount k) | None => (w, RThrow) end
  | Windows =>
      if DWORD_MAX <? Z.of_nat (length d) then (w, RThrow)
      else match sys_pwrite w (s_fd x) off d None o with Some (w', k) => (w', RCount k) | None => (w, RThrow) end
  | CRuntime =>
      let (w1, ok) := flush w s x o in
      if negb ok || (OFF_MAX <? off) then (w1, RThrow)
      else
        match open_file w1 (s_fd x) with
        | Some (e, _) =>
            if d_w e then (set_stream w1 s (Some (mkStream CRuntime (s_fd x) (Some (off, d)))), RCount (length d)) else (w1, RCount 0)
        | None => (w1, RCount 0)
        end
  end.
(** the functions Read: preadfileinputstream.cpp l.42-57 and StreamImpl.cpp l.283-298 (pread); windowsfileinputstream.cpp l.41-65 and
    StreamImpl.cpp l.343-367 (ReadFile, which fails at the end of the file); simplefileinputstream.cpp l.62-84 and StreamImpl.cpp l.457-478 (fread, whose
    errors are not told from the end of the file) *)
Definition read_stream (w : world) (s : nat) (x : stream) (off size : Z) (o : io) : world * result :=
  match s_api x with
  | Posix => (w, match sys_pread w (s_fd x) off size linux_limit o with Some d => RBytes d | None => RThrow end)
  | Windows =>
      if DWORD_MAX <? size then (w, RThrow)
      else (w, match sys_pread w (s_fd x) off size None o with
               | Some [] => if size =? 0 then RBytes [] else RThrow
               | Some d => RBytes d
               | None => RThrow
               end)
  | CRuntime =>
      let (w1, ok) := flush w s x o in
      if negb ok || (OFF_MAX <? off) then (w1, RThrow)
      else (w1, match sys_pread w1 (s_fd x) off size None o with Some d => RBytes d | None => RBytes [] end)
  end.
(** the destructors: StreamImpl.cpp l.48-54, l.275-281 and preadfileinputstream.cpp l.35-41 (a descriptor 0 is not closed), l.94-101 and l.335-341 (Windows),
    l.227-230, l.429-432 and simplefileinputstream.cpp l.57-60 (fclose, whose result is not looked at) *)
Definition destroy_stream (w : world) (s : nat) (x : stream) (o : io) : world :=
  let w1 := match s_api x with CRuntime => fst (flush w s x o) | _ => w end in
  let w2 := match s_api x with Posix => if (s_fd x =? 0)%nat then w1 else sys_close w1 (s_fd x) | _ => sys_close w1 (s_fd x) end in
  set_stream w2 s None.

Definition with_stream {A} (w : world) (s : nat) (k : stream -> A) : res A :=
  match nth_error (w_streams w) s with Some (Some x) => Ok (k x) | _ => UB end.
(** one call; a stream which is not there must not be used *)
Definition step (w : world) (p : op) : res (world * result) :=
  match p with
  | MakeOut a n ow between allow => Ok (make_out w a n ow between allow)
  | MakeInOut a n allow => Ok (make w a n (inout_flags a) allow)
  | MakeIn a n allow => Ok (make w a n in_flags allow)
  | Write s off d o => with_stream w s (fun x => write_stream w s x off d o)
  | Read s off size o => with_stream w s (fun x => read_stream w s x off size o)
  | Destroy s o => with_stream w s (fun x => (destroy_stream w s x o, RDone))
  | Other x => Ok (others1 w x, RDone)
  end.
Fixpoint run (w : world) (l : list op) : res (world * list result) :=
  match l with
  | [] => Ok (w, [])
  | p :: l' => let* (w1, r) := step w p in let* (w2, rs) := run w1 l' in Ok (w2, r :: rs)
  end.

(** CCziWriter::WriteToOutputStream (CziWriter.cpp l.1078-1109), CCziReaderWriter::WriteToOutputStream (CziReaderWriter.cpp l.605-636): [false] is an exception *)
Definition write_all (w : world) (s : nat) (off : Z) (d : bytes) (o : io) : res (world * bool) :=
  let* (w1, r) := step w (Write s off d o) in
  Ok (w1, match r with RCount k => (k =? length d)%nat | _ => false end).
