(** How long the streams of the caller live: handles of the C API, the objects behind them, and the functions of external streams
    (Src/libCZIAPI/src/libCZIApi.cpp l.171-216, l.355-508, l.655-797, l.1546-1852, l.1854-1965; sharedptrwrapper.h l.38-60;
    CZIReader.cpp l.43-80, l.237-241; CziWriter.cpp l.907-956, l.1028-1058; SingleChannelAccessorBase.h l.18).
    Objects are held by std::shared_ptr, i.e. counted.  Every function of the C API which creates an object creates one handle for it, so
    the handle number i belongs to the object number i.  Not modelled: what is read and written (how often a function of the stream is
    called, and whether the whole succeeds, is part of the operation); streams for files; threads. *)
From Verif Require Import Base.
Open Scope nat_scope.

(** what an object holds *)
Inductive obj :=
| OIn                                (* InputStreamWrapper, l.659-706 *)
| OOut                               (* OutputStreamWrapper, l.708-757 *)
| OReader (stream : option nat)      (* CCZIReader::stream; None: not operational *)
| OAccessor (reader : nat)           (* CSingleChannelAccessorBase::sbBlkRepository *)
| OWriter (stream : option nat)      (* CCziWriter::stream *)
| OPlain.                            (* sub-blocks, bitmaps, metadata, attachments, ...: memory only *)
(** calls of the functions given with an external stream *)
Inductive event := EOpen (s : nat) | ECall (s : nat) | EClose (s : nat).
(** the counted objects, the handles (false: released), what happened *)
Record world := mkW { heap : list (nat * obj); hands : list bool; trace : list event }.
Definition empty : world := mkW [] [] [].

Fixpoint put {A} (l : list A) (i : nat) (x : A) : list A :=
  match l, i with [], _ => [] | _ :: l', O => x :: l' | a :: l', S i' => a :: put l' i' x end.
Definition field (o : obj) : option nat :=
  match o with OReader s => s | OAccessor r => Some r | OWriter s => s | _ => None end.
Definition is_stream (o : obj) : bool := match o with OIn | OOut => true | _ => false end.
(** std::shared_ptr: copying; an object which is gone must not be used *)
Definition take (w : world) (i : nat) : res world :=
  match nth_error (heap w) i with
  | Some (S c, o) => Ok (mkW (put (heap w) i (S (S c), o)) (hands w) (trace w))
  | _ => UB
  end.
(** std::shared_ptr: destruction; the last one destroys the object: streams call the close function (l.702-705, l.753-756), members are destroyed *)
Fixpoint drop (fuel : nat) (w : world) (i : nat) : res world :=
  match fuel with
  | O => OutOfFuel
  | S f =>
    match nth_error (heap w) i with
    | Some (S c, o) =>
      let w' := mkW (put (heap w) i (c, o)) (hands w) (trace w) in
      match c with
      | O => match field o with
             | Some j => drop f w' j
             | None => Ok (if is_stream o then mkW (heap w') (hands w') (trace w' ++ [EClose i]) else w')
             end
      | S _ => Ok w'
      end
    | _ => UB
    end
  end.
Definition look (w : world) (i : nat) : res obj := match nth_error (heap w) i with Some (S _, o) => Ok o | _ => UB end.
(** Read and Write of an external stream, l.670-700, l.721-751 *)
Definition calls (w : world) (s n : nat) : res world :=
  let* _ := look w s in Ok (mkW (heap w) (hands w) (trace w ++ repeat (ECall s) n)).
Definition new (w : world) (o : obj) : world :=
  mkW (heap w ++ [(1, o)]) (hands w ++ [true]) (trace w ++ (if is_stream o then [EOpen (List.length (heap w))] else [])).
Definition set_obj (w : world) (i : nat) (o : obj) : world :=
  match nth_error (heap w) i with Some (c, _) => mkW (put (heap w) i (c, o)) (hands w) (trace w) | None => w end.

Inductive code := COk | CInvalidHandle | CUnspecified.
(** SharedPtrWrapper<T>*: a handle which was released, or never handed out, must not be used *)
Definition behind (w : world) (h : nat) : res obj := match nth_error (hands w) h with Some true => look w h | _ => UB end.

(** the functions of the C API; [n]: how often the function of the stream is called; [ok]: whether the whole succeeds *)
Inductive op :=
| NewIn | NewOut | NewReader | NewWriter        (* libCZI_CreateInputStreamFromExternal, ...FromExternal, CreateReader, CreateWriter *)
| Open (r s n : nat) (ok : bool)                (* libCZI_ReaderOpen *)
| Ask (r n : nat) (ok : bool)                   (* libCZI_ReaderReadSubBlock, ReadAttachment, GetMetadataSegment *)
| MakeAccessor (r : nat)                        (* libCZI_CreateSingleChannelTileAccessor *)
| Get (a n : nat) (ok : bool)                   (* libCZI_SingleChannelTileAccessorGet *)
| Derive (h : nat)                              (* an object from an object in memory: libCZI_SubBlockCreateBitmap, ... *)
| Create (w s n : nat) (ok : bool)              (* libCZI_WriterCreate *)
| Write (w n : nat) (ok : bool)                 (* libCZI_WriterAddSubBlock, AddAttachment, WriteMetadata *)
| Close (w n : nat) (ok : bool)                 (* libCZI_WriterClose *)
| Release (h : nat).                            (* libCZI_Release... *)
Definition made (ok : bool) (w : world) : world * code := if ok then (new w OPlain, COk) else (w, CUnspecified).
Definition said (ok : bool) (w : world) : world * code := (w, if ok then COk else CUnspecified).
Definition step (w : world) (o : op) : res (world * code) :=
  match o with
  | NewIn => Ok (new w OIn, COk)
  | NewOut => Ok (new w OOut, COk)
  | NewReader => Ok (new w (OReader None), COk)
  | NewWriter => Ok (new w (OWriter None), COk)
  | Open r s n ok =>
    let* a := behind w r in let* b := behind w s in
    match a, b with
    | OReader (Some _), OIn => Ok (w, CUnspecified)
    | OReader None, OIn =>
      let* w1 := calls w s n in
      if ok then let* w2 := take w1 s in Ok (set_obj w2 r (OReader (Some s)), COk) else Ok (w1, CUnspecified)
    | _, _ => Ok (w, CInvalidHandle)
    end
  | Ask r n ok =>
    let* a := behind w r in
    match a with
    | OReader (Some s) => let* w1 := calls w s n in Ok (made ok w1)
    | OReader None => Ok (w, CUnspecified)
    | _ => Ok (w, CInvalidHandle)
    end
  | MakeAccessor r =>
    let* a := behind w r in
    match a with
    | OReader (Some _) => let* w1 := take w r in Ok (new w1 (OAccessor r), COk)
    | OReader None => Ok (w, CUnspecified)
    | _ => Ok (w, CInvalidHandle)
    end
  | Get x n ok =>
    let* a := behind w x in
    match a with
    | OAccessor r =>
      let* b := look w r in
      match b with
      | OReader (Some s) => let* w1 := calls w s n in Ok (made ok w1)
      | _ => Ok (w, CUnspecified)
      end
    | _ => Ok (w, CInvalidHandle)
    end
  | Derive h =>
    let* a := behind w h in
    match a with OPlain => Ok (new w OPlain, COk) | _ => Ok (w, CInvalidHandle) end
  | Create x s n ok =>
    let* a := behind w x in let* b := behind w s in
    match a, b with
    | OWriter (Some _), OOut => Ok (w, CUnspecified)
    | OWriter None, OOut =>
      (* the stream is stored before anything is written, CziWriter.cpp l.915 *)
      let* w1 := take w s in let* w2 := calls (set_obj w1 x (OWriter (Some s))) s n in Ok (said ok w2)
    | _, _ => Ok (w, CInvalidHandle)
    end
  | Write x n ok =>
    let* a := behind w x in
    match a with
    | OWriter (Some s) => let* w1 := calls w s n in Ok (said ok w1)
    | OWriter None => Ok (w, CUnspecified)
    | _ => Ok (w, CInvalidHandle)
    end
  | Close x n ok =>
    let* a := behind w x in
    match a with
    | OWriter (Some s) =>
      let* w1 := calls w s n in
      if ok then let* w2 := drop 3 (set_obj w1 x (OWriter None)) s in Ok (w2, COk) else Ok (w1, CUnspecified)
    | OWriter None => Ok (w, CUnspecified)
    | _ => Ok (w, CInvalidHandle)
    end
  | Release h =>
    let* _ := behind w h in
    let* w1 := drop 3 (mkW (heap w) (put (hands w) h false) (trace w)) h in Ok (w1, COk)
  end.
Fixpoint run (w : world) (os : list op) : res (world * list code) :=
  match os with
  | [] => Ok (w, [])
  | o :: os' => let* (w1, c) := step w o in let* (w2, cs) := run w1 os' in Ok (w2, c :: cs)
  end.
