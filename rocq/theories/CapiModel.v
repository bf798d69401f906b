(** Getting information and data with the C API (Src/libCZIAPI/src/libCZIApi.cpp, parameterhelpers.cpp): the
    structures filled in for the caller, the copying of data into the caller's memory and the handling of bitmaps.
    Checks of handles are in StreamModel; here all handles are valid. *)
From Verif Require Import Base RectModel CodecModel CodesModel WriterModel StatModel ReaderModel AddModel.
Open Scope Z_scope.

(** ** Coordinates and bounds *)

(** the loop of ConvertIDimCoordinateToCoordinateInterop (parameterhelpers.cpp l.580-597): the bits set and the values stored, in
    the order of the dimensions *)
Fixpoint interop_of {A} (c : list (option A)) (i : Z) : Z * list A :=
  match c with
  | [] => (0, [])
  | Some v :: c' => let '(m, vs) := interop_of c' (i + 1) in (Z.lor (2 ^ i) m, v :: vs)
  | None :: c' => interop_of c' (i + 1)
  end.
(** the arrays have nine elements and are zeroed first (l.582) *)
Definition nine (vs : list Z) : list Z := vs ++ repeat 0 (9 - length vs).
Definition to_interop (c : coord) : icoord := let '(m, vs) := interop_of c 0 in mkIC m (nine vs).
(** ConvertDimBounds (libCZIApi.cpp l.31-49); DimBoundsInterop, misc_types.h l.52-57 *)
Record ibounds := mkIB { ib_valid : Z; ib_start : list Z; ib_size : list Z }.
Definition bounds_interop (b : list (option (Z * Z))) : ibounds :=
  let '(m, vs) := interop_of b 0 in mkIB m (nine (map fst vs)) (nine (map snd vs)).

(** ** Information on sub-blocks: SubBlockInfoInterop *)
Record iinfo := mkII {
  ii_comp : Z; ii_pt : Z; ii_coord : icoord; ii_x : Z; ii_y : Z; ii_w : Z; ii_h : Z; ii_pw : Z; ii_ph : Z; ii_m : Z }.
(** the enumeration PixelType (libCZI_Pixels.h) as a number: the numbers in files, Invalid is 255 *)
Definition pixel_enum (p : pixel_type) : Z := match p with PixInvalid => 255 | _ => int_from_pixel_type p end.
(** Utils::IsValidMindex, libCZI_Utilities.h *)
Definition valid_m (m : Z) : bool := negb (m =? INT_MAX) && negb (m =? INT_MIN).
(** CopyFromSubBlockInfoToSubBlockInfoInterop (libCZIApi.cpp l.77-96); the extent is unsigned in SubBlockInfo and signed in the
    structure *)
Definition info_interop (r : rinfo) : iinfo :=
  mkII (ri_comp r) (pixel_enum (ri_pt r)) (to_interop (ri_coord r)) (rx (ri_rect r)) (ry (ri_rect r)) (rw (ri_rect r)) (rh (ri_rect r))
       (s32 (ri_pw r)) (s32 (ri_ph r)) (if valid_m (ri_m r) then ri_m r else INT_MIN).

(** ** Statistics *)
Record istats := mkIS { is_count : Z; is_minm : Z; is_maxm : Z; is_box : rect; is_box0 : rect; is_dims : ibounds;
                        is_scenes : list (Z * (rect * rect)) }.
(** the loop l.297-311, [i] is compared with the number of structures available *)
Fixpoint scenes_ex (avail i : Z) (l : list (Z * (rect * rect))) : list (Z * (rect * rect)) :=
  match l with [] => [] | s :: l' => if i <? avail then s :: scenes_ex avail (i + 1) l' else [] end.
(** libCZI_ReaderGetStatisticsEx (l.271-328): [avail] is what the last argument points to, if not null; the result is the structure
    and what is stored there *)
Definition stats_ex (avail : option Z) (s : stats) : istats * option Z :=
  let n := match avail with Some n => n | None => 0 end in
  (mkIS (st_count s) (st_minm s) (st_maxm s) (st_box s) (st_box0 s) (bounds_interop (st_dims s)) (scenes_ex n 0 (st_scenes s)),
   match avail with Some _ => Some (s32 (Z.of_nat (length (st_scenes s)))) | None => None end).

(** ** Copying strings *)

(** a byte 10xxxxxx *)
Definition is_cont (b : byte) : bool := (128 <=? b) && (b <? 192).
(** the loop of CopyUtf8StringTruncate (parameterhelpers.cpp l.339-343): std::string yields 0 at its end *)
Fixpoint back_off (s : bytes) (n : nat) : nat :=
  match n with O => O | S n' => if is_cont (nth n s 0) then back_off s n' else n end.
(** CopyUtf8StringTruncate (l.322-349): the bytes written at the start of the destination, of [size] bytes, and the value returned *)
Definition copy_truncate (s : bytes) (size : Z) : bytes * bool :=
  if size =? 0 then ([], negb (Z.of_nat (length s) =? 0))
  else if size =? 1 then ([0], negb (Z.of_nat (length s) =? 0))
  else
    let n := if Z.of_nat (length s) <? size - 1 then length s else Z.to_nat (size - 1) in
    let k := back_off s n in
    (firstn k s ++ [0], (Z.of_nat n <? Z.of_nat (length s)) || (k <? n)%nat).
(** AllocString (parameterhelpers.cpp l.110-122) *)
Definition alloc_string (s : bytes) : buf := match s with [] => None | _ => Some (s ++ [0]) end.
(** the name in AttachmentInfoInterop (libCZIApi.cpp l.57-66; attachment_info_interop.h l.20-22): the array of 255 bytes holds
    [junk] before *)
Definition overwrite (d : bytes) (junk : bytes) : bytes := d ++ skipn (length d) junk.
Definition name_interop (name junk : bytes) : bytes * bool * buf :=
  let '(w, o) := copy_truncate name 255 in (overwrite w junk, o, if o then alloc_string name else None).

(** ** Copying data *)

(** libCZI_SubBlockGetRawData (l.854-898) from the point where the data is known, and libCZI_AttachmentGetRawData (l.1437-1473):
    [size] is what the argument points to, [dest] the caller's memory (with [size] claimed, but of its true length); the result is the
    size stored and the memory afterwards.  Writing behind the memory is undefined. *)
Definition get_raw (data : bytes) (size : Z) (dest : buf) : res (Z * buf) :=
  let actual := Z.of_nat (length data) in
  match dest with
  | None => Ok (actual, None)
  | Some d => let n := Z.min size actual in
              if n <=? blen d then Ok (actual, Some (overwrite (firstn (Z.to_nat n) data) d)) else UB
  end.

(** libCZI_MetadataSegmentGetMetadataAsXml (l.1104-1145): the memory allocated and the size reported.  Without XML the pointer is null
    (CziParse.cpp l.675). *)
Definition metadata_xml (xml : bytes) : res (bytes * Z) :=
  match xml with
  | [] => Throw
  | _ => let n := Z.of_nat (length xml) in
         if last xml 0 =? 0 then Ok (removelast xml ++ [0], n) else Ok (xml ++ [0], n)
  end.

(** libCZI_CziDocumentInfoGetAvailableDimension (l.1243-1277); [dest]: the caller's array of [count] elements *)
Definition available_dims (dims : list Z) (count : Z) (dest : list Z) : res (list Z) :=
  if count <? Z.of_nat (length dims) + 1 then Throw
  else Ok (overwrite (dims ++ [0]) dest).

(** ** Bitmaps *)

(** libCZI_BitmapCopyTo (l.1063-1101): a bitmap has an extent, a pixel type, a stride and pixels; [d] is the destination *)
Record ibitmap := mkBm { bm_w : Z; bm_h : Z; bm_pt : pixel_type; bm_stride : Z; bm_mem : Z -> byte }.
Definition copy_row (src : Z -> byte) (soff : Z) (d : Z -> byte) (off len : Z) : Z -> byte :=
  fun a => if (off <=? a) && (a <? off + len) then src (soff + (a - off)) else d a.
Fixpoint copy_rows (n : nat) (y : Z) (b : ibitmap) (stride len : Z) (d : Z -> byte) : Z -> byte :=
  match n with
  | O => d
  | S n' => copy_rows n' (y + 1) b stride len (copy_row (bm_mem b) (y * bm_stride b) d (y * stride) len)
  end.
Definition bitmap_copy_to (b : ibitmap) (w h pt stride : Z) (d : Z -> byte) : res (Z -> byte) :=
  if negb (w =? bm_w b) || negb (h =? bm_h b) then Throw
  else if negb (pixel_enum (bm_pt b) =? pt) then Throw
  else
    let* bpp := bytes_per_pel (bm_pt b) in
    let len := bpp * w in
    if stride <? len then Throw
    else Ok (copy_rows (Z.to_nat h) 0 b stride len d).

(** Lock, Unlock and Release of a handle (l.986-1061).  The handle holds the only reference, so Release looks at the lock count; the
    bitmap (bitmapData.h l.39-72) is gone after a Release which succeeded. *)
Inductive bop := BLock | BUnlock | BCopy | BRelease.
Inductive banswer := BOk | BViolated | BGone.
Definition bstep (s : option Z) (o : bop) : option Z * banswer :=
  match s with
  | None => (None, BGone)
  | Some n =>
    match o with
    | BLock => (Some (n + 1), BOk)
    | BUnlock => if 1 <=? n then (Some (n - 1), BOk) else (Some n, BViolated)
    | BCopy => (Some n, BOk)
    | BRelease => if n =? 0 then (None, BOk) else (Some n, BViolated)
    end
  end.
Fixpoint brun (s : option Z) (ops : list bop) : option Z * list banswer :=
  match ops with
  | [] => (s, [])
  | o :: ops' => let '(s1, a) := bstep s o in let '(s2, l) := brun s1 ops' in (s2, a :: l)
  end.
