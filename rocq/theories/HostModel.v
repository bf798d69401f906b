(** Hosts of either byte order: conversion of the structures in a file (Src/libCZI/CziStructs.h l.20-262, CziStructs.cpp l.11-200,
    utilities.cpp l.269-376), where they are read (CziParse.cpp l.25-53, l.489-519, l.252-388) and written (CziWriter.cpp l.155, l.176, l.218, l.688,
    l.1133; CziReaderWriter.cpp l.338-355, l.430-475), and of pixels (CreateBitmap.cpp l.101-172, BitmapOperations.cpp l.18-60, l.378-424,
    utilities.cpp l.543-577).
    The memory of a structure is a list of bytes; a host reads and writes integers in its own order.  Not modelled: alignment;
    the variant with <endian.h> (le16toh, le32toh, le64toh reverse the bytes on such a host); padding at the ends of lines. *)
From Coq Require Import String.
From Verif Require Import Base.
Open Scope Z_scope.

Inductive host := Little | Big.
Definition load (h : host) (bs : bytes) : Z := match h with Little => unle bs | Big => unle (rev bs) end.
Definition store (h : host) (n : nat) (v : Z) : bytes := match h with Little => le n v | Big => rev (le n v) end.

(** ** Utilities::ConvertInt16/32/64ToHostByteOrder, utilities.cpp l.269-366, on hosts with LIBCZI_ISBIGENDIANHOST *)
Definition swap16 (v : Z) : Z := Z.lor (Z.shiftl (Z.land v 0xff) 8) (Z.shiftr (Z.land v 0xff00) 8).
Definition swap32 (v : Z) : Z :=
  Z.lor (Z.lor (Z.lor (Z.shiftr (Z.land v 0xff000000) 24) (Z.shiftr (Z.land v 0x00ff0000) 8)) (Z.shiftl (Z.land v 0x0000ff00) 8)) (Z.shiftl (Z.land v 0x000000ff) 24).
Definition swap64 (v : Z) : Z :=
  Z.lor (Z.lor (Z.lor (Z.lor (Z.lor (Z.lor (Z.lor (Z.shiftr (Z.land v 0xff00000000000000) 56)
    (Z.shiftr (Z.land v 0x00ff000000000000) 40))
    (Z.shiftr (Z.land v 0x0000ff0000000000) 24))
    (Z.shiftr (Z.land v 0x000000ff00000000) 8))
    (Z.shiftl (Z.land v 0x00000000ff000000) 8))
    (Z.shiftl (Z.land v 0x0000000000ff0000) 24))
    (Z.shiftl (Z.land v 0x000000000000ff00) 40))
    (Z.shiftl (Z.land v 0x00000000000000ff) 56).
Definition swap (n : nat) (v : Z) : Z := match n with 2%nat => swap16 v | 4%nat => swap32 v | _ => swap64 v end.
(** the integer at some place in memory, replaced; compiled to nothing on other hosts *)
Definition convert_int (h : host) (bs : bytes) : bytes :=
  match h with Little => bs | Big => store Big (List.length bs) (swap (List.length bs) (load Big bs)) end.

(** ** Structures, CziStructs.h (#pragma pack 2: no padding) *)
Inductive piece := Chars (n : nat) | Int (n : nat) | Real.
Definition layout : Type := list (string * piece).
Definition psize (p : piece) : nat := match p with Chars n => n | Int n => n | Real => 4 end.
Fixpoint size (l : layout) : nat := match l with [] => O | (_, p) :: l' => (psize p + size l')%nat end.
Fixpoint place (l : layout) (nm : string) : option (nat * nat) :=
  match l with
  | [] => None
  | (x, p) :: l' => if String.eqb x nm then Some (O, psize p) else option_map (fun '(o, n) => ((psize p + o)%nat, n)) (place l' nm)
  end.
Local Open Scope string_scope.
Definition guid (p : string) : layout := [(p ++ ".1", Int 4); (p ++ ".2", Int 2); (p ++ ".3", Int 2); (p ++ ".4", Chars 8)].
(** l.59-64 *)
Definition segment_header : layout := [("Id", Chars 16); ("AllocatedSize", Int 8); ("UsedSize", Int 8)].
(** l.99-113 *)
Definition file_header_data : layout :=
  ([("Major", Int 4); ("Minor", Int 4); ("_Reserved1", Int 4); ("_Reserved2", Int 4)] ++ guid "PrimaryFileGuid" ++ guid "FileGuid" ++
   [("FilePart", Int 4); ("SubBlockDirectoryPosition", Int 8); ("MetadataPosition", Int 8); ("updatePending", Int 4);
    ("AttachmentDirectoryPosition", Int 8); ("_spare", Chars 432)])%list.
(** l.117-150 *)
Definition entry_de : layout :=
  [("SchemaType", Chars 2); ("PixelType", Int 4); ("SizeXStored", Int 4); ("SizeYStored", Int 4); ("_pad", Chars 2);
   ("StartX", Int 4); ("SizeX", Int 4); ("StartY", Int 4); ("SizeY", Int 4); ("StartC", Int 4); ("SizeC", Int 4); ("StartZ", Int 4); ("SizeZ", Int 4);
   ("StartT", Int 4); ("SizeT", Int 4); ("StartS", Int 4); ("StartR", Int 4); ("StartI", Int 4); ("StartB", Int 4); ("Compression", Int 4);
   ("StartM", Int 4); ("FilePosition", Int 8); ("FilePart", Int 4); ("DimensionOrder", Chars 16);
   ("StartH", Int 4); ("Start10", Int 4); ("Start11", Int 4); ("Start12", Int 4); ("Start13", Int 4)].
(** l.21-28, l.153-155 *)
Definition dimension_entry : layout :=
  [("Dimension", Chars 4); ("Start", Int 4); ("Size", Int 4); ("StartCoordinate", Real); ("StoredSize", Int 4)].
(** l.157-177, without the dimension entries *)
Definition entry_dv : layout :=
  [("SchemaType", Chars 2); ("PixelType", Int 4); ("FilePosition", Int 8); ("FilePart", Int 4); ("Compression", Int 4); ("_spare", Chars 6); ("DimensionCount", Int 4)].
(** l.190-199 *)
Definition attachment_entry : layout :=
  ([("SchemaType", Chars 2); ("_spare", Chars 10); ("FilePosition", Int 8); ("FilePart", Int 4)] ++ guid "ContentGuid" ++ [("ContentFileType", Chars 8); ("Name", Chars 80)])%list.
(** l.201-211, l.282-287 *)
Definition attachment_segment : layout :=
  (segment_header ++ [("DataSize", Int 8); ("_spare0", Chars 8)] ++ attachment_entry ++ [("_spare2", Chars 112)])%list.
(** l.213-217, l.180-184, l.241-246, each with the header (l.254-293) *)
Definition attachment_directory_segment : layout := (segment_header ++ [("EntryCount", Int 4); ("_spare", Chars 252)])%list.
Definition subblock_directory_segment : layout := (segment_header ++ [("EntryCount", Int 4); ("_spare", Chars 124)])%list.
Definition metadata_segment : layout := (segment_header ++ [("XmlSize", Int 4); ("AttachmentSize", Int 4); ("_spare", Chars 248)])%list.
(** l.224-238, l.254-259, without the union *)
Definition subblock_segment : layout := (segment_header ++ [("MetadataSize", Int 4); ("AttachmentSize", Int 4); ("DataSize", Int 8)])%list.
Definition file_header_segment : layout := (segment_header ++ file_header_data)%list.

(** ** ConvertToHostByteOrder::Convert, CziStructs.cpp l.11-166: the members which are converted *)
(** Utilities::ConvertGuidToHostByteOrder, utilities.cpp l.368-376 *)
Definition guid_members (p : string) : list string := [p ++ ".1"; p ++ ".2"; p ++ ".3"].
Definition m_header : list string := ["AllocatedSize"; "UsedSize"].
Definition m_file_header_data : list string :=
  (["Major"; "Minor"; "_Reserved1"; "_Reserved2"] ++ guid_members "PrimaryFileGuid" ++ guid_members "FileGuid" ++
   ["FilePart"; "SubBlockDirectoryPosition"; "MetadataPosition"; "updatePending"; "AttachmentDirectoryPosition"])%list.
Definition m_attachment_entry : list string := (["FilePosition"; "FilePart"] ++ guid_members "ContentGuid")%list.
Definition m_entry_dv : list string := ["PixelType"; "FilePosition"; "FilePart"; "Compression"; "DimensionCount"].
(** StartCoordinate is left as it is (TODO in l.70) *)
Definition m_dimension : list string := ["Start"; "Size"; "StoredSize"].
Definition m_entry_de : list string :=
  ["PixelType"; "SizeXStored"; "SizeYStored"; "StartX"; "SizeX"; "StartY"; "SizeY"; "StartC"; "SizeC"; "StartZ"; "SizeZ"; "StartT"; "SizeT";
   "StartS"; "StartR"; "StartI"; "StartB"; "Compression"; "StartM"; "FilePosition"; "FilePart"; "StartH"; "Start10"; "Start11"; "Start12"; "Start13"].
Definition m_file_header_segment : list string := (m_header ++ m_file_header_data)%list.
Definition m_attachment_segment : list string := (m_header ++ ["DataSize"; "FilePosition"; "FilePart"] ++ guid_members "ContentGuid")%list.
Definition m_attachment_directory : list string := (m_header ++ ["EntryCount"])%list.
Definition m_subblock_directory : list string := (m_header ++ ["EntryCount"])%list.
Definition m_metadata : list string := (m_header ++ ["XmlSize"; "AttachmentSize"])%list.
Definition m_subblock : list string := (m_header ++ ["MetadataSize"; "AttachmentSize"; "DataSize"])%list.
Local Close Scope string_scope.

(** bytes [off, off+n) of the memory; replaced *)
Definition part (mem : bytes) (off n : nat) : bytes := firstn n (skipn off mem).
Definition patch (mem : bytes) (off n : nat) (f : bytes -> bytes) : bytes := firstn off mem ++ f (part mem off n) ++ skipn (off + n) mem.
(** a structure which lies at [pos] *)
Definition convert_member (h : host) (pos : nat) (l : layout) (mem : bytes) (nm : string) : bytes :=
  match place l nm with Some (o, n) => patch mem (pos + o) n (convert_int h) | None => mem end.
Definition convert (h : host) (pos : nat) (l : layout) (ms : list string) (mem : bytes) : bytes := fold_left (convert_member h pos l) ms mem.
(** the value of a member *)
Definition member (h : host) (pos : nat) (l : layout) (mem : bytes) (nm : string) : Z :=
  match place l nm with Some (o, n) => load h (part mem (pos + o) n) | None => 0 end.
Definition chars (pos : nat) (l : layout) (mem : bytes) (nm : string) : bytes :=
  match place l nm with Some (o, n) => part mem (pos + o) n | None => [] end.

(** Convert(DimensionEntryDV*, int), l.60-73 *)
Fixpoint convert_dims (h : host) (pos cnt : nat) (mem : bytes) : bytes :=
  match cnt with O => mem | S c => convert_dims h (pos + 20) c (convert h pos dimension_entry m_dimension mem) end.
(** ConvertAndAllSubBlkEntries, l.168-181; the number is read before anything is converted *)
Definition convert_subblock (h : host) (mem : bytes) : bytes :=
  match h with
  | Little => mem
  | Big =>
    let cnt := Z.to_nat (member h 48 entry_dv mem "DimensionCount") in
    let mem1 := convert h 0 subblock_segment m_subblock mem in
    if match chars 48 entry_dv mem1 "SchemaType" with [d; v] => (d =? 68) && (v =? 86) | _ => false end
    then convert_dims h 80 cnt (convert h 48 entry_dv m_entry_dv mem1)
    else mem1
  end.
(** ConvertAndAllSubBlkDirEntries, l.183-202 *)
Fixpoint convert_entries (h : host) (pos cnt : nat) (mem : bytes) : bytes :=
  match cnt with
  | O => mem
  | S c =>
    let dims := Z.to_nat (member h pos entry_dv mem "DimensionCount") in
    convert_entries h (pos + 32 + dims * 20) c (convert_dims h (pos + 32) dims (convert h pos entry_dv m_entry_dv mem))
  end.
Definition convert_directory (h : host) (mem : bytes) : bytes :=
  match h with
  | Little => mem
  | Big =>
    let cnt := Z.to_nat (member h 0 subblock_directory_segment mem "EntryCount") in
    convert_entries h 160 cnt (convert h 0 subblock_directory_segment m_subblock_directory mem)
  end.

(** ** Reading *)
(** what is taken from an entry: pixel type, file position, compression, first spare byte, and of each dimension its name, start, size, stored size *)
Definition dim_info : Type := (bytes * Z * Z * Z)%type.
Definition entry_info : Type := (Z * Z * Z * bytes * list dim_info)%type.
Definition dim_of (h : host) (pos : nat) (mem : bytes) : dim_info :=
  (chars pos dimension_entry mem "Dimension", s32 (member h pos dimension_entry mem "Start"), s32 (member h pos dimension_entry mem "Size"),
   s32 (member h pos dimension_entry mem "StoredSize")).
Fixpoint dims_of (h : host) (pos cnt : nat) (mem : bytes) : list dim_info :=
  match cnt with O => [] | S c => dim_of h pos mem :: dims_of h (pos + 20) c mem end.
(** CCZIParse::ParseThroughDirectoryEntries, CziParse.cpp l.489-519, on the bytes which were read; entries of the schema DE are refused
    (l.521-528); more than forty dimensions run over the structure, a negative number is not followed *)
Fixpoint parse_entries (h : host) (cnt : nat) (bs : bytes) : res (list entry_info) :=
  match cnt with
  | O => Ok []
  | S c =>
    match bs with
    | d :: v :: r =>
      if (d =? 68) && (v =? 86) then
        if (List.length r <? 30)%nat then Throw else
        let dv := convert h 0 entry_dv m_entry_dv (firstn 32 bs) in
        let n := s32 (member h 0 entry_dv dv "DimensionCount") in
        if (n <? 0) || (40 <? n) then (if (0 <? n) && (Z.of_nat (List.length r) - 30 <? n * 20) then Throw else UB) else
        let k := Z.to_nat n in
        if (List.length r - 30 <? k * 20)%nat then Throw else
        let ds := convert_dims h 0 k (part bs 32 (k * 20)) in
        let e := (s32 (member h 0 entry_dv dv "PixelType"), s64 (member h 0 entry_dv dv "FilePosition"), s32 (member h 0 entry_dv dv "Compression"),
                  firstn 1 (chars 0 entry_dv dv "_spare"), dims_of h 0 k ds) in
        let* es := parse_entries h c (skipn (32 + k * 20) bs) in Ok (e :: es)
      else if (d =? 68) && (v =? 69) then Throw
      else parse_entries h c r
    | _ => Throw
    end
  end.
(** a structure which was read, then converted; the member [nm] *)
Definition read_member (h : host) (l : layout) (ms : list string) (nm : string) (file : bytes) : Z := member h 0 l (convert h 0 l ms file) nm.
(** pixel type and compression of a sub-block, CCZIParse::ReadSubBlock l.274-287 and l.353-357: the entry of the schema DE is not converted *)
Definition subblock_types (h : host) (file : bytes) : option (Z * Z) :=
  let mem := convert h 0 subblock_segment m_subblock file in
  match chars 48 entry_dv mem "SchemaType" with
  | [d; v] =>
    if (d =? 68) && (v =? 86) then
      let mem' := convert h 48 entry_dv m_entry_dv mem in
      Some (member h 48 entry_dv mem' "PixelType", member h 48 entry_dv mem' "Compression")
    else if (d =? 68) && (v =? 69) then Some (member h 48 entry_de mem "PixelType", member h 48 entry_de mem "Compression")
    else None
  | _ => None
  end.

(** ** The GUID of a document which is edited *)
Definition guid_memory : layout := guid "FileGuid".
Definition convert_guid (h : host) (g : bytes) : bytes := convert h 0 guid_memory (guid_members "FileGuid") g.
(** CCziReaderWriter::ReadCziStructure, CziReaderWriter.cpp l.430-457: written for a new document, and what is remembered (fhs.data, after
    the conversion); l.462-475: the same for a forced GUID *)
Definition rw_create (h : host) (g : bytes) : bytes * bytes := let c := convert_guid h g in (c, c).
(** CCziReaderWriter::UpdateFileHeader, l.338-355: written in the end *)
Definition rw_close (h : host) (remembered : bytes) : bytes := convert_guid h remembered.

(** ** Pixels of sixteen bits *)
(** CBitmapOperations::CopyConvertBigEndian, BitmapOperations.cpp l.391-424, one line *)
Fixpoint convert_line (line : bytes) : bytes :=
  match line with
  | a :: b :: r => let v := load Big [a; b] in store Big 2 (Z.lor (Z.shiftl v 8 mod 65536) (Z.shiftr v 8 mod 65536)) ++ convert_line r
  | _ => []
  end.
Inductive pixel := Gray8 | Gray16 | Gray32Float | Bgr24 | Bgr48 | Bgra32.
Definition agnostic (p : pixel) : bool := match p with Gray8 | Bgr24 | Bgra32 => true | _ => false end.
(** CreateBitmapFromSubBlock_Uncompressed, CreateBitmap.cpp l.101-172: the memory of the bitmap *)
Definition read_uncompressed (h : host) (p : pixel) (data : bytes) : res bytes :=
  match h with
  | Little => Ok data
  | Big => if agnostic p then Ok data else match p with Gray16 | Bgr48 => Ok (convert_line data) | _ => Throw end
  end.
(** CZstd0Decoder, decoder_zstd.cpp l.205-270: decompressed into the bitmap *)
Definition read_zstd0 (h : host) (p : pixel) (decompressed : bytes) : res bytes := Ok decompressed.
(** LoHiBytePackStrided_C, utilities.cpp l.561-577 *)
Fixpoint pack_words (h : host) (lo hi : bytes) : bytes :=
  match lo, hi with a :: lo', b :: hi' => store h 2 (Z.lor a (Z.shiftl b 8)) ++ pack_words h lo' hi' | _, _ => [] end.
Definition read_packed (h : host) (decompressed : bytes) : bytes :=
  let k := (List.length decompressed / 2)%nat in pack_words h (firstn k decompressed) (skipn k decompressed).
(** LoHiByteUnpackStrided_C, l.543-559 *)
Fixpoint words (h : host) (mem : bytes) : list Z := match mem with a :: b :: r => load h [a; b] :: words h r | _ => [] end.
Definition write_packed (h : host) (mem : bytes) : bytes := map (fun v => v mod 256) (words h mem) ++ map (fun v => Z.shiftr v 8 mod 256) (words h mem).
(** ICziWriter::SyncAddSubBlock for bitmaps, CziWriter.cpp l.56-90, l.93-125: the memory is written *)
Definition write_uncompressed (h : host) (mem : bytes) : bytes := mem.
(** CBitmapOperations::CalcMd5Sum, BitmapOperations.cpp l.18-60: what is hashed *)
Definition hashed (h : host) (p : pixel) (mem : bytes) : res bytes :=
  match h with
  | Little => Ok mem
  | Big => if agnostic p then Ok mem else match p with Gray16 | Bgr48 => Ok (convert_line mem) | _ => Throw end
  end.
