(** On-disk codec: directory entries, segment headers, sub-block segments and
    the reader functions of Src/libCZI/CziParse.cpp.
    Host is little-endian, so ConvertToHostByteOrder is the identity and is
    left out.  Memory allocation always succeeds.  *)
From Verif Require Import Base.

(** ** Streams *)

(** A readable stream: contents and length.  [strict] distinguishes the
    in-memory stream, which throws when the offset is at or behind the end
    (StreamImpl.cpp l.141-163), from the file streams, which report a short
    read instead (pread, StreamImpl.cpp l.60-139). *)
Record file := mkFile { f_mem : mem; f_size : Z }.

(** Number of bytes IStream::Read delivers; [None]: it throws. *)
Definition avail (strict : bool) (f : file) (off n : Z) : option Z :=
  if f_size f <=? off then (if strict then None else Some 0)
  else Some (Z.min n (f_size f - off)).

(** The idiom "Read n bytes into a buffer of [cap] bytes, throw if bytesRead
    differs from n" used by all functions of CziParse.cpp. *)
Definition read_into (strict : bool) (f : file) (off n cap : Z) : res bytes :=
  match avail strict f off n with
  | None => Throw
  | Some k => if cap <? k then UB
              else if k =? n then Ok (mread (f_mem f) off (Z.to_nat n)) else Throw
  end.
Definition read_exact (strict : bool) (f : file) (off n : Z) : res bytes :=
  read_into strict f off n n.

(** The same idiom where the comparison is made after
    static_cast<int32_t>(bytesRead) (CziParse.cpp l.395, l.411, l.427, l.481,
    l.687, l.704). *)
Definition read_cast32 (strict : bool) (f : file) (off n : Z) : res bytes :=
  match avail strict f off n with
  | None => Throw
  | Some k => if s32 k =? n then Ok (mread (f_mem f) off (Z.to_nat n)) else Throw
  end.

(** ** Directory entries *)

(** CDimCoordinate (libCZI_DimCoordinate.h l.148-): nine optional values, in
    the order of DimensionIndex Z,C,T,R,S,I,H,V,B. *)
Definition coord := list (option Z).
Definition no_coord : coord := repeat None 9.

(** CCziSubBlockDirectoryBase::SubBlkEntry (CziSubBlockDirectory.h l.23-51). *)
Record sbe := mkSbe {
  e_coord : coord; e_m : Z;
  e_x : Z; e_y : Z; e_w : Z; e_h : Z; e_sw : Z; e_sh : Z;
  e_pt : Z; e_pos : Z; e_comp : Z; e_pyr : Z }.

(** SubBlkEntry::IsMIndexValid (CziSubBlockDirectory.h l.37-40). *)
Definition m_valid (e : sbe) : bool := negb (e_m e =? INT_MIN).

(** DimensionEntry (CziStructs.h, 20 bytes); the float StartCoordinate is
    written as zero and never read. *)
Record dimentry := mkDE { d_char : Z; d_start : Z; d_size : Z; d_stored : Z }.

(** Utils::DimensionToChar (libCZI_Utilities.cpp l.133-154), by index. *)
Definition dim_chars : list Z := [90; 67; 84; 82; 83; 73; 72; 86; 66].

(** The EnumValidDimensions loops of FillSubBlockDirectoryEntryDV
    (CziWriter.cpp l.311-321 and l.374-384). *)
Fixpoint coord_dims (cs : list Z) (c : coord) : list dimentry :=
  match cs, c with
  | ch :: cs', Some v :: c' => mkDE ch v 1 1 :: coord_dims cs' c'
  | _ :: cs', None :: c' => coord_dims cs' c'
  | _, _ => []
  end.

(** Dimension entries of a directory entry: X, Y, [M], coordinate
    (CziWriter.cpp l.348-384; identical l.285-321 with the M flag of
    AddSubBlockInfo). *)
Definition dims_of (e : sbe) (mv : bool) : list dimentry :=
  [mkDE 88 (e_x e) (e_w e) (e_sw e); mkDE 89 (e_y e) (e_h e) (e_sh e)]
  ++ (if mv then [mkDE 77 (e_m e) 1 1] else [])
  ++ coord_dims dim_chars (e_coord e).

Definition enc_dim (d : dimentry) : bytes :=
  [d_char d; 0; 0; 0] ++ le 4 (d_start d) ++ le 4 (d_size d) ++ le 4 0 ++ le 4 (d_stored d).

(** SubBlockDirectoryEntryDV (CziStructs.h): 32 bytes plus 20 per dimension. *)
Definition enc_dv (e : sbe) (dims : list dimentry) : bytes :=
  [68; 86] ++ le 4 (e_pt e) ++ le 8 (e_pos e) ++ le 4 0 ++ le 4 (e_comp e)
  ++ [e_pyr e; 0; 0; 0; 0; 0] ++ le 4 (Z.of_nat (length dims))
  ++ flat_map enc_dim dims.

(** CWriterUtils::FillSubBlockDirectoryEntryDV (CziWriter.cpp l.336-387). *)
Definition enc_entry (e : sbe) : bytes := enc_dv e (dims_of e (m_valid e)).

(** ** Parsing *)

(** CCZIParse::ToUpperCase (CziParse.cpp l.719-727). *)
Definition to_upper (c : Z) : Z := if (97 <=? c) && (c <=? 122) then c - 32 else c.

(** CCZIParse::DimensionCharToDimensionIndex (l.729-767); std::lower_bound on
    the sorted table is a lookup. *)
Definition dim_index (c : Z) : option nat :=
  let c := to_upper c in
  if c =? 90 then Some 0%nat else if c =? 67 then Some 1%nat else if c =? 84 then Some 2%nat
  else if c =? 82 then Some 3%nat else if c =? 83 then Some 4%nat else if c =? 73 then Some 5%nat
  else if c =? 72 then Some 6%nat else if c =? 86 then Some 7%nat else if c =? 66 then Some 8%nat
  else None.

Definition dec_dim (bs : bytes) : dimentry :=
  mkDE (nth 0 bs 0) (s32 (unle (slice bs 4 4))) (s32 (unle (slice bs 8 4))) (s32 (unle (slice bs 16 4))).

Fixpoint dec_dims (n : nat) (bs : bytes) : list dimentry :=
  match n with
  | O => []
  | S n' => dec_dim (firstn 20 bs) :: dec_dims n' (skipn 20 bs)
  end.

(** SubblockDirectoryParseOptions (CziParse.h l.36-125). *)
Record popts := mkPopts {
  o_xy : bool;          (* DimensionXyMustBePresent *)
  o_size1 : bool;       (* DimensionOtherThanMMustHaveSizeOne *)
  o_phys1 : bool;       (* PhysicalDimensionOtherThanMMustHaveSizeOne *)
  o_m1_nonpyr : bool;   (* DimensionMMustHaveSizeOneExceptForPyramidSubblocks *)
  o_m1 : bool }.        (* DimensionMMustHaveSizeOne *)

Definition popts_lax : popts := mkPopts false false false false false.

(** Local variables of AddEntryToSubBlockDirectory. *)
Record pacc := mkPacc { a_e : sbe; a_xg : bool; a_yg : bool; a_mbad : bool }.

(** SubBlkEntry::Invalidate (CziSubBlockDirectory.h l.46-50); the coordinate
    is default-constructed, i.e. empty. *)
Definition entry0 : sbe :=
  mkSbe no_coord INT_MIN INT_MIN INT_MIN INT_MIN INT_MIN INT_MIN INT_MIN 0 0 0 0.

(** One iteration of the loop in AddEntryToSubBlockDirectory
    (CziParse.cpp l.537-603). *)
Definition add_dim (o : popts) (a : pacc) (d : dimentry) : res pacc :=
  let e := a_e a in
  let c := to_upper (d_char d) in
  if c =? 88 then
    Ok (mkPacc (mkSbe (e_coord e) (e_m e) (d_start d) (e_y e) (d_size d) (e_h e) (d_stored d) (e_sh e)
                      (e_pt e) (e_pos e) (e_comp e) (e_pyr e)) true (a_yg a) (a_mbad a))
  else if c =? 89 then
    Ok (mkPacc (mkSbe (e_coord e) (e_m e) (e_x e) (d_start d) (e_w e) (d_size d) (e_sw e) (d_stored d)
                      (e_pt e) (e_pos e) (e_comp e) (e_pyr e)) (a_xg a) true (a_mbad a))
  else if c =? 77 then
    let e' := mkSbe (e_coord e) (d_start d) (e_x e) (e_y e) (e_w e) (e_h e) (e_sw e) (e_sh e)
                    (e_pt e) (e_pos e) (e_comp e) (e_pyr e) in
    if negb (d_size d =? 1) then
      (if o_m1 o then Throw else Ok (mkPacc e' (a_xg a) (a_yg a) true))
    else Ok (mkPacc e' (a_xg a) (a_yg a) (a_mbad a))
  else
    match dim_index (d_char d) with
    | None => Throw
    | Some i =>
        if o_phys1 o && negb (d_stored d =? 1) then Throw
        else if o_size1 o && negb (d_size d =? 1) then Throw
        else Ok (mkPacc (mkSbe (upd (e_coord e) i (Some (d_start d))) (e_m e) (e_x e) (e_y e) (e_w e) (e_h e)
                               (e_sw e) (e_sh e) (e_pt e) (e_pos e) (e_comp e) (e_pyr e))
                        (a_xg a) (a_yg a) (a_mbad a))
    end.

Fixpoint add_dims (o : popts) (a : pacc) (ds : list dimentry) : res pacc :=
  match ds with
  | [] => Ok a
  | d :: ds' => let* a' := add_dim o a d in add_dims o a' ds'
  end.

(** AddEntryToSubBlockDirectory (CziParse.cpp l.527-646). *)
Definition add_entry (o : popts) (pt pos comp pyr : Z) (ds : list dimentry) : res sbe :=
  let* a := add_dims o (mkPacc entry0 false false false) ds in
  let e := a_e a in
  if o_xy o && (negb (a_xg a) || negb (a_yg a)) then Throw
  else if a_mbad a && o_m1_nonpyr o && ((e_w e =? e_sw e) && (e_h e =? e_sh e)) then Throw
  else Ok (mkSbe (e_coord e) (e_m e) (e_x e) (e_y e) (e_w e) (e_h e) (e_sw e) (e_sh e) pt pos comp pyr).

(** The funcRead lambda of ReadSubBlockDirectory (CziParse.cpp l.129-140): the
    int byte count is converted to uint64_t in the bounds check and to size_t
    in memcpy; [cap] is the room left in the destination. *)
Definition fread (payload : bytes) (off n cap : Z) : res (bytes * Z) :=
  if u64 (off + n) <=? Z.of_nat (length payload) then
    if (n <? 0) || (cap <? n) then UB
    else Ok (slice payload (Z.to_nat off) (Z.to_nat n), off + n)
  else Throw.

Definition MAXDIMENSIONS : Z := 40.

(** ParseThroughDirectoryEntries (CziParse.cpp l.491-517) together with the
    entry handler.  The "DE" branch reads 128 bytes and then throws. *)
Fixpoint parse_entries (o : popts) (n : nat) (payload : bytes) (off : Z) : res (list sbe) :=
  match n with
  | O => Ok []
  | S n' =>
      let* (schema, off1) := fread payload off 2 2 in
      if (nth 0 schema 0 =? 68) && (nth 1 schema 0 =? 86) then
        let* (h, off2) := fread payload off1 30 30 in
        let dc := s32 (unle (slice h 26 4)) in
        let* (dbytes, off3) := fread payload off2 (s32 (20 * dc)) (20 * MAXDIMENSIONS) in
        (* the loop over DimensionCount reads that many entries of the buffer *)
        if Z.of_nat (length dbytes) <? 20 * dc then UB
        else
          let* e := add_entry o (s32 (unle (slice h 0 4))) (unle (slice h 4 8)) (s32 (unle (slice h 16 4)))
                              (nth 20 h 0) (dec_dims (Z.to_nat dc) dbytes) in
          let* es := parse_entries o n' payload off3 in
          Ok (e :: es)
      else if (nth 0 schema 0 =? 68) && (nth 1 schema 0 =? 69) then
        let* _ := fread payload off1 128 128 in Throw
      else parse_entries o n' payload off1
  end.

(** ** Segments *)

(** Segment magics (CziParse.cpp l.17-23). *)
Definition MAGIC_FILE : bytes := [90;73;83;82;65;87;70;73;76;69;0;0;0;0;0;0].
Definition MAGIC_DIR : bytes := [90;73;83;82;65;87;68;73;82;69;67;84;79;82;89;0].
Definition MAGIC_SB : bytes := [90;73;83;82;65;87;83;85;66;66;76;79;67;75;0;0].
Definition MAGIC_META : bytes := [90;73;83;82;65;87;77;69;84;65;68;65;84;65;0;0].
Definition MAGIC_ATTDIR : bytes := [90;73;83;82;65;87;65;84;84;68;73;82;0;0;0;0].
Definition MAGIC_ATT : bytes := [90;73;83;82;65;87;65;84;84;65;67;72;0;0;0;0].
Definition MAGIC_DELETED : bytes := [68;69;76;69;84;69;68;0;0;0;0;0;0;0;0;0].

Definition eqbytes (a b : bytes) : bool := if list_eq_dec Z.eq_dec a b then true else false.

(** SegmentHeader (CziStructs.h): Id[16], AllocatedSize, UsedSize. *)
Definition seg_header (magic : bytes) (alloc used : Z) : bytes := magic ++ le 8 alloc ++ le 8 used.

(** CCZIParse::ReadFileHeaderSegment (CziParse.cpp l.25-51): positions of
    sub-block directory, metadata and attachment directory. *)
Record fheader := mkFh { fh_guid : bytes; fh_dir : Z; fh_meta : Z; fh_att : Z }.
Definition read_file_header (strict : bool) (f : file) : res fheader :=
  let* h := read_exact strict f 0 544 in
  if eqbytes (slice h 0 16) MAGIC_FILE then
    Ok (mkFh (slice h 64 16) (unle (slice h 84 8)) (unle (slice h 92 8)) (unle (slice h 104 8)))
  else Throw.

(** CCZIParse::ReadSubBlockDirectory (CziParse.cpp l.69-152). *)
Definition read_directory (strict : bool) (o : popts) (f : file) (pos : Z) : res (list sbe) :=
  let* h := read_exact strict f pos 160 in
  if negb (eqbytes (slice h 0 16) MAGIC_DIR) then Throw
  else
    let used := unle (slice h 24 8) in
    let size := if used =? 0 then unle (slice h 16 8) else used in
    if size <? 128 then Throw
    else
      let size := size - 128 in
      let* payload := read_exact strict f (pos + 160) size in
      parse_entries o (Z.to_nat (s32 (unle (slice h 32 4)))) payload 0.

(** CCZIParse::SubBlockData (CziParse.h l.168-184). *)
Record sbdata := mkSbd {
  sd_info : sbe;      (* coordinate, mIndex, rectangles, pixel type, compression, spare[0]; e_pos unused *)
  sd_meta : bytes; sd_data : bytes; sd_att : bytes }.

(** The loop over dimension entries in ReadSubBlock (CziParse.cpp
    l.325-349).  Rectangles not present in the entry stay uninitialised in the
    code and zero here; mIndex is INT_MAX when absent. *)
Definition sb_add_dim (e : sbe) (d : dimentry) : res sbe :=
  let c := to_upper (d_char d) in
  if c =? 77 then
    Ok (mkSbe (e_coord e) (d_start d) (e_x e) (e_y e) (e_w e) (e_h e) (e_sw e) (e_sh e)
              (e_pt e) (e_pos e) (e_comp e) (e_pyr e))
  else if c =? 88 then
    Ok (mkSbe (e_coord e) (e_m e) (d_start d) (e_y e) (d_size d) (e_h e) (d_stored d) (e_sh e)
              (e_pt e) (e_pos e) (e_comp e) (e_pyr e))
  else if c =? 89 then
    Ok (mkSbe (e_coord e) (e_m e) (e_x e) (d_start d) (e_w e) (d_size d) (e_sw e) (d_stored d)
              (e_pt e) (e_pos e) (e_comp e) (e_pyr e))
  else
    match dim_index (d_char d) with
    | None => Throw
    | Some i => Ok (mkSbe (upd (e_coord e) i (Some (d_start d))) (e_m e) (e_x e) (e_y e) (e_w e) (e_h e)
                          (e_sw e) (e_sh e) (e_pt e) (e_pos e) (e_comp e) (e_pyr e))
    end.

Fixpoint sb_add_dims (e : sbe) (ds : list dimentry) : res sbe :=
  match ds with
  | [] => Ok e
  | d :: ds' => let* e' := sb_add_dim e d in sb_add_dims e' ds'
  end.

(** sizeof(SubBlockSegment) - 288: room for additional dimension entries. *)
Definition SB_EXTRA : Z := 592.

(** CCZIParse::ReadSubBlock (CziParse.cpp l.252-437).  A "DE" entry is read
    without geometry (its length is 128 < 256, so the minimum applies). *)
Definition read_subblock (strict : bool) (f : file) (pos : Z) : res sbdata :=
  let* h := read_exact strict f pos 288 in
  if negb (eqbytes (slice h 0 16) MAGIC_SB) then Throw
  else
    let msz := s32 (unle (slice h 32 4)) in
    let asz := s32 (unle (slice h 36 4)) in
    let dsz := s64 (unle (slice h 40 8)) in
    let s0 := nth 48 h 0 in
    let s1 := nth 49 h 0 in
    let pt := s32 (unle (slice h 50 4)) in
    let fpos := unle (slice h 54 8) in
    let comp := s32 (unle (slice h 66 4)) in
    let pyr := nth 70 h 0 in
    let* (info, len0) :=
      (if (s0 =? 68) && (s1 =? 86) then
         let dc := s32 (unle (slice h 76 4)) in
         if MAXDIMENSIONS <? dc then Throw
         else
           let len0 := u32 (48 + 20 * dc) in
           let* more := (if 288 <? len0 + 32 then read_into strict f (pos + 288) (len0 + 32 - 288) SB_EXTRA
                         else Ok []) in
           let* e := sb_add_dims (mkSbe no_coord INT_MAX 0 0 0 0 0 0 pt fpos comp pyr)
                                 (dec_dims (Z.to_nat dc) (skipn 80 h ++ more)) in
           Ok (e, len0)
       else if (s0 =? 68) && (s1 =? 69) then
         Ok (mkSbe no_coord INT_MAX 0 0 0 0 0 0 pt fpos comp pyr, 128)
       else Throw) in
    let len := Z.max len0 256 in
    let* md := (if 0 <? msz then read_cast32 strict f (u64 (pos + len + 32)) msz else Ok []) in
    let* data := (if 0 <? dsz then read_cast32 strict f (u64 (pos + len + 32 + msz)) dsz else Ok []) in
    let* att := (if 0 <? asz then read_cast32 strict f (u64 (pos + len + 32 + msz + dsz)) asz else Ok []) in
    Ok (mkSbd info md data att).
