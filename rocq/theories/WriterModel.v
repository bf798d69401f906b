(** The append-only writer CCziWriter (Src/libCZI/CziWriter.cpp).
    An operation yields the list of stream writes it issues, in order,
    together with its outcome; the stream itself never fails
    (WriteToOutputStream l.1078-1109 throws if it does). Sizes and positions
    are unbounded integers, except in WriteZeroes, whose 64-bit wrap-around
    matters. *)
From Verif Require Import Base CodecModel MemProofs.

(** Writes issued and outcome. *)
Definition W (A : Type) : Type := (list wr * res A)%type.
Definition wret {A} (a : A) : W A := ([], Ok a).
Definition wthrow {A} : W A := ([], Throw).
Definition wbind {A B} (x : W A) (k : A -> W B) : W B :=
  match snd x with
  | Ok a => let y := k a in (fst x ++ fst y, snd y)
  | Throw => (fst x, Throw)
  | UB => (fst x, UB)
  | OutOfFuel => (fst x, OutOfFuel)
  end.
Notation "'let!' x ':=' r 'in' k" := (wbind r (fun x => k))
  (at level 200, x pattern, r at level 100, k at level 200).

(** One write to the stream, returns the number of bytes written. *)
Definition wput (pos : Z) (data : bytes) : W Z := ([(pos, data)], Ok (Z.of_nat (length data))).

Definition zeros (n : Z) : bytes := repeat 0 (Z.to_nat n).

(** CWriterUtils::AlignSegmentSize (l.884-887). *)
Definition align32 (n : Z) : Z := (n + 31) / 32 * 32.

(** CWriterUtils::WriteZeroes (l.469-483); [count] is uint64_t and is
    decremented by 4096 in every round while it also bounds the loop. *)
Fixpoint write_zeroes_loop (fuel : nat) (pos i count : Z) : W Z :=
  if i <? u64 (count + 4095) / 4096 then
    match fuel with
    | O => ([], OutOfFuel)
    | S fuel' =>
        let! k := wput (pos + i * 4096) (zeros (Z.min 4096 count)) in
        let! r := write_zeroes_loop fuel' pos (i + 1) (u64 (count - 4096)) in
        wret (k + r)
    end
  else wret 0.

Definition write_zeroes (pos count : Z) : W Z :=
  write_zeroes_loop (Z.to_nat (count / 4096 + 1)) pos 0 count.

(** The data source of a sub-block part: declared size and what the getter
    delivers on its successive calls ([None]: a null pointer); after the last
    chunk the getter returns false. *)
Record source := mkSrc { src_size : Z; src_chunks : list (option bytes) }.

(** The loop of CWriterUtils::WriteSubBlkDataGeneric (l.513-544). *)
Fixpoint write_generic_loop (pos size offset : Z) (chunks : list (option bytes)) : W Z :=
  match chunks with
  | [] =>
      if offset <? size then
        let! n := write_zeroes (pos + offset) (size - offset) in wret (offset + n)
      else wret offset
  | None :: _ => wthrow
  | Some bs :: chunks' =>
      let! n := wput (pos + offset) (firstn (Z.to_nat (Z.min (size - offset) (Z.of_nat (length bs)))) bs) in
      if size <=? offset + n then wret (offset + n)
      else write_generic_loop pos size (offset + n) chunks'
  end.

(** CWriterUtils::WriteSubBlkDataGeneric (l.507-550). *)
Definition write_generic (pos : Z) (s : source) : W Z :=
  if 0 <? src_size s then write_generic_loop pos (src_size s) 0 (src_chunks s) else wret 0.

(** AddSubBlockInfo: geometry (position field unused), validity of the
    M-index, and the three parts. *)
Record addinfo := mkAdd { ai_e : sbe; ai_mv : bool; ai_meta : source; ai_data : source; ai_att : source }.

Definition with_pos (e : sbe) (p : Z) : sbe :=
  mkSbe (e_coord e) (e_m e) (e_x e) (e_y e) (e_w e) (e_h e) (e_sw e) (e_sh e) (e_pt e) p (e_comp e) (e_pyr e).
Definition with_m (e : sbe) (m : Z) : sbe :=
  mkSbe (e_coord e) m (e_x e) (e_y e) (e_w e) (e_h e) (e_sw e) (e_sh e) (e_pt e) (e_pos e) (e_comp e) (e_pyr e).

(** CWriterUtils::SubBlkEntryFromAddSubBlockInfo (l.830-851). *)
Definition entry_of_info (a : addinfo) : sbe :=
  with_m (ai_e a) (if ai_mv a then e_m (ai_e a) else INT_MIN).

Definition ndims (a : addinfo) : Z := Z.of_nat (length (dims_of (ai_e a) (ai_mv a))).

(** CWriterUtils::CalcSubBlockSegmentDataSize (l.397-401). *)
Definition sb_header_size (a : addinfo) : Z := Z.max (32 + 256) (32 + 16 + (32 + 20 * ndims a)).

(** CWriterUtils::CalculateSegmentDataSize (l.421-440). *)
Definition sb_used (a : addinfo) : Z :=
  sb_header_size a + src_size (ai_data a) + src_size (ai_meta a) + src_size (ai_att a).

(** The header block filled by FillSubBlockSegment (l.233-322), zero padded. *)
Definition sb_header (pos : Z) (a : addinfo) : bytes :=
  let core := seg_header MAGIC_SB (align32 (sb_used a) - 32) (sb_used a - 32)
              ++ le 4 (src_size (ai_meta a)) ++ le 4 (src_size (ai_att a)) ++ le 8 (src_size (ai_data a))
              ++ enc_dv (with_pos (ai_e a) pos) (dims_of (ai_e a) (ai_mv a)) in
  core ++ zeros (sb_header_size a - Z.of_nat (length core)).

(** CWriterUtils::WriteSubBlock (l.131-190) with useSpecifiedAllocatedSize
    false.  sbBlkSegmentSize <= sizeof(SubBlockSegment) always holds; both
    branches write the same block. *)
Definition write_subblock (pos : Z) (a : addinfo) : W Z :=
  if (INT_MAX <? src_size (ai_meta a)) || (INT_MAX <? src_size (ai_att a)) then wthrow
  else
    let allocated := align32 (sb_used a) in
    let! n0 := wput pos (sb_header pos a) in
    let! n1 := write_generic (pos + n0) (ai_meta a) in
    let! n2 := write_generic (pos + n0 + n1) (ai_data a) in
    let! n3 := write_generic (pos + n0 + n1 + n2) (ai_att a) in
    let n := n0 + n1 + n2 + n3 in
    if n <? allocated then
      let! z := write_zeroes (pos + n) (allocated - n) in wret (n + z)
    else wret n.

(** Attachments: AddAttachmentInfo / AttachmentEntry. *)
Record attinfo := mkAtt { at_guid : bytes; at_type : bytes; at_name : bytes; at_data : bytes }.
Record attentry := mkAttEntry { ae_guid : bytes; ae_type : bytes; ae_name : bytes; ae_pos : Z }.

(** AttachmentEntryA1 (128 bytes, CziStructs.h; l.754-764). *)
Definition enc_att (e : attentry) : bytes :=
  [65; 49] ++ zeros 10 ++ le 8 (ae_pos e) ++ le 4 0 ++ ae_guid e ++ ae_type e ++ ae_name e.

(** CWriterUtils::WriteAttachment (l.192-231). *)
Definition att_header (pos : Z) (a : attinfo) : bytes :=
  let dsz := Z.of_nat (length (at_data a)) in
  seg_header MAGIC_ATT (align32 (256 + dsz)) (256 + dsz)
  ++ le 8 dsz ++ zeros 8 ++ enc_att (mkAttEntry (at_guid a) (at_type a) (at_name a) pos) ++ zeros 112.
Definition write_attachment (pos : Z) (a : attinfo) : W Z :=
  let allocated := align32 (256 + Z.of_nat (length (at_data a))) + 32 in
  let! n0 := wput pos (att_header pos a) in
  let! n1 := wput (pos + n0) (at_data a) in
  let n := n0 + n1 in
  if n <? allocated then
    let! z := write_zeroes (pos + n) (allocated - n) in wret (n + z)
  else wret n.

(** Bookkeeping of a segment which may be rewritten: SegmentInfo
    (CziWriter.h l.327-352). *)
Record seginfo := mkSeg { sg_pos : Z; sg_alloc : Z; sg_deleted : bool }.

(** The "re-use or relocate" step common to WriteMetadata (l.577-596),
    WriteSubBlkDirectory (l.657-683) and WriteAttachmentDirectory
    (l.711-736): position and allocated size to use, and the write which
    marks an abandoned segment as deleted. *)
Definition place (existing : option seginfo) (next need alloc0 : Z) : W (Z * Z) :=
  let '(epos, esize, mark) := match existing with
                              | Some s => (sg_pos s, sg_alloc s, negb (sg_deleted s))
                              | None => (0, 0, false)
                              end in
  if need <=? esize then wret (epos, esize)
  else if (0 <? esize) && (0 <? epos) && mark then
    let! _ := wput epos MAGIC_DELETED in wret (next, alloc0)
  else wret (next, alloc0).

(** CWriterUtils::WriteMetadata (l.564-624). *)
Definition write_metadata (existing : option seginfo) (next : Z) (xml att : bytes) : W (Z * Z) :=
  let xs := Z.of_nat (length xml) in
  let sz := Z.of_nat (length att) in
  let used := 256 + (xs + sz) in
  let! (pos, alloc) := place existing next (align32 used) (align32 used) in
  let! n0 := wput pos (seg_header MAGIC_META alloc used ++ le 4 xs ++ le 4 sz ++ zeros 248) in
  let! n1 := (if 0 <? xs then wput (pos + n0) xml else wret 0) in
  let! n2 := (if 0 <? sz then wput (pos + n0 + n1) att else wret 0) in
  let n := n0 + n1 + n2 in
  let! _ := (if n <? alloc + 32 then write_zeroes (pos + n) (alloc + 32 - n) else wret 0) in
  wret (pos, alloc).

(** CWriterUtils::WriteSubBlkDirectory (l.626-697). *)
Definition write_directory (existing : option seginfo) (next : Z) (es : list sbe) : W (Z * Z) :=
  let payload := flat_map enc_entry es in
  let used := 128 + Z.of_nat (length payload) in
  let! (pos, alloc) := place existing next (align32 used) (align32 used) in
  let! n := wput pos (seg_header MAGIC_DIR alloc used ++ le 4 (Z.of_nat (length es)) ++ zeros 124 ++ payload) in
  let! _ := (if n <? alloc + 32 then write_zeroes (pos + n) (alloc + 32 - n) else wret 0) in
  wret (pos, alloc).

(** CWriterUtils::WriteAttachmentDirectory (l.699-778).  Line 774 pads from
    attchmDirPos + bytesWritten, where bytesWritten is the size of the entries
    only (the 288 byte header is not counted). *)
Definition write_attdir (existing : option seginfo) (next : Z) (es : list attentry) : W (Z * Z) :=
  let payload := flat_map enc_att es in
  let used := 256 + 128 * Z.of_nat (length es) in
  let! (pos, alloc) := place existing next used (align32 used) in
  let! n0 := wput pos (seg_header MAGIC_ATTDIR alloc used ++ le 4 (Z.of_nat (length es)) ++ zeros 252) in
  let! n1 := wput (pos + n0) payload in
  let! _ := (if n0 + n1 <? alloc + 32 then write_zeroes (pos + n1) (alloc + 32 - n1) else wret 0) in
  wret (pos, alloc).

(** ** The writer object *)

Record wstate := mkW {
  w_next : Z;                       (* nextSegmentPos *)
  w_dir : list sbe;                 (* sbBlkDirectory, in enumeration order *)
  w_atts : list attentry;           (* attachmentDirectory *)
  w_meta : option seginfo; w_sbdir : option seginfo; w_attdir : option seginfo }.

(** CCziWriter::WriteFileHeader (l.1118-1135). *)
Definition file_header (guid : bytes) (dirpos metapos attpos : Z) : bytes :=
  seg_header MAGIC_FILE 512 512 ++ le 4 1 ++ le 4 0 ++ le 4 0 ++ le 4 0 ++ guid ++ guid ++ le 4 0
  ++ le 8 dirpos ++ le 8 metapos ++ le 4 0 ++ le 8 attpos ++ zeros 432.

(** Reservations (l.1369-1466): a DELETED header of [hdr] bytes followed by a
    hole.  [payload] is the reserved payload size. *)
Definition reserve (hdr : Z) (w : Z) (payload : Z) : list wr * seginfo :=
  let used := hdr - 32 + payload in
  ([(w, seg_header MAGIC_DELETED (align32 used) used ++ zeros (hdr - 32))], mkSeg w (align32 used) true).

(** Reservation requests of ICziWriterInfo: metadata bytes, number of
    sub-blocks (a request of 0 is replaced by an estimate, l.1397-1425; this is
    the number finally used) and number of attachments. *)
Record winfo := mkWInfo { wi_guid : bytes; wi_rmeta : option Z; wi_rdir : option Z; wi_ratt : option Z }.

(** Reserved payload in bytes (l.1371-1379, l.1430, l.1446-1454). *)
Definition rmeta_bytes (s : Z) : Z := if s =? 0 then 10240 else s.
Definition rdir_bytes (s : Z) : Z := s * (32 + 20 * MAXDIMENSIONS).
Definition ratt_bytes (s : Z) : Z := (if s =? 0 then 10 else s) * 128.

(** CCziWriter::Create (l.911-956). *)
Definition create (i : winfo) : list wr * wstate :=
  let ws0 := [(0, file_header (wi_guid i) 0 0 0)] in
  let s0 := mkW 544 [] [] None None None in
  let '(ws1, s1) :=
    match wi_rmeta i with
    | Some n => let '(ws, sg) := reserve 288 (w_next s0) (rmeta_bytes n) in
                (ws, mkW (w_next s0 + 32 + sg_alloc sg) [] [] (Some sg) None None)
    | None => ([], s0)
    end in
  let '(ws2, s2) :=
    match wi_rdir i with
    | Some n => let '(ws, sg) := reserve 160 (w_next s1) (rdir_bytes n) in
                (ws, mkW (w_next s1 + 32 + sg_alloc sg) [] [] (w_meta s1) (Some sg) None)
    | None => ([], s1)
    end in
  let '(ws3, s3) :=
    match wi_ratt i with
    | Some n => let '(ws, sg) := reserve 288 (w_next s2) (ratt_bytes n) in
                (ws, mkW (w_next s2 + 32 + sg_alloc sg) [] [] (w_meta s2) (w_sbdir s2) (Some sg))
    | None => ([], s2)
    end in
  (ws0 ++ ws1 ++ ws2 ++ ws3, s3).

(** Operations.  The directory is a std::set ordered by a comparator
    (CziSubBlockDirectory.cpp l.465-557); the model lets the set put a new
    entry at any position [Some k], or reject it as a duplicate ([None]). *)
Inductive wop :=
| OpSub (a : addinfo) (slot : option nat)
| OpAtt (a : attinfo)
| OpMeta (xml att : bytes).

Definition insert_at {A} (k : nat) (x : A) (l : list A) : list A := firstn k l ++ x :: skipn k l.

(** strncmp(a, b, n) == 0 for arrays of n characters. *)
Fixpoint cstr_eq (a b : bytes) : bool :=
  match a, b with
  | x :: a', y :: b' => (x =? y) && ((x =? 0) || cstr_eq a' b')
  | [], [] => true
  | _, _ => false
  end.

(** CCziAttachmentsDirectoryBase::CompareForEquality_Id
    (CziAttachmentsDirectory.cpp l.11-31). *)
Definition att_same_id (a b : attentry) : bool :=
  eqbytes (ae_guid a) (ae_guid b) && cstr_eq (ae_name a) (ae_name b) && cstr_eq (ae_type a) (ae_type b).

(** CheckAddSubBlockArguments (l.786-813): no negative extent, and not the
    identifier of CompressionMode::Invalid, which is INT_MIN (CziUtils.cpp).
    The getters are always given in the model. *)
Definition sub_args_ok (a : addinfo) : bool :=
  negb ((e_comp (ai_e a) =? INT_MIN) || (e_w (ai_e a) <? 0) || (e_h (ai_e a) <? 0) || (e_sw (ai_e a) <? 0) || (e_sh (ai_e a) <? 0)).

Definition set_next (s : wstate) (n : Z) : wstate :=
  mkW n (w_dir s) (w_atts s) (w_meta s) (w_sbdir s) (w_attdir s).

(** SyncAddSubBlock (l.958-976), SyncAddAttachment (l.978-994),
    SyncWriteMetadata (l.996-1005, 1272-1298).  Returns the writes, the new
    state (also after a throw) and whether the call succeeded. *)
Definition wstep (s : wstate) (o : wop) : list wr * wstate * res unit :=
  match o with
  | OpSub a slot =>
      if negb (sub_args_ok a) then ([], s, Throw)
      else
        match slot with
        | None => ([], s, Throw)
        | Some k =>
            let e := with_pos (entry_of_info a) (w_next s) in
            let s1 := mkW (w_next s) (insert_at k e (w_dir s)) (w_atts s) (w_meta s) (w_sbdir s) (w_attdir s) in
            let r := write_subblock (w_next s) a in
            match snd r with
            | Ok n => (fst r, set_next s1 (w_next s + n), Ok tt)
            | Throw => (fst r, s1, Throw)
            | UB => (fst r, s1, UB)
            | OutOfFuel => (fst r, s1, OutOfFuel)
            end
        end
  | OpAtt a =>
      let e := mkAttEntry (at_guid a) (at_type a) (at_name a) (w_next s) in
      if existsb (fun x => att_same_id x e) (w_atts s) then ([], s, Throw)
      else
        let s1 := mkW (w_next s) (w_dir s) (w_atts s ++ [e]) (w_meta s) (w_sbdir s) (w_attdir s) in
        let r := write_attachment (w_next s) a in
        match snd r with
        | Ok n => (fst r, set_next s1 (w_next s + n), Ok tt)
        | Throw => (fst r, s1, Throw)
        | UB => (fst r, s1, UB)
        | OutOfFuel => (fst r, s1, OutOfFuel)
        end
  | OpMeta xml att =>
      let r := write_metadata (w_meta s) (w_next s) xml att in
      match snd r with
      | Ok (pos, alloc) =>
          let next := if pos =? w_next s then w_next s + alloc + 32 else w_next s in
          (fst r, mkW next (w_dir s) (w_atts s) (Some (mkSeg pos alloc false)) (w_sbdir s) (w_attdir s), Ok tt)
      | Throw => (fst r, s, Throw)
      | UB => (fst r, s, UB)
      | OutOfFuel => (fst r, s, OutOfFuel)
      end
  end.

(** A session: the operations in order; operations which throw are survived
    (the caller catches the exception and carries on). *)
Fixpoint wrun (s : wstate) (ops : list wop) : list wr * wstate * list (res unit) :=
  match ops with
  | [] => ([], s, [])
  | o :: ops' =>
      let '(ws, s1, r) := wstep s o in
      let '(ws', s2, rs) := wrun s1 ops' in
      (ws ++ ws', s2, r :: rs)
  end.

Definition seg_pos_valid (s : option seginfo) : Z :=
  match s with
  | Some g => if sg_deleted g then 0 else sg_pos g
  | None => 0
  end.

(** CCziWriter::Finish (l.1148-1188, 1190-1264). *)
Definition finish (guid : bytes) (s : wstate) : W unit :=
  let! (dpos, dalloc) := write_directory (w_sbdir s) (w_next s) (w_dir s) in
  let next1 := if dpos =? w_next s then w_next s + dalloc + 32 else w_next s in
  let! attpos :=
    match w_atts s with
    | [] => wret (seg_pos_valid (w_attdir s))
    | _ => let! (apos, _) := write_attdir (w_attdir s) next1 (w_atts s) in wret apos
    end in
  let! _ := wput 0 (file_header guid dpos (seg_pos_valid (w_meta s)) attpos) in
  wret tt.

(** A complete session: Create, operations, Close. *)
Definition session (i : winfo) (ops : list wop) : list wr * list (res unit) * res unit :=
  let '(ws0, s0) := create i in
  let '(ws1, s1, rs) := wrun s0 ops in
  let r := finish (wi_guid i) s1 in
  (ws0 ++ ws1 ++ fst r, rs, snd r).

(** ** The resulting file *)
Definition end_of (w : wr) : Z := if (length (snd w) =? 0)%nat then 0 else fst w + Z.of_nat (length (snd w)).
Definition file_size (ws : list wr) : Z := fold_right Z.max 0 (map end_of ws).
(** [m0] gives the (arbitrary) contents of holes. *)
Definition file_of (m0 : mem) (ws : list wr) : file := mkFile (apply_writes m0 ws) (file_size ws).

(** ** Reading attachments and metadata back (CziParse.cpp) *)

(** CCZIParse::ReadAttachmentsDirectory (l.181-250). *)
Definition dec_att (bs : bytes) : option attentry :=
  if (nth 0 bs 0 =? 65) && (nth 1 bs 0 =? 49) then
    Some (mkAttEntry (slice bs 24 16) (slice bs 40 8) (upd (slice bs 48 80) 79 0) (unle (slice bs 12 8)))
  else None.
Fixpoint dec_atts (n : nat) (bs : bytes) : list attentry :=
  match n with
  | O => []
  | S n' => match dec_att (firstn 128 bs) with
            | Some e => e :: dec_atts n' (skipn 128 bs)
            | None => dec_atts n' (skipn 128 bs)
            end
  end.
Definition read_attdir (strict : bool) (f : file) (pos : Z) : res (list attentry) :=
  let* h := read_exact strict f pos 288 in
  if negb (eqbytes (slice h 0 16) MAGIC_ATTDIR) then Throw
  else
    let n := s32 (unle (slice h 32 4)) in
    if 0 <? n then
      let* payload := read_exact strict f (pos + 288) (128 * n) in
      Ok (dec_atts (Z.to_nat n) payload)
    else Ok [].

(** CCZIParse::ReadAttachment (l.439-489). *)
Definition read_attachment (strict : bool) (f : file) (pos : Z) : res bytes :=
  let* h := read_exact strict f pos 288 in
  if negb (eqbytes (slice h 0 16) MAGIC_ATT) then Throw
  else
    let dsz := s64 (unle (slice h 32 8)) in
    if 0 <? dsz then read_cast32 strict f (pos + 288) dsz else Ok [].

(** CCZIParse::ReadMetadataSegment (l.648-717). *)
Definition read_metadata (strict : bool) (f : file) (pos : Z) : res (bytes * bytes) :=
  let* h := read_exact strict f pos 288 in
  if negb (eqbytes (slice h 0 16) MAGIC_META) then Throw
  else
    let xs := s32 (unle (slice h 32 4)) in
    let sz := s32 (unle (slice h 36 4)) in
    let* xml := (if 0 <? xs then read_cast32 strict f (u64 (pos + 288)) xs else Ok []) in
    let* att := (if 0 <? sz then read_cast32 strict f (u64 (pos + 288 + xs)) sz else Ok []) in
    Ok (xml, att).

(** CCZIReader::Open (CZIReader.cpp l.43-81) and the metadata accessor
    (l.93-101). *)
Record opened := mkOpened { op_guid : bytes; op_dir : list sbe; op_atts : list attentry; op_metapos : Z }.
Definition open_file (strict : bool) (o : popts) (f : file) : res opened :=
  let* h := read_file_header strict f in
  let* d := read_directory strict o f (fh_dir h) in
  let* a := (if fh_att h =? 0 then Ok [] else read_attdir strict f (fh_att h)) in
  Ok (mkOpened (fh_guid h) d a (fh_meta h)).
