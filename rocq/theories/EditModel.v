(** The in-place editor CCziReaderWriter (Src/libCZI/CziReaderWriter.cpp).
    The stream is a file which takes every write; I/O errors, which are passed
    on as exceptions, are not modelled.  Sub-block statistics, kept along with
    the directory, are the subject of StatModel.v and left out. *)
From Verif Require Import Base CodecModel MemProofs WriterModel StatModel.

(** IOutputStream::Write on the file. *)
Definition fwrite (f : file) (ws : list wr) : file :=
  mkFile (apply_writes (f_mem f) ws) (Z.max (f_size f) (file_size ws)).

(** CWriterUtils::WriteSubBlock (CziWriter.cpp l.131-190) with
    useSpecifiedAllocatedSize: [al] is the size to be recorded and padded to. *)
Definition sb_header_al (al pos : Z) (a : addinfo) : bytes :=
  let core := seg_header MAGIC_SB al (sb_used a - 32)
              ++ le 4 (src_size (ai_meta a)) ++ le 4 (src_size (ai_att a)) ++ le 8 (src_size (ai_data a))
              ++ enc_dv (with_pos (ai_e a) pos) (dims_of (ai_e a) (ai_mv a)) in
  core ++ zeros (sb_header_size a - Z.of_nat (length core)).
Definition write_subblock_in (al pos : Z) (a : addinfo) : W Z :=
  if (INT_MAX <? src_size (ai_meta a)) || (INT_MAX <? src_size (ai_att a)) then wthrow
  else if al <? align32 (sb_used a) - 32 then wthrow
  else
    let! n0 := wput pos (sb_header_al al pos a) in
    let! n1 := write_generic (pos + n0) (ai_meta a) in
    let! n2 := write_generic (pos + n0 + n1) (ai_data a) in
    let! n3 := write_generic (pos + n0 + n1 + n2) (ai_att a) in
    let n := n0 + n1 + n2 + n3 in
    if n <? al + 32 then
      let! z := write_zeroes (pos + n) (al + 32 - n) in wret (n + z)
    else wret n.

(** CWriterUtils::WriteAttachment (l.192-231) with useSpecifiedAllocatedSize. *)
Definition att_header_al (al pos : Z) (a : attinfo) : bytes :=
  let dsz := Z.of_nat (length (at_data a)) in
  seg_header MAGIC_ATT al (256 + dsz)
  ++ le 8 dsz ++ zeros 8 ++ enc_att (mkAttEntry (at_guid a) (at_type a) (at_name a) pos) ++ zeros 112.
Definition write_attachment_in (al pos : Z) (a : attinfo) : W Z :=
  let! n0 := wput pos (att_header_al al pos a) in
  let! n1 := wput (pos + n0) (at_data a) in
  let n := n0 + n1 in
  if n <? al + 32 then
    let! z := write_zeroes (pos + n) (al + 32 - n) in wret (n + z)
  else wret n.

(** CCZIParse::ReadSegmentHeaderAny and ReadSegmentHeader (CziParse.cpp
    l.839-909): the recorded allocated size, a signed 64 bit number. *)
Definition read_seg_any (strict : bool) (f : file) (pos : Z) : res Z :=
  let* h := read_exact strict f pos 32 in Ok (s64 (unle (slice h 16 8))).
Definition read_seg (magic : bytes) (strict : bool) (f : file) (pos : Z) : res Z :=
  let* h := read_exact strict f pos 32 in
  if eqbytes (slice h 0 16) magic then Ok (s64 (unle (slice h 16 8))) else Throw.

(** The object (CziReaderWriter.h): stream, header as read, position of the
    last and of the next segment, the two directories with their next key and
    "modified" flag, and the three segments which may be rewritten.  The object
    is created with make_shared, i.e. zero-initialised, hence the file position
    of a segment never set is 0 (seg_pos). *)
Record ed := mkEd {
  ed_f : file; ed_hdr : fheader; ed_last : Z; ed_next : option Z;
  ed_sb : list (Z * sbe); ed_sbn : Z; ed_smod : bool;
  ed_at : list (Z * attentry); ed_atn : Z; ed_amod : bool;
  ed_meta : option seginfo; ed_sbdir : option seginfo; ed_attdir : option seginfo }.

Definition seg_pos (g : option seginfo) : Z := match g with Some g => sg_pos g | None => 0 end.

Fixpoint keyed {A} (k : Z) (l : list A) : list (Z * A) :=
  match l with [] => [] | x :: l' => (k, x) :: keyed (k + 1) l' end.

(** DetermineNextSubBlockOffset (l.477-524); a position in the header is valid
    if it is neither 0 nor UINT64_MAX (FileHeaderSegmentData.h l.56-69). *)
Definition pos_or_0 (p : Z) : Z := if p =? 2 ^ 64 - 1 then 0 else p.
Definition last_segment (h : fheader) (es : list sbe) (ats : list attentry) : Z :=
  fold_right Z.max 0 (map e_pos es ++ map ae_pos ats ++ [pos_or_0 (fh_dir h); pos_or_0 (fh_att h); pos_or_0 (fh_meta h)]).

(** Create, ReadCziStructure, UpdateFileHeaderGuid (l.82-105, 357-475).
    [force]: GetForceFileGuid; [guid]: the GUID requested, or generated if none
    was.  A stream too short for a file header is taken as a new document. *)
Definition ed_create (strict force : bool) (guid : bytes) (f : file) : res ed :=
  match avail strict f 0 544 with
  | None => Throw
  | Some k =>
      if k =? 544 then
        let* h := read_file_header strict f in
        let f := if force then fwrite f [(48, guid); (64, guid)] else f in
        let h := if force then mkFh guid (fh_dir h) (fh_meta h) (fh_att h) else h in
        let* es := read_directory strict popts_lax f (fh_dir h) in
        let* dal := read_seg_any strict f (fh_dir h) in
        let* (ats, attdir) :=
          (if fh_att h =? 0 then Ok ([], None)
           else
             let* ats := read_attdir strict f (fh_att h) in
             let* al := read_seg_any strict f (fh_att h) in
             Ok (ats, Some (mkSeg (fh_att h) al false))) in
        let* meta :=
          (if fh_meta h =? 0 then Ok None
           else let* al := read_seg MAGIC_META strict f (fh_meta h) in Ok (Some (mkSeg (fh_meta h) al false))) in
        Ok (mkEd f h (last_segment h es ats) None
              (keyed 0 es) (Z.of_nat (length es)) false (keyed 0 ats) (Z.of_nat (length ats)) false
              meta (Some (mkSeg (fh_dir h) dal false)) attdir)
      else
        Ok (mkEd (fwrite f [(0, file_header guid 0 0 0)]) (mkFh guid 0 0 0) 0 None [] 0 false [] 0 false None None None)
  end.

(** EnsureNextSegmentInfo (l.578-593). *)
Definition ensure_next (strict : bool) (s : ed) : res Z :=
  match ed_next s with
  | Some n => Ok n
  | None => let* al := read_seg_any strict (ed_f s) (ed_last s) in Ok (u64 (al + 32 + ed_last s))
  end.

Definition set_f (s : ed) (f : file) : ed :=
  mkEd f (ed_hdr s) (ed_last s) (ed_next s) (ed_sb s) (ed_sbn s) (ed_smod s) (ed_at s) (ed_atn s) (ed_amod s)
       (ed_meta s) (ed_sbdir s) (ed_attdir s).
Definition ed_write (s : ed) (ws : list wr) : ed := set_f s (fwrite (ed_f s) ws).
Definition set_nx (s : ed) (n : Z) : ed :=
  mkEd (ed_f s) (ed_hdr s) (ed_last s) (Some n) (ed_sb s) (ed_sbn s) (ed_smod s) (ed_at s) (ed_atn s) (ed_amod s)
       (ed_meta s) (ed_sbdir s) (ed_attdir s).
Definition set_sb (s : ed) (l : list (Z * sbe)) (n : Z) : ed :=
  mkEd (ed_f s) (ed_hdr s) (ed_last s) (ed_next s) l n true (ed_at s) (ed_atn s) (ed_amod s)
       (ed_meta s) (ed_sbdir s) (ed_attdir s).
Definition set_at (s : ed) (l : list (Z * attentry)) (n : Z) : ed :=
  mkEd (ed_f s) (ed_hdr s) (ed_last s) (ed_next s) (ed_sb s) (ed_sbn s) (ed_smod s) l n true
       (ed_meta s) (ed_sbdir s) (ed_attdir s).
Definition set_meta (s : ed) (g : seginfo) : ed :=
  mkEd (ed_f s) (ed_hdr s) (ed_last s) (ed_next s) (ed_sb s) (ed_sbn s) (ed_smod s) (ed_at s) (ed_atn s) (ed_amod s)
       (Some g) (ed_sbdir s) (ed_attdir s).
Definition set_sbdir (s : ed) (g : seginfo) : ed :=
  mkEd (ed_f s) (ed_hdr s) (ed_last s) (ed_next s) (ed_sb s) (ed_sbn s) (ed_smod s) (ed_at s) (ed_atn s) (ed_amod s)
       (ed_meta s) (Some g) (ed_attdir s).
Definition set_attdir (s : ed) (g : seginfo) : ed :=
  mkEd (ed_f s) (ed_hdr s) (ed_last s) (ed_next s) (ed_sb s) (ed_sbn s) (ed_smod s) (ed_at s) (ed_atn s) (ed_amod s)
       (ed_meta s) (ed_sbdir s) (Some g).

(** Carry on with a result, or leave with the exception; the state reached so
    far stays. *)
Definition eok {A} (s : ed) (r : res A) (k : A -> ed * res unit) : ed * res unit :=
  match r with Ok a => k a | Throw => (s, Throw) | UB => (s, UB) | OutOfFuel => (s, OutOfFuel) end.

Inductive eop :=
| EAdd (a : addinfo) | EReplace (k : Z) (a : addinfo) | ERemove (k : Z)
| EAddAtt (a : attinfo) | EReplaceAtt (k : Z) (a : attinfo) | ERemoveAtt (k : Z)
| EMeta (xml att : bytes).

Definition att_entry_of (a : attinfo) (pos : Z) : attentry := mkAttEntry (at_guid a) (at_type a) (at_name a) pos.

(** SyncAddSubBlock (l.116-140); TryAddSubBlock
    (CziSubBlockDirectory.cpp l.701-713). *)
Definition ed_add (strict : bool) (s : ed) (a : addinfo) : ed * res unit :=
  if negb (sub_args_ok a) then (s, Throw)
  else
    eok s (ensure_next strict s) (fun n =>
    let s := set_nx s n in
    let e := with_pos (entry_of_info a) n in
    if existsb (fun x => equal_entries (snd x) e) (ed_sb s) then (s, Throw)
    else
      let s := set_sb s (ed_sb s ++ [(ed_sbn s, e)]) (ed_sbn s + 1) in
      let r := write_subblock n a in
      let s := ed_write s (fst r) in
      eok s (snd r) (fun k => (set_nx s (n + k), Ok tt))).

(** ReplaceSubBlock (l.168-186, 526-576). *)
Definition ed_replace (strict : bool) (s : ed) (key : Z) (a : addinfo) : ed * res unit :=
  match afind key (ed_sb s) with
  | None => (s, Throw)
  | Some old =>
      eok s (read_seg MAGIC_SB strict (ed_f s) (e_pos old)) (fun al =>
      if u64 (al + 32) <? sb_used a then
        eok s (ensure_next strict s) (fun n =>
        let s := set_nx s n in
        let r := write_subblock n a in
        let s := ed_write s (fst r) in
        eok s (snd r) (fun k =>
        let s := ed_write s [(e_pos old, MAGIC_DELETED)] in
        let s := set_sb s (aset key (with_pos (entry_of_info a) n) (ed_sb s)) (ed_sbn s) in
        (set_nx s (n + k + 32), Ok tt)))
      else
        let r := write_subblock_in (u64 al) (e_pos old) a in
        let s := ed_write s (fst r) in
        eok s (snd r) (fun _ =>
        (set_sb s (aset key (with_pos (entry_of_info a) (e_pos old)) (ed_sb s)) (ed_sbn s), Ok tt)))
  end.

(** RemoveSubBlock (l.188-204). *)
Definition ed_remove (s : ed) (key : Z) : ed * res unit :=
  match afind key (ed_sb s) with
  | None => (s, Throw)
  | Some old =>
      (ed_write (set_sb s (aerase key (ed_sb s)) (ed_sbn s)) [(e_pos old, MAGIC_DELETED)], Ok tt)
  end.

(** SyncAddAttachment (l.142-166); CReaderWriterCziAttachmentsDirectory::
    TryAddAttachment (CziAttachmentsDirectory.cpp). *)
Definition ed_add_att (strict : bool) (s : ed) (a : attinfo) : ed * res unit :=
  eok s (ensure_next strict s) (fun n =>
  let s := set_nx s n in
  let e := att_entry_of a n in
  if existsb (fun x => att_same_id (snd x) e) (ed_at s) then (s, Throw)
  else
    let s := set_at s (ed_at s ++ [(ed_atn s, e)]) (ed_atn s + 1) in
    let r := write_attachment n a in
    let s := ed_write s (fst r) in
    eok s (snd r) (fun k => (set_nx s (n + k), Ok tt))).

(** ReplaceAttachment (l.836-913): when the new attachment is appended, the
    first component of the result is false as well, so that the position of
    the next segment is not advanced. *)
Definition ed_replace_att (strict : bool) (s : ed) (key : Z) (a : attinfo) : ed * res unit :=
  match afind key (ed_at s) with
  | None => (s, Throw)
  | Some old =>
      eok s (read_seg MAGIC_ATT strict (ed_f s) (ae_pos old)) (fun al =>
      if u64 al <? 256 + Z.of_nat (length (at_data a)) then
        eok s (ensure_next strict s) (fun n =>
        let s := set_nx s n in
        let r := write_attachment n a in
        let s := ed_write s (fst r) in
        eok s (snd r) (fun _ =>
        let s := ed_write s [(ae_pos old, MAGIC_DELETED)] in
        (set_at s (aset key (att_entry_of a n) (ed_at s)) (ed_atn s), Ok tt)))
      else
        let r := write_attachment_in (u64 al) (ae_pos old) a in
        let s := ed_write s (fst r) in
        eok s (snd r) (fun _ =>
        (set_at s (aset key (att_entry_of a (ae_pos old)) (ed_at s)) (ed_atn s), Ok tt)))
  end.

(** RemoveAttachment (l.915-930). *)
Definition ed_remove_att (s : ed) (key : Z) : ed * res unit :=
  match afind key (ed_at s) with
  | None => (s, Throw)
  | Some old =>
      (ed_write (set_at s (aerase key (ed_at s)) (ed_atn s)) [(ae_pos old, MAGIC_DELETED)], Ok tt)
  end.

(** SyncWriteMetadata (l.206-237). *)
Definition ed_write_meta (strict : bool) (s : ed) (xml att : bytes) : ed * res unit :=
  eok s (ensure_next strict s) (fun n =>
  let s := set_nx s n in
  let r := write_metadata (ed_meta s) n xml att in
  let s := ed_write s (fst r) in
  eok s (snd r) (fun x : Z * Z =>
  let (pos, al) := x in
  (if pos =? n then set_nx (set_meta s (mkSeg pos al false)) (pos + al + 32) else s, Ok tt))).

Definition estep (strict : bool) (s : ed) (o : eop) : ed * res unit :=
  match o with
  | EAdd a => ed_add strict s a
  | EReplace k a => ed_replace strict s k a
  | ERemove k => ed_remove s k
  | EAddAtt a => ed_add_att strict s a
  | EReplaceAtt k a => ed_replace_att strict s k a
  | ERemoveAtt k => ed_remove_att s k
  | EMeta xml att => ed_write_meta strict s xml att
  end.

Fixpoint erun (strict : bool) (s : ed) (os : list eop) : ed * list (res unit) :=
  match os with
  | [] => (s, [])
  | o :: os' => let (s1, r) := estep strict s o in let (s2, rs) := erun strict s1 os' in (s2, r :: rs)
  end.

(** Finish: the two directories, if modified (l.259-336).  After appending a
    directory the position of the next segment is advanced by the allocated
    size only, the 32 bytes of the segment header are forgotten. *)
Definition close_sbdir (strict : bool) (s : ed) : ed * res unit :=
  if ed_smod s then
    eok s (ensure_next strict s) (fun n =>
    let s := set_nx s n in
    let r := write_directory (ed_sbdir s) n (map snd (ed_sb s)) in
    let s := ed_write s (fst r) in
    eok s (snd r) (fun x : Z * Z =>
    let (pos, al) := x in
    let s := set_sbdir s (mkSeg pos al false) in
    (if pos =? n then set_nx s (pos + al) else s, Ok tt)))
  else (s, Ok tt).
Definition close_attdir (strict : bool) (s : ed) : ed * res unit :=
  if ed_amod s then
    eok s (ensure_next strict s) (fun n =>
    let s := set_nx s n in
    let r := write_attdir (ed_attdir s) n (map snd (ed_at s)) in
    let s := ed_write s (fst r) in
    eok s (snd r) (fun x : Z * Z =>
    let (pos, al) := x in
    let s := set_attdir s (mkSeg pos al false) in
    (if pos =? n then set_nx s (pos + al) else s, Ok tt)))
  else (s, Ok tt).
(** Finish and UpdateFileHeader (l.259-355), Close (l.253-257). *)
Definition ed_close (strict : bool) (s : ed) : ed * res unit :=
  let (s, r) := close_sbdir strict s in
  eok s r (fun _ =>
  let (s, r) := close_attdir strict s in
  eok s r (fun _ =>
  let h := ed_hdr s in
  if (ed_amod s && negb (fh_att h =? seg_pos (ed_attdir s))) || (ed_smod s && negb (fh_dir h =? seg_pos (ed_sbdir s)))
     || negb (fh_meta h =? seg_pos (ed_meta s)) then
    (ed_write s [(0, file_header (fh_guid h) (seg_pos (ed_sbdir s)) (seg_pos (ed_meta s)) (seg_pos (ed_attdir s)))], Ok tt)
  else (s, Ok tt))).

(** A whole session: Create, the operations (exceptions are survived), Close. *)
Definition edit (strict force : bool) (guid : bytes) (f : file) (os : list eop) : res (file * list (res unit) * res unit) :=
  let* s0 := ed_create strict force guid f in
  let (s1, rs) := erun strict s0 os in
  let (s2, r) := ed_close strict s1 in
  Ok (ed_f s2, rs, r).
