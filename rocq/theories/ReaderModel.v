(** The reader object (Src/libCZI/CZIReader.cpp, CziReaderCommon.cpp, CziAttachmentsDirectory.cpp):
    what it remembers between calls, and what the calls answer. *)
From Verif Require Import Base RectModel CodecModel WriterModel CodesModel TextModel CoordModel StatModel AccessModel.
Open Scope Z_scope.

(** ICZIReader::OpenOptions, libCZI.h l.753-812; the policy is a bit field *)
Record ropts := mkRopts { ro_lax : bool; ro_nom : bool; ro_frame : frame; ro_policy : Z }.
Definition ropts0 : ropts := mkRopts true false FInvalid 0.
(** GetParseOptionsFromOpenOptions, CZIReader.cpp l.19-34 *)
Definition popts_of (o : ropts) : popts :=
  if ro_lax o then popts_lax else mkPopts true true true (ro_nom o) (negb (ro_nom o)).

(** SubBlockInfo, libCZI.h *)
Record rinfo := mkRi {
  ri_comp : Z; ri_pt : pixel_type; ri_coord : CodecModel.coord; ri_rect : rect; ri_pw : Z; ri_ph : Z; ri_m : Z; ri_pyr : pyramid_type }.
(** CziReaderCommon::ConvertToSubBlockInfo, CziReaderCommon.cpp l.108-119; also CZIReader.cpp l.372-392 *)
Definition rinfo_of (e : sbe) : rinfo :=
  mkRi (e_comp e) (pixel_type_from_int (e_pt e)) (e_coord e) (mkRect (e_x e) (e_y e) (e_w e) (e_h e))
       (u32 (e_sw e)) (u32 (e_sh e)) (e_m e) (pyramid_type_from_byte (e_pyr e)).
Definition sbinfo_of (e : sbe) : sbinfo :=
  SbInfo (e_coord e) (mkRect (e_x e) (e_y e) (e_w e) (e_h e)) (u32 (e_sw e)) (u32 (e_sh e)) (e_m e).

(** The members of CCZIReader, CZIReader.h l.22-30 *)
Record rstate := mkR {
  r_op : bool; r_hdr : fheader; r_dir : list sbe; r_upd : updater; r_att : list attentry;
  r_stream : option (bool * file); r_frame : frame; r_policy : Z }.
(** CCZIReader::CCZIReader, l.36-41; CFileHeaderSegmentData() *)
Definition fheader0 : fheader := mkFh (repeat 0 16) (2 ^ 64 - 1) (2 ^ 64 - 1) (2 ^ 64 - 1).
Definition reader0 : rstate := mkR false fheader0 [] updater0 [] None FInvalid 0.

(** The part of the header of a sub-block segment which CCZIParse::ReadSubBlock (CziParse.cpp l.280-362) fills in:
    nothing but pixel type and compression for the "DE" schema; a rectangle needs its dimension *)
Definition sb_schema (strict : bool) (f : file) (pos : Z) : res (bool * bool) :=
  let* h := read_exact strict f pos 288 in
  if (nth 48 h 0 =? 68) && (nth 49 h 0 =? 86) then
    let dc := s32 (unle (slice h 76 4)) in
    let len0 := u32 (48 + 20 * dc) in
    let* more := (if 288 <? len0 + 32 then read_into strict f (pos + 288) (len0 + 32 - 288) SB_EXTRA else Ok []) in
    let ds := map (fun d => to_upper (d_char d)) (dec_dims (Z.to_nat dc) (skipn 80 h ++ more)) in
    Ok (true, existsb (Z.eqb 88) ds && existsb (Z.eqb 89) ds)
  else Ok (false, false).

(** The comparison made by CCZIReader::ReadSubBlock, l.358-364, in its order.  Reading a member which was never set is
    undefined; where only one of X and Y is missing the comparison is taken to be undefined as well. *)
Definition discrepancy (dv xy : bool) (e d : sbe) : res bool :=
  if negb (e_pt e =? e_pt d) || negb (e_comp e =? e_comp d) || negb (CoordModel.compare (e_coord e) (e_coord d) =? 0) then Ok true
  else if negb dv then UB
  else if negb (Bool.eqb (valid_m (e_m e)) (valid_m (e_m d))) || (valid_m (e_m d) && negb (e_m e =? e_m d)) then Ok true
  else if negb xy then UB
  else Ok (negb ((e_x e =? e_x d) && (e_y e =? e_y d) && (e_w e =? e_w d) && (e_h e =? e_h d)
                 && (e_sw e =? s32 (u32 (e_sw d))) && (e_sh e =? s32 (u32 (e_sh d))))).
(** CCZIReader::ReadSubBlock(entry), l.321-403; IgnoreDiscrepancy = 0x80, PrecedenceMask = 1 *)
Definition read_block (policy : Z) (stream : option (bool * file)) (e : sbe) : res (rinfo * (bytes * bytes * bytes)) :=
  match stream with
  | None => Throw
  | Some (strict, f) =>
    let* d := read_subblock strict f (e_pos e) in
    let* (dv, xy) := sb_schema strict f (e_pos e) in
    let* _ := (if Z.testbit policy 7 then Ok tt
               else let* x := discrepancy dv xy e (sd_info d) in if (x : bool) then Throw else Ok tt) in
    let parts := (sd_data d, sd_att d, sd_meta d) in
    if Z.testbit policy 0 then (if dv && xy then Ok (rinfo_of (sd_info d), parts) else UB)
    else Ok (rinfo_of e, parts)
  end.

(** Reading a char array as C string: undefined if there is no terminator *)
Fixpoint c_string (a : bytes) : res bytes :=
  match a with [] => UB | c :: a' => if c =? 0 then Ok [] else let* r := c_string a' in Ok (c :: r) end.
(** strcmp(s, a) == 0 for a C string (without its terminator) and an array *)
Fixpoint strcmp_eq (s a : bytes) : res bool :=
  match a with
  | [] => UB
  | c :: a' => match s with [] => Ok (c =? 0) | x :: s' => if x =? c then strcmp_eq s' a' else Ok false end
  end.

(** AttachmentInfo: identifier, type (eight characters, a terminator is appended), name *)
Definition ainfo : Type := (bytes * bytes * bytes)%type.
Definition ainfo_of (e : attentry) : res ainfo := let* n := c_string (ae_name e) in Ok (ae_guid e, ae_type e, n).
Fixpoint map_res {A B} (f : A -> res B) (l : list A) : res (list B) :=
  match l with [] => Ok [] | x :: l' => let* y := f x in let* r := map_res f l' in Ok (y :: r) end.
Fixpoint from {A} (k : Z) (l : list A) : list (Z * A) := match l with [] => [] | x :: l' => (k, x) :: from (k + 1) l' end.
(** CCZIReader::EnumerateAttachments, l.271-285, with a callback which never stops *)
Definition all_atts (l : list attentry) : res (list (Z * ainfo)) :=
  map_res (fun x => let* i := ainfo_of (snd x) in Ok (fst x, i)) (from 0 l).
(** CziReaderCommon::EnumerateSubset, CziReaderCommon.cpp l.81-106; [go]: what the callback returns *)
Definition opt_match (s : option bytes) (a : bytes) : res bool := match s with None => Ok true | Some s => strcmp_eq s a end.
Fixpoint att_subset (t n : option bytes) (go : Z -> ainfo -> bool) (k : Z) (l : list attentry) : res (list (Z * ainfo)) :=
  match l with
  | [] => Ok []
  | e :: l' =>
    let* a := opt_match t (ae_type e) in
    let* b := (if (a : bool) then opt_match n (ae_name e) else Ok false) in
    if (b : bool) then
      let* i := ainfo_of e in
      if go k i then let* r := att_subset t n go (k + 1) l' in Ok ((k, i) :: r) else Ok [(k, i)]
    else att_subset t n go (k + 1) l'
  end.

(** CziReaderCommon::TryGetSubBlockInfoOfArbitrarySubBlockInChannel, CziReaderCommon.cpp l.42-79 *)
Definition in_channel (st : stats) (dir : list sbe) (c : Z) : option rinfo :=
  match tget (st_dims st) 2 with
  | None => option_map rinfo_of (hd_error dir)
  | Some _ => option_map rinfo_of (find (fun e => match tget (e_coord e) 2 with Some x => x =? c | None => false end) dir)
  end.

(** TryGetSubBlock(index), TryGetAttachment(index): vector::at throws for a negative index *)
Definition at_index {A} (l : list A) (k : Z) : res (option A) :=
  if Z.of_nat (length l) <=? k then Ok None else if k <? 0 then Throw else Ok (nth_error l (Z.to_nat k)).

Inductive rop :=
| ROpen (strict : bool) (f : file) (o : ropts) | RClose
| RHeader | RMeta | RStats | RPyr | RTransform (f : frame) (p : Z * Z) (dst : frame)
| RSubs | RSubset (plane : option CodecModel.coord) (roi : option rect) (only0 : bool) | RBlock (k : Z) | RChannel (c : Z) | RInfo (k : Z) | RAccessor
| RAttCount | RAttInfo (k : Z) | RAtts | RAttSubset (t n : option bytes) | RAtt (k : Z).
Inductive answer :=
| ADone | AHeader (guid : bytes) | AMeta (x : bytes * bytes) | AStats (s : stats) | APyr (p : pyr) | APoint (x : frame * (Z * Z))
| ASubs (l : list (Z * rinfo)) | ASubset (l : list (Z * sbinfo)) | ABlock (b : option (rinfo * (bytes * bytes * bytes))) | AInfo (i : option rinfo)
| ACount (n : Z) | AAttInfo (i : option ainfo) | AAtts (l : list (Z * ainfo)) | AAtt (x : option (ainfo * bytes)).

(** CCZIReader::Open, l.43-81: the members are assigned one after the other; the attachments only if the document has a
    directory of attachments.  Filling the directory computes the statistics. *)
Definition set_hdr (s : rstate) (h : fheader) : rstate := mkR (r_op s) h (r_dir s) (r_upd s) (r_att s) (r_stream s) (r_frame s) (r_policy s).
Definition set_dir (s : rstate) (d : list sbe) (u : updater) : rstate := mkR (r_op s) (r_hdr s) d u (r_att s) (r_stream s) (r_frame s) (r_policy s).
Definition set_att (s : rstate) (a : list attentry) : rstate := mkR (r_op s) (r_hdr s) (r_dir s) (r_upd s) a (r_stream s) (r_frame s) (r_policy s).
Definition rok {A} (s : rstate) (r : res A) (k : A -> rstate * res answer) : rstate * res answer :=
  match r with Ok a => k a | Throw => (s, Throw) | UB => (s, UB) | OutOfFuel => (s, OutOfFuel) end.
Definition reader_open (s : rstate) (strict : bool) (f : file) (o : ropts) : rstate * res answer :=
  if r_op s then (s, Throw)
  else
    rok s (read_file_header strict f) (fun h =>
    let s := set_hdr s h in
    rok s (let* es := read_directory strict (popts_of o) f (fh_dir h) in let* u := open_stats es in Ok (es, u)) (fun d =>
    let s := set_dir s (fst d) (snd d) in
    rok s (if fh_att h =? 0 then Ok (r_att s) else read_attdir strict f (fh_att h)) (fun a =>
    let s := set_att s a in
    (mkR true (r_hdr s) (r_dir s) (r_upd s) (r_att s) (Some (strict, f)) (default_frame (ro_frame o)) (ro_policy o), Ok ADone)))).

Definition meta_valid (p : Z) : bool := negb (p =? 2 ^ 64 - 1) && negb (p =? 0).
(** The requests other than Open and Close, as far as they depend on the members *)
Definition query (s : rstate) (q : rop) : res answer :=
  match q with
  | ROpen _ _ _ | RClose => Throw
  | RHeader => Ok (AHeader (fh_guid (r_hdr s)))                                            (* l.83-90 *)
  | RMeta => if meta_valid (fh_meta (r_hdr s)) then                                        (* l.92-101, l.428-445 *)
               match r_stream s with Some (strict, f) => let* x := read_metadata strict f (fh_meta (r_hdr s)) in Ok (AMeta x) | None => Throw end
             else Throw
  | RStats => Ok (AStats (get_stats (r_upd s)))                                            (* l.103-108 *)
  | RPyr => Ok (APyr (fst (get_pyr (r_upd s))))                                            (* l.110-114 *)
  | RTransform fr p dst => let* x := transform_point (r_frame s) (st_box0 (get_stats (r_upd s))) fr p dst in Ok (APoint x)
  | RSubs => Ok (ASubs (from 0 (map rinfo_of (r_dir s))))                                  (* l.168-176 *)
  | RSubset p roi only0 => Ok (ASubset (enum_subset p roi only0 (fun _ _ => true) 0 (map sbinfo_of (r_dir s))))   (* l.197-201 *)
  | RBlock k => let* e := at_index (r_dir s) k in                                          (* l.203-213 *)
                match e with None => Ok (ABlock None) | Some e => let* b := read_block (r_policy s) (r_stream s) e in Ok (ABlock (Some b)) end
  | RChannel c => Ok (AInfo (in_channel (get_stats (r_upd s)) (r_dir s) c))                (* l.215-219 *)
  | RInfo k => let* e := at_index (r_dir s) k in Ok (AInfo (option_map rinfo_of e))        (* l.221-235 *)
  | RAccessor => Ok ADone                                                                  (* l.237-241 *)
  | RAttCount => Ok (ACount (Z.of_nat (length (r_att s))))                                 (* l.256-260 *)
  | RAttInfo k => let* e := at_index (r_att s) k in                                        (* l.262-281 *)
                  match e with None => Ok (AAttInfo None) | Some e => let* i := ainfo_of e in Ok (AAttInfo (Some i)) end
  | RAtts => let* l := all_atts (r_att s) in Ok (AAtts l)
  | RAttSubset t n => let* l := att_subset t n (fun _ _ => true) 0 (r_att s) in Ok (AAtts l)   (* l.300-308 *)
  | RAtt k => let* e := at_index (r_att s) k in                                            (* l.310-320, l.405-426 *)
              match e, r_stream s with
              | None, _ => Ok (AAtt None)
              | Some e, Some (strict, f) => let* b := read_attachment strict f (ae_pos e) in let* i := ainfo_of e in Ok (AAtt (Some (i, b)))
              | Some _, None => Throw
              end
  end.
(** TransformPoint (l.116) and TryGetSubBlockInfo (l.221) lack ThrowIfNotOperational *)
Definition unchecked (q : rop) : bool := match q with RTransform _ _ _ | RInfo _ => true | _ => false end.
Definition rstep (s : rstate) (q : rop) : rstate * res answer :=
  match q with
  | ROpen strict f o => reader_open s strict f o
  | RClose => if r_op s then (mkR false (r_hdr s) (r_dir s) (r_upd s) (r_att s) None (r_frame s) (r_policy s), Ok ADone) else (s, Throw)   (* l.243-254 *)
  | _ => if r_op s || unchecked q then (s, query s q) else (s, Throw)
  end.
Fixpoint rrun (s : rstate) (qs : list rop) : rstate * list (res answer) :=
  match qs with
  | [] => (s, [])
  | q :: qs' => let (s1, a) := rstep s q in let (s2, l) := rrun s1 qs' in (s2, a :: l)
  end.
