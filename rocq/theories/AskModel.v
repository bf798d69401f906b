(** Asking and reading in the middle of an editing session (CCziReaderWriter, CziReaderWriter.cpp). *)
From Verif Require Import Base StatModel CodecModel WriterModel EditModel ReaderModel.
Open Scope Z_scope.

(** Entries visited until the callback stops *)
Fixpoint visit {A B} (f : A -> res (option B)) (go : Z -> B -> bool) (l : list (Z * A)) : res (list (Z * B)) :=
  match l with
  | [] => Ok []
  | (k, x) :: l' =>
      let* r := f x in
      match r with
      | None => visit f go l'
      | Some i => if go k i then let* s := visit f go l' in Ok ((k, i) :: s) else Ok [(k, i)]
      end
  end.

(** EnumerateSubBlocks (l.645-653), CReaderWriterCziSubBlockDirectory::EnumEntries (CziSubBlockDirectory.cpp l.627-639) *)
Definition ask_subs (go : Z -> rinfo -> bool) (s : ed) : res (list (Z * rinfo)) := visit (fun e => Ok (Some (rinfo_of e))) go (ed_sb s).
(** TryGetSubBlockInfo (l.686-701), TryGetSubBlock (CziSubBlockDirectory.cpp l.641-655) *)
Definition ask_sub (s : ed) (k : Z) : option rinfo := option_map rinfo_of (afind k (ed_sb s)).
(** ReadSubBlock (l.661-684): the information is that of the segment; data, attachment and metadata *)
Definition ask_read (strict : bool) (s : ed) (k : Z) : res (option (rinfo * (bytes * bytes * bytes))) :=
  match afind k (ed_sb s) with
  | None => Ok None
  | Some e => let* d := read_subblock strict (ed_f s) (e_pos e) in Ok (Some (rinfo_of (sd_info d), (sd_data d, sd_att d, sd_meta d)))
  end.

(** GetAttachmentCount (l.773-777) *)
Definition ask_count (s : ed) : Z := s32 (Z.of_nat (length (ed_at s))).
(** AttachmentInfo made from an entry; [b]: the ninth byte of the type, a NUL unless it is not set *)
Definition info9 (b : byte) (e : attentry) : res ainfo := let* n := c_string (ae_name e) in Ok (ae_guid e, ae_type e ++ [b], n).
(** TryGetAttachmentInfo (l.779-798); its memcpy takes nine bytes from an array of eight, the first of the name behind it; a NUL replaces
    it at once *)
Definition ask_att (s : ed) (k : Z) : res (option ainfo) :=
  match afind k (ed_at s) with None => Ok None | Some e => let* i := info9 0 e in Ok (Some i) end.
(** EnumerateAttachments (l.800-813): nothing is put into the ninth byte, [junk] is there *)
Definition ask_atts (junk : byte) (go : Z -> ainfo -> bool) (s : ed) : res (list (Z * ainfo)) :=
  visit (fun e => let* i := info9 junk e in Ok (Some i)) go (ed_at s).
(** EnumerateSubset (l.815-823, CziReaderCommon.cpp l.85-110) *)
Definition ask_subset (t n : option bytes) (go : Z -> ainfo -> bool) (s : ed) : res (list (Z * ainfo)) :=
  visit (fun e =>
    let* a := opt_match t (ae_type e) in
    let* b := (if (a : bool) then opt_match n (ae_name e) else Ok false) in
    if (b : bool) then let* i := info9 0 e in Ok (Some i) else Ok None) go (ed_at s).
(** ReadAttachment (l.825-835, l.932-945) *)
Definition ask_data (strict : bool) (s : ed) (k : Z) : res (option (ainfo * bytes)) :=
  match afind k (ed_at s) with
  | None => Ok None
  | Some e => let* d := read_attachment strict (ed_f s) (ae_pos e) in let* i := info9 0 e in Ok (Some (i, d))
  end.
(** ReadMetadataSegment (l.232-245): nothing without metadata *)
Definition ask_meta (strict : bool) (s : ed) : res (option (bytes * bytes)) :=
  match ed_meta s with None => Ok None | Some g => let* x := read_metadata strict (ed_f s) (sg_pos g) in Ok (Some x) end.
