(** Vocabulary for statements about the in-place editor: what a document
    contains, when a file is a sound document, and what the calls mean.
    Independent of how the editor works. *)
From Verif Require Import Base CodecModel CodecProofs WriterModel WriterSpec StatSpec EditModel.

(** What a user has in mind: sub-blocks and attachments by key, metadata. *)
Record doc := mkDoc {
  d_subs : list (Z * observed); d_subn : Z;
  d_atts : list (Z * attinfo); d_attn : Z;
  d_meta : option (bytes * bytes) }.

Definition lookup {A} (k : Z) (l : list (Z * A)) : option (Z * A) := find (fun x => fst x =? k) l.
Definition assign {A} (k : Z) (v : A) (l : list (Z * A)) : list (Z * A) := map (fun x => if fst x =? k then (k, v) else x) l.
Definition discard {A} (k : Z) (l : list (Z * A)) : list (Z * A) := filter (fun x => negb (fst x =? k)) l.

Definition opt_eq_dec (a b : option Z) : {a = b} + {a <> b}.
Proof. decide equality. apply Z.eq_dec. Defined.
(** Two full-resolution sub-blocks with the same coordinate and M-index. *)
Definition same_spot (a b : sbe) : bool :=
  (if list_eq_dec opt_eq_dec (e_coord a) (e_coord b) then true else false)
  && (e_m a =? e_m b) && negb (e_m a =? INT_MIN) && layer0 a && layer0 b.
(** A C string in an array. *)
Fixpoint cstring (bs : bytes) : bytes := match bs with [] => [] | b :: bs' => if b =? 0 then [] else b :: cstring bs' end.
Definition same_attachment (a b : attinfo) : bool :=
  eqbytes (at_guid a) (at_guid b) && eqbytes (cstring (at_name a)) (cstring (at_name b))
  && eqbytes (cstring (at_type a)) (cstring (at_type b)).

(** The meaning of a call: new contents, and whether it is accepted. *)
Definition dstep (d : doc) (o : eop) : doc * bool :=
  match o with
  | EAdd a =>
      if sub_args_ok a && negb (existsb (fun v => same_spot (ob_entry (snd v)) (ob_entry (expected a))) (d_subs d))
      then (mkDoc (d_subs d ++ [(d_subn d, expected a)]) (d_subn d + 1) (d_atts d) (d_attn d) (d_meta d), true)
      else (d, false)
  | EReplace k a =>
      match lookup k (d_subs d) with
      | Some _ => (mkDoc (assign k (expected a) (d_subs d)) (d_subn d) (d_atts d) (d_attn d) (d_meta d), true)
      | None => (d, false)
      end
  | ERemove k =>
      match lookup k (d_subs d) with
      | Some _ => (mkDoc (discard k (d_subs d)) (d_subn d) (d_atts d) (d_attn d) (d_meta d), true)
      | None => (d, false)
      end
  | EAddAtt a =>
      if existsb (fun v => same_attachment (snd v) a) (d_atts d) then (d, false)
      else (mkDoc (d_subs d) (d_subn d) (d_atts d ++ [(d_attn d, a)]) (d_attn d + 1) (d_meta d), true)
  | EReplaceAtt k a =>
      match lookup k (d_atts d) with
      | Some _ => (mkDoc (d_subs d) (d_subn d) (assign k a (d_atts d)) (d_attn d) (d_meta d), true)
      | None => (d, false)
      end
  | ERemoveAtt k =>
      match lookup k (d_atts d) with
      | Some _ => (mkDoc (d_subs d) (d_subn d) (discard k (d_atts d)) (d_attn d) (d_meta d), true)
      | None => (d, false)
      end
  | EMeta xml att => (mkDoc (d_subs d) (d_subn d) (d_atts d) (d_attn d) (Some (xml, att)), true)
  end.
Fixpoint drun (d : doc) (os : list eop) : doc * list bool :=
  match os with
  | [] => (d, [])
  | o :: os' => let (d1, b) := dstep d o in let (d2, bs) := drun d1 os' in (d2, b :: bs)
  end.
Definition outcome (b : bool) : res unit := if b then Ok tt else Throw.

(** Opening a document numbers its parts from 0, and cuts names to 79
    characters. *)
Definition cut_name (a : attinfo) : attinfo := mkAtt (at_guid a) (at_type a) (upd (at_name a) 79 0) (at_data a).
Fixpoint number {A} (k : Z) (l : list A) : list (Z * A) := match l with [] => [] | x :: l' => (k, x) :: number (k + 1) l' end.
Definition reopened (d : doc) : doc :=
  mkDoc (number 0 (map snd (d_subs d))) (Z.of_nat (length (d_subs d)))
        (number 0 (map (fun v => cut_name (snd v)) (d_atts d))) (Z.of_nat (length (d_atts d))) (d_meta d).
Definition no_doc : doc := mkDoc [] 0 [] 0 None.

(** The allocated size recorded in the segment at [p], and its end. *)
Definition alloc_at (f : file) (p : Z) : Z := s64 (unle (mread (f_mem f) (p + 16) 8)).
Definition seg_stop (f : file) (p : Z) : Z := p + 32 + alloc_at f p.
Definition apart (f : file) (p q : Z) : Prop := seg_stop f p <= q \/ seg_stop f q <= p.

(** [P] depends on the segment at [p] only, which lies in the file, behind the
    file header. *)
Definition owned (f : file) (p : Z) (P : file -> Prop) : Prop :=
  544 <= p /\ 0 < alloc_at f p /\ alloc_at f p mod 32 = 0 /\ seg_stop f p <= f_size f
  /\ forall g, f_size f <= f_size g < 2 ^ 63 -> (forall i, p <= i < seg_stop f p -> f_mem g i = f_mem f i) -> P g.

Definition opt_pos (p : Z) : list Z := if p =? 0 then [] else [p].

(** The file is a sound document with header [h] and contents [d]: everything
    referenced is stored in pairwise disjoint segments and can be read. *)
Definition document_parts (strict : bool) (f : file) (h : fheader) (es : list sbe) (ats : list attentry) (d : doc) : Prop :=
  f_size f < 2 ^ 63 /\ read_file_header strict f = Ok h
  /\ owned f (fh_dir h) (fun g => read_directory strict popts_lax g (fh_dir h) = Ok es)
  /\ Forall2 (fun e v => sbe_wf e /\ owned f (e_pos e) (fun g => observe strict g e = Ok v)) es (map snd (d_subs d))
  /\ (if fh_att h =? 0 then ats = [] else owned f (fh_att h) (fun g => read_attdir strict g (fh_att h) = Ok ats))
  /\ Forall2 (fun e v => at_guid v = ae_guid e /\ at_type v = ae_type e /\ at_name v = ae_name e
                         /\ length (at_guid v) = 16%nat /\ length (at_type v) = 8%nat /\ length (at_name v) = 80%nat
                         /\ 256 + Z.of_nat (length (at_data v)) <= alloc_at f (ae_pos e)
                         /\ owned f (ae_pos e) (fun g => read_attachment strict g (ae_pos e) = Ok (at_data v)))
             ats (map snd (d_atts d))
  /\ (if fh_meta h =? 0 then d_meta d = None
      else exists x, d_meta d = Some x /\ owned f (fh_meta h) (fun g => read_metadata strict g (fh_meta h) = Ok x))
  /\ ForallOrdPairs (apart f) (map e_pos es ++ map ae_pos ats ++ opt_pos (fh_meta h) ++ [fh_dir h] ++ opt_pos (fh_att h)).
Definition document (strict : bool) (f : file) (h : fheader) (d : doc) : Prop :=
  exists es ats, document_parts strict f h es ats d.

(** Requests whose sources deliver what they announce and whose sizes can be
    represented (and read back). *)
Definition edit_ok (o : eop) : Prop :=
  match o with
  | EAdd a | EReplace _ a => request_ok INT_MAX (OpSub a None)
  | EAddAtt a | EReplaceAtt _ a => request_ok INT_MAX (OpAtt a) /\ Z.of_nat (length (at_data a)) <= INT_MAX
  | EMeta xml att => request_ok INT_MAX (OpMeta xml att)
  | ERemove _ | ERemoveAtt _ => True
  end.
Definition sub_op (o : eop) : bool := match o with EAdd _ | EReplace _ _ | ERemove _ => true | _ => false end.
Definition att_op (o : eop) : bool := match o with EAddAtt _ | EReplaceAtt _ _ | ERemoveAtt _ => true | _ => false end.

(** No attachment is replaced by a longer one. *)
Fixpoint no_growth (d : doc) (os : list eop) : Prop :=
  match os with
  | [] => True
  | o :: os' =>
      (match o with
       | EReplaceAtt k a => forall v, In (k, v) (d_atts d) -> (length (at_data a) <= length (at_data v))%nat
       | _ => True
       end) /\ no_growth (fst (dstep d o)) os'
  end.

(** Size of an encoded directory. *)
Definition count_some (c : coord) : Z := Z.of_nat (length (filter (fun o => match o with Some _ => true | None => false end) c)).
Definition entry_size (e : sbe) : Z := 32 + 20 * (2 + (if e_m e =? INT_MIN then 0 else 1) + count_some (e_coord e)).
Definition directory_size (d : doc) : Z := 128 + fold_right Z.add 0 (map (fun v => entry_size (ob_entry (snd v))) (d_subs d)).
Definition attdir_size (d : doc) : Z := 256 + 128 * Z.of_nat (length (d_atts d)).
(** Room for the attachment directory at its present place. *)
Definition att_room (f : file) (h : fheader) : Z := if fh_att h =? 0 then 0 else alloc_at f (fh_att h).

(** At Close, the attachment directory is not written, or fits its old place
    exactly, or has to be moved while the sub-block directory stays where it
    is. *)
Definition close_safe (f : file) (h : fheader) (d : doc) (os : list eop) : Prop :=
  let d' := fst (drun d os) in
  forallb (fun o => negb (att_op o)) os = true
  \/ attdir_size d' = att_room f h
  \/ (att_room f h < attdir_size d'
      /\ (forallb (fun o => negb (sub_op o)) os = true \/ (directory_size d' + 31) / 32 * 32 <= alloc_at f (fh_dir h))).

Definition counts_fit (d : doc) : Prop :=
  Z.of_nat (length (d_subs d)) <= INT_MAX /\ Z.of_nat (length (d_atts d)) <= INT_MAX.

(** What the reader shows of a file. *)
Definition shows (strict : bool) (f : file) (d : doc) (o : opened) : Prop :=
  open_file strict popts_lax f = Ok o
  /\ Forall2 (fun e v => observe strict f e = Ok (snd v)) (op_dir o) (d_subs d)
  /\ Forall2 (fun e v => ae_guid e = at_guid (snd v) /\ ae_type e = at_type (snd v) /\ ae_name e = at_name (snd v)
                         /\ read_attachment strict f (ae_pos e) = Ok (at_data (snd v))) (op_atts o) (d_atts d)
  /\ match d_meta d with None => op_metapos o = 0 | Some x => read_metadata strict f (op_metapos o) = Ok x end.
