(** What a structure in memory and in a file is: the members one after the other, integers in the order of the host, little-endian in the file. *)
From Coq Require Import String.
From Verif Require Import Base HostModel.
Open Scope Z_scope.

Inductive val := VChars (bs : bytes) | VInt (v : Z) | VReal (bs : bytes).
(** a value of a member; for floats the bytes as they stand in a file *)
Definition fits1 (p : piece) (v : val) : Prop :=
  match p, v with
  | Chars n, VChars bs => List.length bs = n /\ Forall is_byte bs
  | Int n, VInt z => 0 <= z < 256 ^ Z.of_nat n
  | Real, VReal bs => List.length bs = 4%nat /\ Forall is_byte bs
  | _, _ => False
  end.
Definition fits (l : layout) (vs : list val) : Prop := Forall2 (fun f v => fits1 (snd f) v) l vs.
Definition image1 (h : host) (p : piece) (v : val) : bytes :=
  match v with VChars bs => bs | VInt z => store h (psize p) z | VReal bs => match h with Little => bs | Big => rev bs end end.
Fixpoint image (h : host) (l : layout) (vs : list val) : bytes :=
  match l, vs with (_, p) :: l', v :: vs' => image1 h p v ++ image h l' vs' | _, _ => [] end.
(** every structure without floats, and its members which get converted *)
Definition structures : list (layout * list string) :=
  [(segment_header, m_header); (file_header_data, m_file_header_data); (file_header_segment, m_file_header_segment);
   (entry_dv, m_entry_dv); (entry_de, m_entry_de); (attachment_entry, m_attachment_entry); (attachment_segment, m_attachment_segment);
   (attachment_directory_segment, m_attachment_directory); (subblock_directory_segment, m_subblock_directory); (metadata_segment, m_metadata);
   (subblock_segment, m_subblock); (guid "FileGuid", guid_members "FileGuid")].
(** a dimension as it is written: the coordinate is zero *)
Record dim := mkdim { d_name : bytes; d_start : Z; d_size : Z; d_stored : Z }.
Definition dim_vals (d : dim) : list val := [VChars (d_name d); VInt (d_start d); VInt (d_size d); VReal [0; 0; 0; 0]; VInt (d_stored d)].
Definition dim_ok (d : dim) : Prop := fits dimension_entry (dim_vals d).
Definition dims_image (h : host) (ds : list dim) : bytes := flat_map (fun d => image h dimension_entry (dim_vals d)) ds.
(** an entry: its members and its dimensions *)
Record entry := mkentry { e_pixel : Z; e_position : Z; e_part : Z; e_compression : Z; e_spare : bytes; e_dims : list dim }.
Definition entry_vals (e : entry) : list val :=
  [VChars [68; 86]; VInt (e_pixel e); VInt (e_position e); VInt (e_part e); VInt (e_compression e); VChars (e_spare e); VInt (Z.of_nat (List.length (e_dims e)))].
Definition entry_ok (e : entry) : Prop := fits entry_dv (entry_vals e) /\ Forall dim_ok (e_dims e).
Definition entry_image (h : host) (e : entry) : bytes := image h entry_dv (entry_vals e) ++ dims_image h (e_dims e).
(** a directory: header, number of entries, entries *)
Definition directory_vals (id : bytes) (allocated used : Z) (spare : bytes) (es : list entry) : list val :=
  [VChars id; VInt allocated; VInt used; VInt (Z.of_nat (List.length es)); VChars spare].
Definition directory_image (h : host) (vs : list val) (es : list entry) : bytes := image h subblock_directory_segment vs ++ flat_map (entry_image h) es.
Definition is_directory (vs : list val) (es : list entry) : Prop :=
  fits subblock_directory_segment vs /\ nth_error vs 3 = Some (VInt (Z.of_nat (List.length es))) /\ Forall entry_ok es.
Definition subblock_image (h : host) (vs : list val) (e : entry) : bytes := image h subblock_segment vs ++ entry_image h e.
(** what is told of an entry *)
Definition dim_told (d : dim) : dim_info := (d_name d, s32 (d_start d), s32 (d_size d), s32 (d_stored d)).
Definition told (e : entry) : entry_info :=
  (s32 (e_pixel e), s64 (e_position e), s32 (e_compression e), firstn 1 (e_spare e), map dim_told (e_dims e)).
(** the values of the samples of a line *)
Fixpoint samples (h : host) (mem : bytes) : list Z := match mem with a :: b :: r => load h [a; b] :: samples h r | _ => [] end.
Definition whole (mem : bytes) : Prop := Nat.Even (List.length mem) /\ Forall is_byte mem.
Definition of_samples (h : host) (vs : list Z) : bytes := flat_map (store h 2) vs.
Definition sixteen (p : pixel) : bool := match p with Gray16 | Bgr48 => true | _ => false end.
Definition words_ok (vs : list Z) : Prop := Forall (fun v => 0 <= v < 65536) vs.
