(** Property C116: the same file on hosts of either byte order. *)
From Coq Require Import String.
From Verif Require Import Base HostModel HostSpec HostProofs4.
Open Scope Z_scope.

(** Every structure: what a big-endian host has in memory is written little-endian, what is in a file gets into the order of the host. *)
Theorem C116_structures : forall l ms vs, In (l, ms) structures -> fits l vs ->
  convert Big 0 l ms (image Big l vs) = image Little l vs /\ convert Big 0 l ms (image Little l vs) = image Big l vs /\
  convert Little 0 l ms (image Little l vs) = image Little l vs.
Proof. exact structures_both. Qed.
Print Assumptions C116_structures.
Example C116_structures_ex : convert Big 0 (guid "FileGuid") (guid_members "FileGuid") (image Big (guid "FileGuid") ex_guid) =
  [0x78; 0x56; 0x34; 0x12; 0xbc; 0x9a; 0xf0; 0xde; 1; 2; 3; 4; 5; 6; 7; 8].
Proof. vm_compute. reflexivity. Qed.

(** Every number which is read from whatever bytes is the little-endian number at its place. *)
Theorem C116_members : forall h l ms nm n file, In (l, ms) structures -> In (nm, Int n) l -> Forall is_byte file -> (size l <= List.length file)%nat ->
  exists o, place l nm = Some (o, n) /\ read_member h l ms nm file = unle (part file o n).
Proof. exact members_read. Qed.
Print Assumptions C116_members.
Example C116_members_ex : read_member Big segment_header m_header "UsedSize" (repeat 90 16 ++ le 8 4096 ++ le 8 77) = 77.
Proof. vm_compute. reflexivity. Qed.

(** Directories with any number of entries and dimensions, and sub-blocks, are the same bytes from either host. *)
Theorem C116_written : forall h,
  (forall vs es, is_directory vs es -> convert_directory h (directory_image h vs es) = directory_image Little vs es) /\
  (forall vs e post, fits subblock_segment vs -> entry_ok e -> convert_subblock h (subblock_image h vs e ++ post) = subblock_image Little vs e ++ post).
Proof. exact written_both. Qed.
Print Assumptions C116_written.
Example C116_written_ex : is_directory ex_dir [ex_entry; ex_entry2] /\ fits subblock_segment ex_seg /\ List.length (directory_image Big ex_dir [ex_entry; ex_entry2]) = 324%nat.
Proof. split; [exact ex_dir_ok|]. split; [exact ex_seg_ok|]. vm_compute. reflexivity. Qed.

(** What was written is found, by either host. *)
Theorem C116_found : forall h es post, Forall entry_ok es -> Forall (fun e => (List.length (e_dims e) <= 40)%nat) es -> Forall is_byte post ->
  parse_entries h (List.length es) (flat_map (entry_image Little) es ++ post) = Ok (map told es).
Proof. exact parse_found. Qed.
Print Assumptions C116_found.
Example C116_found_ex : entry_ok ex_entry /\ entry_ok ex_entry2 /\ map (fun '(a, b, c, _, ds) => (a, b, c, map (fun '(_, s, _, _) => s) ds)) (map told [ex_entry; ex_entry2]) =
  [(1, 0x123456789a, 6, [-6; 7; 1]); (3, 4096, 0, [-6; 7])].
Proof. split; [exact ex_entry_ok|]. split; [exact ex_entry2_ok|]. vm_compute. reflexivity. Qed.

(** Whatever the bytes: both hosts find the same, refuse the same. *)
Theorem C116_any : forall k bs, Forall is_byte bs -> parse_entries Big k bs = parse_entries Little k bs.
Proof. exact HostProofs3.parse_same. Qed.
Print Assumptions C116_any.
Example C116_any_ex : parse_entries Big 1 ([68; 86] ++ repeat 0 29) = Throw /\ parse_entries Big 1 ([68; 86] ++ repeat 0 26 ++ [0; 1; 0; 0] ++ repeat 0 20) = Throw.
Proof. split; vm_compute; reflexivity. Qed.

(** Pixel type and compression of a sub-block: the same, except for the old schema, ... *)
Theorem C116_types_partial : forall file, Forall is_byte file -> (80 <= List.length file)%nat -> part file 48 2 <> [68; 69] -> subblock_types Big file = subblock_types Little file.
Proof. exact HostProofs3.types_same. Qed.
Print Assumptions C116_types_partial.
Example C116_types_ex : subblock_types Big (image Little subblock_segment ex_seg ++ entry_image Little ex_entry) = Some (1, 6).
Proof. vm_compute. reflexivity. Qed.
(** ... where they are read in the wrong order. *)
Theorem C116_types_refuted : exists file, Forall is_byte file /\ List.length file = 176%nat /\ subblock_types Little file = Some (1, 0) /\ subblock_types Big file = Some (16777216, 0).
Proof. exact types_refuted. Qed.
Print Assumptions C116_types_refuted.

(** The GUID of an edited document: right when it is created, and in the end if it was read; ... *)
Theorem C116_guid_partial : forall vs, fits (guid "FileGuid") vs ->
  (forall h, fst (rw_create h (image h (guid "FileGuid") vs)) = image Little (guid "FileGuid") vs) /\
  rw_close Little (snd (rw_create Little (image Little (guid "FileGuid") vs))) = image Little (guid "FileGuid") vs /\
  (forall h, rw_close h (image h (guid "FileGuid") vs) = image Little (guid "FileGuid") vs).
Proof. exact guid_partial. Qed.
Print Assumptions C116_guid_partial.
Example C116_guid_ex : fits (guid "FileGuid") ex_guid /\ rw_close Big (image Big (guid "FileGuid") ex_guid) =
  [0x78; 0x56; 0x34; 0x12; 0xbc; 0x9a; 0xf0; 0xde; 1; 2; 3; 4; 5; 6; 7; 8].
Proof. split; [exact ex_guid_ok|vm_compute; reflexivity]. Qed.
(** ... of a document which was created or given a GUID the converted one is remembered, and converted again. *)
Theorem C116_guid_refuted : exists vs, fits (guid "FileGuid") vs /\
  let g := image Big (guid "FileGuid") vs in rw_close Big (snd (rw_create Big g)) = g /\ g <> image Little (guid "FileGuid") vs.
Proof. exact guid_refuted. Qed.
Print Assumptions C116_guid_refuted.

(** Pixels: uncompressed ones of sixteen bits are read right, packed ones read and written, hashes agree; ... *)
Theorem C116_pixels_partial : forall h p,
  (sixteen p = true -> forall data, whole data -> exists mem, read_uncompressed h p data = Ok mem /\ samples h mem = samples Little data) /\
  (agnostic p = true -> forall data, read_uncompressed h p data = Ok data /\ hashed h p data = Ok data) /\
  (forall vs, words_ok vs -> let packed := map (fun v => v mod 256) vs ++ map (fun v => v / 256) vs in
    samples h (read_packed h packed) = vs /\ write_packed h (of_samples h vs) = packed) /\
  (sixteen p = true -> forall vs, words_ok vs -> hashed h p (of_samples h vs) = Ok (of_samples Little vs)).
Proof. exact pixels_partial. Qed.
Print Assumptions C116_pixels_partial.
Example C116_pixels_ex : read_uncompressed Big Gray16 [2; 1; 3; 0] = Ok [1; 2; 0; 3] /\ samples Big [1; 2; 0; 3] = [258; 3] /\ read_packed Big [2; 3; 1; 0] = [1; 2; 0; 3].
Proof. repeat split; vm_compute; reflexivity. Qed.
(** ... compressed without packing they are read in the wrong order, uncompressed written so, and floats refused. *)
Theorem C116_pixels_refuted : exists vs, words_ok vs /\
  (exists mem, read_zstd0 Big Gray16 (of_samples Little vs) = Ok mem /\ samples Big mem <> vs) /\
  write_uncompressed Big (of_samples Big vs) <> of_samples Little vs /\
  (forall data, read_uncompressed Big Gray32Float data = Throw) /\ (forall mem, hashed Big Gray32Float mem = Throw).
Proof. exact pixels_refuted. Qed.
Print Assumptions C116_pixels_refuted.
