(** Property C118: files which are created, refused, replaced, changed and read through the streams made for names. *)
From Verif Require Import Base FileModel FileSpec FileProofs FileLife FileExamples.
Open Scope Z_scope.

(** Full statement of C118: a stream for writing made without "overwrite" never touches a file which exists; what is written through a
    stream is in the file at the positions told when the stream is gone, and nothing else has changed; a stream for changing a file reads and writes
    that file; writing or reading less than asked for is told; streams keep exactly one descriptor as long as they live. *)

(** A file which exists is left alone and the creation fails; with the C runtime the file must be readable and be there from the start. *)
Theorem C118_refused_partial : forall a w n d between allow, content w n = Some d -> (a = CRuntime -> readable w n) ->
  step w (MakeOut a n false between allow) = Ok (w, RThrow).
Proof. exact refused. Qed.
Print Assumptions C118_refused_partial.
Example C118_refused_ex : content (with_file true true) 7 = Some three /\ readable (with_file true true) 7 /\ step (with_file true true) (MakeOut Posix 7 false [] true) = Ok (with_file true true, RThrow).
Proof. exact ex_refused. Qed.

(** false: with the C runtime a file which may be written but not read is emptied, and so is one which appears between the look and the creation *)
Theorem C118_refused_refuted :
  (content (with_file false true) 7 = Some three /\ exists w, step (with_file false true) (MakeOut CRuntime 7 false [] true) = Ok (w, RStream 0) /\ content w 7 = Some []) /\
  (content (others no_file [OPut 7 (mkFile three true true)]) 7 = Some three /\
   exists w, step no_file (MakeOut CRuntime 7 false [OPut 7 (mkFile three true true)] true) = Ok (w, RStream 0) /\ content w 7 = Some []).
Proof. exact overwritten. Qed.
Print Assumptions C118_refused_refuted.

(** Otherwise the creation succeeds if the system permits. *)
Theorem C118_made : forall a w n ow, sound w -> content w n = None \/ (ow = true /\ writable w n) -> exists w1 s, step w (MakeOut a n ow [] true) = Ok (w1, RStream s).
Proof. exact made. Qed.
Print Assumptions C118_made.

(** Whatever is written, in whatever order and at whatever positions: the file holds exactly that (zeros between) when the stream is gone, every call
    tells that everything was written, and no other file changes.  Missing: more bytes in one call than the system transfers *)
Theorem C118_written_partial : forall a w n ow w1 s l, sound w -> step w (MakeOut a n ow [] true) = Ok (w1, RStream s) -> Forall (fits a) l -> Forall is_write l ->
  exists w2 rs d, run w1 (map (call s) l ++ [Destroy s Fine]) = Ok (w2, rs ++ [RDone]) /\ content w2 n = Some d /\ accessed [] l rs d /\
    forall m, separate w m n -> content w2 m = content w m.
Proof. exact written_out. Qed.
Print Assumptions C118_written_partial.
Example C118_written_ex : exists w1 w2, step (with_file true true) (MakeOut CRuntime 7 true [] true) = Ok (w1, RStream 0) /\
  run w1 [Write 0 2 [9; 8] Fine; Write 0 0 [5] Fine; Destroy 0 Fine] = Ok (w2, [RCount 2; RCount 1; RDone]) /\ content w2 7 = Some [5; 0; 9; 8].
Proof. exact ex_written. Qed.

(** Reads and writes through a stream for changing a file, in whatever order: reads see what was there before and what was written since. *)
Theorem C118_edited_partial : forall a w n old w1 s l, a <> CRuntime -> sound w -> content w n = Some old -> step w (MakeInOut a n true) = Ok (w1, RStream s) ->
  Forall (fits a) l -> Forall (reads_inside a (Z.of_nat (length old))) l ->
  exists w2 rs d, run w1 (map (call s) l ++ [Destroy s Fine]) = Ok (w2, rs ++ [RDone]) /\ content w2 n = Some d /\ accessed old l rs d /\
    forall m, separate w m n -> content w2 m = content w m.
Proof. exact edited. Qed.
Print Assumptions C118_edited_partial.
Example C118_edited_ex : exists w1 w2, step (with_file true true) (MakeInOut Posix 7 true) = Ok (w1, RStream 0) /\
  run w1 [Read 0 1 9 Fine; Write 0 2 [9; 8] Fine; Read 0 0 4 Fine; Destroy 0 Fine] = Ok (w2, [RBytes [2; 3]; RCount 2; RBytes [1; 2; 9; 8]; RDone]) /\ content w2 7 = Some [1; 2; 9; 8].
Proof. exact ex_edited. Qed.

(** false: with the C runtime the stream for changing a file cannot write, ever *)
Theorem C118_edit_refuted : forall w n w1 s, step w (MakeInOut CRuntime n true) = Ok (w1, RStream s) ->
  forall off x o, 0 <= off <= 9223372036854775807 -> step w1 (Write s off x o) = Ok (w1, RCount 0) /\ (x <> [] -> write_all w1 s off x o = Ok (w1, false)).
Proof. exact not_edited. Qed.
Print Assumptions C118_edit_refuted.
Example C118_edit_ex : exists w1, step (with_file true true) (MakeInOut CRuntime 7 true) = Ok (w1, RStream 0).
Proof. exact ex_not_edited. Qed.

(** false: to change a file which is not there fails on Windows and with the C runtime, but makes an empty file with pwrite *)
Theorem C118_missing_refuted : forall w n, content w n = None -> sound w ->
  (exists w1 s, step w (MakeInOut Posix n true) = Ok (w1, RStream s) /\ content w1 n = Some []) /\
  (forall a, a <> Posix -> step w (MakeInOut a n true) = Ok (w, RThrow)).
Proof. exact missing. Qed.
Print Assumptions C118_missing_refuted.

(** A stream for reading delivers what is in the file and changes no file. *)
Theorem C118_read_partial : forall a w n w1 s l, sound w -> step w (MakeIn a n true) = Ok (w1, RStream s) -> Forall (fits a) l -> Forall is_read l ->
  exists d, content w n = Some d /\ (Forall (reads_inside a (Z.of_nat (length d))) l ->
    exists w2 rs, run w1 (map (call s) l ++ [Destroy s Fine]) = Ok (w2, rs ++ [RDone]) /\ accessed d l rs d /\ forall m, m = n \/ separate w m n -> content w2 m = content w m).
Proof. exact read_in. Qed.
Print Assumptions C118_read_partial.
Example C118_read_ex : exists w1, step (with_file true false) (MakeIn Posix 7 true) = Ok (w1, RStream 0) /\ step w1 (Read 0 1 2 Fine) = Ok (w1, RBytes [2; 3]).
Proof. exact ex_read. Qed.

(** false: more than 2147479552 bytes are neither read nor written by one call on Linux, although they are there; the caller is told how many it was,
    and the writer of documents fails *)
Theorem C118_large_refuted :
  (forall w n d w1 s, sound w -> content w n = Some d -> 2147479552 < Z.of_nat (length d) -> step w (MakeIn Posix n true) = Ok (w1, RStream s) ->
    exists x, step w1 (Read s 0 (Z.of_nat (length d)) Fine) = Ok (w1, RBytes x) /\ Z.of_nat (length x) = 2147479552) /\
  (forall w n ow w1 s x, sound w -> 2147479552 < Z.of_nat (length x) <= 9223372036854775807 -> step w (MakeOut Posix n ow [] true) = Ok (w1, RStream s) ->
    exists w2, write_all w1 s 0 x Fine = Ok (w2, false) /\ stored w1 s 0 (firstn (Z.to_nat 2147479552) x) w2).
Proof. exact (conj large_read large_write). Qed.
Print Assumptions C118_large_refuted.
Example C118_large_ex : sound big /\ exists d, content big 7 = Some d /\ Z.of_nat (length d) = 2147479553 /\ exists w1, step big (MakeIn Posix 7 true) = Ok (w1, RStream 0).
Proof. exact ex_big. Qed.

(** Whatever the system does: either nothing was written and the call throws, or the number of bytes told are in the file (not with the C runtime). *)
Theorem C118_short_partial : forall w s x off d o w' r, live w s x -> s_api x <> CRuntime -> 0 <= off -> step w (Write s off d o) = Ok (w', r) ->
  (r = RThrow /\ w' = w) \/ exists k, r = RCount k /\ (k <= length d)%nat /\ stored w s off (firstn k d) w'.
Proof. exact short_write. Qed.
Print Assumptions C118_short_partial.

(** Whatever the system does: if the writer of documents goes on, everything is in the file (not with the C runtime). *)
Theorem C118_reported_partial : forall w s x off d o w', live w s x -> s_api x <> CRuntime -> 0 <= off -> write_all w s off d o = Ok (w', true) -> stored w s off d w'.
Proof. exact reported. Qed.
Print Assumptions C118_reported_partial.
Example C118_reported_ex : exists w1 w2, step no_file (MakeOut Posix 7 false [] true) = Ok (w1, RStream 0) /\ write_all w1 0 0 three Fine = Ok (w2, true) /\ content w2 7 = Some three /\
  (exists w3, step w1 (Write 0 0 three (Cut 2)) = Ok (w3, RCount 2) /\ content w3 7 = Some [1; 2]) /\ step w1 (Write 0 0 three Fail) = Ok (w1, RThrow).
Proof. exact ex_reported. Qed.

(** false: with the C runtime what was told to be written may still be lost when the stream is destroyed, which tells nothing *)
Theorem C118_lost_refuted : exists w1 w2 w3, step no_file (MakeOut CRuntime 7 false [] true) = Ok (w1, RStream 0) /\ write_all w1 0 0 three Fine = Ok (w2, true) /\
  step w2 (Destroy 0 Fail) = Ok (w3, RDone) /\ content w3 7 = Some [].
Proof. exact lost. Qed.
Print Assumptions C118_lost_refuted.

(** Whatever the system does: what is read is a beginning of what is there, and reading changes nothing (not with the C runtime). *)
Theorem C118_short_read_partial : forall w s x off size o w' y, live w s x -> s_api x <> CRuntime -> 0 <= off -> 0 <= size -> step w (Read s off size o) = Ok (w', RBytes y) ->
  w' = w /\ exists i f z, file_of w s i /\ nth_error (w_files w) i = Some f /\ available (f_data f) off size (y ++ z).
Proof. exact short_read. Qed.
Print Assumptions C118_short_read_partial.

(** After any calls whatsoever (failing ones, and other processes, included) the descriptors in use are those of before and one for every stream which lives, if
    descriptor 0 was in use before. *)
Theorem C118_descriptors_partial : forall w0 ops w rs, begins w0 -> run w0 ops = Ok (w, rs) ->
  (forall k, taken w k <-> taken w0 k \/ exists s x, live w s x /\ s_fd x = k) /\ (forall s x, live w s x -> exists i, file_of w s i /\ (i < length (w_files w))%nat).
Proof. exact descriptors. Qed.
Print Assumptions C118_descriptors_partial.
Example C118_descriptors_ex : begins (with_file true true) /\ exists w, run (with_file true true) [MakeIn Posix 7 true; MakeOut CRuntime 8 false [] true; Destroy 0 Fine; MakeIn Windows 7 true] = Ok (w, [RStream 0; RStream 1; RDone; RStream 2]) /\
  taken w 3 /\ taken w 4 /\ ~ taken w 5.
Proof. exact ex_begins. Qed.

(** false: in a process without standard input descriptor 0 is given to a stream and never closed with pread and pwrite *)
Theorem C118_descriptors_refuted : sound no_input /\ exists w1 w2, run no_input [MakeIn Posix 7 true; Destroy 0 Fine] = Ok (w1, [RStream 0; RDone]) /\ taken w1 0 /\ ~ taken no_input 0 /\ (forall s x, ~ live w1 s x) /\
  run w1 [MakeIn CRuntime 7 true; Destroy 1 Fine] = Ok (w2, [RStream 1; RDone]) /\ ~ taken w2 1.
Proof. exact leak. Qed.
Print Assumptions C118_descriptors_refuted.
