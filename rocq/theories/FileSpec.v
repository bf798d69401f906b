(** What is expected of files. *)
From Verif Require Import Base FileModel.
Open Scope Z_scope.

(** what the file of a name holds; [None]: there is none *)
Definition content (w : world) (n : nat) : option bytes :=
  match w_names w n with Some i => option_map f_data (nth_error (w_files w) i) | None => None end.
(** names lead to files, descriptors as well *)
Definition sound (w : world) : Prop :=
  (forall n i, w_names w n = Some i -> (i < length (w_files w))%nat) /\
  (forall k d, nth_error (w_fds w) k = Some (Some d) -> (d_file d < length (w_files w))%nat).
(** two names of different files *)
Definition separate (w : world) (m n : nat) : Prop := m <> n /\ (w_names w m = None \/ w_names w m <> w_names w n).
(** a stream in use *)
Definition live (w : world) (s : nat) (x : stream) : Prop := nth_error (w_streams w) s = Some (Some x).
(** a number of the table of descriptors in use *)
Definition taken (w : world) (k : nat) : Prop := exists d, nth_error (w_fds w) k = Some (Some d).

(** [x] at position [off]: nothing else changes, what lies between is zero *)
Definition written (d : bytes) (off : Z) (x d' : bytes) : Prop :=
  Z.of_nat (length d') = (if (length x =? 0)%nat then Z.of_nat (length d) else Z.max (Z.of_nat (length d)) (off + Z.of_nat (length x))) /\
  forall k, nth k d' 0 = if (off <=? Z.of_nat k) && (Z.of_nat k <? off + Z.of_nat (length x)) then nth (k - Z.to_nat off) x 0 else nth k d 0.
(** what there is of [size] bytes from [off] on *)
Definition available (d : bytes) (off size : Z) (x : bytes) : Prop :=
  Z.of_nat (length x) = Z.max 0 (Z.min size (Z.of_nat (length d) - off)) /\
  forall k, (k < length x)%nat -> nth k x 0 = nth (Z.to_nat off + k) d 0.

(** calls of Write and Read and what they tell, on a file which holds [d] before and [d'] afterwards *)
Inductive access := AWrite (off : Z) (x : bytes) | ARead (off size : Z).
Inductive accessed : bytes -> list access -> list result -> bytes -> Prop :=
| acc_nil d : accessed d [] [] d
| acc_write d d1 d' off x l rs : written d off x d1 -> accessed d1 l rs d' -> accessed d (AWrite off x :: l) (RCount (length x) :: rs) d'
| acc_read d d' off size x l rs : available d off size x -> accessed d l rs d' -> accessed d (ARead off size :: l) (RBytes x :: rs) d'.

(** how much one call transfers *)
Definition most (a : api) : option Z := match a with Posix => Some 2147479552 | Windows => Some 4294967295 | CRuntime => None end.
Definition within (a : api) (n : Z) : Prop := match most a with None => True | Some l => n <= l end.
Definition fits (a : api) (c : access) : Prop :=
  match c with
  | AWrite off x => 0 <= off /\ off + Z.of_nat (length x) <= 9223372036854775807 /\ within a (Z.of_nat (length x))
  | ARead off size => 0 <= off <= 9223372036854775807 /\ 0 <= size /\ within a size
  end.
(** Windows reports an error at the end of a file *)
Definition reads_inside (a : api) (len : Z) (c : access) : Prop :=
  match a, c with Windows, ARead off size => off < len \/ size = 0 | _, _ => True end.
Definition call (s : nat) (c : access) : op := match c with AWrite off x => Write s off x Fine | ARead off size => Read s off size Fine end.
Definition is_write (c : access) : Prop := match c with AWrite _ _ => True | _ => False end.
Definition is_read (c : access) : Prop := match c with ARead _ _ => True | _ => False end.
(** the file a stream is on *)
Definition file_of (w : world) (s i : nat) : Prop :=
  exists x e, live w s x /\ nth_error (w_fds w) (s_fd x) = Some (Some e) /\ d_file e = i.
(** one file was written to, and nothing else *)
Definition stored (w : world) (s : nat) (off : Z) (x : bytes) (w' : world) : Prop :=
  exists i f f', file_of w s i /\ nth_error (w_files w) i = Some f /\ nth_error (w_files w') i = Some f' /\ written (f_data f) off x (f_data f') /\
    w_names w' = w_names w /\ forall j, j <> i -> nth_error (w_files w') j = nth_error (w_files w) j.
(** before the first stream: descriptor 0 is in use, as it is in a process which has not closed its standard input *)
Definition begins (w : world) : Prop := sound w /\ w_streams w = [] /\ taken w 0.
Definition readable (w : world) (n : nat) : Prop := exists i f, w_names w n = Some i /\ nth_error (w_files w) i = Some f /\ f_r f = true.
Definition writable (w : world) (n : nat) : Prop := exists i f, w_names w n = Some i /\ nth_error (w_files w) i = Some f /\ f_w f = true.
