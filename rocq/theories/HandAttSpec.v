(** What is said about attachments and metadata through the C API. *)
From Verif Require Import Base CodecModel WriterModel WriterSpec AddModel CapiModel HandAttModel.
Open Scope Z_scope.

(** the calls adding an attachment which were accepted, in order; the last call writing metadata which was *)
Fixpoint accepted (l : list (icall * wop)) (rs : list (res unit)) : list iatt :=
  match l, rs with
  | (IAtt a, _) :: l', Ok _ :: rs' => a :: accepted l' rs'
  | _ :: l', _ :: rs' => accepted l' rs'
  | _, _ => []
  end.
Fixpoint last_written (m : option (Z * buf)) (l : list (icall * wop)) (rs : list (res unit)) : option (Z * buf) :=
  match l, rs with
  | (IMeta n b, _) :: l', Ok _ :: rs' => last_written (Some (n, b)) l' rs'
  | _ :: l', _ :: rs' => last_written m l' rs'
  | _, _ => m
  end.
(** only the C API is used for these *)
Definition through_api (c : icall) : Prop := match c with IOther (OpAtt _) | IOther (OpMeta _ _) => False | _ => True end.
(** the caller's structures: arrays of the sizes declared, the size of the data a number of 32 bits; at least the bytes told are there,
    or nothing *)
Definition memory_ok (size : Z) (b : buf) : Prop := match b with Some d => 0 <= size <= Z.of_nat (length d) | None => 0 <= size end.
Definition call_ok (c : icall) : Prop :=
  match c with
  | IAtt a => length (ia_guid a) = 16%nat /\ length (ia_type a) = 8%nat /\ length (ia_name a) = 80%nat /\ memory_ok (ia_bytes a) (ia_mem a) /\ ia_bytes a <= INT_MAX
  | IMeta n b => memory_ok n b /\ n <= INT_MAX
  | IOther o => request_ok INT_MAX o
  end.
(** byte [k] of the data *)
Definition byte_given (b : buf) (k : nat) (x : byte) : Prop := exists d, b = Some d /\ nth_error d k = Some x.
(** the memory for metadata: the bytes given, ended by a NUL *)
Definition ended (b : buf) (n : Z) (m : bytes) : Prop :=
  (forall k, Z.of_nat k < n -> exists x, byte_given b k x /\ nth_error m k = Some x) /\ last m 1 = 0 /\ n <= Z.of_nat (length m) <= n + 1.
(** the memory [m'] holds the first [n] of the data given, and behind them what [m] held *)
Definition filled (b : buf) (n : Z) (m m' : bytes) : Prop :=
  length m' = length m /\
  forall k, (k < length m)%nat -> if Z.of_nat k <? n then byte_given b k (nth k m' 0) else nth k m' 0 = nth k m 0.
(** the name seen: the characters before the first NUL, and one *)
Definition name_seen (name seen : bytes) : Prop :=
  exists t r, seen = t ++ 0 :: r /\ ~ In 0 t /\ exists r', name = t ++ 0 :: r'.
(** what is told of an attachment *)
Definition told (a : iatt) (i : iattinfo) : Prop :=
  ii_guid i = ia_guid a /\ ii_type i = ia_type a ++ [0] /\ name_seen (ia_name a) (ii_name i) /\ length (ii_name i) = 255%nat /\ ii_overflow i = false /\ ii_long i = None.
(** with the name cut to 79 characters *)
Definition name_cut (a : iatt) : iatt := mkIAtt (ia_guid a) (ia_type a) (firstn 79 (ia_name a) ++ [0]) (ia_bytes a) (ia_mem a).
