(** What the C API should hand out. *)
From Verif Require Import Base RectModel CodecModel CodesModel StatModel ReaderModel AddModel AddSpec CapiModel.

(** the bounds of dimension [i] (misc_types.h l.45-57) *)
Definition bounds_at (b : ibounds) (i : nat) : option (Z * Z) :=
  if Z.testbit (ib_valid b) (Z.of_nat i) then Some (nth (set_below (ib_valid b) i) (ib_start b) 0, nth (set_below (ib_valid b) i) (ib_size b) 0) else None.

(** the description of a sub-block says what was given when it was added *)
Definition told (a : iadd) (i : iinfo) : Prop :=
  (forall d, (d < 9)%nat -> interop_at (ii_coord i) d = interop_at (ia_coord a) d) /\
  ii_pt i = ia_pt a /\ ii_x i = ia_x a /\ ii_y i = ia_y a /\ ii_w i = ia_lw a /\ ii_h i = ia_lh a /\ ii_pw i = ia_pw a /\ ii_ph i = ia_ph a /\
  (ia_mvalid a <> 0 -> ia_m a <> INT_MAX -> ii_m i = ia_m a) /\ (ia_mvalid a = 0 -> ii_m i = INT_MIN).

(** positions where a text in UTF-8 can be cut: its ends, and in front of a byte which does not continue a character *)
Definition boundary (s : bytes) (k : nat) : Prop :=
  k = 0%nat \/ k = length s \/ ((k < length s)%nat /\ ~ (128 <= nth k s 0 < 192)).
(** [k] is the longest way to cut [s] such that at most [n] bytes remain *)
Definition longest_cut (s : bytes) (n k : nat) : Prop :=
  boundary s k /\ (k <= n)%nat /\ (k <= length s)%nat /\ forall j, boundary s j -> (j <= n)%nat -> (j <= length s)%nat -> (j <= k)%nat.

(** memory which starts with [d], the rest being what it was *)
Definition starts_with (d before after : bytes) : Prop :=
  length after = length before /\ firstn (length d) after = d /\ forall i, (length d <= i)%nat -> nth i after 0 = nth i before 0.

(** the number of Locks less the number of Unlocks which went through, in a history with its answers *)
Fixpoint held (ops : list bop) (ans : list banswer) : Z :=
  match ops, ans with
  | BLock :: ops', BOk :: ans' => 1 + held ops' ans'
  | BUnlock :: ops', BOk :: ans' => held ops' ans' - 1
  | _ :: ops', _ :: ans' => held ops' ans'
  | _, _ => 0
  end.
(** a Release went through *)
Definition released (ops : list bop) (ans : list banswer) : Prop := exists i, nth_error ops i = Some BRelease /\ nth_error ans i = Some BOk.
