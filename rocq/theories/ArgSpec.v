(** What is expected of the functions of the C API whatever arguments they get. *)
From Verif Require Import Base ArgModel.
Open Scope Z_scope.

(** arguments: a pointer is null or points to something, a handle may also belong to something else *)
Definition typed (f : func) (a : list aval) : Prop :=
  length a = f_arity f /\ (forall i, arg a i = Foreign \/ arg a i = Hollow -> In i (f_handles f)).
Definition call (f : func) (a : list aval) (o : outcome) : Prop := runs a (f_prog f) [] o.
(** never a crash *)
Definition never_crashes (f : func) : Prop := forall a, typed f a -> ~ In Hollow a -> ~ call f a Crash.
(** a null pointer or handle where one is needed is an invalid argument *)
Definition refuses_null (f : func) : Prop := forall a e w i, typed f a -> ~ In Hollow a -> In i (f_required f) -> arg a i = Null -> call f a (Returned e w) -> e = InvArg.
(** success: all handles were good, all outputs are set, handles given out can be used *)
Definition delivers (f : func) : Prop := forall a w, typed f a -> ~ In Hollow a -> call f a (Returned OK w) ->
  (forall i, In i (f_handles f) -> arg a i = Good) /\ (forall i, In i (f_outputs f) -> exists k, In (i, k) w) /\ (forall i, ~ In (i, SHollow) w).
(** failure: nothing is set except that a handle may be set to null *)
Definition leaves_alone (f : func) : Prop := forall a e w, typed f a -> ~ In Hollow a -> call f a (Returned e w) -> e <> OK -> forall i k, In (i, k) w -> k = SNullHandle.
Definition well_behaved (f : func) : Prop := never_crashes f /\ refuses_null f /\ delivers f /\ leaves_alone f.
