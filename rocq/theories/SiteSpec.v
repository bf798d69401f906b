(** What is said about the site object and its decoders. *)
From Verif Require Import Base SiteModel.
Open Scope Z_scope.

(** something a call of some thread did *)
Definition happened (c : sstate) (e : sev) : Prop := exists i pc l, nth_error (s_thr c) i = Some (pc, l) /\ In e l.
Definition received (c : dstate) (e : dev) : Prop := exists i pc l, nth_error (d_thr c) i = Some (pc, l) /\ In e l.
(** calls one after the other, as documented: an object is accepted as long as none was accepted or used; all uses get the one accepted, or the default.
    The second argument: the object decided for *)
Inductive history : list sev -> option nat -> Prop :=
| HNone : history [] None
| HSet h s : history h None -> history (h ++ [ESet (Some s) true]) (Some s)
| HRefused h s p : history h (Some s) -> history (h ++ [ESet p false]) (Some s)
| HFirst h : history h None -> history (h ++ [EGot (Some 0%nat)]) (Some 0%nat)
| HGot h s : history h (Some s) -> history (h ++ [EGot (Some s)]) (Some s).
(** no null pointer is handed to SetSiteObject *)
Definition real_sets (l : list (nat * sact)) : Prop := forall i, ~ In (i, ASet None) l.
Definition no_sets (l : list (nat * sact)) : Prop := forall i p, ~ In (i, ASet p) l.
(** the object to be used *)
Definition decided (g : option nat) : nat := match g with Some s => s | None => 0%nat end.
