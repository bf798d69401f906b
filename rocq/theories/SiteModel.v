(** The global site object and its decoders, used by several threads (libCZI/libCZI_Site.cpp).  Every access to the global pointer is one
    step (formally the unsynchronised accesses of SetSiteObject are a data race); std::call_once runs its function in one thread while the
    others wait, and once more if it throws.  Site objects are numbered, number 0 is the default one. *)
From Verif Require Import Base LockModel.
Open Scope Z_scope.

(** std::once_flag *)
Inductive once := Free | Running | Done.

(** ** The site object *)
(** where a thread is: in SetSiteObject (l.206-214), about to assign; in GetSite (l.176-188): inside the function handed to call_once, about to test the
    pointer, to assign the default, to leave; behind it, about to return the pointer *)
Inductive spc := SIdle | SAssign (p : option nat) | GTest | GAssign | GLeave | GRead.
(** what calls did: SetSiteObject accepted or threw; GetSite returned the pointer *)
Inductive sev := ESet (p : option nat) (ok : bool) | EGot (p : option nat).
Record sstate := mkS { s_g : option nat; s_once : once; s_thr : list (spc * list sev) }.
Inductive sact := ASet (p : option nat) | AGet | AStep.

Definition sstep (c : sstate) (i : nat) (a : sact) : option sstate :=
  let '(mkS g o thr) := c in
  match nth_error thr i with
  | None => None
  | Some (pc, l) =>
    let to p := set_nth i (p, l) thr in
    let ret e := set_nth i (SIdle, l ++ [e]) thr in
    match pc, a with
    | SIdle, ASet p => Some (match g with Some _ => mkS g o (ret (ESet p false)) | None => mkS g o (to (SAssign p)) end)
    | SAssign p, AStep => Some (mkS p o (ret (ESet p true)))
    | SIdle, AGet => match o with
                     | Free => Some (mkS g Running (to GTest))
                     | Running => None
                     | Done => Some (mkS g o (to GRead))
                     end
    | GTest, AStep => Some (match g with None => mkS g o (to GAssign) | Some _ => mkS g o (to GLeave) end)
    | GAssign, AStep => Some (mkS (Some 0%nat) o (to GLeave))
    | GLeave, AStep => Some (mkS g Done (to GRead))
    | GRead, AStep => Some (mkS g o (ret (EGot g)))
    | _, _ => None
    end
  end.
Fixpoint srun (c : sstate) (l : list (nat * sact)) : option sstate :=
  match l with [] => Some c | (i, a) :: l' => match sstep c i a with Some c' => srun c' l' | None => None end end.
(** [n] threads, the pointer as the static initialisation or earlier calls have left it *)
Definition sinit (g : option nat) (n : nat) : sstate := mkS g Free (repeat (SIdle, []) n).

(** ** The decoders of a site object, CSiteImpJxrLib::GetDecoder (l.121-161): one flag and one pointer for each of the types 0, 1, 2 *)
Inductive dpc := DIdle | DMake (t : nat) | DLeave (t : nat) | DRead (t : nat).
(** GetDecoder returned a pointer, or the creation threw *)
Inductive dev := EDec (t : nat) (d : option nat) | EFail (t : nat).
(** [d_next]: the number of decoders created so far *)
Record dstate := mkD { d_once : nat -> once; d_ptr : nat -> option nat; d_next : nat; d_thr : list (dpc * list dev) }.
Inductive dact := DGet (t : nat) | DGo (ok : bool).
Definition fset {A} (f : nat -> A) (k : nat) (x : A) : nat -> A := fun j => if (j =? k)%nat then x else f j.
Definition dstep (c : dstate) (i : nat) (a : dact) : option dstate :=
  let '(mkD o p n thr) := c in
  match nth_error thr i with
  | None => None
  | Some (pc, l) =>
    let to q := set_nth i (q, l) thr in
    let ret e := set_nth i (DIdle, l ++ [e]) thr in
    match pc, a with
    | DIdle, DGet t =>
        if (t <? 3)%nat then
          match o t with
          | Free => Some (mkD (fset o t Running) p n (to (DMake t)))
          | Running => None
          | Done => Some (mkD o p n (to (DRead t)))
          end
        else Some (mkD o p n (ret (EDec t None)))
    | DMake t, DGo true => Some (mkD o (fset p t (Some n)) (S n) (to (DLeave t)))
    | DMake t, DGo false => Some (mkD (fset o t Free) p n (ret (EFail t)))
    | DLeave t, DGo _ => Some (mkD (fset o t Done) p n (to (DRead t)))
    | DRead t, DGo _ => Some (mkD o p n (ret (EDec t (p t))))
    | _, _ => None
    end
  end.
Fixpoint drun (c : dstate) (l : list (nat * dact)) : option dstate :=
  match l with [] => Some c | (i, a) :: l' => match dstep c i a with Some c' => drun c' l' | None => None end end.
Definition dinit (n : nat) : dstate := mkD (fun _ => Free) (fun _ => None) 0 (repeat (DIdle, []) n).
