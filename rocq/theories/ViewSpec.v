(** When a cache should make no difference. *)
From Verif Require Import Base RectModel CodecModel CodesModel CopyModel StatModel AccessModel ReaderModel CacheModel SubMetaModel ViewModel.
Open Scope Z_scope.

(** no sub-block of the document has a mask which could be used *)
Definition unmasked (r : rstate) : Prop :=
  forall k i d att meta, snd (rstep r (RBlock k)) = Ok (ABlock (Some (i, (d, att, meta)))) -> try_get_mask meta att = Ok None.
(** a sub-block which is read is where the directory says it is *)
Definition places_agree (r : rstate) : Prop :=
  forall k i p, snd (rstep r (RBlock k)) = Ok (ABlock (Some (i, p))) -> exists j, snd (rstep r (RInfo k)) = Ok (AInfo (Some j)) /\ ri_rect i = ri_rect j.
(** the setting of a call *)
Definition op_mask (p : vop) : option bool := match p with OGet o _ _ _ => Some (vo_mask o) | OPrune _ _ => None end.
(** all calls ask for masks, or none does *)
Definition uniform (ops : list vop) : Prop := exists m, forall p, In p ops -> op_mask p = None \/ op_mask p = Some m.
(** what the calls deliver without a cache *)
Definition alone sort zm z g r (ops : list vop) : list (res bmp) :=
  flat_map (fun p => match p with OGet o q t dst => [fst (view sort zm z g r o q t None dst)] | OPrune _ _ => [] end) ops.
(** a call of the scaling accessor which does not ask for masks *)
Definition plain_scale (o : vopts) (q : vreq) : Prop := vo_mask o = false /\ match q with QScale _ _ _ _ => True | _ => False end.
(** how many calls deliver a picture *)
Fixpoint gets (ops : list vop) : nat := match ops with [] => 0%nat | OGet _ _ _ _ :: l => S (gets l) | OPrune _ _ :: l => gets l end.
