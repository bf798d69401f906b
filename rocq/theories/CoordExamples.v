(** Concrete cases and counterexamples for coordinates and orderings. *)
From Coq Require Import Floats.SpecFloat.
From Verif Require Import Base RectModel TextModel TextProofs CoordModel CoordSpec CoordProofs OrderProofs.

Definition cz (d v : Z) : coord := tset empty_table d v.

Lemma ex_compare : compare (tset (cz 1 5) 2 0) (cz 1 5) = 1 /\ compare (cz 1 (-1)) (cz 2 7) = 1 /\
  compare (tset (cz 1 5) 3 2) (tset (cz 1 5) 3 4) = -1.
Proof. vm_compute. repeat split. Qed.

(** ** Enumeration *)
Definition ex_box : bounds := tset (tset empty_table 2 (-1, 2)) 3 (5, 3).
Lemma ex_box_ok : box_ok ex_box /\ valid_dims ex_box = [2; 3] /\
  enum_all_coordinates 6 ex_box (fun _ _ => true) =
    Ok (map (fun x => (fst x, tset (cz 2 (fst (snd x))) 3 (snd (snd x))))
         [(0, (-1, 5)); (1, (0, 5)); (2, (-1, 6)); (3, (0, 6)); (4, (-1, 7)); (5, (0, 7))], true) /\
  enum_all_coordinates 6 ex_box (fun k _ => k <? 2) =
    Ok (map (fun x => (fst x, tset (cz 2 (fst (snd x))) 3 (snd (snd x))))
         [(0, (-1, 5)); (1, (0, 5)); (2, (-1, 6))], false).
Proof.
  split; [|vm_compute; repeat split].
  split; [reflexivity|]. intros d st sz I. unfold dims in I.
  repeat (destruct I as [<-|I]; [intros E; cbn in E; (discriminate E || (injection E as <- <-; unfold in_i32, INT_MIN, INT_MAX; lia))|]); destruct I.
Qed.

(** without any dimension nothing is called *)
Lemma enum_none fuel b f : table9 b -> (forall d, In d dims -> tget b d = None) ->
  enum_all_coordinates fuel b f = Ok ([], true).
Proof.
  intros L H. unfold enum_all_coordinates.
  assert (E : valid_dims b = []).
  { destruct (valid_dims_spec b) as (V1 & _ & V3). destruct (valid_dims b) as [|x l]; [reflexivity|].
    exfalso. assert (I : In x dims) by (apply V1; now left). apply (V3 x I); [now left|now apply H]. }
  now rewrite E.
Qed.

(** an empty interval is not empty for the enumeration *)
Lemma enum_empty_interval : enum_all_coordinates 5 (tset empty_table 2 (7, 0)) (fun _ _ => true) = Ok ([(0, cz 2 7)], true).
Proof. vm_compute. reflexivity. Qed.
(** an interval ending at the largest int *)
Lemma enum_overflow : enum_all_coordinates 5 (tset empty_table 2 (2147483647, 1)) (fun _ _ => true) = UB.
Proof. vm_compute. reflexivity. Qed.

(** ** Validation *)
Definition ex_doc : bounds := tset (tset (tset empty_table 2 (0, 3)) 3 (2, 1)) 5 (0, 4).
Lemma ex_check_plane : bounds_wf ex_doc /\
  check_plane ex_doc (cz 2 1) = Ok tt /\ check_plane ex_doc (tset (cz 2 1) 3 2) = Ok tt /\
  check_plane ex_doc (cz 2 3) = Throw /\ check_plane ex_doc (cz 3 2) = Throw /\
  check_plane ex_doc (tset (cz 2 1) 1 0) = Throw /\ check_plane ex_doc (tset (cz 2 1) 5 0) = Throw.
Proof.
  split; [|vm_compute; repeat split].
  intros d st sz I. unfold dims in I.
  repeat (destruct I as [<-|I]; [intros E; cbn in E; (discriminate E || (injection E as <- <-; unfold in_i32, INT_MIN, INT_MAX; lia))|]); destruct I.
Qed.

Lemma ex_check_coordinate : bounds_wf ex_doc /\
  check_coordinate (Some ex_doc) (Some (0, 9)) (tset (tset (cz 2 1) 3 2) 5 3) (Some 9) = Ok CkOk /\
  check_coordinate (Some ex_doc) (Some (0, 9)) (tset (tset (cz 2 1) 3 2) 5 3) (Some 10) = Ok CkOutOfBounds /\
  check_coordinate (Some ex_doc) None (tset (cz 2 1) 3 2) None = Ok CkInsufficient /\
  check_coordinate (Some ex_doc) None (tset (tset (tset (cz 2 1) 3 2) 5 3) 7 0) None = Ok CkUnexpected.
Proof. split; [apply ex_check_plane|]. vm_compute. repeat split. Qed.

Lemma check_plane_overflow : check_plane (tset empty_table 2 (2147483647, 1)) (cz 2 2147483647) = UB.
Proof. vm_compute. reflexivity. Qed.
Lemma check_coordinate_overflow : check_coordinate (Some (tset empty_table 2 (2147483647, 1))) None (cz 2 2147483647) None = UB.
Proof. vm_compute. reflexivity. Qed.

(** ** Selection *)
Definition ex_sb (c x y w h pw ph : Z) : sbinfo := SbInfo (cz 2 c) (mkRect x y w h) pw ph INT_MIN.
Definition ex_dir : list sbinfo :=
  [ex_sb 0 0 0 10 10 10 10; ex_sb 1 0 0 10 10 10 10; ex_sb 0 0 0 20 20 10 10; ex_sb 0 10 0 10 10 10 10; ex_sb 0 9 9 4 4 4 4].
Lemma ex_subset : map fst (enum_subset (Some (cz 2 0)) (Some (mkRect 5 5 5 5)) true (fun _ _ => true) 0 ex_dir) = [0; 4] /\
  map fst (enum_subset (Some (cz 2 0)) None false (fun k _ => k <? 2) 0 ex_dir) = [0; 2] /\
  rvalid (mkRect 5 5 5 5) = true.
Proof. vm_compute. repeat split. Qed.

(** ** The directory order *)
Definition ex_entry (c m s pos : Z) : sbentry := SbEntry (cz 2 c) m 0 0 20000 20000 s s pos.

(** three sub-blocks, one channel each, slightly different stored sizes: each one is smaller than the next, in a circle *)
Lemma directory_order_cycle :
  sb_less false (ex_entry 2 0 20000 0) (ex_entry 0 0 19998 0) = Ok true /\
  sb_less false (ex_entry 0 0 19998 0) (ex_entry 1 0 19999 0) = Ok true /\
  sb_less false (ex_entry 1 0 19999 0) (ex_entry 2 0 20000 0) = Ok true.
Proof. vm_compute. repeat split. Qed.

Lemma directory_order_overflow :
  sb_less false (SbEntry (cz 2 0) INT_MIN INT_MAX 0 10 10 10 10 0) (SbEntry (cz 2 0) INT_MIN (-1) 0 10 10 10 10 0) = UB.
Proof. vm_compute. reflexivity. Qed.

Definition ex_set (a : sbentry) : Prop :=
  a = ex_entry 0 INT_MIN 20000 7 \/ a = ex_entry 0 INT_MIN 10000 7 \/ a = ex_entry 0 3 10000 9 \/ a = ex_entry 1 3 10000 11.
Lemma ex_separated : separated ex_set /\
  sb_less true (ex_entry 0 INT_MIN 20000 7) (ex_entry 0 3 10000 9) = Ok true /\
  sb_less true (ex_entry 0 3 10000 9) (ex_entry 0 INT_MIN 10000 7) = Ok true.
Proof.
  split; [|vm_compute; repeat split]. split.
  - intros a b [->|[->|[->| ->]]] [->|[->|[->| ->]]]; (left; vm_compute; reflexivity) || (right; vm_compute; reflexivity).
  - intros a [->|[->|[->| ->]]]; cbn [ex_entry en_x en_y]; lia.
Qed.

(** ** The drawing order *)
Definition dr (w h pw ph m : Z) : sbinfo := SbInfo (cz 2 0) (mkRect 0 0 w h) pw ph m.
Lemma drawing_order_not_weak :
  zoom_less (dr 30 10 30 10 1) (dr 30 10 30 10 2) = true /\
  zoom_less (dr 30 10 30 10 1) (dr 30 11 30 10 0) = false /\ zoom_less (dr 30 11 30 10 0) (dr 30 10 30 10 1) = false /\
  zoom_less (dr 30 11 30 10 0) (dr 30 10 30 10 2) = false /\ zoom_less (dr 30 10 30 10 2) (dr 30 11 30 10 0) = false.
Proof. vm_compute. repeat split. Qed.

Lemma directory_order_refuted : ~ strict_weak_order (fun _ => True) (fun a b => match sb_less false a b with Ok r => r | _ => false end).
Proof.
  intros (I & T & _). destruct directory_order_cycle as (H1 & H2 & H3).
  specialize (T (ex_entry 2 0 20000 0) (ex_entry 0 0 19998 0) (ex_entry 1 0 19999 0) Logic.I Logic.I Logic.I).
  cbv beta in T. rewrite H1, H2 in T. specialize (T eq_refl eq_refl).
  assert (A : sb_less false (ex_entry 2 0 20000 0) (ex_entry 1 0 19999 0) = Ok false) by (vm_compute; reflexivity).
  rewrite A in T. discriminate T.
Qed.

Lemma drawing_order_refuted : ~ strict_weak_order (fun _ => True) zoom_less.
Proof.
  intros (_ & _ & N). destruct drawing_order_not_weak as (H1 & H2 & H3 & H4 & H5).
  destruct (N _ _ _ Logic.I Logic.I Logic.I H2 H3 H4 H5) as [H _]. congruence.
Qed.

Definition ex_layers (a : sbinfo) : Prop := a = dr 30 10 30 10 1 \/ a = dr 30 10 30 10 2 \/ a = dr 60 20 30 10 0.
Lemma ex_layered : layered ex_layers /\ zoom_less (dr 60 20 30 10 0) (dr 30 10 30 10 1) = true.
Proof.
  split; [|vm_compute; reflexivity]. split.
  - intros a [->|[->| ->]]; vm_compute; discriminate.
  - intros a b [->|[->| ->]] [->|[->| ->]]; vm_compute; auto; discriminate.
Qed.
