(** What is expected of reserved space. *)
From Verif Require Import Base CodecModel TextModel RectModel CoordModel CoordSpec MemProofs WriterModel.
Open Scope Z_scope.

Definition is_meta (o : wop) : bool := match o with OpMeta _ _ => true | _ => false end.
Definition is_sub (o : wop) : bool := match o with OpSub _ _ => true | _ => false end.
Definition is_att (o : wop) : bool := match o with OpAtt _ => true | _ => false end.
Definition calls (p : wop -> bool) (ops : list wop) : Z := Z.of_nat (length (filter p ops)).
(** metadata of at most [n] bytes *)
Definition meta_fits (n : Z) (o : wop) : Prop := match o with OpMeta xml att => Z.of_nat (length xml) + Z.of_nat (length att) <= n | _ => True end.
(** writes which end in front of [E] *)
Definition below (E : Z) (ws : list wr) : Prop := Forall (fun w => 0 <= fst w /\ fst w + Z.of_nat (length (snd w)) <= E) ws.
(** writes of a byte at [E] or later *)
Definition beyond (E : Z) (ws : list wr) : list wr := filter (fun w => E <? fst w + Z.of_nat (length (snd w))) ws.
(** reserved sizes of 0 stand for 10 KB and 10 attachments *)
Definition meta_room (n : Z) : Z := if n =? 0 then 10240 else n.
Definition att_room (n : Z) : Z := if n =? 0 then 10 else n.
(** the space reserved at most: header and rounding, 832 bytes for each sub-block, 128 for each attachment *)
Definition room (n k a : Z) : Z := 544 + (320 + n) + (160 + 832 * k) + (288 + 128 * a).

(** a sub-block of the document: a coordinate in the bounds, an M-index in the range if there is one (and none otherwise) *)
Definition expected_sub (b : bounds) (mrange : option (Z * Z)) (x : coord * option Z) : Prop :=
  in_box b (fst x) /\ match mrange with None => snd x = None | Some (lo, hi) => exists v, snd x = Some v /\ lo <= v <= hi end.
(** the number of them *)
Definition size_at (b : bounds) (d : Z) : Z := match tget b d with Some (_, size) => size | None => 1 end.
Definition box_size (b : bounds) : Z := fold_right Z.mul 1 (map (size_at b) dims).
Definition m_size (mrange : option (Z * Z)) : Z := match mrange with Some (lo, hi) => hi - lo + 1 | None => 1 end.
