(** Vocabulary for the statements about the writer: what a history of calls
    added, and what a reader observes.  Independent of how the writer works. *)
From Verif Require Import Base CodecModel CodecProofs WriterModel.

(** The bytes a source delivers. *)
Definition src_bytes (s : source) : bytes :=
  firstn (Z.to_nat (src_size s)) (flat_map (fun o => match o with Some b => b | None => [] end) (src_chunks s)).

(** Additions which reported success, in order. *)
Fixpoint added (ops : list wop) (rs : list (res unit)) : list addinfo :=
  match ops, rs with
  | OpSub a _ :: ops', Ok _ :: rs' => a :: added ops' rs'
  | _ :: ops', _ :: rs' => added ops' rs'
  | _, _ => []
  end.
Fixpoint attached (ops : list wop) (rs : list (res unit)) : list attinfo :=
  match ops, rs with
  | OpAtt a :: ops', Ok _ :: rs' => a :: attached ops' rs'
  | _ :: ops', _ :: rs' => attached ops' rs'
  | _, _ => []
  end.
(** The last metadata written successfully. *)
Fixpoint last_meta (md : option (bytes * bytes)) (ops : list wop) (rs : list (res unit)) : option (bytes * bytes) :=
  match ops, rs with
  | OpMeta xml att :: ops', Ok _ :: rs' => last_meta (Some (xml, att)) ops' rs'
  | _ :: ops', _ :: rs' => last_meta md ops' rs'
  | _, _ => md
  end.

(** A sub-block as a reader sees it: the directory entry and the information
    stored with the segment (both without the file position), and the three
    parts. *)
Record observed := mkObs { ob_entry : sbe; ob_info : sbe; ob_meta : bytes; ob_data : bytes; ob_att : bytes }.

Definition observe (strict : bool) (f : file) (e : sbe) : res observed :=
  let* d := read_subblock strict f (e_pos e) in
  Ok (mkObs (with_pos e 0) (with_pos (sd_info d) 0) (sd_meta d) (sd_data d) (sd_att d)).

(** What should be seen of an added sub-block.  The directory reports an
    absent M-index as INT_MIN, the segment as INT_MAX. *)
Definition expected (a : addinfo) : observed :=
  mkObs (with_pos (with_m (ai_e a) (if ai_mv a then e_m (ai_e a) else INT_MIN)) 0)
        (with_pos (with_m (ai_e a) (if ai_mv a then e_m (ai_e a) else INT_MAX)) 0)
        (src_bytes (ai_meta a)) (src_bytes (ai_data a)) (src_bytes (ai_att a)).

(** Representable geometry. *)
Definition geometry_ok (e : sbe) : Prop := sbe_wf (with_pos e 0).
(** The getter delivers at least the announced number of bytes. *)
Definition source_ok (s : source) : Prop :=
  0 <= src_size s <= Z.of_nat (length (flat_map (fun o => match o with Some b => b | None => [] end) (src_chunks s)))
  /\ ~ In None (src_chunks s).
(** Requests with honest sources; part sizes fit the 32-bit on-disk fields,
    the pixel data is at most [maxdata] bytes. *)
Definition request_ok (maxdata : Z) (o : wop) : Prop :=
  match o with
  | OpSub a _ => geometry_ok (ai_e a) /\ source_ok (ai_meta a) /\ source_ok (ai_data a) /\ source_ok (ai_att a)
                 /\ src_size (ai_meta a) <= INT_MAX /\ src_size (ai_att a) <= INT_MAX /\ src_size (ai_data a) <= maxdata
  | OpAtt a => length (at_guid a) = 16%nat /\ length (at_type a) = 8%nat /\ length (at_name a) = 80%nat
  | OpMeta xml att => Z.of_nat (length xml) <= INT_MAX /\ Z.of_nat (length att) <= INT_MAX
  end.

Definition reservation_ok (o : option Z) : Prop := match o with Some n => 0 <= n < 2 ^ 32 | None => True end.
Definition creation_ok (i : winfo) : Prop :=
  length (wi_guid i) = 16%nat /\ reservation_ok (wi_rmeta i) /\ reservation_ok (wi_rdir i) /\ reservation_ok (wi_ratt i).
