(** Vocabulary for statements about the reader object. *)
From Verif Require Import Base RectModel CodecModel WriterModel CodesModel CoordModel StatModel EditSpec ReaderModel StrictProofs.

(** Requests about attachments. *)
Definition about_attachments (q : rop) : bool :=
  match q with RAttCount | RAttInfo _ | RAtts | RAttSubset _ _ | RAtt _ => true | _ => false end.

(** The document in the file has attachments. *)
Definition carries (strict : bool) (f : file) : bool :=
  match read_file_header strict f with
  | Ok h => negb (fh_att h =? 0) && match read_attdir strict f (fh_att h) with Ok (_ :: _) => true | _ => false end
  | _ => false
  end.

(** Whether the reader is open, from the calls made and their results. *)
Fixpoint is_open (now : bool) (qs : list rop) (rs : list (res answer)) : bool :=
  match qs, rs with
  | q :: qs', r :: rs' =>
    is_open (match q, r with ROpen _ _ _, Ok _ => true | RClose, Ok _ => false | _, _ => now end) qs' rs'
  | _, _ => now
  end.

(** A directory entry and the header of the sub-block say the same; M-indices INT_MIN and INT_MAX both mean "none". *)
Definition m_value (m : Z) : option Z := if (m =? INT_MIN) || (m =? INT_MAX) then None else Some m.
Definition agree (e d : sbe) : Prop :=
  e_pt e = e_pt d /\ e_comp e = e_comp d /\ e_coord e = e_coord d /\ m_value (e_m e) = m_value (e_m d)
  /\ e_x e = e_x d /\ e_y e = e_y d /\ e_w e = e_w d /\ e_h e = e_h d /\ e_sw e = e_sw d /\ e_sh e = e_sh d.

(** The string in an array of characters is [s]. *)
Definition is_string (s a : bytes) : bool := eqbytes (cstring a) s.
Definition wanted (t n : option bytes) (e : attentry) : bool :=
  match t with None => true | Some t => is_string t (ae_type e) end && match n with None => true | Some n => is_string n (ae_name e) end.
(** Calls until the callback declines. *)
Fixpoint until {A} (go : A -> bool) (l : list A) : list A :=
  match l with [] => [] | x :: l' => if go x then x :: until go l' else [x] end.
(** A character string as passed in: no NUL inside. *)
Definition text (o : option bytes) : Prop := match o with Some s => Forall (fun c => c <> 0) s | None => True end.
(** What is reported of an attachment: its index in the directory, identifier, type and name. *)
Definition seen (x : Z * attentry) : Z * ainfo := (fst x, (ae_guid (snd x), ae_type (snd x), cstring (ae_name (snd x)))).

(** * What the options of Open ask of the dimensions of a sub-block, libCZI.h l.753-812 *)
Definition allowed (o : ropts) (ds : list dimentry) : Prop :=
  (forall d, In d ds -> is_xym d = true \/ exists c, In c other_letters /\ letter c d = true) /\
  (ro_lax o = false ->
     (exists d, In d ds /\ letter 88 d = true) /\ (exists d, In d ds /\ letter 89 d = true) /\
     (forall d, In d ds -> is_xym d = false -> d_size d = 1 /\ d_stored d = 1) /\
     (* several tiles may have become one only if asked for, and only if the sub-block is scaled down *)
     (ro_nom o = false \/ value d_size 88 ds = value d_stored 88 ds /\ value d_size 89 ds = value d_stored 89 ds ->
      forall d, In d ds -> letter 77 d = true -> d_size d = 1)).

(** what is told about an entry of the directory *)
Definition describes (i : rinfo) (e : sbe) : Prop :=
  ri_comp i = e_comp e /\ ri_coord i = e_coord e /\ ri_m i = e_m e /\ ri_rect i = mkRect (e_x e) (e_y e) (e_w e) (e_h e) /\
  (0 <= e_sw e <= UINT_MAX -> ri_pw i = e_sw e) /\ (0 <= e_sh e <= UINT_MAX -> ri_ph i = e_sh e) /\
  (forall c p, In (c, p) pixel_codes -> e_pt e = c -> ri_pt i = p) /\ (forall c p, In (c, p) pyramid_codes -> e_pyr e = c -> ri_pyr i = p).
