(** Coordinates: comparison, enumeration, validation, sub-block selection and
    the two orderings of sub-blocks.  Coordinates and bounds are the tables of
    TextModel (nine optional entries). *)
From Coq Require Import Floats.SpecFloat.
From Verif Require Import Base RectModel TextModel.
Open Scope Z_scope.

(** ** Utils::Compare, libCZI_Utilities.cpp l.546-580 *)
Fixpoint compare_from (ds : list Z) (a b : coord) : Z :=
  match ds with
  | [] => 0
  | d :: ds' =>
    match tget a d, tget b d with
    | Some x, Some y => if y <? x then 1 else if x <? y then -1 else compare_from ds' a b
    | Some _, None => 1
    | None, Some _ => -1
    | None, None => compare_from ds' a b
    end
  end.
Definition compare (a b : coord) : Z := compare_from dims a b.

(** CziUtils::CompareCoordinate, CziUtils.cpp l.135-160: every dimension of the
    first is present with the same value in the second. *)
Fixpoint compare_coordinate_from (ds : list Z) (a b : coord) : bool :=
  match ds with
  | [] => true
  | d :: ds' =>
    match tget a d with
    | None => compare_coordinate_from ds' a b
    | Some x => match tget b d with
                | None => false
                | Some y => if x =? y then compare_coordinate_from ds' a b else false
                end
    end
  end.
Definition compare_coordinate (a b : coord) : bool := compare_coordinate_from dims a b.

(** ** Utils::EnumAllCoordinates, libCZI_Utilities.cpp l.620-676 *)

(** int arithmetic: signed overflow is undefined behaviour *)
Definition chk (z : Z) : res Z := if in_i32b z then Ok z else UB.

(** inner loop l.648-673 over the dimensions [todo]; [done]: the dimensions with
    a smaller index (which are reset as well).  [None] = return true. *)
Fixpoint odometer (b : bounds) (done todo : list Z) (c : coord) : res (option coord) :=
  match todo with
  | [] => Ok (Some c)
  | d :: rest =>
    match tget b d, tget c d with
    | Some (mn, sz), Some v =>
      let* s := chk (mn + sz) in
      let* top := chk (s - 1) in
      if v <? top then let* v' := chk (v + 1) in Ok (Some (tset c d v'))
      else match rest with
           | [] => Ok None
           | _ => odometer b (done ++ [d]) rest
                    (fold_left (fun c j => match tget b j with
                                           | Some (m, _) => tset c j m
                                           | None => c
                                           end) (done ++ [d]) c)
           end
    | _, _ => UB (* uninitialised [v]; unreachable, all dims are valid *)
    end
  end.

(** the outer loop l.640-674; the functor is called with (coordNo, coord); the
    result lists the calls made and the return value *)
Fixpoint enum_loop (fuel : nat) (f : Z -> coord -> bool) (b : bounds) (ds : list Z) (no : Z) (c : coord)
  : res (list (Z * coord) * bool) :=
  match fuel with
  | O => OutOfFuel
  | S fuel' =>
    if negb (f no c) then Ok ([(no, c)], false)
    else
      let* n := odometer b [] ds c in
      match n with
      | None => Ok ([(no, c)], true)
      | Some c' =>
        let* (l, r) := enum_loop fuel' f b ds (no + 1) c' in
        Ok ((no, c) :: l, r)
      end
  end.

Definition valid_dims {A} (t : table A) : list Z :=
  filter (fun d => match tget t d with Some _ => true | None => false end) dims.

Definition first_coord (b : bounds) : coord :=
  map (fun o => match o with Some (st, _) => Some st | None => None end) b.

Definition enum_all_coordinates (fuel : nat) (b : bounds) (f : Z -> coord -> bool)
  : res (list (Z * coord) * bool) :=
  match valid_dims b with
  | [] => Ok ([], true)
  | ds => enum_loop fuel f b ds 0 (first_coord b)
  end.

(** ** Validation *)

(** CSingleChannelAccessorBase::CheckPlaneCoordinates,
    SingleChannelAccessorBase.cpp l.33-85 ([Throw] = rejected) *)
Definition plane_dims : list Z := [1; 2; 3; 4; 6; 7; 8; 9].
Fixpoint check_plane_from (ds : list Z) (b : bounds) (c : coord) : res unit :=
  match ds with
  | [] => Ok tt
  | d :: ds' =>
    match tget b d with
    | Some (st, sz) =>
      match tget c d with
      | None => if 1 <? sz then Throw else check_plane_from ds' b c
      | Some v =>
        if v <? st then Throw
        else let* e := chk (st + sz) in
             if e <=? v then Throw else check_plane_from ds' b c
      end
    | None => match tget c d with Some _ => Throw | None => check_plane_from ds' b c end
    end
  end.
Definition check_plane (b : bounds) (c : coord) : res unit :=
  match tget c 5 with
  | Some _ => Throw
  | None => check_plane_from plane_dims b c
  end.

(** CCziWriter::CheckCoordinate, CziWriter.cpp l.1316-1367 *)
Inductive check_result := CkOk | CkOutOfBounds | CkInsufficient | CkUnexpected.
Fixpoint check_dims (ds : list Z) (b : bounds) (c : coord) (cnt : Z) : res (check_result + Z) :=
  match ds with
  | [] => Ok (inr cnt)
  | d :: ds' =>
    match tget b d with
    | Some (st, sz) =>
      match tget c d with
      | None => Ok (inl CkInsufficient)
      | Some v =>
        if negb (st <=? v) then Ok (inl CkOutOfBounds)
        else let* e := chk (st + sz) in
             if negb (v <? e) then Ok (inl CkOutOfBounds)
             else check_dims ds' b c (cnt + 1)
      end
    | None => check_dims ds' b c cnt
    end
  end.
Definition check_coordinate (bnds : option bounds) (mrange : option (Z * Z))
    (c : coord) (m : option Z) : res check_result :=
  match bnds with
  | None => Ok CkOk
  | Some b =>
    let* r := check_dims dims b c 0 in
    match r with
    | inl e => Ok e
    | inr cnt =>
      if negb (cnt =? Z.of_nat (length (valid_dims c))) then Ok CkUnexpected
      else match mrange with
           | None => Ok CkOk
           | Some (lo, hi) =>
             match m with
             | None => Ok CkInsufficient
             | Some v => if (lo <=? v) && (v <=? hi) then Ok CkOk else Ok CkOutOfBounds
             end
           end
    end
  end.

(** ** Sub-block selection *)

(** SubBlockInfo as far as used here *)
Record sbinfo := SbInfo {
  sb_coord : coord;
  sb_rect : rect;          (* logicalRect, ints *)
  sb_pw : Z; sb_ph : Z;    (* physicalSize, uint32 *)
  sb_m : Z                 (* mIndex; INT_MIN or INT_MAX = invalid *)
}.

(** Utilities::DoIntersect, utilities.h l.53-72 *)
Definition do_intersect (a b : rect) : bool :=
  let r := intersect a b in (0 <? rw r) && (0 <? rh r).

(** Physical size = logical size: the comparison of uint32 values used at
    several places *)
Definition on_layer0 (i : sbinfo) : bool :=
  (sb_pw i =? u32 (rw (sb_rect i))) && (sb_ph i =? u32 (rh (sb_rect i))).

Definition selected (plane : option coord) (roi : option rect) (only0 : bool) (i : sbinfo) : bool :=
  (negb only0 || on_layer0 i)
  && (match plane with None => true | Some p => compare_coordinate p (sb_coord i) end)
  && (match roi with None => true | Some r => do_intersect r (sb_rect i) end).

(** CziReaderCommon::EnumSubset (CziReaderCommon.cpp l.15-40) over the entries of
    the directory in their order, numbered from [k]: the calls made *)
Fixpoint enum_subset (plane : option coord) (roi : option rect) (only0 : bool)
    (f : Z -> sbinfo -> bool) (k : Z) (l : list sbinfo) : list (Z * sbinfo) :=
  match l with
  | [] => []
  | i :: l' =>
    if selected plane roi only0 i then
      if f k i then (k, i) :: enum_subset plane roi only0 f (k + 1) l' else [(k, i)]
    else enum_subset plane roi only0 f (k + 1) l'
  end.

(** ** Floating point: IEEE binary32 / binary64, round to nearest even *)
Definition f32 := spec_float.
Definition f32_of_Z (z : Z) : f32 := binary_normalize 24 128 z 0 false.
Definition f32_div (a b : f32) : f32 := SFdiv 24 128 a b.
Definition f32_sub (a b : f32) : f32 := SFsub 24 128 a b.
(** conversion float -> double (exact) *)
Definition f64_of_f32 (a : f32) : spec_float :=
  match a with
  | S754_finite s m e => binary_normalize 53 1024 (cond_Zopp s (Zpos m)) e s
  | _ => a
  end.
(** the double nearest to 0.0001 *)
Definition d0001 : spec_float := S754_finite false 7378697629483821 (-66).

(** Utils::CalcZoom, libCZI_Utilities.h l.192-220; [lw], [lh] int or uint32 *)
Definition calc_zoom (lw lh pw ph : Z) : f32 :=
  if ph <? pw then f32_div (f32_of_Z pw) (f32_of_Z lw)
  else f32_div (f32_of_Z ph) (f32_of_Z lh).

(** SubBlkEntry as far as used by the ordering *)
Record sbentry := SbEntry {
  en_coord : coord; en_m : Z;
  en_x : Z; en_y : Z; en_w : Z; en_h : Z;
  en_sw : Z; en_sh : Z;
  en_pos : Z
}.

Definition en_zoom (a : sbentry) : f32 := calc_zoom (u32 (en_w a)) (u32 (en_h a)) (u32 (en_sw a)) (u32 (en_sh a)).
(** fabs(zoomA - zoomB) > 0.0001 *)
Definition zoom_differs (a b : f32) : bool := SFltb d0001 (f64_of_f32 (SFabs (f32_sub a b))).

(** CWriterCziSubBlockDirectory::SubBlkEntryCompare::operator(),
    CziSubBlockDirectory.cpp l.465-557; [pos]: include_file_position_ *)
Definition sb_less (pos : bool) (a b : sbentry) : res bool :=
  if zoom_differs (en_zoom a) (en_zoom b) then Ok (SFltb (en_zoom b) (en_zoom a))
  else
    let r := compare (en_coord a) (en_coord b) in
    if r <? 0 then Ok true
    else if 0 <? r then Ok false
    else
      let va := negb (en_m a =? INT_MIN) in
      let vb := negb (en_m b =? INT_MIN) in
      let tail := Ok (pos && (en_pos a <? en_pos b)) in
      if va && negb vb then Ok true
      else if negb va && vb then Ok false
      else if va && vb then
        (if en_m a <? en_m b then Ok true
         else if en_m b <? en_m a then Ok false
         else tail)
      else
        let* v := chk (en_x a - en_x b) in
        if v <? 0 then Ok true
        else if 0 <? v then Ok false
        else
          let* v := chk (en_y a - en_y b) in
          if v <? 0 then Ok true
          else if 0 <? v then Ok false
          else tail.

(** The comparator of CreateSortByZoom with sortByM,
    SingleChannelScalingTileAccessor.cpp l.210-240 *)
Definition sb_zoom (i : sbinfo) : f32 := calc_zoom (rw (sb_rect i)) (rh (sb_rect i)) (sb_pw i) (sb_ph i).
(** Utils::IsValidMindex, libCZI_Utilities.h l.347 *)
Definition valid_m (m : Z) : bool := negb (m =? INT_MAX) && negb (m =? INT_MIN).
Definition zoom_less (a b : sbinfo) : bool :=
  if SFltb (sb_zoom a) (sb_zoom b) then true
  else if SFltb (sb_zoom b) (sb_zoom a) || negb (on_layer0 a) || negb (on_layer0 b) then false
  else
    let ma := if valid_m (sb_m a) then sb_m a else INT_MIN in
    let mb := if valid_m (sb_m b) then sb_m b else INT_MIN in
    ma <? mb.
