(** Sub-block statistics and the directory of the in-place editor
    (Src/libCZI/CziSubBlockDirectory.h/.cpp). *)
From Coq Require Import Floats.SpecFloat.
From Verif Require Import Base RectModel CodecModel CoordModel.
Open Scope Z_scope.

(** ** std::map<int, A>: list of pairs in ascending key order *)
Section Maps.
  Context {A : Type}.
  Fixpoint afind (k : Z) (m : list (Z * A)) : option A :=
    match m with [] => None | (j, a) :: m' => if j =? k then Some a else afind k m' end.
  (** insert (does nothing if the key exists) *)
  Fixpoint ainsert (k : Z) (a : A) (m : list (Z * A)) : list (Z * A) :=
    match m with
    | [] => [(k, a)]
    | (j, b) :: m' => if k <? j then (k, a) :: m else if j =? k then m else (j, b) :: ainsert k a m'
    end.
  (** assignment through an iterator *)
  Fixpoint aset (k : Z) (a : A) (m : list (Z * A)) : list (Z * A) :=
    match m with [] => [] | (j, b) :: m' => if j =? k then (j, a) :: m' else (j, b) :: aset k a m' end.
  Fixpoint aerase (k : Z) (m : list (Z * A)) : list (Z * A) :=
    match m with [] => [] | (j, b) :: m' => if j =? k then m' else (j, b) :: aerase k m' end.
End Maps.

(** ** SubBlockStatistics, libCZI.h l.486-540 *)
Record stats := mkStats {
  st_count : Z; st_minm : Z; st_maxm : Z;
  st_box : rect; st_box0 : rect;
  st_dims : list (option (Z * Z));
  st_scenes : list (Z * (rect * rect)) }.

(** IntRect::Invalidate, libCZI_Pixels.h l.25; the position (unspecified in the code) is 0 here. *)
Definition no_rect : rect := mkRect 0 0 (-1) (-1).
(** SubBlockStatistics::Invalidate (libCZI.h l.530-539) and the constructor of the updater (l.33-37) *)
Definition stats0 : stats := mkStats 0 INT_MAX INT_MIN no_rect no_rect (repeat None 9) [].

(** SubBlkEntry::IsStoredSizeEqualLogicalSize, CziSubBlockDirectory.h l.42-45 *)
Definition same_size (e : sbe) : bool := (e_w e =? e_sw e) && (e_h e =? e_sh e).

(** UpdateBoundingBox, l.186-220; arithmetic on int *)
Definition update_box (r : rect) (e : sbe) : res rect :=
  if rvalid r then
    let* r := (if e_x e <? rx r then
                 let* diff := chk (rx r - e_x e) in let* w := chk (rw r + diff) in Ok (mkRect (e_x e) (ry r) w (rh r))
               else Ok r) in
    let* r := (if e_y e <? ry r then
                 let* diff := chk (ry r - e_y e) in let* h := chk (rh r + diff) in Ok (mkRect (rx r) (e_y e) (rw r) h)
               else Ok r) in
    let* a := chk (rx r + rw r) in
    let* b := chk (e_x e + e_w e) in
    let* r := (if a <? b then let* w := chk (b - rx r) in Ok (mkRect (rx r) (ry r) w (rh r)) else Ok r) in
    let* a := chk (ry r + rh r) in
    let* b := chk (e_y e + e_h e) in
    if a <? b then let* h := chk (b - ry r) in Ok (mkRect (rx r) (ry r) (rw r) h) else Ok r
  else Ok (mkRect (e_x e) (e_y e) (e_w e) (e_h e)).

(** one dimension of the lambda l.55-80 *)
Definition update_dim (b : option (Z * Z)) (v : Z) : res (option (Z * Z)) :=
  match b with
  | None => Ok (Some (v, 1))
  | Some (start, size) =>
    if v <? start then
      let* d := chk (start - v) in let* s := chk (size + d) in Ok (Some (v, s))
    else
      let* e := chk (start + size) in
      if e <=? v then let* s := chk (1 + v) in let* s := chk (s - start) in Ok (Some (start, s))
      else Ok (Some (start, size))
  end.
(** EnumValidDimensions, l.55-97: the dimensions in order *)
Fixpoint update_dims (bs : list (option (Z * Z))) (c : coord) : res (list (option (Z * Z))) :=
  match bs, c with
  | b :: bs', Some v :: c' => let* b' := update_dim b v in let* r := update_dims bs' c' in Ok (b' :: r)
  | b :: bs', None :: c' => let* r := update_dims bs' c' in Ok (b :: r)
  | _, _ => Ok bs
  end.
Definition has_dim (c : coord) : bool := existsb (fun o => match o with Some _ => true | None => false end) c.
(** l.82-93, inside of the lambda: only reached if the entry has a dimension *)
Definition update_m (e : sbe) (mm : Z * Z) : Z * Z :=
  if has_dim (e_coord e) && m_valid e then
    (if e_m e <? fst mm then e_m e else fst mm, if snd mm <? e_m e then e_m e else snd mm)
  else mm.

(** TryGetPosition(S) *)
Definition scene_of (e : sbe) : option Z := nth 4 (e_coord e) None.
(** l.99-129 *)
Definition update_scenes (m : list (Z * (rect * rect))) (e : sbe) : res (list (Z * (rect * rect))) :=
  match scene_of e with
  | None => Ok m
  | Some s =>
    match afind s m with
    | Some (b, b0) =>
      let* b' := update_box b e in
      let* b0' := (if same_size e then update_box b0 e else Ok b0) in
      Ok (aset s (b', b0') m)
    | None =>
      let b := mkRect (e_x e) (e_y e) (e_w e) (e_h e) in
      Ok (ainsert s (b, if same_size e then b else no_rect) m)
    end
  end.

(** ** Pyramid layers *)
Definition f64_of_Z (z : Z) : spec_float := binary_normalize 53 1024 z 0 false.
Definition f64_div := SFdiv 53 1024.
(** CziUtils::CalculateMinificationFactor, CziUtils.cpp l.177-194 *)
Definition minification (w h sw sh : Z) : spec_float :=
  if sh <? sw then f64_div (f64_of_Z w) (f64_of_Z sw) else f64_div (f64_of_Z h) (f64_of_Z sh).
(** the tables l.260-285: value, tolerance (in tenths; both deltas are equal), layer.  A decimal literal
    such as .1 is the double nearest to 1/10, i.e. the rounded quotient. *)
Definition table2 : list (Z * Z * Z) :=
  [(2, 1, 1); (4, 2, 2); (8, 4, 3); (16, 8, 4); (32, 10, 5); (64, 10, 6); (128, 10, 7); (256, 20, 8); (512, 40, 9); (1024, 100, 10)].
Definition table3 : list (Z * Z * Z) :=
  [(3, 1, 1); (9, 2, 2); (27, 8, 3); (81, 15, 4); (243, 20, 5); (729, 50, 6); (2187, 150, 7)].
(** IsInRange, l.248-256 *)
Definition in_range (v : spec_float) (row : Z * Z * Z) : bool :=
  let '(value, tenths, _) := row in
  let delta := f64_div (f64_of_Z tenths) (f64_of_Z 10) in
  SFleb (SFsub 53 1024 (f64_of_Z value) delta) v && SFleb v (SFadd 53 1024 (f64_of_Z value) delta).
(** TryToDeterminePyramidLayerInfo, l.231-308, with the fallback of l.142-146: (factor, layer) *)
Definition layer_info (e : sbe) : Z * Z :=
  if same_size e then (0, 0)
  else
    let v := minification (e_w e) (e_h e) (e_sw e) (e_sh e) in
    match find (in_range v) table2 with
    | Some (_, _, l) => (2, l)
    | None => match find (in_range v) table3 with Some (_, _, l) => (3, l) | None => (255, 255) end
    end.

(** PyramidLayerStatistics: layer and count *)
Definition pls : Type := (Z * Z) * Z.
Definition same_layer (a b : Z * Z) : bool := (fst a =? fst b) && (snd a =? snd b).
(** UpdatePyramidLayerStatistics, l.310-322 *)
Fixpoint update_layers (v : list pls) (i : Z * Z) : list pls :=
  match v with
  | [] => [(i, 1)]
  | (j, n) :: v' => if same_layer i j then (j, n + 1) :: v' else (j, n) :: update_layers v' i
  end.
Definition pyr := list (Z * list pls).
(** l.132-158 *)
Definition update_pyr (p : pyr) (e : sbe) : pyr :=
  let s := match scene_of e with Some s => s | None => INT_MAX end in
  match afind s p with
  | Some v => aset s (update_layers v (layer_info e)) p
  | None => ainsert s (update_layers [] (layer_info e)) p
  end.

(** SortPyramidStatistics, l.324-366: the comparison *)
Fixpoint mult_times (n : nat) (f acc : Z) : Z := match n with O => acc | S n' => mult_times n' f (acc * f) end.
Definition accumulated (i : Z * Z) : Z := mult_times (Z.to_nat (snd i - 1)) (fst i) (fst i).
Definition layer_less (a b : Z * Z) : bool :=
  if same_layer a (0, 0) then true
  else if same_layer a (255, 255) then false
  else if same_layer b (0, 0) then false
  else if same_layer b (255, 255) then true
  else accumulated a <? accumulated b.
(** std::sort, here insertion; elements are never compared with themselves *)
Fixpoint insert_layer (x : pls) (l : list pls) : list pls :=
  match l with [] => [x] | y :: l' => if layer_less (fst x) (fst y) then x :: l else y :: insert_layer x l' end.
Definition sort_layers (l : list pls) : list pls := fold_right insert_layer [] l.
Definition sort_pyr (p : pyr) : pyr := map (fun '(s, v) => (s, sort_layers v)) p.

(** ** CSbBlkStatisticsUpdater *)
Record updater := mkUpd { u_st : stats; u_pyr : pyr; u_dirty : bool }.
Definition updater0 : updater := mkUpd stats0 [] false.
(** Clear, l.39-44: the pyramid statistics stay *)
Definition clear_stats (u : updater) : updater := mkUpd stats0 (u_pyr u) false.
(** UpdateStatistics, l.46-161.  Counts are unbounded. *)
Definition update_stats (u : updater) (e : sbe) : res updater :=
  let st := u_st u in
  let* box := update_box (st_box st) e in
  let* box0 := (if same_size e then update_box (st_box0 st) e else Ok (st_box0 st)) in
  let* ds := update_dims (st_dims st) (e_coord e) in
  let mm := update_m e (st_minm st, st_maxm st) in
  let* sc := update_scenes (st_scenes st) e in
  Ok (mkUpd (mkStats (st_count st + 1) (fst mm) (snd mm) box box0 ds sc) (update_pyr (u_pyr u) e) true).
(** Consolidate, l.164-171 *)
Definition consolidate (u : updater) : updater :=
  if u_dirty u then mkUpd (u_st u) (sort_pyr (u_pyr u)) true else u.

Fixpoint update_all (u : updater) (es : list sbe) : res updater :=
  match es with [] => Ok u | e :: es' => let* u' := update_stats u e in update_all u' es' end.
(** CCziSubBlockDirectory: AddSubBlock for every entry, AddingFinished (l.374-390) *)
Definition open_stats (es : list sbe) : res updater := let* u := update_all updater0 es in Ok (consolidate u).
(** GetStatistics, GetPyramidStatistics (l.173-182) *)
Definition get_stats (u : updater) : stats := u_st u.
Definition get_pyr (u : updater) : pyr * updater := let u' := consolidate u in (u_pyr u', u').

(** ** CReaderWriterCziSubBlockDirectory, l.609-762 *)
Record rwdir := mkRw { d_upd : updater; d_cur : bool; d_cons : bool; d_next : Z; d_map : list (Z * sbe); d_mod : bool }.
Definition rwdir0 : rwdir := mkRw updater0 true false 0 [] false.

(** AddSubBlock, l.609-625 *)
Definition rw_add (d : rwdir) (e : sbe) : res (Z * rwdir) :=
  let* next := chk (d_next d + 1) in
  if d_cur d then
    let* u := update_stats (d_upd d) e in
    Ok (d_next d, mkRw u true false next (ainsert (d_next d) e (d_map d)) true)
  else Ok (d_next d, mkRw (d_upd d) false (d_cons d) next (ainsert (d_next d) e (d_map d)) true).
(** CompareForEquality_Coordinate, l.13-29 *)
Definition equal_entries (a b : sbe) : bool :=
  (compare (e_coord a) (e_coord b) =? 0) && (m_valid a && m_valid b) && ((e_m a =? e_m b) && same_size a && same_size b).
(** TryAddSubBlock, l.701-713 *)
Definition rw_try_add (d : rwdir) (e : sbe) : res (option Z * rwdir) :=
  if existsb (fun x => equal_entries (snd x) e) (d_map d) then Ok (None, d)
  else let* (k, d') := rw_add d e in Ok (Some k, d').
(** TryModifySubBlock, l.656-673 *)
Definition rw_modify (d : rwdir) (k : Z) (e : sbe) : bool * rwdir :=
  match afind k (d_map d) with
  | None => (false, d)
  | Some _ => (true, mkRw (d_upd d) false false (d_next d) (aset k e (d_map d)) true)
  end.
(** TryRemoveSubBlock, l.675-695 *)
Definition rw_remove (d : rwdir) (k : Z) : option sbe * rwdir :=
  match afind k (d_map d) with
  | None => (None, d)
  | Some e => (Some e, mkRw (d_upd d) false false (d_next d) (aerase k (d_map d)) true)
  end.
(** RecreateSubBlockStatistics, l.752-762 *)
Definition rw_recreate (d : rwdir) : res rwdir :=
  let* u := update_all (clear_stats (d_upd d)) (map snd (d_map d)) in
  Ok (mkRw u true false (d_next d) (d_map d) (d_mod d)).
(** GetStatistics, l.715-723 *)
Definition rw_stats (d : rwdir) : res (stats * rwdir) :=
  let* d := (if d_cur d then Ok d else rw_recreate d) in Ok (get_stats (d_upd d), d).
(** EnsureSbBlkStatisticsConsolidated, l.735-750; GetPyramidStatistics, l.725-733 *)
Definition rw_pyr (d : rwdir) : res (pyr * rwdir) :=
  let* d := (if d_cons d then Ok d
             else
               let* d := (if d_cur d then Ok d else rw_recreate d) in
               Ok (if d_cons d then d else mkRw (consolidate (d_upd d)) (d_cur d) true (d_next d) (d_map d) (d_mod d))) in
  let (p, u) := get_pyr (d_upd d) in
  Ok (p, mkRw u (d_cur d) (d_cons d) (d_next d) (d_map d) (d_mod d)).
(** TryGetSubBlock, l.640-654; EnumEntries, l.627-638 with a callback which accepts everything *)
Definition rw_get (d : rwdir) (k : Z) : option sbe := afind k (d_map d).
Definition rw_entries (d : rwdir) : list (Z * sbe) := d_map d.

(** Calls of the interface and their results *)
Inductive dop := DAdd (e : sbe) | DTryAdd (e : sbe) | DModify (k : Z) (e : sbe) | DRemove (k : Z) | DGet (k : Z) | DEnum | DStats | DPyr | DIsModified.
Inductive dres := RKey (k : option Z) | RBool (b : bool) | REntry (e : option sbe) | REntries (l : list (Z * sbe)) | RStats (s : stats) | RPyr (p : pyr).
Definition rw_op (o : dop) (d : rwdir) : res (dres * rwdir) :=
  match o with
  | DAdd e => let* (k, d') := rw_add d e in Ok (RKey (Some k), d')
  | DTryAdd e => let* (k, d') := rw_try_add d e in Ok (RKey k, d')
  | DModify k e => let (b, d') := rw_modify d k e in Ok (RBool b, d')
  | DRemove k => let (e, d') := rw_remove d k in Ok (REntry e, d')
  | DGet k => Ok (REntry (rw_get d k), d)
  | DEnum => Ok (REntries (rw_entries d), d)
  | DStats => let* (s, d') := rw_stats d in Ok (RStats s, d')
  | DPyr => let* (p, d') := rw_pyr d in Ok (RPyr p, d')
  | DIsModified => Ok (RBool (d_mod d), d)
  end.
Fixpoint rw_run (os : list dop) (d : rwdir) : res (list dres * rwdir) :=
  match os with
  | [] => Ok ([], d)
  | o :: os' => let* (r, d') := rw_op o d in let* (rs, d'') := rw_run os' d' in Ok (r :: rs, d'')
  end.
