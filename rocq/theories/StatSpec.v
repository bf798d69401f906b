(** What the statistics of a document should be. *)
From Verif Require Import Base RectModel CodecModel StatModel.
From Coq Require Import Sorted.
Open Scope Z_scope.

(** on the bottom layer of the pyramid *)
Definition layer0 (e : sbe) : bool := (e_w e =? e_sw e) && (e_h e =? e_sh e).
(** values of a dimension *)
Definition dim_values (i : nat) (es : list sbe) : list Z :=
  flat_map (fun e => match nth i (e_coord e) None with Some v => [v] | None => [] end) es.
Definition in_scene (s : Z) (es : list sbe) : list sbe :=
  filter (fun e => match nth 4 (e_coord e) None with Some v => v =? s | None => false end) es.

(** smallest rectangle containing all logical rectangles; invalid if there are none *)
Definition bounding (es : list sbe) (r : rect) : Prop :=
  (es = [] /\ rvalid r = false) \/
  (es <> [] /\
   (forall e, In e es -> rx r <= e_x e /\ e_x e + e_w e <= rx r + rw r /\ ry r <= e_y e /\ e_y e + e_h e <= ry r + rh r) /\
   (exists e, In e es /\ e_x e = rx r) /\ (exists e, In e es /\ e_x e + e_w e = rx r + rw r) /\
   (exists e, In e es /\ e_y e = ry r) /\ (exists e, In e es /\ e_y e + e_h e = ry r + rh r)).
(** smallest interval (start, size) *)
Definition interval (vs : list Z) (o : option (Z * Z)) : Prop :=
  match o with
  | None => vs = []
  | Some (a, n) => In a vs /\ In (a + n - 1) vs /\ forall v, In v vs -> a <= v <= a + n - 1
  end.
(** smallest and largest; the documented markers if there is none *)
Definition min_max (vs : list Z) (lo hi : Z) : Prop :=
  (vs = [] /\ lo = INT_MAX /\ hi = INT_MIN) \/ (In lo vs /\ In hi vs /\ forall v, In v vs -> lo <= v <= hi).
Definition m_indices (es : list sbe) : list Z := map e_m (filter (fun e => negb (e_m e =? INT_MIN)) es).
Definition has_dimension (e : sbe) : bool := existsb (fun i => match nth i (e_coord e) None with Some _ => true | None => false end) (seq 0 9).

Definition scene_boxes (es : list sbe) (m : list (Z * (rect * rect))) : Prop :=
  StronglySorted Z.lt (map fst m) /\
  (forall s, In s (map fst m) <-> in_scene s es <> []) /\
  forall s b b0, In (s, (b, b0)) m -> bounding (in_scene s es) b /\ bounding (filter layer0 (in_scene s es)) b0.

(** all statistics; M indices of the entries [ms] *)
Definition describes_m (ms es : list sbe) (st : stats) : Prop :=
  st_count st = Z.of_nat (length es) /\
  bounding es (st_box st) /\ bounding (filter layer0 es) (st_box0 st) /\
  (forall i, (i < 9)%nat -> interval (dim_values i es) (nth i (st_dims st) None)) /\
  min_max (m_indices ms) (st_minm st) (st_maxm st) /\
  scene_boxes es (st_scenes st).
Definition describes (es : list sbe) (st : stats) : Prop := describes_m es es st.
(** the M range disregards entries without any dimension *)
Definition describes_dim_m (es : list sbe) (st : stats) : Prop := describes_m (filter has_dimension es) es st.

(** ** Pyramid *)
(** base, layer, tolerance in tenths *)
Definition known_layers : list (Z * Z * Z) :=
  [(2, 1, 1); (2, 2, 2); (2, 3, 4); (2, 4, 8); (2, 5, 10); (2, 6, 10); (2, 7, 10); (2, 8, 20); (2, 9, 40); (2, 10, 100);
   (3, 1, 1); (3, 2, 2); (3, 3, 8); (3, 4, 15); (3, 5, 20); (3, 6, 50); (3, 7, 150)].
(** the logical size of the larger stored side is b^k times its stored size, up to the tolerance *)
Definition fits_layer (e : sbe) (l : Z * Z * Z) : bool :=
  let '(b, k, t) := l in
  if e_sh e <? e_sw e then Z.abs (10 * e_w e - 10 * b ^ k * e_sw e) <=? t * e_sw e
  else Z.abs (10 * e_h e - 10 * b ^ k * e_sh e) <=? t * e_sh e.
(** (0, 0): bottom layer; (255, 255): none of the known layers *)
Definition layer_of (e : sbe) : Z * Z :=
  if layer0 e then (0, 0)
  else match find (fits_layer e) known_layers with Some (b, k, _) => (b, k) | None => (255, 255) end.
(** position of a layer in the list of layers *)
Definition rank (i : Z * Z) : Z :=
  if fst i =? 0 then 0 else if fst i =? 255 then 10 ^ 9 else fst i ^ snd i.
Definition on_layer (i : Z * Z) (e : sbe) : bool := (fst (layer_of e) =? fst i) && (snd (layer_of e) =? snd i).

Definition pyr_key (e : sbe) : Z := match nth 4 (e_coord e) None with Some s => s | None => INT_MAX end.
(** every layer which occurs, once, with the number of its sub-blocks *)
Definition layers_counted (es : list sbe) (v : list pls) : Prop :=
  NoDup (map fst v) /\
  (forall i, In i (map fst v) <-> exists e, In e es /\ layer_of e = i) /\
  (forall i n, In (i, n) v -> n = Z.of_nat (length (filter (on_layer i) es))).
Definition pyr_with (P : list sbe -> list pls -> Prop) (es : list sbe) (p : pyr) : Prop :=
  StronglySorted Z.lt (map fst p) /\
  (forall s, In s (map fst p) <-> exists e, In e es /\ pyr_key e = s) /\
  forall s v, In (s, v) p -> P (filter (fun e => pyr_key e =? s) es) v.
Definition layers_sorted (v : list pls) : Prop := StronglySorted (fun a b => rank (fst a) < rank (fst b)) v.
Definition pyramid (es : list sbe) (p : pyr) : Prop := pyr_with (fun es v => layers_counted es v /\ layers_sorted v) es p.

(** ** Sub-blocks whose bounds can be represented *)
Definition entry_ok (e : sbe) : Prop :=
  length (e_coord e) = 9%nat /\ 0 < e_w e <= INT_MAX /\ 0 < e_h e <= INT_MAX /\ 0 < e_sw e <= INT_MAX /\ 0 < e_sh e <= INT_MAX /\
  in_i32 (e_x e) /\ in_i32 (e_y e) /\ in_i32 (e_m e) /\ Forall (fun o => match o with Some v => in_i32 v | None => True end) (e_coord e).
Definition bounds_fit (es : list sbe) : Prop :=
  forall a b, In a es -> In b es ->
    e_x a + e_w a <= INT_MAX /\ e_y a + e_h a <= INT_MAX /\ e_x a + e_w a - e_x b <= INT_MAX /\ e_y a + e_h a - e_y b <= INT_MAX /\
    forall i v v', nth i (e_coord a) None = Some v -> nth i (e_coord b) None = Some v' -> v + 1 <= INT_MAX /\ v + 1 - v' <= INT_MAX.

(** ** The directory of the in-place editor as a map *)
Record world := mkWorld { w_cur : Z -> option sbe; w_added : Z; w_touched : bool; w_edited : bool }.
Definition world0 : world := mkWorld (fun _ => None) 0 false false.
Definition put (k : Z) (v : option sbe) (f : Z -> option sbe) : Z -> option sbe := fun j => if j =? k then v else f j.
(** the entries in the order of their keys *)
Definition listing (f : Z -> option sbe) (l : list (Z * sbe)) : Prop :=
  StronglySorted Z.lt (map fst l) /\ forall k e, In (k, e) l <-> f k = Some e.
(** two sub-blocks of the bottom layer with the same coordinate and M index *)
Definition duplicates (a b : sbe) : Prop :=
  e_coord a = e_coord b /\ e_m a = e_m b /\ e_m a <> INT_MIN /\ layer0 a = true /\ layer0 b = true.
(** the n-th addition hands out key n; pyramid statistics are specified as long as nothing was replaced or removed *)
Definition spec_op (o : dop) (w : world) (r : dres) (w' : world) : Prop :=
  let added e := r = RKey (Some (w_added w)) /\ w' = mkWorld (put (w_added w) (Some e) (w_cur w)) (w_added w + 1) true (w_edited w) in
  match o with
  | DAdd e => added e
  | DTryAdd e => ((exists k x, w_cur w k = Some x /\ duplicates x e) /\ r = RKey None /\ w' = w) \/ ((forall k x, w_cur w k = Some x -> ~ duplicates x e) /\ added e)
  | DModify k e =>
    match w_cur w k with
    | None => r = RBool false /\ w' = w
    | Some _ => r = RBool true /\ w' = mkWorld (put k (Some e) (w_cur w)) (w_added w) true true
    end
  | DRemove k =>
    match w_cur w k with
    | None => r = REntry None /\ w' = w
    | Some e => r = REntry (Some e) /\ w' = mkWorld (put k None (w_cur w)) (w_added w) true true
    end
  | DGet k => r = REntry (w_cur w k) /\ w' = w
  | DEnum => (exists l, r = REntries l /\ listing (w_cur w) l) /\ w' = w
  | DStats => (exists l s, r = RStats s /\ listing (w_cur w) l /\ describes_dim_m (map snd l) s) /\ w' = w
  | DPyr => (exists l p, r = RPyr p /\ listing (w_cur w) l /\ (w_edited w = false -> pyramid (map snd l) p)) /\ w' = w
  | DIsModified => r = RBool (w_touched w) /\ w' = w
  end.
Fixpoint spec_run (os : list dop) (rs : list dres) (w : world) : Prop :=
  match os, rs with
  | [], [] => True
  | o :: os', r :: rs' => exists w', spec_op o w r w' /\ spec_run os' rs' w'
  | _, _ => False
  end.
Definition given (o : dop) : list sbe := match o with DAdd e | DTryAdd e | DModify _ e => [e] | _ => [] end.
