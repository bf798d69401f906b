(** The command CreateCZI of the command-line tool: the mosaic of tiles which is written for every coordinate
    (Src/CZICmd/executeCreateCzi.cpp). *)
From Coq Require Import Floats.SpecFloat.
From Verif Require Import Base RectModel TextModel CodecModel CodesModel CoordModel PixelModel.
Open Scope Z_scope.

(** struct CreateTileInfo, CZICmd/cmdlineoptions.h l.130-137 *)
Record tile_info := mkTiles { ti_rows : Z; ti_cols : Z; ti_overlap : f32 }.
(** IsValid, l.136 *)
Definition ti_valid (t : tile_info) : bool := (0 <? ti_rows t) && (0 <? ti_cols t).
(** TryParseCreateTileInfo, cmdlineoptions.cpp l.1872-1877 (no percentage given) and l.1906-1913: a uint32 divided by 100.0f *)
Definition overlap_of (percent : option Z) : f32 :=
  match percent with None => S754_zero false | Some p => f32_div (f32_of_Z p) (f32_of_Z 100) end.

(** lrint in the default rounding mode: to the nearest integer, ties to even.  The result is a long of 64 bits
    (simplification: on Windows it has 32).  Infinities and NaN give an unspecified value: [UB]. *)
Definition rne (m d : Z) : Z :=
  let q := m / d in
  let r := m mod d in
  if 2 * r <? d then q else if d <? 2 * r then q + 1 else if Z.even q then q else q + 1.
Definition lrint (f : f32) : res Z :=
  match f with
  | S754_zero _ => Ok 0
  | S754_finite s m e =>
      let k := if 0 <=? e then Zpos m * 2 ^ e else rne (Zpos m) (2 ^ (- e)) in
      Ok (if s then - k else k)
  | _ => UB
  end.

(** one line of CalcTilePosition, executeCreateCzi.cpp l.338-339: the products are uint32, the difference is uint32 and
    becomes an int *)
Definition tile_pos (k size : Z) (overlap : f32) : res Z :=
  let p := u32 (k * size) in
  let* o := lrint (f32_mul (f32_of_Z p) overlap) in
  Ok (s32 (u32 (p - u32 o))).
(** CalcTilePosition, l.328-341; [None]: return false *)
Definition calc_tile_position (t : tile_info) (w h cnt : Z) : res (option (Z * Z * Z)) :=
  let r := cnt / ti_cols t in
  let c := u32 (cnt - u32 (r * ti_cols t)) in
  if (ti_rows t <=? r) || (ti_cols t <=? c) then Ok None
  else
    let* x := tile_pos c w (ti_overlap t) in
    let* y := tile_pos r h (ti_overlap t) in
    Ok (Some (x, y, s32 cnt)).
(** the functor of DoIt, l.249-285: without tile information one tile *)
Definition get_pos_and_m (t : tile_info) (w h cnt : Z) : res (option (Z * Z * Z)) :=
  if ti_valid t then calc_tile_position t w h cnt
  else Ok (if cnt =? 0 then Some (0, 0, 0) else None).
(** the loop of AddSubBlock, l.30-36: the counter is a uint32 *)
Fixpoint tiles_from (fuel : nat) (t : tile_info) (w h cnt : Z) : res (list (Z * Z * Z)) :=
  match fuel with
  | O => OutOfFuel
  | S fuel' =>
      let* o := get_pos_and_m t w h cnt in
      match o with
      | None => Ok []
      | Some p => let* l := tiles_from fuel' t w h (u32 (cnt + 1)) in Ok (p :: l)
      end
  end.
Definition tiles (fuel : nat) (t : tile_info) (w h : Z) : res (list (Z * Z * Z)) := tiles_from fuel t w h 0.

(** l.87, l.107, l.130: the branches on the mode of compression; in the other modes nothing is added *)
Definition branch_of (mode : compression) : option Z :=
  match mode with
  | CompInvalid | UnCompressed => Some 0
  | Zstd1 => Some 6
  | Zstd0 => Some 5
  | _ => None
  end.
(** the fields of addInfo, l.89-105 and likewise in the other branches, as the entry of the directory which the writer makes
    of them; the position in the file is left 0 *)
Definition entry_for (c : CodecModel.coord) (w h pt comp : Z) (p : Z * Z * Z) : sbe :=
  let '(x, y, m) := p in mkSbe c m x y (s32 w) (s32 h) (s32 w) (s32 h) pt 0 comp 0.
(** AddSubBlock, l.24-155 *)
Definition add_sub_blocks (fuel : nat) (mode : compression) (t : tile_info) (w h pt : Z) (c : CodecModel.coord) : res (list sbe) :=
  let* l := tiles fuel t w h in
  Ok (match branch_of mode with None => [] | Some comp => map (entry_for c w h pt comp) l end).
(** l.220-225: there is always a dimension C *)
Definition with_channel (b : bounds) : bounds := match tget b 2 with None => tset b 2 (0, 1) | Some _ => b end.
(** the loop over the coordinates, l.235-288 *)
Fixpoint each {A B} (f : A -> res (list B)) (l : list A) : res (list B) :=
  match l with [] => Ok [] | a :: l' => let* x := f a in let* y := each f l' in Ok (x ++ y) end.
(** DoIt, l.203-288: the sub-blocks handed to the writer, in this order *)
Definition create_czi (fuel : nat) (mode : compression) (b : bounds) (t : tile_info) (w h pt : Z) : res (list sbe) :=
  let* (calls, _) := enum_all_coordinates fuel (with_channel b) (fun _ _ => true) in
  each (fun call => add_sub_blocks fuel mode t w h pt (snd call)) calls.

(** the overlap as put into the comment of the document: (int)(tileInfo.overlap * 100),
    GetCreateCziInformalTaskDescription l.193 *)
Definition overlap_text (overlap : f32) : res Z := f32_cast INT_MIN INT_MAX (f32_mul overlap (f32_of_Z 100)).

(** the sub-block as the ordering of the writer's directory sees it *)
Definition as_entry (e : sbe) : sbentry := SbEntry (e_coord e) (e_m e) (e_x e) (e_y e) (e_w e) (e_h e) (e_sw e) (e_sh e) (e_pos e).
