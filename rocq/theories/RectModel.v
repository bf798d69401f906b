(** Integer rectangles and the RectangleCoverageCalculator.
    Sources: libCZI_Pixels.h l.17-78 (IntRect), utilities.h l.53-72 (Utilities::Intersect,
    DoIntersect), utilities.cpp l.593-744 (RectangleCoverageCalculator).
    Simplification: the C++ [int] arithmetic is modelled in Z; both agree as long as no
    intermediate value leaves the 32-bit range, e.g. for coordinates within [-2^29, 2^29]. *)
From Verif Require Import Base.

(** libCZI_Pixels.h l.17-22 *)
Record rect := mkRect { rx : Z; ry : Z; rw : Z; rh : Z }.

(** libCZI_Pixels.h l.28 IntRect::IsValid, l.31 IsNonEmpty *)
Definition rvalid (r : rect) : bool := (0 <=? rw r) && (0 <=? rh r).
Definition rnonempty (r : rect) : bool := (0 <? rw r) && (0 <? rh r).

(** libCZI_Pixels.h l.36-47 IntRect::IntersectsWith *)
Definition intersects_with (a b : rect) : bool :=
  if negb (rvalid a) || negb (rvalid b) then false
  else negb ((rx a + rw a <=? rx b) || (rx b + rw b <=? rx a)
             || (ry a + rh a <=? ry b) || (ry b + rh b <=? ry a)).

(** libCZI_Pixels.h l.65-77 IntRect::Intersect *)
Definition intersect (a b : rect) : rect :=
  let x1 := Z.max (rx a) (rx b) in
  let x2 := Z.min (rx a + rw a) (rx b + rw b) in
  let y1 := Z.max (ry a) (ry b) in
  let y2 := Z.min (ry a + rh a) (ry b + rh b) in
  if (x1 <=? x2) && (y1 <=? y2) then mkRect x1 y1 (x2 - x1) (y2 - y1)
  else mkRect 0 0 0 0.

(** utilities.cpp l.710-714 IsCompletelyContained *)
Definition completely_contained (outer inner : rect) : bool :=
  (rx outer <=? rx inner) && (rx inner + rw inner <=? rx outer + rw outer)
  && (ry outer <=? ry inner) && (ry inner + rh inner <=? ry outer + rh outer).

(** utilities.cpp l.648-707 SplitUpIntoNonOverlapping(rectangle_a, rectangle_b) *)
Definition split_up (a b : rect) : list rect :=
  let ar := rx a + rw a in let ab := ry a + rh a in
  let br := rx b + rw b in let bb := ry b + rh b in
  if (rx a <=? rx b) && (br <=? ar) then
    (if ry b <? ry a then [mkRect (rx b) (ry b) (rw b) (ry a - ry b)] else []) ++
    (if ab <? bb then [mkRect (rx b) ab (rw b) (bb - ry a - rh a)] else [])
  else if (rx b <? rx a) && (br <=? ar) then
    [mkRect (rx b) (ry b) (rx a - rx b) (rh b)] ++
    (if ry b <? ry a then [mkRect (rx a) (ry b) (br - rx a) (ry a - ry b)] else []) ++
    (if ab <? bb then [mkRect (rx a) ab (br - rx a) (bb - ry a - rh a)] else [])
  else if (rx a <=? rx b) && (ar <? br) then
    [mkRect ar (ry b) (br - rx a - rw a) (rh b)] ++
    (if ry b <? ry a then [mkRect (rx b) (ry b) (ar - rx b) (ry a - ry b)] else []) ++
    (if ab <? bb then [mkRect (rx b) ab (ar - rx b) (bb - ry a - rh a)] else [])
  else if (rx b <=? rx a) && (ar <=? br) then
    [mkRect (rx b) (ry b) (rx a - rx b) (rh b);
     mkRect ar (ry b) (br - rx a - rw a) (rh b)] ++
    (if ry b <? ry a then [mkRect (rx a) (ry b) (rw a) (ry a - ry b)]
     else if (ry b <? ab) && (ab <? bb) then [mkRect (rx a) ab (rw a) (bb - ry a - rh a)]
     else [])
  else [].

(** The loop of utilities.cpp l.606-640: position of the first splitter which intersects. *)
Fixpoint find_hit (sp : list rect) (r : rect) : option (list rect * rect * list rect) :=
  match sp with
  | [] => None
  | s :: sp' =>
      if intersects_with s r then Some ([], s, sp')
      else match find_hit sp' r with
           | Some (pre, h, post) => Some (s :: pre, h, post)
           | None => None
           end
  end.

(** utilities.cpp l.593-646 RectangleCoverageCalculator::AddRectangle; [fuel] bounds the
    recursion depth. *)
Fixpoint add_rect (fuel : nat) (sp : list rect) (r : rect) : res (list rect) :=
  match fuel with
  | O => OutOfFuel
  | S fuel' =>
      if negb (rvalid r) then Ok sp
      else match sp with
           | [] => Ok [r]
           | _ =>
               match find_hit sp r with
               | None => Ok (sp ++ [r])
               | Some (pre, s, post) =>
                   if completely_contained s r then Ok sp
                   else if completely_contained r s then add_rect fuel' (pre ++ post) r
                   else
                     fold_left (fun acc p => let* sp' := acc in add_rect fuel' sp' p)
                               (split_up s r) (Ok sp)
               end
           end
  end.

(** Adding a list of rectangles to an empty calculator. *)
Definition add_rects (fuel : nat) (sp : list rect) (rs : list rect) : res (list rect) :=
  fold_left (fun acc r => let* sp' := acc in add_rect fuel sp' r) rs (Ok sp).

(** utilities.cpp l.716-734 CalcAreaOfIntersectionWithRectangle *)
Definition calc_area (sp : list rect) (q : rect) : Z :=
  if negb (rvalid q) then 0
  else fold_left (fun area r =>
                    let i := intersect r q in
                    if rvalid i then area + rw i * rh i else area) sp 0.

(** utilities.cpp l.736-744 IsCompletelyCovered *)
Definition is_completely_covered (sp : list rect) (q : rect) : bool :=
  if negb (rvalid q) then true else calc_area sp q =? rw q * rh q.

(** ---- specification vocabulary (independent of the code) ---- *)

(** lattice point (x,y) lies in rectangle r *)
Definition pt_in (r : rect) (p : Z * Z) : bool :=
  (rx r <=? fst p) && (fst p <? rx r + rw r) && (ry r <=? snd p) && (snd p <? ry r + rh r).

Fixpoint zrange (s : Z) (n : nat) : list Z :=
  match n with O => [] | S n' => s :: zrange (s + 1) n' end.

(** all lattice points of a rectangle *)
Definition lattice (q : rect) : list (Z * Z) :=
  flat_map (fun y => map (fun x => (x, y)) (zrange (rx q) (Z.to_nat (rw q))))
           (zrange (ry q) (Z.to_nat (rh q))).

Definition count {A} (f : A -> bool) (l : list A) : Z := Z.of_nat (length (filter f l)).
