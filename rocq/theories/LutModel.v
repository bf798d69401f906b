(** Look-up tables (Src/libCZI/libCZI_Utilities.cpp l.176-356, splines.cpp l.110-124).
    pow is not part of the library: it is a parameter ([pw x g] is pow(x, g) for float).
    Simplification: allocation always succeeds. *)
From Coq Require Import Floats.SpecFloat.
From Verif Require Import Base RectModel CopyModel CoordModel StatModel ScaleModel PixelModel CompositorModel.
Open Scope Z_scope.

(** for (i = a; ...; ++i) lut.emplace_back(f i), [n] times *)
Fixpoint map_range (n : nat) (a : Z) (f : Z -> res Z) : res (list Z) :=
  match n with
  | O => Ok []
  | S k => let* v := f a in let* r := map_range k (a + 1) f in Ok (v :: r)
  end.

(** the structure of l.199-226 and l.283-345: [f low high i] is element i of the middle part;
    [reserve] throws std::length_error for a negative argument *)
Definition make_lut (cnt : Z) (black white : f32) (mx : Z) (f : Z -> Z -> Z -> res Z) : res (list Z) :=
  if cnt <? 0 then Throw else
  let* low := f32_cast INT_MIN INT_MAX (f32_mul black (f32_of_Z cnt)) in
  let* high := f32_cast INT_MIN INT_MAX (f32_mul white (f32_of_Z cnt)) in
  let* mid := map_range (Z.to_nat (high - low)) low (f low high) in
  Ok (repeat 0 (Z.to_nat low) ++ mid ++ repeat mx (Z.to_nat (cnt - high))).

(** ** from gamma *)
Definition f_one : f32 := f32_of_Z 1.
(** static_cast<float>(0.0001), (0.5), (0.45), (287.806332841221), (0.000001) *)
Definition gamma_tolerance : f32 := S754_finite false 13743895 (-37).
Definition f_045 : f32 := S754_finite false 15099494 (-25).
Definition toe_045 : f32 := S754_finite false 9430838 (-15).
Definition result_tolerance : f32 := S754_finite false 8796093 (-43).

(** l.263-273 *)
Fixpoint toe_loop (pw : f32 -> f32 -> f32) (gamma factor : f32) (n : nat) (result : f32) : f32 :=
  match n with
  | O => result
  | S k =>
    let r := f32_mul factor (f32_sub (pw (f32_add result f_one) gamma) f_one) in
    if SFltb (SFabs (f32_sub result r)) result_tolerance then r else toe_loop pw gamma factor k r
  end.
(** GetParameterForToeSlopeAdjustment, l.240-277 *)
Definition toe_slope (pw : f32 -> f32 -> f32) (gamma : f32) : f32 :=
  if SFltb (SFabs (f32_sub gamma f_half)) gamma_tolerance then f32_of_Z 224
  else if SFltb (SFabs (f32_sub gamma f_045)) gamma_tolerance then toe_045
  else
    let gamma2 := f32_mul gamma gamma in
    toe_loop pw gamma (f32_div f_one (f32_mul gamma2 gamma2)) 200 (f32_of_Z 224).

(** l.309-319, l.328-338: limit to [0, maxOut] and convert *)
Definition to_out (mx : Z) (val : f32) : res Z :=
  f32_cast 0 mx (if SFltb (f32_of_Z mx) val then f32_of_Z mx else if SFltb val (f32_of_Z 0) then f32_of_Z 0 else val).
(** x, l.306 and l.326 *)
Definition lut_x (low high i : Z) : res f32 :=
  let* d := chk (high - low) in let* d' := chk (d - 1) in let* k := chk (i - low) in
  Ok (f32_div (f32_of_Z k) (f32_of_Z d')).
(** InternalCreateLookUpTableFromGamma, l.280-346; [mx]: numeric_limits<tOutput>::max() *)
Definition lut_from_gamma (pw : f32 -> f32 -> f32) (mx cnt : Z) (black white gamma : f32) : res (list Z) :=
  let a := toe_slope pw gamma in
  let den := f32_sub (pw (f32_add a f_one) gamma) f_one in
  make_lut cnt black white mx (fun low high i =>
    let* x := lut_x low high i in
    to_out mx (if SFltb gamma f_one
               then f32_div (f32_mul (f32_of_Z mx) (f32_sub (pw (f32_add (f32_mul a x) f_one) gamma) f_one)) den
               else f32_mul (f32_of_Z mx) (pw x gamma))).
(** Create8BitLookUpTableFromGamma, Create16BitLookUpTableFromGamma, l.348-356 *)
Definition lut8_from_gamma pw := lut_from_gamma pw 255.
Definition lut16_from_gamma pw := lut_from_gamma pw 65535.

(** ** from splines *)
(** IDisplaySettings::CubicSplineCoefficients and SplineData, libCZI_Metadata.h l.488-524 *)
Record cubic := mkCubic { q_a : spec_float; q_b : spec_float; q_c : spec_float; q_d : spec_float }.
Record spline := mkSpline { s_pos : spec_float; s_co : cubic }.

(** CSplines::CalculateSplineValue, splines.cpp l.110-124 *)
Definition spline_value (x : spec_float) (c : cubic) : spec_float :=
  fst (fold_left (fun st co => let '(y, p) := st in (f64_add y (f64_mul p co), f64_mul p x))
         [q_d c; q_c c; q_b c; q_a c] (f64_of_Z 0, f64_of_Z 1)).
(** the last index with x > xPos, or 0; l.183-190 *)
Fixpoint spline_index (x : spec_float) (i index : nat) (l : list spline) : nat :=
  match l with
  | [] => index
  | s :: l' => spline_index x (S i) (if SFltb (s_pos s) x then i else index) l'
  end.
(** CalcSplineValue, l.176-195; vector::at throws std::out_of_range *)
Definition calc_spline (x : spec_float) (l : list spline) : res spec_float :=
  if SFltb x (f64_of_Z 0) || SFltb (f64_of_Z 1) x then Throw else
  match nth_error l (spline_index x 0 0 l) with
  | Some s => Ok (spline_value (f64_sub x (s_pos s)) (s_co s))
  | None => Throw
  end.
(** Create8BitLookUpTableFromSplines, l.197-227 *)
Definition lut_from_splines (cnt : Z) (black white : f32) (l : list spline) : res (list Z) :=
  make_lut cnt black white 255 (fun low high i =>
    let* d := chk (high - low) in let* d' := chk (d - 1) in let* k := chk (i - low) in
    let* s := calc_spline (f64_div (f64_of_Z k) (f64_of_Z d')) l in
    let* v := cast_int (f64_mul s (f64_of_Z 255)) in
    Ok (if v <? 0 then 0 else if 255 <? v then 255 else v)).
