(** What look-up tables are, over the rationals. *)
From Coq Require Import ZArith QArith Qabs List Floats.SpecFloat.
From Verif Require Import FloatProofs SFloatProofs LutModel.
Import ListNotations.
Open Scope Z_scope.

(** a float of the interval from 0 to 1 *)
Definition unit_float (x : spec_float) : Prop := nn 24 128 x /\ (sfQ x <= 1)%Q.
(** [v] is [X] up to an error of [e], absolute and relative *)
Definition within (v X e : Q) : Prop := (X - e <= v <= X + e)%Q.
Definition rel (v X e : Q) : Prop := (X * (1 - e) <= v <= X * (1 + e))%Q.
(** [k] is the integral part of [X], up to a rounding error *)
Definition part (k : Z) (X e : Q) : Prop := (inject_Z k - e <= X < inject_Z k + 1 + e)%Q.

(** a table of [cnt] elements: zero below [low], [mx] from [high]; sample k of 0..n between them has the property [mid k n] *)
Definition table (mx cnt low high : Z) (mid : Z -> Z -> Z -> Prop) (t : list Z) : Prop :=
  Z.of_nat (length t) = cnt /\
  forall i, 0 <= i < cnt -> exists v, nth_error t (Z.to_nat i) = Some v /\ 0 <= v <= mx /\
    (i < low -> v = 0) /\ (high <= i -> v = mx) /\ (low <= i < high -> mid (i - low) (high - low - 1) v).
Definition nondecreasing (t : list Z) : Prop :=
  forall i j v w, (i <= j)%nat -> nth_error t i = Some v -> nth_error t j = Some w -> v <= w.
(** the elements which belong to the black and the white point *)
Definition cuts (cnt : Z) (black white : spec_float) (low high : Z) : Prop :=
  0 <= low <= high /\ high <= cnt /\
  part low (inject_Z cnt * sfQ black) (1 # 256) /\ part high (inject_Z cnt * sfQ white) (1 # 256).

(** ** pow *)
Definition fle (x y : spec_float) : Prop := (sfQ x <= sfQ y)%Q.
(** what is used of pow(., g) between 0 and 1 *)
Definition pow_unit (pw : spec_float -> spec_float -> spec_float) (g : spec_float) : Prop :=
  (forall x, unit_float x -> unit_float (pw x g)) /\
  (forall x y, unit_float x -> unit_float y -> fle x y -> fle (pw x g) (pw y g)) /\
  pw (S754_zero false) g = S754_zero false /\ (sfQ (pw (S754_finite false 8388608 (-23)) g) == 1)%Q.
(** what is used of pow(., g) above 1 *)
Definition above (x : spec_float) : Prop := nn 24 128 x /\ (1 <= sfQ x)%Q.
Definition pow_above (pw : spec_float -> spec_float -> spec_float) (g : spec_float) : Prop :=
  (forall x, above x -> above (pw x g) /\ fle (pw x g) x) /\
  (forall x y, above x -> above y -> fle x y -> fle (pw x g) (pw y g)).

(** sample k of 0..n of the curve x^g, scaled to [mx] *)
Definition gamma_sample (pw : spec_float -> spec_float -> spec_float) (g : spec_float) (mx k n v : Z) : Prop :=
  (exists x, unit_float x /\ within (sfQ x) (inject_Z k / inject_Z n) (b2 (-24)) /\ part v (inject_Z mx * sfQ (pw x g)) (1 # 256)) /\
  (k = 0 -> v = 0) /\ (k = n -> v = mx).
(** sample k of 0..n of the curve ((a x + 1)^g - 1) / ((a + 1)^g - 1); [a1] is a + 1 *)
Definition toe_sample (pw : spec_float -> spec_float -> spec_float) (g a a1 : spec_float) (mx k n v : Z) : Prop :=
  (exists y, above y /\ rel (sfQ y) (sfQ a * (inject_Z k / inject_Z n) + 1) (b2 (-20)) /\
     part v (inject_Z mx * ((sfQ (pw y g) - 1) / (sfQ (pw a1 g) - 1))) (1 # 8)) /\
  (k = 0 -> v = 0) /\ (k = n -> mx - 1 <= v).

(** ** splines *)
Definition unit_double (x : spec_float) : Prop := fin 53 1024 x /\ (0 <= sfQ x <= 1)%Q.
Definition moderate (x : spec_float) : Prop := fin 53 1024 x /\ (- b2 20 <= sfQ x <= b2 20)%Q.
Definition spline_ok (s : spline) : Prop :=
  unit_double (s_pos s) /\ moderate (q_a (s_co s)) /\ moderate (q_b (s_co s)) /\ moderate (q_c (s_co s)) /\ moderate (q_d (s_co s)).
(** the exact value of the piece [s] at [x] *)
Definition piece (s : spline) (x : Q) : Q :=
  let t := (x - sfQ (s_pos s))%Q in
  (sfQ (q_a (s_co s)) * t * t * t + sfQ (q_b (s_co s)) * t * t + sfQ (q_c (s_co s)) * t + sfQ (q_d (s_co s)))%Q.
(** [s] is the last piece which begins before [x], or the first one *)
Definition piece_at (l : list spline) (x : Q) (s : spline) : Prop :=
  exists j, nth_error l j = Some s /\ (forall i r, nth_error l i = Some r -> (j < i)%nat -> (x <= sfQ (s_pos r))%Q) /\
    (j = 0%nat \/ (sfQ (s_pos s) < x)%Q).
(** [v] is the integral part of [z], limited to 0..255 *)
Definition limited (v : Z) (z : Q) : Prop :=
  (v = 0 /\ (z < 1)%Q) \/ (v = 255 /\ (255 <= z)%Q) \/ (inject_Z v <= z < inject_Z v + 1)%Q.
Definition spline_sample (l : list spline) (k n v : Z) : Prop :=
  exists x s z, (0 <= x <= 1)%Q /\ within x (inject_Z k / inject_Z n) (b2 (-53)) /\ piece_at l x s /\
    within z (255 * piece s x) (b2 (-16)) /\ limited v z.
