(** What pixel values mean, independently of the conversion code. *)
From Verif Require Import Base PixelModel FloatProofs.
From Coq Require Import QArith Qabs.
Open Scope Z_scope.

(** a 32-bit float from its bits: sign, exponent, fraction *)
Definition f32_exp (bits : Z) : Z := bits / 2 ^ 23 mod 256.
Definition f32_val (bits : Z) : Q :=
  let e := f32_exp bits in let f := bits mod 2 ^ 23 in
  let a := (if e =? 0 then inject_Z f * b2 (-149) else inject_Z (2 ^ 23 + f) * b2 (e - 150))%Q in
  if bits / 2 ^ 31 =? 0 then a else (- a)%Q.
(** distance of neighbouring floats *)
Definition f32_ulp (bits : Z) : Q := b2 (Z.max 1 (f32_exp bits) - 150).

(** the components of a pixel *)
Definition c16 (v : bytes) (i : nat) : Z := nth (2 * i) v 0 + 256 * nth (2 * i + 1) v 0.
Definition comps (t : px) (v : bytes) : list Z :=
  match t with
  | Gray8 => [nth 0 v 0]
  | Gray16 => [c16 v 0]
  | Gray32F => [nth 0 v 0 + 256 * nth 1 v 0 + 65536 * nth 2 v 0 + 16777216 * nth 3 v 0]
  | Bgr24 => [nth 0 v 0; nth 1 v 0; nth 2 v 0]
  | Bgra32 => [nth 0 v 0; nth 1 v 0; nth 2 v 0; nth 3 v 0]
  | Bgr48 => [c16 v 0; c16 v 1; c16 v 2]
  end.
Definition is_color (t : px) : bool := match t with Bgr24 | Bgra32 | Bgr48 => true | _ => false end.
Definition is_16 (t : px) : bool := match t with Gray16 | Bgr48 => true | _ => false end.
Definition sum (l : list Z) : Z := fold_right Z.add 0 l.

(** component value [c] of the destination for component [a] of the source: widening keeps the
    value, narrowing keeps the high byte *)
Definition depth (s d : px) (a : Z) : Z := if is_16 s && negb (is_16 d) then a / 256 else a.

(** [v'] is pixel [v] of type [s] converted to type [d] *)
Definition conv_spec (s d : px) (v v' : bytes) : Prop :=
  let c := comps s v in let c' := comps d v' in
  match d with
  | Gray32F =>
      exists f, c' = [f] /\
        if is_color s then (Qabs (f32_val f - inject_Z (sum c) / 3) <= f32_ulp f * (1 # 2))%Q
        else (f32_val f == inject_Z (sum c))%Q
  | _ =>
      if is_color s && negb (is_color d) then
        (* the mean of the components: rounded to nearest from 8 bit, truncated from 16 bit *)
        exists g, c' = [g] /\
          (if is_16 s then if is_16 d then 3 * g <= sum c < 3 * g + 3 else 768 * g <= sum c < 768 * (g + 1)
           else Z.abs (3 * g - sum c) <= 1)
      else if is_color d && negb (is_color s) then
        (* grey: all components equal *)
        exists a, c = [a] /\ c' = [depth s d a; depth s d a; depth s d a]
      else c' = map (depth s d) c
  end.

