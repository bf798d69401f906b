(** Pixel conversions, filling and byte order of bitmaps
    (Src/libCZI/BitmapOperations.hpp, BitmapOperations.cpp, utilities.h l.74-100).
    Every load and store is checked against the size of its buffer.  Simplification: alignment is
    ignored; the stores of one call of a functor, which are adjacent, are written as one store. *)
From Verif Require Import Base RectModel CopyModel HiLoModel.
From Coq Require Import Floats.SpecFloat.

(** pixel types for which bitmaps can be created (libCZI_Pixels.h) *)
Inductive px := Gray8 | Gray16 | Gray32F | Bgr24 | Bgra32 | Bgr48.

(** CziUtils.h BytesPerPel *)
Definition bpp_of (t : px) : Z :=
  match t with Gray8 => 1 | Gray16 => 2 | Gray32F => 4 | Bgr24 => 3 | Bgra32 => 4 | Bgr48 => 6 end.

(** ** float: IEEE binary32 *)
Definition f32 := spec_float.
Definition f32_of_Z (n : Z) : f32 := binary_normalize 24 128 n 0 false.
Definition f32_add (a b : f32) : f32 := SFadd 24 128 a b.
Definition f32_mul (a b : f32) : f32 := SFmul 24 128 a b.
Definition f32_div (a b : f32) : f32 := SFdiv 24 128 a b.
(** .5f *)
Definition f_half : f32 := S754_finite false 8388608 (-24).
(** static_cast to an integral type with the given range: truncation; out of range (or NaN) is undefined *)
Definition f32_cast (lo hi : Z) (f : f32) : res Z :=
  match f with
  | S754_zero _ => Ok 0
  | S754_finite s m e =>
      let a := if 0 <=? e then Zpos m * 2 ^ e else Zpos m / 2 ^ (- e) in
      let t := if s then - a else a in
      if (lo <=? t) && (t <=? hi) then Ok t else UB
  | _ => UB
  end.
(** the representation in memory *)
Definition f32_bits (f : f32) : Z :=
  match f with
  | S754_zero s => if s then 2 ^ 31 else 0
  | S754_infinity s => (if s then 2 ^ 31 else 0) + 255 * 2 ^ 23
  | S754_nan => 255 * 2 ^ 23 + 2 ^ 22
  | S754_finite s m e =>
      (if s then 2 ^ 31 else 0) + (if 2 ^ 23 <=? Zpos m then (e + 150) * 2 ^ 23 + (Zpos m - 2 ^ 23) else Zpos m)
  end.

(** ** the ConvertPixel functors (BitmapOperations.hpp l.71-297) *)
Definition ld8 (m : mem) (sz off : Z) : res Z := let* b := ld m sz off 1 in Ok (nth 0 b 0).
Definition ld16 (m : mem) (sz off : Z) : res Z := let* b := ld m sz off 2 in Ok (unle b).
Definition b8 (v : Z) : bytes := [u8 v].
Definition b16 (v : Z) : bytes := le 2 (u16 v).
Definition bf32 (f : f32) : bytes := le 4 (f32_bits f).

(** the bytes stored by the functor for (source type, destination type); None: no such functor *)
Definition conv_load (s d : px) (m : mem) (sz off : Z) : option (res bytes) :=
  match s, d with
  | Gray8, Gray16 => Some (let* a := ld8 m sz off in Ok (b16 a))                              (* l.125-133 *)
  | Gray8, Gray32F => Some (let* a := ld8 m sz off in Ok (bf32 (f32_of_Z a)))                 (* l.145-153 *)
  | Gray8, Bgr24 => Some (let* a := ld8 m sz off in Ok (b8 a ++ b8 a ++ b8 a))                (* l.105-113 *)
  | Gray8, Bgr48 => Some (let* a := ld8 m sz off in Ok (b16 a ++ b16 a ++ b16 a))             (* l.115-123 *)
  | Gray16, Gray8 => Some (let* a := ld16 m sz off in Ok (b8 (a / 256)))                      (* l.195-203 *)
  | Gray16, Gray32F => Some (let* a := ld16 m sz off in Ok (bf32 (f32_of_Z a)))               (* l.155-163 *)
  | Gray16, Bgr24 => Some (let* a := ld16 m sz off in let v := a / 256 in Ok (b8 v ++ b8 v ++ b8 v))  (* l.165-173 *)
  | Gray16, Bgr48 => Some (let* a := ld16 m sz off in Ok (b16 a ++ b16 a ++ b16 a))           (* l.175-183 *)
  | Bgr24, Gray8 =>                                                                           (* l.71-80 *)
      Some (let* a := ld8 m sz off in let* b := ld8 m sz (off + 1) in let* c := ld8 m sz (off + 2) in
            Ok (b8 ((a + b + c + 1) / 3)))
  | Bgr24, Gray16 =>                                                                          (* l.82-91 *)
      Some (let* a := ld8 m sz off in let* b := ld8 m sz (off + 1) in let* c := ld8 m sz (off + 2) in
            Ok (b16 (u8 ((a + b + c + 1) / 3))))
  | Bgr24, Bgr48 =>                                                                           (* l.93-103 *)
      Some (let* a := ld16 m sz off in let* b := ld16 m sz (off + 2) in let* c := ld16 m sz (off + 4) in
            Ok (b16 a ++ b16 b ++ b16 c))
  | Bgr24, Gray32F =>                                                                         (* l.205-215 *)
      Some (let* a := ld8 m sz off in let* b := ld8 m sz (off + 1) in let* c := ld8 m sz (off + 2) in
            Ok (bf32 (f32_div (f32_of_Z (a + b + c)) (f32_of_Z 3))))
  | Bgr48, Gray8 =>                                                                           (* l.273-281 *)
      Some (let* a := ld16 m sz off in let* b := ld16 m sz (off + 2) in let* c := ld16 m sz (off + 4) in
            Ok (b8 ((a + b + c) / 3 / 256)))
  | Bgr48, Gray16 =>                                                                          (* l.263-271 *)
      Some (let* a := ld16 m sz off in let* b := ld16 m sz (off + 2) in let* c := ld16 m sz (off + 4) in
            Ok (b16 ((a + b + c) / 3)))
  | Bgr48, Bgr24 =>                                                                           (* l.241-251 *)
      Some (let* a := ld16 m sz off in let* b := ld16 m sz (off + 2) in let* c := ld16 m sz (off + 4) in
            Ok (b8 (a / 256) ++ b8 (b / 256) ++ b8 (c / 256)))
  | Bgr48, Gray32F =>                                                                         (* l.253-261 *)
      Some (let* a := ld16 m sz off in let* b := ld16 m sz (off + 2) in let* c := ld16 m sz (off + 4) in
            Ok (bf32 (f32_div (f32_of_Z (a + b + c)) (f32_of_Z 3))))
  | _, _ => None
  end.

(** Copy<tSrc,tDst,tPixelConverter> (l.52-69): the border flag is ignored *)
Definition copy_loop (f : mem -> Z -> Z -> res bytes) (dr sr : region) (w h : Z) (src dst : mem) : res mem :=
  for_loop (Z.to_nat h) 0 (fun y m =>
    for_loop (Z.to_nat w) 0 (fun x m =>
      let* v := f src (g_size sr) (g_off sr + y * g_stride sr + x * g_bpp sr) in
      st m (g_size dr) (g_off dr + y * g_stride dr + x * g_bpp dr) v) m) dst.

(** CBitmapOperations::Copy (BitmapOperations.cpp l.62-172) *)
Definition px_eqb (a b : px) : bool :=
  match a, b with
  | Gray8, Gray8 | Gray16, Gray16 | Gray32F, Gray32F | Bgr24, Bgr24 | Bgra32, Bgra32 | Bgr48, Bgr48 => true
  | _, _ => false
  end.
Definition copy_px (s d : px) (dr sr : region) (w h : Z) (border : bool) (src dst : mem) : res mem :=
  if px_eqb s d then
    match s with Bgra32 => Throw | _ => copy_same dr sr w h border src dst end
  else match conv_load s d src 0 0 with
       | None => Throw
       | Some _ => copy_loop (fun m sz off => match conv_load s d m sz off with Some r => r | None => Throw end) dr sr w h src dst
       end.

(** CBitmapOperations::CopyWithOffset (BitmapOperations.cpp l.175-194) with the pixel types *)
Definition copy_px_offset (s d : px) (border : bool) (src dst : bmp) (xo yo : Z) : res bmp :=
  let i := intersect (mkRect xo yo (bw src) (bh src)) (mkRect 0 0 (bw dst) (bh dst)) in
  if (rw i =? 0) || (rh i =? 0) then Ok dst
  else
    let dr := mkRegion (bsize dst) (ry i * bstride dst + rx i * bbpp dst) (bstride dst) (bbpp dst) in
    let sr := mkRegion (bsize src) (Z.max (- yo) 0 * bstride src + Z.max (- xo) 0 * bbpp src)
                       (bstride src) (bbpp src) in
    let* m := copy_px s d dr sr (rw i) (rh i) border (bdata src) (bdata dst) in
    Ok (bwith dst m).

(** ** Filling (BitmapOperations.cpp l.252-366) *)
(** utilities.h l.74-86 and l.88-100; [maxv] is 255 or 65535 *)
Definition clamp_to (maxv : Z) (f : f32) : res Z :=
  if SFleb f (f32_of_Z 0) then Ok 0
  else if SFleb (f32_of_Z maxv) f then Ok maxv
  else f32_cast 0 maxv (f32_add f f_half).

Record rgbf := mkRgbf { c_r : f32; c_g : f32; c_b : f32 }.

(** the bytes of one filled pixel (l.256-279) *)
Definition fill_bytes (t : px) (c : rgbf) : res bytes :=
  let sum := f32_add (f32_add (c_r c) (c_g c)) (c_b c) in
  match t with
  | Gray8 => let* v := clamp_to 255 (f32_div (f32_mul (f32_of_Z 255) sum) (f32_of_Z 3)) in Ok (b8 v)
  | Gray16 => let* v := clamp_to 65535 (f32_div (f32_mul (f32_of_Z 65535) sum) (f32_of_Z 3)) in Ok (b16 v)
  | Gray32F => Ok (bf32 (f32_div sum (f32_of_Z 3)))
  | Bgr24 =>
      let* b := clamp_to 255 (f32_mul (f32_of_Z 255) (c_b c)) in
      let* g := clamp_to 255 (f32_mul (f32_of_Z 255) (c_g c)) in
      let* r := clamp_to 255 (f32_mul (f32_of_Z 255) (c_r c)) in Ok (b8 b ++ b8 g ++ b8 r)
  | Bgra32 =>
      let* b := clamp_to 255 (f32_mul (f32_of_Z 255) (c_b c)) in
      let* g := clamp_to 255 (f32_mul (f32_of_Z 255) (c_g c)) in
      let* r := clamp_to 255 (f32_mul (f32_of_Z 255) (c_r c)) in Ok (b8 b ++ b8 g ++ b8 r ++ b8 255)
  | Bgr48 =>
      let* b := clamp_to 65535 (f32_mul (f32_of_Z 65535) (c_b c)) in
      let* g := clamp_to 65535 (f32_mul (f32_of_Z 65535) (c_g c)) in
      let* r := clamp_to 65535 (f32_mul (f32_of_Z 65535) (c_r c)) in Ok (b16 b ++ b16 g ++ b16 r)
  end.
(** l.288-366 Fill_Gray8 ... Fill_GrayFloat: rows, and pixels within a row (memset for Gray8) *)
Definition fill_px (t : px) (c : rgbf) (b : bmp) : res bmp :=
  let* v := fill_bytes t c in
  let* m := for_loop (Z.to_nat (bh b)) 0 (fun y m =>
    for_loop (Z.to_nat (bw b)) 0 (fun x m => st m (bsize b) (y * bstride b + x * bpp_of t) v) m) (bdata b) in
  Ok (bwith b m).

(** ** Reordering of components and bytes *)
(** CBitmapOperations::RGB48ToBGR48 (BitmapOperations.cpp l.368-380), in place *)
Definition swap_rb (m : mem) (sz off : Z) : res mem :=
  let* a := ld16 m sz off in
  let* c := ld16 m sz (off + 4) in
  let* m := st m sz off (b16 c) in
  st m sz (off + 4) (b16 a).
Definition rgb48_to_bgr48 (b : bmp) : res bmp :=
  let* m := for_loop (Z.to_nat (bh b)) 0 (fun y m =>
    for_loop (Z.to_nat (bw b)) 0 (fun x m => swap_rb m (bsize b) (y * bstride b + x * 6)) m) (bdata b) in
  Ok (bwith b m).
