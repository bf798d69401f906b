(** Multi-channel composition (Src/libCZI/MultiChannelCompositor.cpp).
    Source bitmaps, look-up tables and destination are separate memory objects, loads are checked
    against their sizes.  Simplifications: alignment is ignored; the stores of one pixel, which are
    adjacent, are one store; null pointers for bitmaps and channel infos are not modelled (a null
    source bitmap is dereferenced at l.1056 before it is tested at l.1064). *)
From Verif Require Import Base RectModel CopyModel HiLoModel PixelModel.
From Coq Require Import Floats.SpecFloat.

Definition bgr : Type := (Z * Z * Z)%type.
Definition f32_sub (a b : f32) : f32 := SFsub 24 128 a b.
(** numeric_limits<float>::epsilon() *)
Definition f_eps : f32 := S754_finite false 8388608 (-46).

(** Compositors::ChannelInfo (libCZI_compositor / libCZI.h) and the source bitmap of the channel.
    [h_lut], [h_lutsize]: the look-up table and its real number of elements *)
Record chan := mkChan {
  h_src : bmp; h_px : px;
  h_weight : f32;
  h_tint : option bgr;                      (* enableTinting, tinting.color *)
  h_black : f32; h_white : f32;
  h_lutn : Z; h_lutnull : bool; h_lut : mem; h_lutsize : Z }.

(** l.19-32 *)
Definition is_using_lut (ch : chan) : bool := negb (h_lutn ch =? 0).
Definition is_bw_used (ch : chan) : bool := negb (SFleb (h_black ch) (f32_of_Z 0) && SFleb (f32_of_Z 1) (h_white ch)).

(** l.34-42 *)
Definition to_byte (f : f32) : res Z := f32_cast 0 255 (f32_add f f_half).
Definition to_int (f : f32) : res Z := f32_cast INT_MIN INT_MAX (f32_add f f_half).

(** toByte(f * color.b), ... *)
Definition tint (col : bgr) (f : f32) : res bgr :=
  let '(cb, cg, cr) := col in
  let* b := to_byte (f32_mul f (f32_of_Z cb)) in
  let* g := to_byte (f32_mul f (f32_of_Z cg)) in
  let* r := to_byte (f32_mul f (f32_of_Z cr)) in Ok (b, g, r).

Definition getter := mem -> Z -> Z -> res bgr.

(** l.70-109 CGetGray8 ... CGetBgr48 *)
Definition get_plain (t : px) : res getter :=
  match t with
  | Gray8 => Ok (fun m sz p => let* a := ld8 m sz p in Ok (a, a, a))
  | Gray16 => Ok (fun m sz p => let* a := ld16 m sz p in let v := a / 256 in Ok (v, v, v))
  | Bgr24 | Bgra32 => Ok (fun m sz p =>
      let* a := ld8 m sz p in let* b := ld8 m sz (p + 1) in let* c := ld8 m sz (p + 2) in Ok (a, b, c))
  | Bgr48 => Ok (fun m sz p =>
      let* a := ld16 m sz p in let* b := ld16 m sz (p + 2) in let* c := ld16 m sz (p + 4) in Ok (a / 256, b / 256, c / 256))
  | Gray32F => Throw
  end.

(** l.117-175 CGetTintedGray8 ... CGetTintedBgr48 *)
Definition get_tinted (col : bgr) (t : px) : res getter :=
  match t with
  | Gray8 => Ok (fun m sz p => let* a := ld8 m sz p in tint col (f32_div (f32_of_Z a) (f32_of_Z 255)))
  | Gray16 => Ok (fun m sz p => let* a := ld16 m sz p in tint col (f32_div (f32_of_Z a) (f32_of_Z (256 * 256 - 1))))
  | Bgr24 | Bgra32 => Ok (fun m sz p =>
      let* a := ld8 m sz p in let* b := ld8 m sz (p + 1) in let* c := ld8 m sz (p + 2) in
      tint col (f32_div (f32_of_Z (a + b + c)) (f32_of_Z (3 * 255))))
  | Bgr48 => Ok (fun m sz p =>
      let* a := ld16 m sz p in let* b := ld16 m sz (p + 2) in let* c := ld16 m sz (p + 4) in
      tint col (f32_div (f32_of_Z (a + b + c)) (f32_of_Z (3 * (256 * 256 - 1)))))
  | Gray32F => Throw
  end.

(** std::ceil / std::floor followed by a conversion to an unsigned type with maximum [hi] *)
Definition f32_ceil_cast (hi : Z) (f : f32) : res Z :=
  match f with
  | S754_zero _ => Ok 0
  | S754_finite s m e =>
      let n := if s then Zneg m else Zpos m in
      let t := if 0 <=? e then n * 2 ^ e else - ((- n) / 2 ^ (- e)) in
      if (0 <=? t) && (t <=? hi) then Ok t else UB
  | _ => UB
  end.
Definition f32_floor_cast (hi : Z) (f : f32) : res Z :=
  match f with
  | S754_zero _ => Ok 0
  | S754_finite s m e =>
      let n := if s then Zneg m else Zpos m in
      let t := if 0 <=? e then n * 2 ^ e else n / 2 ^ (- e) in
      if (0 <=? t) && (t <=? hi) then Ok t else UB
  | _ => UB
  end.
(** l.479-483 constructor of CGetBlackWhitePtBase *)
Definition bw_points (maxv : Z) (black white : f32) : res (Z * Z) :=
  let* b := f32_ceil_cast maxv (f32_mul black (f32_of_Z maxv)) in
  let* w := f32_floor_cast maxv (f32_mul white (f32_of_Z maxv)) in Ok (b, w).

(** f * 255 + .5 is evaluated in double precision (l.505, l.573) *)
Definition f64_of_f32 (f : f32) : spec_float :=
  match f with
  | S754_finite s m e => binary_normalize 53 1024 (if s then Zneg m else Zpos m) e s
  | x => x
  end.
Definition f64_half : spec_float := S754_finite false 4503599627370496 (-53).
Definition bw_round (f : f32) : res Z :=
  f32_cast 0 255 (SFadd 53 1024 (f64_of_f32 (f32_mul f (f32_of_Z 255))) f64_half).

(** CheckBlackWhite and GetPixelValue (l.447-461, l.495-508) *)
Definition bw_value (pts : Z * Z) (v : Z) : res Z :=
  let '(bp, wp) := pts in
  if v <=? bp then Ok 0 else if wp <=? v then Ok 255
  else bw_round (f32_div (f32_of_Z (v - bp)) (f32_of_Z (wp - bp))).
(** CheckBlackWhiteFloat and GetPixelValueFloat (l.463-477, l.510-534) *)
Definition bw_float (pts : Z * Z) (v : Z) : f32 :=
  let '(bp, wp) := pts in
  if v <=? bp then f32_of_Z 0 else if wp <=? v then f32_of_Z 1
  else f32_div (f32_of_Z (v - bp)) (f32_of_Z (wp - bp)).

(** l.486-673 *)
Definition get_bw (black white : f32) (t : px) : res getter :=
  match t with
  | Gray8 => let* pts := bw_points 255 black white in
      Ok (fun m sz p => let* a := ld8 m sz p in let* v := bw_value pts a in Ok (v, v, v))
  | Gray16 => let* pts := bw_points 65535 black white in
      Ok (fun m sz p => let* a := ld16 m sz p in let* v := bw_value pts a in Ok (v, v, v))
  | Bgr24 => let* pts := bw_points 255 black white in
      Ok (fun m sz p =>
        let* a := ld8 m sz p in let* b := bw_value pts a in
        let* a := ld8 m sz (p + 1) in let* g := bw_value pts a in
        let* a := ld8 m sz (p + 2) in let* r := bw_value pts a in Ok (b, g, r))
  | Bgr48 => let* pts := bw_points 65535 black white in
      Ok (fun m sz p =>
        let* a := ld16 m sz p in let* b := bw_value pts a in
        let* a := ld16 m sz (p + 2) in let* g := bw_value pts a in
        let* a := ld16 m sz (p + 4) in let* r := bw_value pts a in Ok (b, g, r))
  | _ => Throw
  end.
Definition get_bw_tinted (col : bgr) (black white : f32) (t : px) : res getter :=
  match t with
  | Gray8 => let* pts := bw_points 255 black white in
      Ok (fun m sz p => let* a := ld8 m sz p in tint col (bw_float pts a))
  | Gray16 => let* pts := bw_points 65535 black white in
      Ok (fun m sz p => let* a := ld16 m sz p in tint col (bw_float pts a))
  | Bgr24 => let* pts := bw_points 255 black white in
      Ok (fun m sz p =>
        let* a := ld8 m sz p in let* b := ld8 m sz (p + 1) in let* c := ld8 m sz (p + 2) in
        tint col (bw_float pts (u8 ((a + b + c + 1) / 3))))
  | Bgr48 => let* pts := bw_points 65535 black white in
      Ok (fun m sz p =>
        let* a := ld16 m sz p in let* b := ld16 m sz (p + 2) in let* c := ld16 m sz (p + 4) in
        tint col (bw_float pts (u16 ((a + b + c + 1) / 3))))
  | _ => Throw
  end.

(** l.811-902 *)
Definition lut_at (ch : chan) (i : Z) : res Z :=
  if negb (h_lutnull ch) && (0 <=? i) && (i <? h_lutsize ch) then Ok (h_lut ch i) else UB.
Definition get_lut (ch : chan) (t : px) : res getter :=
  match t with
  | Gray8 => Ok (fun m sz p => let* a := ld8 m sz p in let* v := lut_at ch a in Ok (v, v, v))
  | Gray16 => Ok (fun m sz p => let* a := ld16 m sz p in let* v := lut_at ch a in Ok (v, v, v))
  | Bgr24 => Ok (fun m sz p =>
      let* a := ld8 m sz p in let* b := lut_at ch a in
      let* a := ld8 m sz (p + 1) in let* g := lut_at ch a in
      let* a := ld8 m sz (p + 2) in let* r := lut_at ch a in Ok (b, g, r))
  | Bgr48 => Ok (fun m sz p =>
      let* a := ld16 m sz p in let* b := lut_at ch a in
      let* a := ld16 m sz (p + 2) in let* g := lut_at ch a in
      let* a := ld16 m sz (p + 4) in let* r := lut_at ch a in Ok (b, g, r))
  | _ => Throw
  end.
Definition get_lut_tinted (ch : chan) (col : bgr) (t : px) : res getter :=
  match t with
  | Gray8 => Ok (fun m sz p => let* a := ld8 m sz p in let* v := lut_at ch a in tint col (f32_div (f32_of_Z v) (f32_of_Z 255)))
  | Gray16 => Ok (fun m sz p => let* a := ld16 m sz p in let* v := lut_at ch a in tint col (f32_div (f32_of_Z v) (f32_of_Z (256 - 1))))
  | Bgr24 => Ok (fun m sz p =>
      let* a := ld8 m sz p in let* b := lut_at ch a in
      let* a := ld8 m sz (p + 1) in let* g := lut_at ch a in
      let* a := ld8 m sz (p + 2) in let* r := lut_at ch a in
      tint col (f32_div (f32_add (f32_of_Z (b + g)) (f32_of_Z r)) (f32_of_Z (3 * 255))))
  | Bgr48 => Ok (fun m sz p =>
      let* a := ld16 m sz p in let* b := lut_at ch a in
      let* a := ld16 m sz (p + 2) in let* g := lut_at ch a in
      let* a := ld16 m sz (p + 4) in let* r := lut_at ch a in
      tint col (f32_div (f32_of_Z (b + g + r)) (f32_of_Z (3 * (256 - 1)))))
  | _ => Throw
  end.

(** DoTinting l.193-275, DoTintingBlackWhitePt l.675-747, DoLut l.904-973, as selected in ComposeMultiChannel *)
Definition channel_getter (ch : chan) : res getter :=
  if is_using_lut ch then
    match h_tint ch with None => get_lut ch (h_px ch) | Some col => get_lut_tinted ch col (h_px ch) end
  else if is_bw_used ch then
    match h_tint ch with
    | None => get_bw (h_black ch) (h_white ch) (h_px ch)
    | Some col => get_bw_tinted col (h_black ch) (h_white ch) (h_px ch) end
  else
    match h_tint ch with None => get_plain (h_px ch) | Some col => get_tinted col (h_px ch) end.

(** the stores (l.277-393): [first]: store, otherwise add; [alpha]: destination Bgra32 and its alpha value *)
Definition weigh (w : option f32) (v : Z) : res Z :=
  match w with None => Ok v | Some w => to_int (f32_mul (f32_of_Z v) w) end.
Definition add_sat (p v : Z) : res Z := if p + v <=? INT_MAX then Ok (u8 (Z.min (p + v) 255)) else UB.
Definition store_px (first : bool) (alpha : option Z) (w : option f32) (m : mem) (sz off : Z) (c : bgr) : res mem :=
  let '(b, g, r) := c in
  if first then
    let* b := weigh w b in
    let* g := weigh w g in
    let* r := weigh w r in
    st m sz off ([u8 (Z.min b 255); u8 (Z.min g 255); u8 (Z.min r 255)] ++ match alpha with Some a => [a] | None => [] end)
  else
    let* p := ld8 m sz off in let* b := weigh w b in let* b := add_sat p b in
    let* p := ld8 m sz (off + 1) in let* g := weigh w g in let* g := add_sat p g in
    let* p := ld8 m sz (off + 2) in let* r := weigh w r in let* r := add_sat p r in
    st m sz off [b; g; r].

Definition dst_bpp (alpha : option Z) : Z := match alpha with Some _ => 4 | None => 3 end.

(** CopyTinting l.177-191 *)
Definition copy_tinting (get : getter) (first : bool) (alpha : option Z) (w : option f32) (src : bmp) (t : px) (dst : bmp) : res bmp :=
  let* m := for_loop (Z.to_nat (bh src)) 0 (fun y m =>
    for_loop (Z.to_nat (bw src)) 0 (fun x m =>
      let* c := get (bdata src) (bsize src) (y * bstride src + x * bpp_of t) in
      store_px first alpha w m (bsize dst) (y * bstride dst + dst_bpp alpha * x) c) m) (bdata dst) in
  Ok (bwith dst m).

(** l.796-809 GetLutSize *)
Definition get_lut_size (t : px) : res Z :=
  match t with Gray8 | Bgr24 => Ok 256 | Gray16 | Bgr48 => Ok (256 * 256) | _ => Throw end.

(** CheckArguments l.1025-1089 *)
Definition check_lut (ch : chan) : res unit :=
  if 0 <? h_lutn ch then
    if h_lutnull ch then Throw
    else let* n := get_lut_size (h_px ch) in if h_lutn ch =? n then Ok tt else Throw
  else Ok tt.
Definition check_arguments (dst : bmp) (dst_px : px) (alpha : option Z) (chs : list chan) : res unit :=
  if (length chs =? 0)%nat then Throw
  else if negb (px_eqb dst_px (match alpha with Some _ => Bgra32 | None => Bgr24 end)) then Throw
  else if negb (forallb (fun ch => (bw (h_src ch) =? bw dst) && (bh (h_src ch) =? bh dst)) chs) then Throw
  else fold_left (fun r ch => let* _ := r in check_lut ch) chs (Ok tt).

(** CalcWeightSum l.1102-1154: the mean weight, if weights are to be used *)
Fixpoint weight_sum (acc : f32) (chs : list chan) : option f32 :=
  match chs with
  | [] => Some acc
  | ch :: r =>
      match h_weight ch with
      | S754_nan | S754_infinity _ => None
      | w => if SFltb w (f32_of_Z 0) then None else weight_sum (f32_add acc w) r
      end
  end.
Definition f32_abs (f : f32) : f32 := SFabs f.
Definition calc_weight (chs : list chan) : option f32 :=
  match weight_sum (f32_of_Z 0) chs with
  | None => None
  | Some sum =>
      if SFleb (f32_abs sum) f_eps then None
      else
        let mean := f32_div sum (f32_of_Z (Z.of_nat (length chs))) in
        if existsb (fun ch => SFltb f_eps (f32_abs (f32_sub mean (h_weight ch)))) chs then Some mean else None
  end.

(** ComposeMultiChannel l.1195-1268 *)
Fixpoint compose_loop (first : bool) (alpha : option Z) (mean : option f32) (dst : bmp) (chs : list chan) : res bmp :=
  match chs with
  | [] => Ok dst
  | ch :: r =>
      let w := match mean with None => None | Some mw => Some (f32_div (h_weight ch) mw) end in
      let* get := channel_getter ch in
      let* dst := copy_tinting get first alpha w (h_src ch) (h_px ch) dst in
      compose_loop false alpha mean dst r
  end.
Definition compose_multi (dst : bmp) (dst_px : px) (alpha : option Z) (chs : list chan) : res bmp :=
  let* _ := check_arguments dst dst_px alpha chs in
  compose_loop true alpha (calc_weight chs) dst chs.
