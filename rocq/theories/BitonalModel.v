(** Bitonal bitmaps (one bit per pixel, eight pixels per byte, most significant bit first):
    Src/libCZI/libCZI_Pixels.cpp l.14-150 (class BitonalBitmapOperations),
    Src/libCZI/BitmapOperationsBitonal.h l.33-60, Src/libCZI/BitmapOperationsBitonal.cpp l.93-406,
    l.1001-1104.
    A bitmap is the record [mask] of CopyModel: extent, stride, size of the buffer, content; every
    access is checked against the size of the buffer.  Little-endian host.  Simplification: the int
    arithmetic on strides and line addresses is done in Z (extents and strides below 2^31). *)
From Verif Require Import Base CopyModel HiLoModel.

(** CheckLockInfoAndThrow (libCZI_Pixels.cpp l.16-39); the lock info is that of an allocated bitmap *)
Definition check_lock (b : mask) : res unit :=
  let minimal_stride := u32 (mw b + 7) / 8 in
  if (mw b =? 0) || (mh b =? 0) then Throw
  else if mstride b <? minimal_stride then Throw
  else if msize b <? u64 (mstride b * (mh b - 1) + minimal_stride) then Throw
  else Ok tt.

Definition ld8 (m : mem) (sz off : Z) : res Z := let* b := ld m sz off 1 in Ok (nth 0 b 0).

(** GetPixelFromBitonal (BitmapOperationsBitonal.h l.33-42), called by GetPixelValue
    (libCZI_Pixels.cpp l.42-46) *)
Definition get_pixel (b : mask) (x y : Z) : res bool :=
  let* _ := check_lock b in
  if (mw b <=? x) || (mh b <=? y) then Throw
  else let* v := ld8 (mdata b) (msize b) (y * mstride b + x / 8) in
       Ok (negb (Z.land v (Z.shiftl 1 (7 - x mod 8)) =? 0)).

(** SetPixelInBitonal (BitmapOperationsBitonal.h l.55-71), called by SetPixelValue
    (libCZI_Pixels.cpp l.48-52) *)
Definition set_pixel (b : mask) (x y : Z) (value : bool) : res mem :=
  let* _ := check_lock b in
  if (mw b <=? x) || (mh b <=? y) then Throw
  else
    let a := y * mstride b + x / 8 in
    let* v := ld8 (mdata b) (msize b) a in
    st (mdata b) (msize b) a
       [if value then u8 (Z.lor v (Z.shiftl 1 (7 - x mod 8)))
        else u8 (Z.land v (Z.lnot (Z.shiftl 1 (7 - x mod 8))))].

(** memset with bounds check *)
Definition memset (m : mem) (sz off : Z) (v : byte) (n : Z) : res mem :=
  if (0 <=? n) && (0 <=? off) && (off + n <=? sz) then Ok (mwrite m off (repeat v (Z.to_nat n))) else UB.

(** Set (BitmapOperationsBitonal.cpp l.1001-1010), called by SetAllPixels (libCZI_Pixels.cpp l.112-116) *)
Definition set_all (b : mask) (value : bool) : res mem :=
  let* _ := check_lock b in
  let line_length := u32 (mw b + 7) / 8 in
  for_loop (Z.to_nat (mh b)) 0 (fun y m =>
    memset m (msize b) (y * mstride b) (if value then 255 else 0) line_length) (mdata b).

(** SetByte, OrByte, AndByte (BitmapOperationsBitonal.cpp l.1014-1039) *)
Definition set_bytes (v ptr stride sz w h : Z) (m : mem) : res mem :=
  for_loop (Z.to_nat h) 0 (fun y m => memset m sz (ptr + y * stride) v w) m.
Definition or_bytes (v ptr stride sz h : Z) (m : mem) : res mem :=
  for_loop (Z.to_nat h) 0 (fun y m =>
    let* b := ld8 m sz (ptr + y * stride) in st m sz (ptr + y * stride) [Z.lor b v]) m.
Definition and_bytes (v ptr stride sz h : Z) (m : mem) : res mem :=
  for_loop (Z.to_nat h) 0 (fun y m =>
    let* b := ld8 m sz (ptr + y * stride) in st m sz (ptr + y * stride) [Z.land b v]) m.

(** Fill (BitmapOperationsBitonal.cpp l.1042-1104), called by libCZI_Pixels.cpp l.118-122.
    The sum of the int members x + w (l.1046-1047) is undefined when it overflows; the unsigned
    minimum is stored in an int. *)
Definition fill (b : mask) (rx ry rw rh : Z) (value : bool) : res mem :=
  let* _ := check_lock b in
  if negb (in_i32b (rx + rw) && in_i32b (ry + rh)) then UB
  else
    let stride := mstride b in
    let sz := msize b in
    let x1 := Z.max rx 0 in
    let y1 := Z.max ry 0 in
    let x2 := s32 (Z.min (u32 (rx + rw)) (mw b)) in
    let y2 := s32 (Z.min (u32 (ry + rh)) (mh b)) in
    let w := x2 - x1 in
    let h := y2 - y1 in
    if (w <=? 0) || (h <=? 0) then Ok (mdata b)
    else
      let x1u := (x1 + 7) / 8 * 8 in
      let wr := w - (x1u - x1) in
      let* m := if 8 <=? wr
                then set_bytes (if value then 255 else 0) (stride * y1 + x1u / 8) stride sz (wr / 8) h (mdata b)
                else Ok (mdata b) in
      let rem := x1 mod 8 in
      let* m := if negb (rem =? 0)
                then let v := if 8 <=? w then 255 else u8 (Z.shiftl 255 (8 - w)) in
                     let lb := Z.shiftr v rem in
                     let p := x1 / 8 + y1 * stride in
                     if value then or_bytes lb p stride sz h m else and_bytes (u8 (Z.lnot lb)) p stride sz h m
                else Ok m in
      if (rem =? 0) || (x1 / 8 <? x2 / 8)
      then let rem2 := x2 mod 8 in
           if negb (rem2 =? 0)
           then let rb := u8 (Z.shiftl 255 (8 - rem2)) in
                let p := x2 / 8 + y1 * stride in
                if value then or_bytes rb p stride sz h m else and_bytes (u8 (Z.lnot rb)) p stride sz h m
           else Ok m
      else Ok m.

(** ** Decimation *)

Definition ld32 (m : mem) (sz off : Z) : res Z := let* b := ld m sz off 4 in Ok (unle b).
(** bswap_dword, bswap_word (l.33-60) *)
Definition bswap32 (v : Z) : Z := unle (rev (le 4 v)).
Definition bswap16 (v : Z) : Z := unle (rev (le 2 v)).

(** DecimateBitonalTable (l.113-131) *)
Definition decimate_table : list Z := [
  0; 0; 1; 1; 0; 0; 1; 1; 2; 2; 3; 3; 2; 2; 3; 3;
  0; 0; 1; 1; 0; 0; 1; 1; 2; 2; 3; 3; 2; 2; 3; 3;
  4; 4; 5; 5; 4; 4; 5; 5; 6; 6; 7; 7; 6; 6; 7; 7;
  4; 4; 5; 5; 4; 4; 5; 5; 6; 6; 7; 7; 6; 6; 7; 7;
  0; 0; 1; 1; 0; 0; 1; 1; 2; 2; 3; 3; 2; 2; 3; 3;
  0; 0; 1; 1; 0; 0; 1; 1; 2; 2; 3; 3; 2; 2; 3; 3;
  4; 4; 5; 5; 4; 4; 5; 5; 6; 6; 7; 7; 6; 6; 7; 7;
  4; 4; 5; 5; 4; 4; 5; 5; 6; 6; 7; 7; 6; 6; 7; 7;
  8; 8; 9; 9; 8; 8; 9; 9; 10; 10; 11; 11; 10; 10; 11; 11;
  8; 8; 9; 9; 8; 8; 9; 9; 10; 10; 11; 11; 10; 10; 11; 11;
  12; 12; 13; 13; 12; 12; 13; 13; 14; 14; 15; 15; 14; 14; 15; 15;
  12; 12; 13; 13; 12; 12; 13; 13; 14; 14; 15; 15; 14; 14; 15; 15;
  8; 8; 9; 9; 8; 8; 9; 9; 10; 10; 11; 11; 10; 10; 11; 11;
  8; 8; 9; 9; 8; 8; 9; 9; 10; 10; 11; 11; 10; 10; 11; 11;
  12; 12; 13; 13; 12; 12; 13; 13; 14; 14; 15; 15; 14; 14; 15; 15;
  12; 12; 13; 13; 12; 12; 13; 13; 14; 14; 15; 15; 14; 14; 15; 15].
Definition table (v : Z) : Z := nth (Z.to_nat (u8 v)) decimate_table 0.

(** Filter (l.216-262): the eight specialisations, as one loop over the shift distance (uint64) *)
Fixpoint bit_filter (n : nat) (v : Z) : Z :=
  match n with
  | O => v
  | S n' => Z.land (Z.land (bit_filter n' v) (u64 (Z.shiftl v (Z.of_nat n)))) (Z.shiftr v (Z.of_nat n))
  end.

(** FilterDword (l.152-163) *)
Definition filter_dword (r dw before after : Z) : Z :=
  let v0 := Z.lor (Z.lor after (u64 (Z.shiftl dw 8))) (u64 (Z.shiftl before 40)) in
  let v := bit_filter (Z.to_nat r) v0 in
  Z.lor (Z.lor (Z.lor (table (Z.shiftr v 8)) (u16 (Z.shiftl (table (Z.shiftr v 16)) 4)))
               (u16 (Z.shiftl (table (Z.shiftr v 24)) 8)))
        (u16 (Z.shiftl (table (Z.shiftr v 32)) 12)).

(** GetDword (l.264-308).  In the general version the pointer is set to one line behind the current
    line after the first step, whatever the position (l.304). *)
Definition get_dword (r y h : Z) (m : mem) (sz off pitch : Z) : res Z :=
  if r =? 0 then ld32 m sz off
  else if r =? 1 then
    let* dw := ld32 m sz off in
    let* dw := if 0 <? y then let* v := ld32 m sz (off - pitch) in Ok (Z.land dw v) else Ok dw in
    if y <? h - 1 then let* v := ld32 m sz (off + pitch) in Ok (Z.land dw v) else Ok dw
  else
    let start := Z.max (y - r) 0 in
    let end_ := Z.min (y + r) (h - 1) in
    for_loop (Z.to_nat (end_ - start + 1)) start (fun i dw =>
      let* v := ld32 m sz (if i =? start then off - (y - start) * pitch else off + pitch) in
      Ok (Z.land dw v)) 4294967295.

(** ReadPartial (l.328-360) *)
Definition read_partial (m : mem) (sz p bits : Z) : res Z :=
  if bits <=? 8 then
    let* b := ld8 m sz p in
    Ok (Z.lor 4294967040 (Z.lor b (Z.shiftr 255 bits)))
  else if bits <=? 16 then
    let* b1 := ld8 m sz p in
    let* b2 := ld8 m sz (p + 1) in
    Ok (Z.lor (Z.lor 4294901760 (Z.shiftl (Z.lor b2 (Z.shiftr 255 (bits - 8))) 8)) b1)
  else if bits <=? 24 then
    let* b1 := ld8 m sz p in
    let* b2 := ld8 m sz (p + 1) in
    let* b3 := ld8 m sz (p + 2) in
    Ok (Z.lor (Z.lor (Z.lor 4278190080 (Z.shiftl (Z.lor b3 (Z.shiftr 255 (bits - 16))) 16)) (Z.shiftl b2 8)) b1)
  else
    let* dw := ld32 m sz p in
    Ok (Z.lor dw (Z.shiftl (Z.shiftr 255 (bits - 24)) 24)).

(** GetDwordPartial (l.310-326) *)
Definition get_dword_partial (r y h : Z) (m : mem) (sz off bits pitch : Z) : res Z :=
  let start := Z.max (y - r) 0 in
  let end_ := Z.min (y + r) (h - 1) in
  for_loop (Z.to_nat (end_ - start + 1)) start (fun i dw =>
    let* v := read_partial m sz (off - (y - start) * pitch + (i - start) * pitch) bits in
    Ok (Z.land dw v)) 4294967295.

(** GetByteAfter (l.206-214) *)
Definition get_byte_after (m : mem) (sz off x w : Z) : res Z :=
  if x <? w then ld8 m sz (off + x) else Ok 255.

(** DecimateLine (l.165-204); [off] and [doff] are the start of the line in source and destination *)
Definition decimate_line (r y h : Z) (src : mem) (sz off w pitch : Z) (dsz doff : Z) (dst : mem) : res mem :=
  let nd := w / 32 in
  let* (before, dst) :=
    for_loop (Z.to_nat nd) 0 (fun x (s : Z * mem) =>
      let (before, dst) := s in
      let* after := get_byte_after src sz off (x * 4 + 4) w in
      let* dw := get_dword r y h src sz (off + x * 4) pitch in
      let dw := bswap32 dw in
      let* dst := st dst dsz (doff + 2 * x) (le 2 (bswap16 (filter_dword r dw before after))) in
      Ok (u8 dw, dst)) (255, dst) in
  let bits := w - nd * 32 in
  if 0 <? bits then
    let* dw := get_dword_partial r y h src sz (off + nd * 4) bits pitch in
    let dest := filter_dword r (bswap32 dw) before 255 in
    if bits <=? 16 then st dst dsz (doff + 2 * nd) [Z.shiftr dest 8]
    else st dst dsz (doff + 2 * nd) (le 2 (bswap16 dest))
  else Ok dst.

(** BitonalBitmapOperations::Decimate (libCZI_Pixels.cpp l.124-139) with CStdBitonalBitmapData::Create
    (bitmapData.h l.177-185, l.93-104), BitonalDecimate and Decimate (BitmapOperationsBitonal.cpp
    l.133-150, l.364-406).  [junk]: content of the freshly allocated destination. *)
Definition decimate (r : Z) (b : mask) (junk : mem) : res mask :=
  let* _ := check_lock b in
  let wd := mw b / 2 in
  let hd := mh b / 2 in
  let pd := (wd + 7) / 8 in
  let dsz := hd * pd in
  if negb ((0 <=? r) && (r <=? 7)) then Throw
  else
    let* m := for_loop (Z.to_nat hd) 0 (fun y m =>
      decimate_line r (y * 2) (mh b) (mdata b) (msize b) (mstride b * y * 2) (mw b) (mstride b) dsz (pd * y) m) junk in
    Ok (mkMask wd hd pd dsz m).
