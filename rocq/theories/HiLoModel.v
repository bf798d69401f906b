(** Splitting 16-bit words into low and high bytes and back
    (Src/libCZI/utilities.cpp l.496-591, Src/libCZI/utilities_simd.cpp).
    Every access is checked against the size of its buffer.  Pointers which are
    incremented along with loop counters are written as functions of the
    counters. *)
From Verif Require Import Base CopyModel.

Definition ld (m : mem) (sz off : Z) (n : nat) : res bytes :=
  if (0 <=? off) && (off + Z.of_nat n <=? sz) then Ok (mread m off n) else UB.
Definition st (m : mem) (sz off : Z) (d : bytes) : res mem :=
  if (0 <=? off) && (off + Z.of_nat (length d) <=? sz) then Ok (mwrite m off d) else UB.

(** One word of the scalar loop (utilities.cpp l.552-556; also the remainder loops). *)
Definition unpack_word (src : mem) (ssz soff : Z) (half dsz doff : Z) (m : mem) : res mem :=
  let* b := ld src ssz soff 2 in
  let v := unle b in
  let* m := st m dsz doff [u8 v] in
  st m dsz (doff + half) [u8 (v / 256)].
(** utilities.cpp l.572-574 *)
Definition pack_word (src : mem) (ssz soff half : Z) (dsz doff : Z) (m : mem) : res mem :=
  let* lo := ld src ssz soff 1 in
  let* hi := ld src ssz (soff + half) 1 in
  st m dsz doff (le 2 (u16 (nth 0 lo 0 + 256 * nth 0 hi 0))).

(** LoHiByteUnpackStrided_C (utilities.cpp l.543-559) *)
Definition unpack_c (src : mem) (ssz w stride h : Z) (dsz : Z) (dst : mem) : res mem :=
  let half := u64 (u64 (w * 2) * h) / 2 in
  for_loop (Z.to_nat h) 0 (fun y m =>
    for_loop (Z.to_nat w) 0 (fun x m =>
      unpack_word src ssz (y * stride + 2 * x) half dsz (y * w + x) m) m) dst.

(** LoHiBytePackStrided_C (utilities.cpp l.561-578) *)
Definition pack_c (src : mem) (ssz w h stride : Z) (dsz : Z) (dst : mem) : res mem :=
  let half := ssz / 2 in
  for_loop (Z.to_nat h) 0 (fun y m =>
    for_loop (Z.to_nat w) 0 (fun x m =>
      pack_word src ssz (y * w + x) half dsz (y * stride + 2 * x) m) m) dst.

(** ** AVX2 intrinsics on lists of bytes, least significant byte first *)

(** _mm256_shuffle_epi8: within each 128-bit lane *)
Definition shuffle_lane (d c : bytes) : bytes :=
  map (fun i => if 128 <=? i then 0 else nth (Z.to_nat (i mod 16)) d 0) c.
Definition shuffle_epi8 (d c : bytes) : bytes :=
  shuffle_lane (firstn 16 d) (firstn 16 c) ++ shuffle_lane (skipn 16 d) (skipn 16 c).
(** _mm256_permute4x64_epi64 *)
Definition permute4x64 (d : bytes) (imm : Z) : bytes :=
  flat_map (fun i => slice d (8 * Z.to_nat (Z.shiftr imm (2 * i) mod 4)) 8) [0; 1; 2; 3].
(** _mm256_unpacklo_epi8: interleave the low halves of each lane *)
Fixpoint interleave (a b : bytes) : bytes :=
  match a, b with x :: a', y :: b' => x :: y :: interleave a' b' | _, _ => [] end.
Definition unpacklo_epi8 (a b : bytes) : bytes :=
  interleave (firstn 8 a) (firstn 8 b) ++ interleave (slice a 16 8) (slice b 16 8).

(** shuffleConst128 (utilities_simd.cpp l.140-146; _mm_set_epi8 lists the most significant byte first) *)
Definition shuffle_const128 : bytes := [0; 2; 4; 6; 8; 10; 12; 14; 1; 3; 5; 7; 9; 11; 13; 15].
Definition shuffle_const : bytes := shuffle_const128 ++ shuffle_const128.

(** LoHiByteUnpackStrided_AVX (utilities_simd.cpp l.137-175) *)
Definition unpack_avx (src : mem) (ssz w stride h : Z) (dsz : Z) (dst : mem) : res mem :=
  let half := u64 (u64 (w * 2) * h) / 2 in
  for_loop (Z.to_nat h) 0 (fun y m =>
    let* m := for_loop (Z.to_nat (w / 16)) 0 (fun i m =>
      let* d := ld src ssz (y * stride + 32 * i) 32 in
      let s := permute4x64 (shuffle_epi8 d shuffle_const) 216 in
      let* m := st m dsz (y * w + 16 * i) (firstn 16 s) in
      st m dsz (y * w + 16 * i + half) (skipn 16 s)) m in
    for_loop (Z.to_nat (w mod 16)) 0 (fun i m =>
      unpack_word src ssz (y * stride + 32 * (w / 16) + 2 * i) half dsz (y * w + 16 * (w / 16) + i) m) m) dst.

(** LoHiBytePackStrided_AVX (utilities_simd.cpp l.177-208).  [ud]: the upper
    half of the registers after _mm256_castsi128_si256, which is undefined. *)
Definition pack_avx (ud : bytes) (src : mem) (ssz w h stride : Z) (dsz : Z) (dst : mem) : res mem :=
  let half := ssz / 2 in
  for_loop (Z.to_nat h) 0 (fun y m =>
    let* m := for_loop (Z.to_nat (w / 16)) 0 (fun i m =>
      let* la := ld src ssz (y * w + 16 * i) 16 in
      let* lb := ld src ssz (y * w + 16 * i + half) 16 in
      let a := permute4x64 (la ++ ud) 80 in
      let b := permute4x64 (lb ++ ud) 80 in
      st m dsz (y * stride + 32 * i) (unpacklo_epi8 a b)) m in
    for_loop (Z.to_nat (w mod 16)) 0 (fun i m =>
      pack_word src ssz (y * w + 16 * (w / 16) + i) half dsz (y * stride + 32 * (w / 16) + 2 * i) m) m) dst.

(** ** NEON: vld2_u8 de-interleaves, vst2_u8 interleaves *)
Fixpoint evens (l : bytes) : bytes := match l with x :: _ :: l' => x :: evens l' | _ => [] end.
Fixpoint odds (l : bytes) : bytes := match l with _ :: y :: l' => y :: odds l' | _ => [] end.

(** utilities_simd.cpp l.242-272 *)
Definition unpack_neon (src : mem) (ssz w stride h : Z) (dsz : Z) (dst : mem) : res mem :=
  let half := u64 (u64 (w * 2) * h) / 2 in
  for_loop (Z.to_nat h) 0 (fun y m =>
    let* m := for_loop (Z.to_nat (w / 8)) 0 (fun i m =>
      let* d := ld src ssz (y * stride + 16 * i) 16 in
      let* m := st m dsz (y * w + 8 * i) (evens d) in
      st m dsz (y * w + 8 * i + half) (odds d)) m in
    for_loop (Z.to_nat (w mod 8)) 0 (fun i m =>
      unpack_word src ssz (y * stride + 16 * (w / 8) + 2 * i) half dsz (y * w + 8 * (w / 8) + i) m) m) dst.
(** utilities_simd.cpp l.274-306 *)
Definition pack_neon (src : mem) (ssz w h stride : Z) (dsz : Z) (dst : mem) : res mem :=
  let half := ssz / 2 in
  for_loop (Z.to_nat h) 0 (fun y m =>
    let* m := for_loop (Z.to_nat (w / 8)) 0 (fun i m =>
      let* a := ld src ssz (y * w + 8 * i) 8 in
      let* b := ld src ssz (y * w + 8 * i + half) 8 in
      st m dsz (y * stride + 16 * i) (interleave a b)) m in
    for_loop (Z.to_nat (w mod 8)) 0 (fun i m =>
      pack_word src ssz (y * w + 8 * (w / 8) + i) half dsz (y * stride + 16 * (w / 8) + 2 * i) m) m) dst.

(** The implementations a build may select (utilities_simd.cpp l.210-236, l.242-306). *)
Inductive impl := Scalar | Avx (ud : bytes) | Neon.

(** LoHiByteUnpackStrided with its argument check (utilities.cpp l.496-514) *)
Definition hilo_unpack (k : impl) (src : mem) (ssz w stride h : Z) (dsz : Z) (dst : mem) : res mem :=
  if stride <? u32 (w * 2) then Throw
  else match k with
       | Scalar => unpack_c src ssz w stride h dsz dst
       | Avx _ => unpack_avx src ssz w stride h dsz dst
       | Neon => unpack_neon src ssz w stride h dsz dst
       end.
(** LoHiBytePackStrided with its argument check (utilities.cpp l.516-541) *)
Definition hilo_pack (k : impl) (src : mem) (ssz w h stride : Z) (dsz : Z) (dst : mem) : res mem :=
  if ssz <? u64 (u64 (w * h) * 2) then Throw
  else if stride <? u32 (w * 2) then Throw
  else match k with
       | Scalar => pack_c src ssz w h stride dsz dst
       | Avx ud => pack_avx ud src ssz w h stride dsz dst
       | Neon => pack_neon src ssz w h stride dsz dst
       end.
