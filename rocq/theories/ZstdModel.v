(** zstd0 / zstd1 compression of bitmaps and their decoders, and the handling of sub-blocks whose data is too long or too
    short (Src/libCZI/zstdCompress.cpp, Src/libCZI/decoder_zstd.cpp, Src/libCZI/CreateBitmap.cpp l.102-173).

    The zstd library itself is an oracle: [z_compress] (ZSTD_compress; None = error), [z_size] (ZSTD_getFrameContentSize;
    None = error or unknown) and [z_decompress data capacity] (ZSTD_decompress; None = error).
    Freshly allocated memory has arbitrary content, the parameter [junk] (bitmapData.h: malloc, not cleared).
    Allocation failures are not modelled. *)
From Verif Require Import Base CopyModel HiLoModel CodesModel.

Record zstd := mkZstd { z_compress : bytes -> option bytes; z_size : bytes -> option Z; z_decompress : bytes -> Z -> option bytes }.

(** a buffer holding a list *)
Definition lmem (d : bytes) : mem := fun a => nth (Z.to_nat a) d 0.
Definition llen (d : bytes) : Z := Z.of_nat (length d).

(** ** Compression *)

(** zstdCompress.cpp l.94-119 CheckSourceBitmapArgumentsAndThrow (non-null source); [l] is [GetBytesPerPixel] times width *)
Definition check_source (w h stride bpp : Z) : bool := (0 <? w) && (0 <? h) && (u32 (w * bpp) <=? stride).

(** the temporary buffer which receives the lines without padding (zstdCompress.cpp l.191-203, l.271-286; CBitmapOperations::Copy) *)
Definition gather (src : mem) (ssz w h stride bpp : Z) (junk : mem) : res bytes :=
  let size := u64 (w * bpp * h) in
  let* m := copy_same (mkRegion size 0 (u32 (w * bpp)) bpp) (mkRegion ssz 0 stride bpp) w h false src junk in
  Ok (mread m 0 (Z.to_nat size)).
(** ... or the source itself if there is no padding *)
Definition direct (src : mem) (ssz w h bpp : Z) : res bytes :=
  let size := u64 (w * bpp * h) in
  if size <=? ssz then Ok (mread src 0 (Z.to_nat size)) else UB.

(** CompressZStd0 (zstdCompress.cpp l.167-205) *)
Definition compress0 (z : zstd) (pt : pixel_type) (src : mem) (ssz w h stride : Z) (junk : mem) : res (option bytes) :=
  let* bpp := bytes_per_pel pt in
  if negb (check_source w h stride bpp) then Throw
  else
    let* p := if u64 (w * bpp * h) =? u64 (stride * h) then direct src ssz w h bpp else gather src ssz w h stride bpp junk in
    Ok (z_compress z p).

(** CompressZStd1 (zstdCompress.cpp l.238-358).  [ask]: the parameter ZSTD_PREPROCESS_DOLOHIBYTEPACKING. *)
Definition is_16bit (pt : pixel_type) : bool := match pt with Gray16 | Bgr48 => true | _ => false end.
Definition compress1 (z : zstd) (k : impl) (ask : bool) (pt : pixel_type) (src : mem) (ssz w h stride : Z) (junk : mem)
  : res (option bytes) :=
  let* bpp := bytes_per_pel pt in
  if negb (check_source w h stride bpp) then Throw
  else
    let packing := ask && is_16bit pt in
    let size := u64 (w * bpp * h) in
    let* p := if packing then
                let* m := hilo_unpack k src ssz (u32 (w * bpp / 2)) stride h size junk in
                Ok (mread m 0 (Z.to_nat size))
              else if stride =? w * bpp then direct src ssz w h bpp
              else gather src ssz w h stride bpp junk in
    match z_compress z p with
    | None => Ok None
    | Some c => Ok (Some ([3; 1; if packing then 1 else 0] ++ c))
    end.

(** ** Decoding *)

(** the bitmap which is returned: stride, size of its memory, content *)
Definition bitmap := (Z * Z * mem)%type.

(** bitmapData.h l.97-107, l.124-129 *)
Definition new_bitmap (stride h : Z) : Z * Z := (u32 stride, u64 (h * u32 stride)).
Definition default_pitch (w bpp : Z) : Z := u32 (u32 (u32 (bpp * w) + 3) / 4 * 4).

(** decoder_zstd.cpp l.81-95 *)
Definition content_size (z : zstd) (d : bytes) : res Z := match z_size z d with Some n => Ok n | None => Throw end.
(** decoder_zstd.cpp l.97-117; the destination has [cap] bytes according to the call and [sz] in reality *)
Definition decompress (z : zstd) (d : bytes) (m : mem) (sz cap expected : Z) : res mem :=
  match z_decompress z d cap with
  | None => Throw
  | Some x =>
    let* m := st m sz 0 x in
    if llen x =? expected then Ok m else Throw
  end.

(** DecodeRequireCorrectSize (decoder_zstd.cpp l.130-151) *)
Definition decode_strict (z : zstd) (d : bytes) (bpp w h : Z) (junk : mem) : res bitmap :=
  let stride := w * bpp in
  let expected := u64 (h * stride) in
  let* n := content_size z d in
  if negb (n =? expected) then Throw
  else
    let (bs, bz) := new_bitmap stride h in
    let* m := decompress z d junk bz expected n in
    Ok (bs, bz, m).

(** DecodeAndHiLoBytePackRequireCorrectSize (decoder_zstd.cpp l.164-195) *)
Definition decode_packed_strict (z : zstd) (k : impl) (d : bytes) (bpp w h : Z) (junk junk2 : mem) : res bitmap :=
  let stride := w * bpp in
  let expected := u64 (h * stride) in
  let* n := content_size z d in
  if negb (n =? expected) then Throw
  else
    let* t := decompress z d junk2 expected expected n in
    let (bs, bz) := new_bitmap (default_pitch w bpp) h in
    let* m := hilo_pack k t n (u32 (w * bpp) / 2) h bs bz junk in
    Ok (bs, bz, m).

(** DecodeAndHandleSizeMismatch (decoder_zstd.cpp l.209-259) *)
Definition decode_lax (z : zstd) (d : bytes) (bpp w h : Z) (junk junk2 : mem) : res bitmap :=
  let stride := w * bpp in
  let expected := u64 (h * stride) in
  let* n := content_size z d in
  let (bs, bz) := new_bitmap stride h in
  if n =? expected then
    let* m := decompress z d junk bz expected n in Ok (bs, bz, m)
  else if n <? expected then
    let* m := decompress z d junk bz expected n in
    let* m := memset0 m bz n (expected - n) in
    Ok (bs, bz, m)
  else
    let* t := decompress z d junk2 n n n in
    let* m := memcpy junk bz 0 t n 0 expected in
    Ok (bs, bz, m).

(** DecodeAndHiLoBytePackAndHandleSizeMismatch (decoder_zstd.cpp l.275-344) *)
Definition decode_packed_lax (z : zstd) (k : impl) (d : bytes) (bpp w h : Z) (junk junk2 junk3 : mem) : res bitmap :=
  let stride := w * bpp in
  let expected := u64 (h * stride) in
  let* n := content_size z d in
  if n =? expected then
    let* t := decompress z d junk2 n n n in
    let (bs, bz) := new_bitmap (default_pitch w bpp) h in
    let* m := hilo_pack k t n (u32 (stride / bpp)) h bs bz junk in
    Ok (bs, bz, m)
  else if n <? expected then
    let* t := decompress z d junk2 n n n in
    let (bs, bz) := new_bitmap stride h in
    let* m := hilo_pack k t n (u32 (n / bpp)) 1 (u32 n) bz junk in
    let* m := memset0 m bz n (expected - n) in
    Ok (bs, bz, m)
  else
    let* t := decompress z d junk2 n n n in
    let* t2 := hilo_pack k t n (u32 (n / bpp)) 1 (u32 n) n junk3 in
    let (bs, bz) := new_bitmap stride h in
    let* m := memcpy junk bz 0 t2 n 0 expected in
    Ok (bs, bz, m).

(** ParseZStd1Header (decoder_zstd.cpp l.355-397): header size (0: invalid) and packing flag *)
Definition parse_header (d : bytes) : res (Z * bool) :=
  match d with
  | [] => Ok (0, false)
  | b0 :: d' =>
    if b0 =? 1 then Ok (1, false)
    else if (b0 =? 3) && (llen d <? 3) then Ok (0, false)
    else match d' with
         | [] => UB
         | b1 :: d'' =>
           if b1 =? 1 then match d'' with [] => UB | b2 :: _ => Ok (3, Z.odd b2) end
           else Ok (0, false)
         end
  end.

(** CZstd0Decoder::Decode (decoder_zstd.cpp l.407-418) *)
Definition decode0 (z : zstd) (lax : bool) (d : bytes) (pt : pixel_type) (w h : Z) (junk junk2 : mem) : res bitmap :=
  let* bpp := bytes_per_pel pt in
  if lax then decode_lax z d bpp w h junk junk2 else decode_strict z d bpp w h junk.

(** CZstd1Decoder::Decode (decoder_zstd.cpp l.427-481) *)
Definition decode1 (z : zstd) (k : impl) (lax : bool) (d : bytes) (pt : pixel_type) (w h : Z) (junk junk2 junk3 : mem) : res bitmap :=
  let* (hs, packed) := parse_header d in
  if hs =? 0 then Throw
  else if llen d <=? hs then Throw
  else if packed && negb (is_16bit pt) then Throw
  else
    let* bpp := bytes_per_pel pt in
    let p := skipn (Z.to_nat hs) d in
    match lax, packed with
    | true, true => decode_packed_lax z k p bpp w h junk junk2 junk3
    | true, false => decode_lax z p bpp w h junk junk2
    | false, true => decode_packed_strict z k p bpp w h junk junk2
    | false, false => decode_strict z p bpp w h junk
    end.

(** CreateBitmapFromSubBlock_Uncompressed (CreateBitmap.cpp l.102-173; little-endian host): the stored bytes themselves are
    the bitmap, unless there are too few of them. *)
Definition create_uncompressed (lax : bool) (d : bytes) (pt : pixel_type) (w h : Z) (junk : mem) : res bitmap :=
  let* bpp := bytes_per_pel pt in
  let stride := u32 (w * bpp) in
  let expected := u64 (stride * h) in
  if expected <=? llen d then Ok (stride, llen d, lmem d)
  else if negb lax then Throw
  else
    let (bs, bz) := new_bitmap (default_pitch w bpp) h in
    let* (m, _) := for_loop (Z.to_nat h) 0 (fun y s =>
      let '(m, remaining) := s in
      if 0 <? remaining then
        let n := Z.min remaining stride in
        let* m := memcpy m bz (y * bs) (lmem d) (llen d) (y * stride) n in
        if remaining - n =? 0 then
          let* m := memset0 m bz (y * bs + n) (stride - n) in Ok (m, remaining - n)
        else Ok (m, remaining - n)
      else
        let* m := memset0 m bz (y * bs) stride in Ok (m, remaining)) (junk, llen d) in
    Ok (bs, bz, m).

(** ** Specification vocabulary *)

(** the bytes of the pixels of a bitmap, row after row *)
Definition pixel_byte (b : bitmap) (l : Z) (i : Z) : byte := let '(s, _, m) := b in m (i / l * s + i mod l).
(** [b] shows the byte sequence [f]: it has room for [h] rows of [l] bytes, and byte [i] of the pixels is [f i] *)
Definition shows (b : bitmap) (l h : Z) (f : Z -> byte) : Prop :=
  let '(s, z, m) := b in l <= s /\ (h - 1) * s + l <= z /\
  forall y x, 0 <= y < h -> 0 <= x < l -> m (y * s + x) = f (y * l + x).
(** truncated or extended by zeros *)
Definition padded (d : bytes) (i : Z) : byte := nth (Z.to_nat i) d 0.
(** the words whose low bytes are the first and whose high bytes are the second half of [d] *)
Definition joined (d : bytes) : bytes :=
  flat_map (fun j => [nth j d 0; nth (length d / 2 + j) d 0]) (seq 0 (length d / 2)).
(** what is required of the zstd library for one payload *)
Definition zstd_ok (z : zstd) : Prop :=
  forall x c, z_compress z x = Some c -> c <> [] /\ z_size z c = Some (llen x) /\ forall cap, llen x <= cap -> z_decompress z c cap = Some x.
(** a frame whose announced size is right *)
Definition frame (z : zstd) (c x : bytes) : Prop :=
  z_size z c = Some (llen x) /\ forall cap, llen x <= cap -> z_decompress z c cap = Some x.
