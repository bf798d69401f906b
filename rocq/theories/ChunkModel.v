(** Chunks in the attachment of a sub-block and the valid-pixel mask stored there
    (Src/libCZI/SubblockAttachmentAccessor.cpp l.42-197).
    The attachment is a list of bytes; reading outside of it is undefined behaviour.  Little-endian
    host.  The Guid is kept as its 16 bytes. *)
From Verif Require Import Base CopyModel HiLoModel.

Record chunk := mkChunk { ck_guid : bytes; ck_off : Z; ck_size : Z }.

Definition len (d : bytes) : Z := Z.of_nat (length d).
Definition at_ (d : bytes) (off : Z) (n : nat) : bytes := slice d (Z.to_nat off) n.

(** The loop of EnumerateChunksInChunkContainer (l.57-97).  [ptr]: how far the pointer
    attachment_data has been advanced; [off]: the variable offset (uint32).  [seen]: the calls of the
    functor so far; [f] is its answer to the last of them.  The variable index keeps its initial
    value 0 (l.60).  Exceptions of the functor and the calls made before an exception is thrown are
    not modelled. *)
Fixpoint chunks_loop (fuel : nat) (d : bytes) (f : list (Z * chunk) -> bool) (seen : list (Z * chunk)) (ptr off : Z)
  : res (list (Z * chunk)) :=
  match fuel with
  | O => OutOfFuel
  | S fuel' =>
      if ptr + 20 <=? len d then
        let size := unle (at_ d (ptr + 16) 4) in
        if len d <? u32 (off + 20 + size) then Throw
        else
          let seen' := seen ++ [(0, mkChunk (at_ d ptr 16) (u32 (off + 20)) size)] in
          if negb (f seen') then Ok seen'
          else
            let off' := u32 (off + 20 + size) in
            if len d <? u32 (off' + 21) then Ok seen'
            else chunks_loop fuel' d f seen' (ptr + 20) off'
      else UB
  end.

(** EnumerateChunksInChunkContainer (l.42-100); [has]: the metadata declares a chunk container *)
Definition enumerate_chunks (has : bool) (d : bytes) (f : list (Z * chunk) -> bool) : res (list (Z * chunk)) :=
  if negb has then Throw
  else if len d <? 21 then Throw
  else chunks_loop (S (length d)) d f [] 0 0.

(** kGuidValidPixelMask (l.15) in memory order *)
Definition GUID_MASK : bytes :=
  [103; 234; 227; 203; 252; 91; 43; 73; 161; 106; 236; 227; 120; 3; 20; 72].
Fixpoint bytes_eqb (a b : bytes) : bool :=
  match a, b with
  | [], [] => true
  | x :: a', y :: b' => (x =? y) && bytes_eqb a' b'
  | _, _ => false
  end.
Definition is_mask_chunk (c : Z * chunk) : bool := bytes_eqb (ck_guid (snd c)) GUID_MASK.
(** the functor of l.109-119: stop at the mask *)
Definition until_mask (seen : list (Z * chunk)) : bool :=
  match rev seen with [] => true | c :: _ => negb (is_mask_chunk c) end.

Definition rd32 (d : bytes) (off : Z) : res Z :=
  if (0 <=? off) && (off + 4 <=? len d) then Ok (unle (at_ d off 4)) else UB.

(** GetValidPixelMaskFromChunkContainer (l.102-139): width, height, type of representation, size of
    the data (size_t) and its position in the attachment.  If no chunk has the Guid, the members of
    the ChunkInfo are used without having been initialised. *)
Definition get_mask (has : bool) (d : bytes) : res (Z * Z * Z * Z * Z) :=
  let* seen := enumerate_chunks has d until_mask in
  match rev seen with
  | [] => UB
  | c :: _ =>
      if negb (is_mask_chunk c) then UB
      else
        let o := ck_off (snd c) in
        let* w := rd32 d o in
        let* h := rd32 d (o + 4) in
        let* t := rd32 d (o + 8) in
        Ok (w, h, t, u64 (ck_size (snd c) - 12), o + 12)
  end.

(** GetValidPixelMaskAsUncompressedBitonalBitmap (l.141-166) *)
Definition get_mask_uncompressed (has : bool) (d : bytes) : res (Z * Z * Z * Z * Z) :=
  let* (w, h, t, n, o) := get_mask has d in
  if negb (t =? 0) then Throw
  else if n <? 4 then Throw
  else
    let* stride := rd32 d o in
    Ok (w, h, stride, n - 4, o + 4).

(** CreateBitonalBitmapFromMaskInfo (l.168-197).  The bitmap refers to the bytes of the attachment
    ([msize]: how many there are behind its start); CBitonalBitmapData::Create (bitmapData.h
    l.187-195) replaces a pitch of zero. *)
Definition create_mask (has : bool) (d : bytes) : res mask :=
  let* (w, h, stride, n, o) := get_mask_uncompressed has d in
  if (w =? 0) || (h =? 0) then Throw
  else
    let minimal_stride := u32 (w + 7) / 8 in
    if stride <? minimal_stride then Throw
    else if n <? u64 ((h - 1) * stride + minimal_stride) then Throw
    else
      let pitch := if stride =? 0 then u32 (w + 7) / 8 else stride in
      Ok (mkMask w h pitch (len d - o) (fun a => nth (Z.to_nat (o + a)) d 0)).
