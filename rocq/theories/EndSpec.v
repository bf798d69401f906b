(** What is written is what is seen. *)
From Verif Require Import Base RectModel CodecModel CodesModel CopyModel TextModel CoordModel CoordSpec StatModel WriterModel WriterSpec ZstdModel ZstdProofs HiLoModel HiLoProofs AddModel AddSpec PixelModel
  AccessModel AccessSpec EditModel EditSpec SubMetaModel ReaderModel ViewModel.
Open Scope Z_scope.

(** the pixel type, in the terms of the library, and the extent of the bitmap of an addition *)
Definition ptype_of (a : addinfo) : CodesModel.pixel_type := pixel_type_from_int (e_pt (ai_e a)).
Definition width_of (a : addinfo) : Z := e_sw (ai_e a).
Definition height_of (a : addinfo) : Z := e_sh (ai_e a).
(** A sub-block was added whose data are a picture: [f i] is byte [i] of its pixels, row after row.  Not compressed, given with any stride or
    line by line; or compressed with one of the compressors of the library *)
Inductive handed (g : outer) (a : addinfo) (bpp : Z) : (Z -> byte) -> Prop :=
| HandedStrided d stride : e_comp (ai_e a) = 0 -> picture_ok d stride (ptype_of a) bpp (width_of a) (height_of a) ->
    strided (Some d) stride (ptype_of a) (width_of a) (height_of a) = Ok (ai_data a) -> handed g a bpp (given_byte d stride (width_of a * bpp))
| HandedLines lines : e_comp (ai_e a) = 0 -> lines_ok lines (ptype_of a) bpp (width_of a) (height_of a) ->
    linewise lines (ptype_of a) (width_of a) (height_of a) = Ok (ai_data a) -> handed g a bpp (line_byte lines (width_of a * bpp))
| HandedZstd0 src ssz stride junk c : e_comp (ai_e a) = 5 -> bytes_per_pel (ptype_of a) = Ok bpp -> zstd_ok (o_zstd g) ->
    ZstdProofs.source_ok src ssz (width_of a) (height_of a) stride (width_of a * bpp) ->
    compress0 (o_zstd g) (ptype_of a) src ssz (width_of a) (height_of a) stride junk = Ok (Some c) -> src_bytes (ai_data a) = c ->
    handed g a bpp (source_byte src stride (width_of a * bpp))
| HandedZstd1 k pack src ssz stride junk c : e_comp (ai_e a) = 6 -> bytes_per_pel (ptype_of a) = Ok bpp -> zstd_ok (o_zstd g) -> impl_ok k -> impl_ok (o_impl g) ->
    byte_mem src -> byte_mem (o_junk2 g) -> ~ (pack = true /\ ptype_of a = CodesModel.Bgr48) ->
    ZstdProofs.source_ok src ssz (width_of a) (height_of a) stride (width_of a * bpp) ->
    compress1 (o_zstd g) k pack (ptype_of a) src ssz (width_of a) (height_of a) stride junk = Ok (Some c) -> src_bytes (ai_data a) = c ->
    handed g a bpp (source_byte src stride (width_of a * bpp)).
(** the bytes of pixel (x, y) of such a picture *)
Definition pixel_of (f : Z -> byte) (bpp w x y : Z) : bytes := map (fun j => f ((y * w + x) * bpp + Z.of_nat j)) (seq 0 (Z.to_nat bpp)).

(** the additions which belong to the plane and are on the bottom layer *)
Definition in_picture (plane : CodecModel.coord) (a : addinfo) : Prop :=
  in_plane plane (e_coord (ai_e a)) /\ e_sw (ai_e a) = e_w (ai_e a) /\ e_sh (ai_e a) = e_h (ai_e a).
(** the addition has a pixel, not masked out, at the point *)
Definition covers (mk : option mask) (a : addinfo) (p : Z * Z) : Prop :=
  e_x (ai_e a) <= fst p < e_x (ai_e a) + e_w (ai_e a) /\ e_y (ai_e a) <= snd p < e_y (ai_e a) + e_h (ai_e a) /\
  match mk with
  | None => True
  | Some m => let x := fst p - e_x (ai_e a) in let y := snd p - e_y (ai_e a) in x < mw m /\ y < mh m /\ mask_pixel m x y = true
  end.
(** the M-index given: one which is not valid does not count *)
Definition given_m (a : addinfo) : Z := if ai_mv a then e_m (ai_e a) else INT_MIN.
Definition m_over (a b : addinfo) : Prop := INT_MIN < given_m b < INT_MAX -> INT_MIN < given_m a < INT_MAX /\ given_m b <= given_m a.

(** every pixel shows the addition with the highest M-index which has a pixel there, else the background.  [pic], [msk]: the pictures handed
    over and their masks *)
Definition seen_at (plane : CodecModel.coord) (l : list addinfo) (bpp : Z) (pic : addinfo -> Z -> byte) (msk : addinfo -> option mask) (back : Z -> Z -> bytes) (d : bmp) (x0 y0 : Z) : Prop :=
  forall x y, 0 <= x < bw d -> 0 <= y < bh d ->
    let p := (x + x0, y + y0) in
    (exists a, In a l /\ in_picture plane a /\ covers (msk a) a p /\ pix d x y = pixel_of (pic a) bpp (width_of a) (x + x0 - e_x (ai_e a)) (y + y0 - e_y (ai_e a)) /\
       forall a', In a' l -> in_picture plane a' -> covers (msk a') a' p -> m_over a a') \/
    ((forall a, In a l -> in_picture plane a -> ~ covers (msk a) a p) /\ pix d x y = back x y).

(** A document which was written by any sequence of requests, of which the additions [l] succeeded, and then opened successfully by a reader
    which was used for anything before, without precedence of the sub-block header *)
Definition opened_document (l : list addinfo) (d : rstate) : Prop :=
  exists m0 strict i ops ws rs r h o,
    session i ops = (ws, rs, r) /\ creation_ok i /\ Forall (request_ok INT_MAX) ops /\
    file_size ws < 2 ^ 63 /\ Z.of_nat (length ops) <= INT_MAX /\ (strict = false \/ added ops rs <> []) /\
    Forall (fun a => 0 < e_w (ai_e a) <= INT_MAX /\ 0 < e_h (ai_e a) <= INT_MAX) (added ops rs) /\ Z.testbit (ro_policy o) 0 = false /\
    let s := fst (rrun reader0 h) in let q := ROpen strict (file_of m0 ws) o in
    d = fst (rstep s q) /\ snd (rstep s q) = Ok ADone /\ l = added ops rs.

(** ... or which was changed by a session of the editor and then opened: [l] are the additions which the calls, by their meaning, leave in the
    document.  The hypotheses are those of C08; the file which was edited may itself be the result of a session of the editor *)
Definition edited_document (l : list addinfo) (d : rstate) : Prop :=
  exists strict force guid f hd dc os f' rs r h o,
    EditSpec.document strict f hd dc /\ reopened dc = dc /\ length guid = 16%nat /\ Forall edit_ok os /\ no_growth dc os /\ close_safe f hd dc os /\
    (strict = false \/ d_subs (fst (drun dc os)) <> []) /\ counts_fit (fst (drun dc os)) /\
    edit strict force guid f os = Ok (f', rs, r) /\ f_size f' < 2 ^ 63 /\
    map snd (d_subs (fst (drun dc os))) = map expected l /\
    Forall (fun a => 0 < e_w (ai_e a) <= INT_MAX /\ 0 < e_h (ai_e a) <= INT_MAX) l /\ ro_lax o = true /\ Z.testbit (ro_policy o) 0 = false /\
    let s := fst (rrun reader0 h) in let q := ROpen strict f' o in d = fst (rstep s q) /\ snd (rstep s q) = Ok ADone.
