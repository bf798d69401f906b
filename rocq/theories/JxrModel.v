(** JPEG XR: compressing and decompressing bitmaps (Src/libCZI/jxrlibcompress.cpp, Src/JxrDecode/JxrDecode.cpp,
    Src/libCZI/decoder.cpp) together with the parts of jxrlib which decide whether and how a picture is
    coded (jxrlib/image/encode/strenc.c ValidateArgs, float2pixel; image/decode/strdec.c pixel2float).
    The transform and entropy coding of jxrlib is an oracle: it takes the settings and the internal
    integers of all pixels and gives bytes, and back.
    Simplifications: arithmetic on float is IEEE binary32 with every operation rounded (no contraction to
    fused operations, FLT_EVAL_METHOD 0); pixels are read and written one after the other (jxrlib takes
    sixteen rows at a time); allocation and the creation of streams and codecs do not fail. *)
From Verif Require Import Base RectModel CopyModel HiLoModel PixelModel.
From Coq Require Import Floats.SpecFloat String.
From Verif Require Import TextModel.
Open Scope Z_scope.

(** JxrDecode.h PixelFormat, without kInvalid *)
Inductive jfmt := FBgr24 | FBgr48 | FGray8 | FGray16 | FGray32.

(** ** what is set at the encoder *)
(** the members of CWMIStrCodecParam which libCZI chooses: olOverlap = OL_TWO, cfColorFormat = YUV_420, and
    uiDefaultQPIndex, U, V, YHP, UHP, VHP *)
Record jset := mkJset { j_two : bool; j_420 : bool; j_qp : list Z }.
(** JxrDecode.cpp l.260-271: YUV_444, OL_ONE, uiDefaultQPIndex 1, everything else zero *)
Definition lossless_set : jset := mkJset false false [1; 0; 0; 0; 0; 0].

(** JxrDecode.cpp l.423-436 *)
Definition qps_420 : list (list Z) :=
  [[66; 65; 70; 72; 72; 77]; [59; 58; 63; 64; 63; 68]; [52; 51; 57; 56; 56; 61]; [48; 48; 54; 51; 50; 55];
   [43; 44; 48; 46; 46; 49]; [37; 37; 42; 38; 38; 43]; [26; 28; 31; 27; 28; 31]; [16; 17; 22; 16; 17; 21];
   [10; 11; 13; 10; 10; 13]; [5; 5; 6; 5; 5; 6]; [2; 2; 3; 2; 2; 2]].
(** l.438-452 *)
Definition qps_8 : list (list Z) :=
  [[67; 79; 86; 72; 90; 98]; [59; 74; 80; 64; 83; 89]; [53; 68; 75; 57; 76; 83]; [49; 64; 71; 53; 70; 77];
   [45; 60; 67; 48; 67; 74]; [40; 56; 62; 42; 59; 66]; [33; 49; 55; 35; 51; 58]; [27; 44; 49; 28; 45; 50];
   [20; 36; 42; 20; 38; 44]; [13; 27; 34; 13; 28; 34]; [7; 17; 21; 8; 17; 21]; [2; 5; 6; 2; 5; 6]].
(** l.487-500 *)
Definition qps_16 : list (list Z) :=
  [[197; 203; 210; 202; 207; 213]; [174; 188; 193; 180; 189; 196]; [152; 167; 173; 156; 169; 174];
   [135; 152; 157; 137; 153; 158]; [119; 137; 141; 119; 138; 142]; [102; 120; 125; 100; 120; 124];
   [82; 98; 104; 79; 98; 103]; [60; 76; 81; 58; 76; 81]; [39; 52; 58; 36; 52; 58]; [16; 27; 33; 14; 27; 33];
   [5; 8; 9; 4; 7; 8]].
(** l.516-529 *)
Definition qps_32f : list (list Z) :=
  [[194; 206; 209; 204; 211; 217]; [175; 187; 196; 186; 193; 205]; [157; 170; 177; 167; 180; 190];
   [133; 152; 156; 144; 163; 168]; [116; 138; 142; 117; 143; 148]; [98; 120; 123; 96; 123; 126];
   [80; 99; 102; 78; 99; 102]; [65; 79; 84; 63; 79; 84]; [48; 61; 67; 45; 60; 66]; [27; 41; 46; 24; 40; 45];
   [3; 22; 24; 2; 21; 22]].

(** one row of a table; a row outside of it is a read outside of the array *)
Definition row_at (t : list (list Z)) (i : Z) : res (list Z) :=
  if (0 <=? i) && (i <? Z.of_nat (List.length t)) then Ok (nth (Z.to_nat i) t []) else UB.
(** 0.8f *)
Definition f_08 : f32 := f32_div (f32_of_Z 8) (f32_of_Z 10).
(** 1.5f *)
Definition f_15 : f32 := f32_div (f32_of_Z 3) (f32_of_Z 2).
Definition is8 (f : jfmt) : bool := match f with FBgr24 | FGray8 => true | _ => false end.
Definition is16 (f : jfmt) : bool := match f with FBgr48 | FGray16 => true | _ => false end.

(** l.571-582: static_cast<U8>(0.5f + a * (1.f - qf) + b * qf) *)
Definition mix (qf : f32) (a b : Z) : res Z :=
  f32_cast 0 255 (f32_add (f32_add f_half (f32_mul (f32_of_Z a) (SFsub 24 128 (f32_of_Z 1) qf))) (f32_mul (f32_of_Z b) qf)).
Fixpoint mix_rows (qf : f32) (a b : list Z) : res (list Z) :=
  match a, b with
  | x :: a', y :: b' => let* v := mix qf x y in let* vs := mix_rows qf a' b' in Ok (v :: vs)
  | _, _ => Ok []
  end.

(** ApplyQuality (JxrDecode.cpp l.417-583); MB_WIDTH_PIXEL is 16 *)
Definition apply_quality (quality : f32) (f : jfmt) (width : Z) : res jset :=
  let two := negb (SFleb f_half quality || (width <? 2 * 16)) in
  let c420 := negb (SFleb f_half quality || is16 f) in
  let q := if SFltb f_08 quality && is8 f && negb c420
           then f32_add f_08 (f32_mul (SFsub 24 128 quality f_08) f_15) else quality in
  let* qi := f32_cast INT_MIN INT_MAX (f32_mul (f32_of_Z 10) q) in
  let qf := SFsub 24 128 (f32_mul (f32_of_Z 10) q) (f32_of_Z qi) in
  let t := if c420 then qps_420 else if is8 f then qps_8 else if is16 f then qps_16 else qps_32f in
  let* r0 := row_at t qi in
  let* r1 := row_at t (qi + 1) in
  let* v := mix_rows qf r0 r1 in
  Ok (mkJset two c420 v).

(** ** jxrlib: are the settings accepted, and what becomes of a float *)
(** strenc.c ValidateArgs l.1181-1241: the tests which can fail for the formats and settings used here.
    BD_32F is the bit depth of 32bppGrayFloat (JXRGlue.c pixelInfo). *)
Definition validate_args (s : jset) (f : jfmt) (width height : Z) : bool :=
  if (2 ^ 28 <? width) || (2 ^ 28 <? height) || (width =? 0) || (height =? 0) then false
  else if j_420 s && j_two s && ((width + 15) / 16 <? 2) then false
  else if j_420 s && (match f with FGray32 => true | _ => false end) then false
  else true.

(** the defaults of strenc.c l.788-790 and l.1315-1318: 13 bits of mantissa; the bias -124 with its sign flipped *)
Definition len_mantissa : Z := 13.
Definition exp_bias : Z := 124.

(** float2pixel (strenc.c l.344-389) of the bits of the float; f == 0 for both zeros *)
Definition float2pixel (bits c lm : Z) : Z :=
  if bits mod 2 ^ 31 =? 0 then 0
  else
    let e := bits / 2 ^ 23 mod 256 in
    let m := bits mod 2 ^ 23 + 2 ^ 23 in
    let '(e, m) := if e =? 0 then (e + 1, m - 2 ^ 23) else (e, m) in
    let e1 := e - 127 + c in
    let '(e1, m) :=
      if e1 <=? 1 then
        let m := if e1 <? 1 then m / 2 ^ (1 - e1) else m in
        (if m / 2 ^ 23 mod 2 =? 0 then 0 else 1, m)
      else (e1, m) in
    let m := m mod 2 ^ 23 in
    let h := e1 * 2 ^ lm + (m + 2 ^ (23 - lm - 1)) / 2 ^ (23 - lm) in
    if bits / 2 ^ 31 =? 0 then h else - h.

(** the loop of pixel2float l.490-493; e starts below 512 *)
Fixpoint renorm (fuel : nat) (m e lim : Z) : Z * Z :=
  match fuel with
  | O => (m, e)
  | S n => if (m <? lim) && (1 <? e) && (0 <? m) then renorm n (2 * m) (e - 1) lim else (m, e)
  end.
(** pixel2float (strdec.c l.466-503): the bits of the float.  Simplification: [|] is a sum; they differ only if the
    exponent has become 256 (a NaN which was rounded up), which the theorems exclude. *)
Definition pixel2float (h c lm : Z) : Z :=
  let lim := 2 ^ lm in
  let a := Z.abs h in
  let e := a / lim in
  let m := a mod lim + lim in
  let '(e, m) := if e =? 0 then (1, m - lim) else (e, m) in
  let '(m, e) := renorm 512 m (e + (127 - c)) lim in
  let '(e, m) := if m <? lim then (0, m) else (e, m - lim) in
  (if h <? 0 then 2 ^ 31 else 0) + e * 2 ^ 23 + m * 2 ^ (23 - lm).

(** the internal integers of a pixel, and its bytes again *)
Definition samples (f : jfmt) (v : bytes) : list Z :=
  match f with
  | FGray8 => [nth 0 v 0]
  | FGray16 => [unle (firstn 2 v)]
  | FGray32 => [float2pixel (unle (firstn 4 v)) exp_bias len_mantissa]
  | FBgr24 => [nth 0 v 0; nth 1 v 0; nth 2 v 0]
  | FBgr48 => [unle (firstn 2 v); unle (firstn 2 (skipn 2 v)); unle (firstn 2 (skipn 4 v))]
  end.
Definition pixel_bytes (f : jfmt) (s : list Z) : bytes :=
  match f with
  | FGray8 => b8 (nth 0 s 0)
  | FGray16 => b16 (nth 0 s 0)
  | FGray32 => le 4 (pixel2float (nth 0 s 0) exp_bias len_mantissa)
  | FBgr24 => b8 (nth 0 s 0) ++ b8 (nth 1 s 0) ++ b8 (nth 2 s 0)
  | FBgr48 => b16 (nth 0 s 0) ++ b16 (nth 1 s 0) ++ b16 (nth 2 s 0)
  end.

(** transform and entropy coding, and their inverse; None: the library reports an error *)
Record codec := mkCodec { k_enc : jset -> jfmt -> Z -> Z -> list (list Z) -> option bytes;
                          k_dec : bytes -> option (jfmt * Z * Z * list (list Z)) }.

(** ** JxrDecode *)
(** GetBytesPerPel (JxrDecode.cpp l.392-409) *)
Definition bpp_fmt (f : jfmt) : Z :=
  match f with FBgr24 => 3 | FBgr48 => 6 | FGray8 => 1 | FGray16 => 2 | FGray32 => 4 end.

Definition zseq (n : nat) : list Z := map Z.of_nat (seq 0 n).
Fixpoint mapr {A B} (g : A -> res B) (l : list A) : res (list B) :=
  match l with [] => Ok [] | a :: t => let* b := g a in let* bs := mapr g t in Ok (b :: bs) end.

(** JxrDecode::Encode (JxrDecode.cpp l.202-344): a bitmap in memory *)
Definition jxr_encode (k : codec) (f : jfmt) (width height stride : Z) (m : mem) (size : Z) (quality : f32) : res bytes :=
  if SFltb quality (f32_of_Z 0) || SFltb (f32_of_Z 1) quality then Throw
  else if width =? 0 then Throw
  else if height =? 0 then Throw
  else if stride <? u32 (width * bpp_fmt f) then Throw
  else
    let* s := if SFltb quality (f32_of_Z 1) then apply_quality quality f width else Ok lossless_set in
    if validate_args s f width height then
      let* px := mapr (fun i => ld m size (i / width * stride + i mod width * bpp_fmt f) (Z.to_nat (bpp_fmt f)))
                      (zseq (Z.to_nat (width * height))) in
      match k_enc k s f width height (map (samples f) px) with Some d => Ok d | None => Throw end
    else Throw.

(** ** JxrLibCompress::Compress (jxrlibcompress.cpp l.34-111) *)
(** CompressParameter *)
Inductive cparam := PUint32 (n : Z) | POther.
Definition fmt_of (t : px) : option jfmt :=
  match t with
  | Bgr24 => Some FBgr24 | Bgr48 => Some FBgr48 | Gray8 => Some FGray8 | Gray16 => Some FGray16 | Gray32F => Some FGray32
  | Bgra32 => None
  end.
(** l.64-74; [None]: no parameters, or no such parameter *)
Definition quality_of (p : option cparam) : f32 :=
  match p with
  | Some (PUint32 n) =>
      let q := f32_div (f32_of_Z n) (f32_of_Z 1000) in
      let q := if SFltb q (f32_of_Z 1) then q else f32_of_Z 1 in      (* std::min(1.0f, quality) *)
      if SFltb (f32_of_Z 0) q then q else f32_of_Z 0                  (* std::max(0.0f, ...) *)
  | _ => f32_of_Z 1
  end.

(** [mk] is IBitmapData creation by the site: the bitmap and its lock info *)
Definition jxr_compress (k : codec) (mk : px -> Z -> Z -> bmp) (t : px) (b : bmp) (p : option cparam) : res bytes :=
  match fmt_of t with
  | None => Throw
  | Some f =>
      let q := quality_of p in
      match f with
      | FBgr48 =>                                                     (* l.79-100 *)
          let tmp := mk Bgr48 (bw b) (bh b) in
          let* m := copy_same (mkRegion (bsize tmp) 0 (bstride tmp) 6) (mkRegion (bsize b) 0 (bstride b) 6)
                              (bw b) (bh b) false (bdata b) (bdata tmp) in
          let* tmp := rgb48_to_bgr48 (bwith tmp m) in
          jxr_encode k f (bw b) (bh b) (bstride tmp) (bdata tmp) (bsize tmp) q
      | _ => jxr_encode k f (bw b) (bh b) (bstride b) (bdata b) (bsize b) q
      end
  end.

(** ** CJxrLibDecoder::Decode (decoder.cpp l.41-115) with JxrDecode::Decode (JxrDecode.cpp l.99-200) *)
Definition px_of (f : jfmt) : px :=
  match f with FBgr24 => Bgr24 | FBgr48 => Bgr48 | FGray8 => Gray8 | FGray16 => Gray16 | FGray32 => Gray32F end.
Definition differs {A} (eqb : A -> A -> bool) (expected : option A) (v : A) : bool :=
  match expected with Some e => negb (eqb e v) | None => false end.
Definition jxr_decode (k : codec) (mk : px -> Z -> Z -> bmp) (d : bytes) (t : option px) (w h : option Z) : res (px * bmp) :=
  match d with
  | [] => Throw
  | _ =>
    match k_dec k d with
    | None => Throw
    | Some (f, aw, ah, s) =>
        if differs px_eqb t (px_of f) then Throw
        else if differs Z.eqb w aw then Throw
        else if differs Z.eqb h ah then Throw
        else
          let b := mk (px_of f) aw ah in
          let* m := for_loop (Z.to_nat ah) 0 (fun y m =>
            for_loop (Z.to_nat aw) 0 (fun x m =>
              st m (bsize b) (y * bstride b + x * bpp_fmt f) (pixel_bytes f (nth (Z.to_nat (y * aw + x)) s []))) m) (bdata b) in
          let b := bwith b m in
          match f with
          | FBgr48 => let* b := rgb48_to_bgr48 b in Ok (Bgr48, b)
          | _ => Ok (px_of f, b)
          end
    end
  end.

(** ** the text of the exception for an error of jxrlib *)
(** ThrowJxrlibError (JxrDecode.cpp l.346-363): the stream is constructed with the message, its position is at
    the beginning, so what is put into it replaces the first characters *)
Definition put_at_start (message added : str) : str := added ++ skipn (List.length added) message.
Definition jxr_error_text (message code : str) (name : option str) : str :=
  put_at_start message (txt " - ERR=" ++ code ++ match name with Some n => txt " (" ++ n ++ txt ")" | None => [] end).
