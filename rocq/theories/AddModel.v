(** Handing sub-blocks to the writer, to the editor and to the C API.
    Src/libCZI/CziWriter.cpp l.15-127 (ICziWriter::SyncAddSubBlock), Src/libCZI/CziWriter.h l.26-140
    (AddSubBlockHelper, used by ICziReaderWriter, CziReaderWriter.cpp l.20-76) and
    Src/libCZIAPI/src/libCZIApi.cpp l.1698-1782 (libCZI_WriterAddSubBlock).
    size_t has 64 bits.  The getters are called by WriteSubBlkDataGeneric (WriterModel); since their answers do not
    depend on anything but the number of the call, they are represented by the list of their answers. *)
From Verif Require Import Base CodesModel CodecModel WriterModel.

(** What a pointer points to: nothing (null), or a block of memory.  Reading behind its end is undefined behaviour. *)
Definition buf := option bytes.
Definition blen (d : bytes) : Z := Z.of_nat (length d).
(** [n] bytes from offset [off] *)
Definition view (b : buf) (off n : Z) : res (option bytes) :=
  match b with
  | None => Ok None
  | Some d => if (0 <=? off) && (off + n <=? blen d) then Ok (Some (slice d (Z.to_nat off) (Z.to_nat n))) else UB
  end.

(** SetIfCallCountZero (CziWriter.cpp l.15-26; CziWriter.h l.26-36): one piece; with size 0 the getter is not called
    (CziWriter.cpp l.507-513). *)
Definition one_piece (b : buf) (size : Z) : res source :=
  if size =? 0 then Ok (mkSrc 0 [])
  else let* v := view b 0 size in Ok (mkSrc size [v]).

Fixpoint views (b : buf) (offs : list Z) (n : Z) : res (list (option bytes)) :=
  match offs with
  | [] => Ok []
  | o :: os => let* v := view b o n in let* vs := views b os n in Ok (v :: vs)
  end.
Definition upto (h : Z) : list Z := map Z.of_nat (seq 0 (Z.to_nat h)).

(** ** Bitmaps given with a stride *)

(** ICziWriter::SyncAddSubBlock (CziWriter.cpp l.93-107): [w], [h] are int, [stride] is uint32.  An extent below zero is
    refused before any data is fetched (CheckAddSubBlockArguments, l.803-807). *)
Definition strided (b : buf) (stride : Z) (pt : pixel_type) (w h : Z) : res source :=
  let* bpp := bytes_per_pel pt in
  if (w <? 0) || (h <? 0) then Throw
  else
    let line := w * bpp in
    let* vs := views b (map (fun y => y * stride) (upto h)) line in
    Ok (mkSrc (u64 (h * line)) vs).

(** AddSubBlockHelper::SyncAddSubBlock for the same information (CziWriter.h l.104-121), used by the editor.  The
    product of the number of the call and the stride is computed with 32 bits. *)
Definition strided_edit (b : buf) (stride : Z) (w h : Z) : res source :=
  if (w <? 0) || (h <? 0) then Throw
  else
    let* vs := views b (map (fun y => u32 (y * stride)) (upto h)) stride in
    Ok (mkSrc (u64 (h * stride)) vs).

(** ** Bitmaps given line by line: CziWriter.cpp l.56-75.  [lines]: what getBitmapLine points to. *)
Fixpoint line_views (lines : Z -> buf) (ys : list Z) (n : Z) : res (list (option bytes)) :=
  match ys with
  | [] => Ok []
  | y :: ys' => let* v := view (lines y) 0 n in let* vs := line_views lines ys' n in Ok (v :: vs)
  end.
Definition linewise (lines : Z -> buf) (pt : pixel_type) (w h : Z) : res source :=
  let* bpp := bytes_per_pel pt in
  if (w <? 0) || (h <? 0) then Throw
  else
    let line := w * bpp in
    let* vs := line_views lines (upto h) line in
    Ok (mkSrc (u64 (h * line)) vs).
(** CziWriter.h l.67-84: here the length of a line is computed as an int *)
Definition linewise_edit (lines : Z -> buf) (pt : pixel_type) (w h : Z) : res source :=
  let* bpp := bytes_per_pel pt in
  if (w <? 0) || (h <? 0) then Throw
  else if negb (in_i32b (w * bpp)) then UB
  else linewise lines pt w h.

(** ** The C API *)

(** CoordinateInterop (Src/libCZIAPI/inc/misc_types.h l.66-74) *)
Record icoord := mkIC { ic_valid : Z; ic_value : list Z }.

(** ParameterHelpers::ConvertCoordinateInteropToDimCoordinate (parameterhelpers.cpp l.562-578): the loop over the nine
    dimensions; [i]: number of the bit, [k]: index of the next value *)
Fixpoint coord_of_interop (n : nat) (i : Z) (k : nat) (c : icoord) : coord :=
  match n with
  | O => []
  | S n' => if Z.testbit (ic_valid c) i then Some (nth k (ic_value c) 0) :: coord_of_interop n' (i + 1) (S k) c
            else None :: coord_of_interop n' (i + 1) k c
  end.
Definition from_interop (c : icoord) : coord := coord_of_interop 9 0 0 c.

(** AddSubBlockInfoInterop (Src/libCZIAPI/inc/add_subblock_info_interop.h) *)
Record iadd := mkIAdd {
  ia_coord : icoord; ia_mvalid : Z; ia_m : Z; ia_x : Z; ia_y : Z; ia_lw : Z; ia_lh : Z; ia_pw : Z; ia_ph : Z;
  ia_pt : Z; ia_comp : Z; ia_size : Z; ia_data : buf; ia_stride : Z; ia_msize : Z; ia_meta : buf; ia_asize : Z; ia_att : buf }.

(** FillOutAddSubBlockInfoBase (libCZIApi.cpp l.1698-1716): AddSubBlockInfoBase::Clear leaves the pyramid type at None;
    the M-index, if not valid, keeps the value of Clear, which is not used.  The number of the pixel type is cast to
    the enumeration; IntFromPixelType and GetBytesPerPel treat all unknown values alike. *)
Definition fill_out (a : iadd) : sbe :=
  mkSbe (from_interop (ia_coord a)) (if ia_mvalid a =? 0 then 0 else ia_m a) (ia_x a) (ia_y a) (ia_lw a) (ia_lh a) (ia_pw a) (ia_ph a)
        (int_from_pixel_type (pixel_type_from_int (ia_pt a))) 0 (compression_to_int UnCompressed) (byte_from_pyramid_type PyrNone).

(** WriterAddSubBlockUncompressed (l.1719-1737), WriterAddSubBlockCompressed (l.1739-1754) and the choice between them
    in libCZI_WriterAddSubBlock (l.1772-1780): what is handed to SyncAddSubBlock *)
Definition capi_add (a : iadd) : res addinfo :=
  let* data := match compression_from_int (ia_comp a) with
               | UnCompressed => strided (ia_data a) (ia_stride a) (pixel_type_from_int (ia_pt a)) (ia_pw a) (ia_ph a)
               | _ => one_piece (ia_data a) (ia_size a)
               end in
  let* meta := one_piece (ia_meta a) (ia_msize a) in
  let* att := one_piece (ia_att a) (ia_asize a) in
  Ok (mkAdd (fill_out a) (negb (ia_mvalid a =? 0)) meta data att).
