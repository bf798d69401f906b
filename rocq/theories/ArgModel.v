(** What the functions of the C API do with their arguments (Src/libCZIAPI/src/libCZIApi.cpp).
    Each function is described by the tests it makes, the arguments it reads, uses and writes, and the codes it returns; what the
    library called inside answers is a choice. Only pointers and handles are arguments here, numbered from 0 in the order of the
    declaration; a handle inside a structure has a number of its own and is looked at after the pointer to the structure
    (the operator || stops early). Running out of memory is not modelled. *)
From Coq Require Import String.
From Verif Require Import Base.
Open Scope Z_scope.

(** a pointer is [Null] or [Good]; a handle is [Null], [Foreign] (memory with another magic value: released or of another kind,
    sharedptrwrapper.h l.45-52), [Hollow] (right magic value, the shared_ptr inside is empty) or [Good] *)
Inductive aval := Null | Foreign | Hollow | Good.
(** the codes, errorcodes.h *)
Inductive code := OK | InvArg | InvHandle | OOM | IdxRange | LockViolated | Unspec.
(** what is stored in an output *)
Inductive stored_kind := SData | SHandle | SNullHandle | SHollow.
Inductive prog :=
| Ret (e : code)
| IfNull (l : list nat) (p q : prog)    (* is one of the arguments null? *)
| IfAllNull (l : list nat) (p q : prog) (* are all of them null? *)
| IfInvalid (i : nat) (p q : prog)      (* reinterpret_cast and IsValid *)
| Use (i : nat) (p : prog)              (* shared_ptr_->... *)
| Read (i : nat) (p : prog)
| Write (i : nat) (k : stored_kind) (p : prog)
| Choose (l : list prog)                (* what the library answers, or a number given *)
| UseNothing.                           (* an empty shared_ptr is dereferenced *)
Inductive outcome := Crash | Returned (e : code) (written : list (nat * stored_kind)).

Definition arg (a : list aval) (i : nat) : aval := nth i a Null.
Definition is_nullp (v : aval) : bool := match v with Null => true | _ => false end.
(** the possible outcomes of a program with arguments [a] which has written [w] so far *)
Inductive runs (a : list aval) : prog -> list (nat * stored_kind) -> outcome -> Prop :=
| r_ret e w : runs a (Ret e) w (Returned e w)
| r_null l p q w o : existsb (fun i => is_nullp (arg a i)) l = true -> runs a p w o -> runs a (IfNull l p q) w o
| r_not_null l p q w o : existsb (fun i => is_nullp (arg a i)) l = false -> runs a q w o -> runs a (IfNull l p q) w o
| r_all l p q w o : forallb (fun i => is_nullp (arg a i)) l = true -> runs a p w o -> runs a (IfAllNull l p q) w o
| r_not_all l p q w o : forallb (fun i => is_nullp (arg a i)) l = false -> runs a q w o -> runs a (IfAllNull l p q) w o
| r_cast_null i p q w : arg a i = Null -> runs a (IfInvalid i p q) w Crash
| r_invalid i p q w o : arg a i = Foreign -> runs a p w o -> runs a (IfInvalid i p q) w o
| r_valid i p q w o : arg a i = Hollow \/ arg a i = Good -> runs a q w o -> runs a (IfInvalid i p q) w o
| r_use_bad i p w : arg a i <> Good -> runs a (Use i p) w Crash
| r_use i p w o : arg a i = Good -> runs a p w o -> runs a (Use i p) w o
| r_read_null i p w : arg a i = Null -> runs a (Read i p) w Crash
| r_read i p w o : arg a i <> Null -> runs a p w o -> runs a (Read i p) w o
| r_write_null i k p w : arg a i = Null -> runs a (Write i k p) w Crash
| r_write i k p w o : arg a i <> Null -> runs a p (w ++ [(i, k)]) o -> runs a (Write i k p) w o
| r_choose l p w o : In p l -> runs a p w o -> runs a (Choose l) w o
| r_nothing w : runs a UseNothing w Crash.

(** a function: its name, the number of its arguments, those which are handles, those which must not be null, its outputs *)
Record func := mkF { f_name : string; f_arity : nat; f_handles : list nat; f_required : list nat; f_outputs : list nat; f_prog : prog }.

(** the usual beginning: a handle and pointers *)
Definition guard (l : list nat) (h : nat) (q : prog) : prog := IfNull l (Ret InvArg) (IfInvalid h (Ret InvHandle) q).
(** try ... catch (const std::exception&) { return UnspecifiedError; } *)
Definition may_throw (l : list prog) : prog := Choose (l ++ [Ret Unspec]).
(** the functions which release a handle *)
Definition releases (n : string) : func := mkF n 1 [0]%nat [0%nat] [] (guard [0%nat] 0 (Ret OK)).
(** a question to an object with an answer which is data *)
Definition asks (n : string) : func := mkF n 2 [0]%nat [0; 1]%nat [1%nat] (guard [0; 1]%nat 0 (Use 0 (may_throw [Write 1 SData (Ret OK)]))).

(** libCZI_AllocateMemory l.109-136; sizes 0 or too large / no memory / done *)
Definition f_AllocateMemory := mkF "libCZI_AllocateMemory" 1 [] [0%nat] [0%nat]
  (IfNull [0%nat] (Ret InvArg) (Write 0 SNullHandle (Choose [Ret InvArg; Write 0 SNullHandle (Ret OOM); Write 0 SData (Ret OK)]))).
(** l.138-152, l.154-169 *)
Definition f_GetLibCZIVersionInfo := mkF "libCZI_GetLibCZIVersionInfo" 1 [] [0%nat] [0%nat] (IfNull [0%nat] (Ret InvArg) (Write 0 SData (Ret OK))).
Definition f_GetLibCZIBuildInformation := mkF "libCZI_GetLibCZIBuildInformation" 1 [] [0%nat] [0%nat] (IfNull [0%nat] (Ret InvArg) (Write 0 SData (Ret OK))).
(** l.171-190 *)
Definition f_CreateReader := mkF "libCZI_CreateReader" 1 [] [0%nat] [0%nat]
  (IfNull [0%nat] (Ret InvArg) (Write 0 SNullHandle (Choose [Ret OOM; Write 0 SHandle (Ret OK)]))).
(** l.192-216; argument 2 is the stream inside the structure *)
Definition f_ReaderOpen := mkF "libCZI_ReaderOpen" 3 [0; 2]%nat [0; 1; 2]%nat []
  (IfNull [0; 1; 2]%nat (Ret InvArg) (IfInvalid 0 (Ret InvHandle) (IfInvalid 2 (Ret InvHandle) (Use 0 (may_throw [Ret OK]))))).
(** l.218-241, l.243-272 *)
Definition f_ReaderGetFileHeaderInfo := asks "libCZI_ReaderGetFileHeaderInfo".
Definition f_ReaderGetStatisticsSimple := asks "libCZI_ReaderGetStatisticsSimple".
(** l.274-328; argument 2 may be null *)
Definition f_ReaderGetStatisticsEx := mkF "libCZI_ReaderGetStatisticsEx" 3 [0]%nat [0; 1]%nat [1%nat]
  (guard [0; 1]%nat 0 (IfNull [2%nat] (Use 0 (may_throw [Write 1 SData (Ret OK)])) (Read 2 (Use 0 (may_throw [Write 1 SData (Write 2 SData (Ret OK))]))))).
(** l.330-353 *)
Definition f_ReaderGetPyramidStatistics := asks "libCZI_ReaderGetPyramidStatistics".
(** l.355-388 *)
Definition f_ReaderReadSubBlock := mkF "libCZI_ReaderReadSubBlock" 2 [0]%nat [0; 1]%nat [1%nat]
  (guard [0; 1]%nat 0 (Use 0 (may_throw [Write 1 SNullHandle (Ret OK); Write 1 SHandle (Ret OK)]))).
(** l.390-419: only the handle is tested *)
Definition f_ReaderGetMetadataSegment := mkF "libCZI_ReaderGetMetadataSegment" 2 [0]%nat [0; 1]%nat [1%nat]
  (guard [0%nat] 0 (Use 0 (may_throw [Ret Unspec; Write 1 SHandle (Ret OK)]))).
(** l.421-443 *)
Definition f_ReaderGetAttachmentCount := asks "libCZI_ReaderGetAttachmentCount".
(** l.445-474 *)
Definition f_ReaderGetAttachmentInfoFromDirectory := mkF "libCZI_ReaderGetAttachmentInfoFromDirectory" 2 [0]%nat [0; 1]%nat [1%nat]
  (guard [0; 1]%nat 0 (Use 0 (may_throw [Ret IdxRange; Write 1 SData (Ret OK)]))).
(** l.476-508: the test has && instead of || *)
Definition f_ReaderReadAttachment := mkF "libCZI_ReaderReadAttachment" 2 [0]%nat [0; 1]%nat [1%nat]
  (IfAllNull [0; 1]%nat (Ret InvArg) (IfInvalid 0 (Ret InvHandle) (Use 0 (may_throw [Write 1 SNullHandle (Ret OK); Write 1 SHandle (Ret OK)])))).
(** l.510-526 *)
Definition f_ReleaseReader := releases "libCZI_ReleaseReader".
(** l.530-539, l.541-559 *)
Definition f_GetStreamClassesCount := mkF "libCZI_GetStreamClassesCount" 1 [] [0%nat] [0%nat] (IfNull [0%nat] (Ret InvArg) (Write 0 SData (Ret OK))).
Definition f_GetStreamClassInfo := mkF "libCZI_GetStreamClassInfo" 1 [] [0%nat] [0%nat] (IfNull [0%nat] (Ret InvArg) (Choose [Ret InvArg; Write 0 SData (Ret OK)])).
(** l.561-598: class, property bag, identifier, output; of the identifier a std::string is made without a test *)
Definition f_CreateInputStream := mkF "libCZI_CreateInputStream" 4 [] [0; 2; 3]%nat [3%nat]
  (IfNull [0; 3]%nat (Ret InvArg)
     (let rest := Read 0 (Read 2 (may_throw [Ret InvArg; Write 3 SHandle (Ret OK)])) in
      IfNull [1%nat] rest (Read 1 (Choose [Ret InvArg; rest])))).
(** l.600-627, l.629-653 *)
Definition creates_from_file (n : string) : func := mkF n 2 [] [0; 1]%nat [1%nat]
  (IfNull [0; 1]%nat (Ret InvArg) (Write 1 SNullHandle (Read 0 (may_throw [Ret Unspec; Write 1 SHandle (Ret OK)])))).
Definition f_CreateInputStreamFromFileWide := creates_from_file "libCZI_CreateInputStreamFromFileWide".
Definition f_CreateInputStreamFromFileUTF8 := creates_from_file "libCZI_CreateInputStreamFromFileUTF8".
(** l.760-777 *)
Definition creates_external (n : string) : func := mkF n 2 [] [0; 1]%nat [1%nat]
  (IfNull [0; 1]%nat (Ret InvArg) (Write 1 SNullHandle (Read 0 (Write 1 SHandle (Ret OK))))).
Definition f_CreateInputStreamFromExternal := creates_external "libCZI_CreateInputStreamFromExternal".
Definition f_ReleaseInputStream := releases "libCZI_ReleaseInputStream".
(** l.799-830 *)
Definition f_SubBlockCreateBitmap := mkF "libCZI_SubBlockCreateBitmap" 2 [0]%nat [0; 1]%nat [1%nat]
  (guard [0; 1]%nat 0 (Write 1 SNullHandle (Use 0 (may_throw [Ret OOM; Write 1 SHandle (Ret OK)])))).
(** l.832-855 *)
Definition f_SubBlockGetInfo := asks "libCZI_SubBlockGetInfo".
(** l.858-907: handle, size, data (may be null); a wrong type is refused *)
Definition copies : prog := Read 1 (Use 0 (may_throw [Write 1 SData (IfNull [2%nat] (Ret OK) (Write 2 SData (Ret OK)))])).
Definition f_SubBlockGetRawData := mkF "libCZI_SubBlockGetRawData" 3 [0]%nat [0; 1]%nat [1%nat]
  (IfNull [0%nat] (Ret InvArg) (Choose [Ret InvArg; IfNull [1%nat] (Ret InvArg) (IfInvalid 0 (Ret InvHandle) copies)])).
Definition f_ReleaseSubBlock := releases "libCZI_ReleaseSubBlock".
(** l.928-957 *)
Definition f_TryGetSubBlockInfoForIndex := mkF "libCZI_TryGetSubBlockInfoForIndex" 2 [0]%nat [0; 1]%nat [1%nat]
  (guard [0; 1]%nat 0 (Use 0 (may_throw [Ret IdxRange; Write 1 SData (Ret OK)]))).
(** l.961-979, l.981-999 *)
Definition f_BitmapGetInfo := mkF "libCZI_BitmapGetInfo" 2 [0]%nat [0; 1]%nat [1%nat] (guard [0; 1]%nat 0 (Use 0 (Write 1 SData (Ret OK)))).
Definition f_BitmapLock := mkF "libCZI_BitmapLock" 2 [0]%nat [0; 1]%nat [1%nat] (guard [0; 1]%nat 0 (Use 0 (Write 1 SData (Ret OK)))).
(** l.1001-1028 *)
Definition f_BitmapUnlock := mkF "libCZI_BitmapUnlock" 1 [0]%nat [0%nat] [] (guard [0%nat] 0 (Use 0 (may_throw [Ret OK; Ret LockViolated]))).
(** l.1030-1062 *)
Definition f_ReleaseBitmap := mkF "libCZI_ReleaseBitmap" 1 [0]%nat [0%nat] [] (guard [0%nat] 0 (Choose [Use 0 (Choose [Ret LockViolated; Ret OK]); Ret OK])).
(** l.1064-1101 *)
Definition f_BitmapCopyTo := mkF "libCZI_BitmapCopyTo" 2 [0]%nat [0; 1]%nat [1%nat] (guard [0; 1]%nat 0 (Use 0 (Choose [Ret InvArg; Write 1 SData (Ret OK)]))).
(** l.1105-1146: only the handle is tested *)
Definition f_MetadataSegmentGetMetadataAsXml := mkF "libCZI_MetadataSegmentGetMetadataAsXml" 2 [0]%nat [0; 1]%nat [1%nat]
  (guard [0%nat] 0 (Use 0 (Choose [Ret Unspec; Ret OOM; Write 1 SData (Ret OK)]))).
(** l.1148-1179 *)
Definition f_MetadataSegmentGetCziDocumentInfo := mkF "libCZI_MetadataSegmentGetCziDocumentInfo" 2 [0]%nat [0; 1]%nat [1%nat]
  (guard [0; 1]%nat 0 (Use 0 (may_throw [Ret Unspec; Write 1 SHandle (Ret OK)]))).
Definition f_ReleaseMetadataSegment := releases "libCZI_ReleaseMetadataSegment".
(** l.1201-1226, l.1228-1251 *)
Definition f_CziDocumentInfoGetScalingInfo := asks "libCZI_CziDocumentInfoGetScalingInfo".
Definition f_CziDocumentInfoGetGeneralDocumentInfo := asks "libCZI_CziDocumentInfoGetGeneralDocumentInfo".
(** l.1253-1286 *)
Definition f_CziDocumentInfoGetAvailableDimension := mkF "libCZI_CziDocumentInfoGetAvailableDimension" 2 [0]%nat [0; 1]%nat [1%nat]
  (guard [0; 1]%nat 0 (Use 0 (may_throw [Ret InvArg; Write 1 SData (Ret OK)]))).
(** l.1288-1312: GetDisplaySettings gives an empty pointer if there are none; it is wrapped without a test *)
Definition f_CziDocumentInfoGetDisplaySettings := mkF "libCZI_CziDocumentInfoGetDisplaySettings" 2 [0]%nat [0; 1]%nat [1%nat]
  (guard [0; 1]%nat 0 (Use 0 (may_throw [Write 1 SHandle (Ret OK); Write 1 SHollow (Ret OK)]))).
(** l.1314-1381: for a dimension other than Z, T and C the switch does nothing *)
Definition f_CziDocumentInfoGetDimensionInfo := mkF "libCZI_CziDocumentInfoGetDimensionInfo" 2 [0]%nat [0; 1]%nat [1%nat]
  (guard [0; 1]%nat 0 (Use 0 (may_throw [Ret InvArg; Write 1 SData (Ret OK); Ret OK]))).
Definition f_ReleaseCziDocumentInfo := releases "libCZI_ReleaseCziDocumentInfo".
(** l.1403-1425 *)
Definition f_AttachmentGetInfo := asks "libCZI_AttachmentGetInfo".
(** l.1437-1472 *)
Definition f_AttachmentGetRawData := mkF "libCZI_AttachmentGetRawData" 3 [0]%nat [0; 1]%nat [1%nat]
  (IfNull [0%nat] (Ret InvArg) (IfNull [1%nat] (Ret InvArg) (IfInvalid 0 (Ret InvHandle) copies))).
Definition f_ReleaseAttachment := releases "libCZI_ReleaseAttachment".
(** l.1494-1518, l.1520-1544, l.1546-1562, l.1564-1581 *)
Definition f_CreateOutputStreamForFileUTF8 := creates_from_file "libCZI_CreateOutputStreamForFileUTF8".
Definition f_CreateOutputStreamForFileWide := creates_from_file "libCZI_CreateOutputStreamForFileWide".
Definition f_ReleaseOutputStream := releases "libCZI_ReleaseOutputStream".
Definition f_CreateOutputStreamFromExternal := creates_external "libCZI_CreateOutputStreamFromExternal".
(** l.1585-1612; argument 1, the options, may be null *)
Definition f_CreateWriter := mkF "libCZI_CreateWriter" 2 [] [0%nat] [0%nat]
  (IfNull [0%nat] (Ret InvArg) (Write 0 SNullHandle (let rest := may_throw [Ret Unspec; Write 0 SHandle (Ret OK)] in IfNull [1%nat] rest (Read 1 rest)))).
Definition f_ReleaseWriter := releases "libCZI_ReleaseWriter".
(** l.1632-1654 *)
Definition f_WriterClose := mkF "libCZI_WriterClose" 1 [0]%nat [0%nat] [] (guard [0%nat] 0 (Use 0 (may_throw [Ret OK]))).
(** l.1656-1694; argument 2, the parameters, may be null *)
Definition f_WriterCreate := mkF "libCZI_WriterCreate" 3 [0; 1]%nat [0; 1]%nat []
  (IfNull [0; 1]%nat (Ret InvArg) (IfInvalid 0 (Ret InvHandle) (IfInvalid 1 (Ret InvHandle)
     (let rest := Use 0 (may_throw [Ret OK]) in IfNull [2%nat] rest (Read 2 rest))))).
(** l.1755-1786, l.1788-1821, l.1823-1850 *)
Definition gives (n : string) : func := mkF n 2 [0]%nat [0; 1]%nat [] (guard [0; 1]%nat 0 (Read 1 (Use 0 (may_throw [Ret OK])))).
Definition f_WriterAddSubBlock := gives "libCZI_WriterAddSubBlock".
Definition f_WriterAddAttachment := gives "libCZI_WriterAddAttachment".
Definition f_WriterWriteMetadata := gives "libCZI_WriterWriteMetadata".
(** l.1854-1883 *)
Definition f_CreateSingleChannelTileAccessor := mkF "libCZI_CreateSingleChannelTileAccessor" 2 [0]%nat [0; 1]%nat [1%nat]
  (guard [0; 1]%nat 0 (Use 0 (may_throw [Ret Unspec; Write 1 SHandle (Ret OK)]))).
(** l.1885-1910 *)
Definition f_SingleChannelTileAccessorCalcSize := mkF "libCZI_SingleChannelTileAccessorCalcSize" 3 [0]%nat [0; 1; 2]%nat [2%nat]
  (guard [0; 1; 2]%nat 0 (Read 1 (Use 0 (may_throw [Write 2 SData (Ret OK)])))).
(** l.1912-1946: accessor, coordinate, roi, options (may be null), output *)
Definition f_SingleChannelTileAccessorGet := mkF "libCZI_SingleChannelTileAccessorGet" 5 [0]%nat [0; 1; 2; 4]%nat [4%nat]
  (guard [0; 1; 2; 4]%nat 0 (Read 2 (Read 1 (let rest := Use 0 (may_throw [Write 4 SHandle (Ret OK); Ret OOM]) in IfNull [3%nat] rest (Read 3 rest))))).
Definition f_ReleaseCreateSingleChannelTileAccessor := releases "libCZI_ReleaseCreateSingleChannelTileAccessor".
(** l.1968-2007: the array of bitmaps, the array of channel information, the output; the handles of the bitmaps follow: none is tested
    for null *)
Fixpoint over_bitmaps (n i : nat) (q : prog) : prog := match n with O => q | S n' => IfInvalid i (Ret InvHandle) (over_bitmaps n' (S i) q) end.
Fixpoint use_bitmaps (n i : nat) (q : prog) : prog := match n with O => q | S n' => Use i (use_bitmaps n' (S i) q) end.
Definition f_CompositorDoMultiChannelComposition (n : nat) := mkF "libCZI_CompositorDoMultiChannelComposition" (3 + n) (seq 3 n) (seq 0 (3 + n)) [2%nat]
  (Choose [Ret InvArg; IfNull [0; 1; 2]%nat (Ret InvArg) (Read 0 (Read 1 (over_bitmaps n 3 (use_bitmaps n 3 (may_throw [Write 2 SHandle (Ret OK)])))))]).
(** l.2009-2036, parameterhelpers.cpp l.1458-1464: for a channel without settings an empty pointer is dereferenced *)
Definition f_CompositorFillOutCompositionChannelInfoInterop := mkF "libCZI_CompositorFillOutCompositionChannelInfoInterop" 2 [0]%nat [0; 1]%nat [1%nat]
  (guard [0; 1]%nat 0 (Write 1 SData (Use 0 (may_throw [Write 1 SData (Ret OK); UseNothing])))).
(** l.2040-2068 *)
Definition f_DisplaySettingsGetChannelDisplaySettings := mkF "libCZI_DisplaySettingsGetChannelDisplaySettings" 2 [0]%nat [0; 1]%nat [1%nat]
  (guard [0; 1]%nat 0 (Use 0 (may_throw [Ret IdxRange; Write 1 SHandle (Ret OK)]))).
Definition f_ReleaseDisplaySettings := releases "libCZI_ReleaseDisplaySettings".
Definition f_ReleaseChannelDisplaySettings := releases "libCZI_ReleaseChannelDisplaySettings".

(** the functions for which the claims hold *)
Definition sound_functions : list func :=
  [f_AllocateMemory; f_GetLibCZIVersionInfo; f_GetLibCZIBuildInformation; f_CreateReader; f_ReaderOpen; f_ReaderGetFileHeaderInfo; f_ReaderGetStatisticsSimple;
   f_ReaderGetStatisticsEx; f_ReaderGetPyramidStatistics; f_ReaderReadSubBlock; f_ReaderGetAttachmentCount; f_ReaderGetAttachmentInfoFromDirectory;
   f_ReleaseReader; f_GetStreamClassesCount; f_GetStreamClassInfo; f_CreateInputStreamFromFileWide; f_CreateInputStreamFromFileUTF8;
   f_CreateInputStreamFromExternal; f_ReleaseInputStream; f_SubBlockCreateBitmap; f_SubBlockGetInfo; f_SubBlockGetRawData; f_ReleaseSubBlock;
   f_TryGetSubBlockInfoForIndex; f_BitmapGetInfo; f_BitmapLock; f_BitmapUnlock; f_ReleaseBitmap; f_BitmapCopyTo; f_MetadataSegmentGetCziDocumentInfo;
   f_ReleaseMetadataSegment; f_CziDocumentInfoGetScalingInfo; f_CziDocumentInfoGetGeneralDocumentInfo; f_CziDocumentInfoGetAvailableDimension;
   f_ReleaseCziDocumentInfo; f_AttachmentGetInfo; f_AttachmentGetRawData; f_ReleaseAttachment; f_CreateOutputStreamForFileUTF8; f_CreateOutputStreamForFileWide;
   f_ReleaseOutputStream; f_CreateOutputStreamFromExternal; f_CreateWriter; f_ReleaseWriter; f_WriterClose; f_WriterCreate; f_WriterAddSubBlock;
   f_WriterAddAttachment; f_WriterWriteMetadata; f_CreateSingleChannelTileAccessor; f_SingleChannelTileAccessorCalcSize; f_SingleChannelTileAccessorGet;
   f_ReleaseCreateSingleChannelTileAccessor; f_DisplaySettingsGetChannelDisplaySettings; f_ReleaseDisplaySettings; f_ReleaseChannelDisplaySettings].
(** all functions; [n] bitmaps are composed *)
Definition api (n : nat) : list func :=
  sound_functions ++ [f_ReaderGetMetadataSegment; f_ReaderReadAttachment; f_CreateInputStream; f_MetadataSegmentGetMetadataAsXml; f_CziDocumentInfoGetDisplaySettings;
    f_CziDocumentInfoGetDimensionInfo; f_CompositorDoMultiChannelComposition n; f_CompositorFillOutCompositionChannelInfoInterop].
