# Formal model of libCZI in Rocq (Coq 8.16.1)

Source: ZEISS/libczi at the pinned commit, read as text in /repo; nothing of it was built or run.
Paths are relative to `/repo/Src/libCZI` unless noted.

`properties.jsonl` states 124 properties.  36 are proved as stated, 88 are `partial`: nearly all of
those because the statement is *false* of the code; then a theorem `..._refuted` computes a witness on the
model and a theorem `..._partial` proves the strongest restriction found to be true.

## 1. Organisation

* `rocq/theories/Base.v` – bytes, little-endian codecs, machine integers, memories, list lemmas, `res`.
* `rocq/theories/<Topic>Model.v` – executable model; every definition cites file and lines.
* `rocq/theories/<Topic>Spec.v` – what is expected, written without the helpers of the model where a
  property needs more than a line.
* `rocq/theories/<Topic>*.v` – lemmas, `<Topic>Examples.v` – concrete runs.
* `rocq/theories/Prop<Topic>.v` – the property theorems only, each closed by `exact`, `Print Assumptions`
  beneath, and next to each an `Example` with a concrete non-trivial case meeting its hypotheses.
* `seeded/LOG.jsonl` – faults seeded into a scratch copy of the model, and which theorems noticed.

## 2. Conventions

* A call yields `Ok a`, `Throw` (a C++ exception), `UB` (undefined behaviour: access outside an object,
  signed overflow, out-of-range float conversion, use of an indeterminate value, null dereference) or
  `OutOfFuel`.  Theorems exclude `UB` and `OutOfFuel` unless they are about it.
* Loops are structural recursion, or fuel with proofs that the fuel suffices; a loop which does not end in
  the code is shown to exhaust every fuel (C49).
* Integers are `Z`.  Wrap-around (`u8`, `u32`, `u64`) and signed overflow (`chk`) are written where they
  matter; otherwise the range is stated as a simplification in the header comment of the file.
* `float`/`double` arithmetic is IEEE-754 binary32/binary64 with rounding to nearest even, through
  `Coq.Floats.SpecFloat` (plain Gallina functions, no axioms).
* Concurrency is interleaving of atomic steps (sequential consistency), for all schedules and any number
  of threads.
* External components are parameters of sections (so every theorem quantifies over them): the zstd
  library, `std::sort` (its contract), data sources of the user, contents of fresh memory (`junk`),
  decoded bitmaps.
* `..._refuted`: machine-checked counterexample, a finding about the code.  `..._partial`: restricted
  statement; what is missing is written in the comment above it and in MANIFEST.json.

## 3. What is modelled

| model | source | contents |
|-------|--------|----------|
| CodecModel | CziParse.cpp, CziStructs.h, CziUtils, FileHeaderSegmentData.h, CziSubBlockDirectory.h (entries) | bytes of file header, segments, DV/DE entries, sub-block, attachment and metadata segments; all reading functions, with parse options, short reads, 40-slot dimension buffer |
| WriterModel | CziWriter.cpp (CCziWriter, CWriterUtils) | the append-only writer as a list of stream writes: reservations, sub-blocks, attachments, metadata, directories, header, refused calls, failing sources |
| EditModel | CziReaderWriter.cpp, CziSubBlockDirectory.cpp (reader-writer directory) | in-place editor: Create, seven editing calls, Finish/Close, segment reuse |
| ReaderModel | CZIReader.cpp, CziReaderCommon.cpp, CziAttachmentsDirectory.cpp | the reader object across open/close/re-open: enumeration, selection, reading, discrepancy policy |
| ConcModel | CZIReader.cpp (stream mutex, shared pointers) | threads reading while another closes or re-opens |
| StatModel | CziSubBlockDirectory.h/.cpp, libCZI.h (statistics) | statistics updater, pyramid statistics, directory of the editor |
| AccessModel | CZIReader.cpp (frames), SingleChannelTileAccessor.cpp, SingleChannelPyramidLevelTileAccessor.cpp, SingleChannelAccessorBase | frames of reference, tile and pyramid accessors up to the composed picture |
| ScaleModel | BitmapOperations.hpp l.415-474, BitmapOperations.cpp (NNResize), BitmapOperationsBitonal.cpp, SingleChannelScalingTileAccessor.cpp | nearest-neighbour scaling, scaling accessor |
| Md5Model | MD5Sum.cpp, BitmapOperations.cpp l.17-61, libCZI_Utilities.cpp l.161-174 | MD5 digest of buffers and bitmaps (little-endian hosts) |
| LutModel | libCZI_Utilities.cpp l.176-356, splines.cpp l.110-124 | look-up tables from gamma and splines, float by float; std::pow a parameter |
| SplineModel | splines.cpp l.13-124, libCZI_Utilities.cpp l.176-195, l.358-392 | splines through control points, exact rational arithmetic; the linear solver a parameter |
| DateModel | libCZI_Metadata.h l.25-96, CziMetadataBuilder.cpp l.586-705 | dates and times as text |
| XmlModel | XmlNodeWrapper.h, CziMetadataBuilder.cpp l.20-436, CziMetadata.cpp l.100-271, pugixml.cpp (child_value) | nodes, paths, attributes and values of the metadata XML |
| PugiModel | pugixml.cpp l.1525-1740, l.1884-1946, l.2500-2872, l.3093-3638, l.3982-4385, l.7775-7801; CziMetadataBuilder.cpp l.447-481; CziMetadata.cpp l.13-43 | printing and parsing of the metadata XML, UTF-8 |
| NumModel | CziMetadataBuilder.cpp l.197-204, l.985-996; CziMetadata.cpp l.146-165; pugixml.cpp l.4665-4675; C library (operator<<, strtod, wcstod) | floating point numbers as decimal text; conversions assumed correctly rounded in the "C" locale; hexadecimal texts, "inf" and "nan" are not read |
| DocModel | CziMetadataBuilder.cpp l.486-601, l.725-922; CziMetadataDocumentInfo.cpp (all); CziDimensionInfo.cpp l.14-25; CziMetadataDocumentInfo2.cpp l.119-135, l.468-477, l.945-963, l.1627-1645; CziWriter.cpp l.1007-1019, l.1060-1065; pugixml.cpp l.4576-4661, l.6925-7009 | document information, scaling, sizes of dimensions, positions in Z and T, channels (Id, Name, PixelType) in the metadata |
| DispModel | CziMetadataBuilder.cpp l.206-213, l.924-1170; CziDisplaySettings.cpp l.15-70, l.165-256, l.270-405; CziMetadataDocumentInfo.cpp l.459-469; pugixml.cpp l.4677-4693, l.7011-7025 | display settings (written with pixel types, read, points of splines), custom values; the overload with a function and the document after an exception are not modelled |
| RangeModel | CziMetadataDocumentInfo2.cpp l.518-536, l.618-631, l.710-924, l.1484-1513, l.1802-1873; utilities.h l.24-51 | exposure times, wavelengths, lists of numbers of channels; the remaining fields of channels (single numbers, words) are not modelled |
| AddModel | CziWriter.cpp l.15-127; CziWriter.h l.26-140; libCZIApi.cpp l.1698-1782; parameterhelpers.cpp l.562-578 | the getters (called with consecutive numbers by WriteSubBlkDataGeneric) are represented by the list of their answers; memory behind a pointer is a list of bytes, reading outside is UB |
| CapiModel | libCZIApi.cpp l.31-96, l.271-328, l.854-898, l.986-1145, l.1243-1277, l.1437-1473; parameterhelpers.cpp l.110-122, l.322-349, l.562-597 | handles are valid (checks of handles: StreamModel); a bitmap is referenced by its handle only; memory of the caller is a list of bytes, writing outside is UB |
| GuidModel | parameterhelpers.cpp l.17-75, l.124-205, l.351-560, l.615-630; libCZIApi.cpp l.1656-1694; CziWriter.cpp l.911-951, l.1316-1322 | the JSON parser (rapidjson) is an oracle: a text is refused or gives a list of members; duplicate members: the first counts, as FindMember does |
| ArgModel | libCZIApi.cpp, all exported functions | only what matters for null pointers and handles: tests, uses, writes; the result of the C++ calls inside is any of the possible ones (Choose); a handle is null, of another object, hollow (an empty shared_ptr inside) or good; memory of the caller is as large as announced; released handles are not given |
| SubMetaModel | SubblockMetadata.cpp l.13-173; libCZI_Utilities.cpp l.597-618; SubblockAttachmentAccessor.cpp l.17-30; libCZI_Lib.cpp l.151-179; SingleChannelAccessorBase.cpp l.196-213 | those of XmlModel, PugiModel, NumModel; a text which a reference to NUL makes empty counts as no text |
| ShowModel | libCZI_Helpers.h l.20-206; parameterhelpers.cpp l.633-647, l.1458-1520; MultiChannelCompositor.cpp l.1310-1318; libCZIApi.cpp l.1968-2010 | pow, the spline data and the bitmap of the site are parameters; valid handles, allocation succeeds |
| OptsModel | libCZI_Utilities.cpp l.24-106, l.457-477, l.698-737; zstdCompress.cpp l.75-92, l.244-254 | std::regex (ECMAScript) as a backtracking matcher for the two expressions used; characters are ASCII (the classes of the C locale); std::stoi, getline as in the standard |
| ReserveModel | CziWriter.cpp l.1394-1425 (with WriterModel) | |
| ViewModel | SingleChannelAccessorBase.cpp l.146-213, CreateBitmap.cpp l.16-68 and l.174-189, the Get functions of the tile, pyramid and scaling accessors with options and cache | the contents of newly allocated memory are parameters which do not change from call to call; NNScale2 is taken to know the same pairs of pixel types as Copy; Bgr24 to Bgr48 is left out (an outcome UB); the operations of the cache are atomic steps of the system of threads (CacheModel has them in detail) |
| ScanModel | the plane scan of the command-line tool: tiles of a region with machine arithmetic, creation of the bitmap by the scaling accessor, list of pictures | parsing of the command line, saving as PNG, the cache (C108 shows that it does not change pictures); the rectangles are determined before the first one is drawn |
| CreateModel | the command CreateCZI of the command-line tool: position and number of each tile with uint32 and float arithmetic, loops over tiles and coordinates, branches on the mode of compression, the directory entries handed to the writer | the bitmap generators, sub-block metadata, the metadata written at the end; lrint returns a long of 64 bits (32 on Windows) |
| ArgsModel | the parsers of argument texts of the command-line tool: sizes, tiles, integers, regions, hexadecimal numbers, pixel type and alpha, pyramid layer, lists of levels, cache size | CLI11 itself, files of arguments; alternatives of a regular expression are tried as separate expressions; stod of numbers below the normal range (out_of_range in some libraries) is accepted; JSON display settings, background colour, zoom, selection |
| JsonModel | JSON texts: read as rapidjson is documented to do (Parse with default flags), written as its Writer does; the JSON of general information, Z, T and pyramid statistics; the functions of the C API handing them out | rapidjson is not part of the repository; numbers beyond the range of double are accepted; numbers with fraction or exponent stay texts; no limit of nesting; texts of finite numbers are a parameter |
| ChanModel | the items of a channel (CDimensionChannelInfo) read from its XML node, the JSON object of a channel and of all channels, libCZI_CziDocumentInfoGetDimensionInfo for the dimension C | the settings of detector, light source and laser scan of a channel (CziMetadataDocumentInfo2.cpp l.645-700), which are not told in JSON |
| LifeModel | the objects behind the handles of the C API with their counts, what they hold (streams, readers, accessors, writers), creating, opening, reading, writing, closing, releasing, and the calls of the functions of external streams | what is read and written (the number of calls and the success are parts of the operation); streams for files; releasing a handle with the function for another kind; threads |
| HostModel | the structures of a file as bytes in memory, their conversion on big-endian hosts (mask and shift as in utilities.cpp), directories and sub-blocks with their dimensions, parsing of directory entries, the GUID in the reader-writer, conversion of pixels of sixteen bits, packing, what is hashed | alignment; the variant with le16toh etc. (taken to reverse the bytes as well); padding at the ends of lines; the decompressors; everything else of the library on such hosts (the other models are of little-endian ones) |
| JxrModel | JxrLibCompress::Compress with the quality parameter, JxrDecode::Encode and ApplyQuality with its tables in binary32, jxrlib's ValidateArgs, float2pixel and pixel2float, CJxrLibDecoder::Decode, the text of errors | transform and entropy coding of jxrlib (a parameter); contraction to fused operations; failing allocations; errors of GetSize and GetPixelFormat, which Decode does not look at; pixel types without bitmaps |
| FileModel | the constructors, destructors, Read and Write of the file streams in their pread/pwrite, C runtime and Windows versions; WriteToOutputStream; open, pread, pwrite and their Windows and stdio counterparts as functions on a table of names, files and descriptors | directories, links, sharing modes; text of errors; stdio buffering is the one buffer until the next seek; other processes act only where the operation list says |
| BlobModel | stream_classes, GetStreamClassesCount, GetStreamInfoForClass, CreateStream (both), CreateDefaultStreamForFile; the constructors of the file streams up to the name handed to the system; AzureBlobInputStream: constructors, DetermineAuthenticationMode, DetermineServiceUrl, CreateWithCredential, CreateWithConnectionString, Read | the platform's conversions between narrow and wide texts (a parameter; where needed that it is UTF-8 for the characters of Unicode, with wide texts as lists of characters), curl, the SDK (a parameter: the answer to DownloadTo), credentials, the other fields of class information |
| HandAttModel | libCZI_WriterAddAttachment, libCZI_WriterWriteMetadata, the checks of their arguments; libCZI_ReaderGetAttachmentCount, libCZI_ReaderGetAttachmentInfoFromDirectory, libCZI_ReaderReadAttachment with libCZI_AttachmentGetRawData, libCZI_ReaderGetMetadataSegment with libCZI_MetadataSegmentGetMetadataAsXml; CCziAttachmentsDirectory::TryGetAttachment | the error codes (None for out of range, Throw for the others), validity of handles, allocation failing |
| AskModel | CCziReaderWriter::EnumerateSubBlocks, TryGetSubBlockInfo, ReadSubBlock, GetAttachmentCount, EnumerateAttachments, EnumerateSubset (attachments), TryGetAttachmentInfo, ReadAttachment, ReadMetadataSegment, on the state of an editing session; the enumerations of the modifiable directories | the ordered maps are lists in the order of their keys; ReadSubBlock's error texts; the memcpy of nine bytes from the array of eight, whose last byte is overwritten at once |
| PickModel | CCmdLineOptions::TryParseSelection, GetSelectionItemValue, MakeOutputFilename; CExecuteExtractAttachment and CExecuteExtractSubBlock (selection, names of files, bytes) | the number rapidjson makes of a text and the conversion to wide characters are parameters; splitting the output into directory and name, creating files, the hash, the pictures |
| SiteModel | GetSite, SetSiteObject, CSiteImpJxrLib::GetDecoder with std::call_once, as steps of any number of threads | one access of the pointer is one step, in the order of the program (formally a data race); GetDefaultSiteObject is the number 0; the WIC site object and the logging functions are not modelled |
| BgModel | CCmdLineOptions::TryParseParseBackgroundColor, TryParseZoom, the test of the zoom in CheckArgumentConsistency; skipWhiteSpaceAndOneOfThese | strtof is written after the C standard for decimal numbers, inf and nan, rounding once to binary32; hexadecimal numbers and nan(...) are not modelled; isspace is false for bytes from 128 on |
| RectModel | libCZI_Pixels.h, utilities.h/.cpp | rectangles, coverage calculator |
| CopyModel | BitmapOperations.hpp/.cpp, BitmapOperationsBitonal.cpp, SingleChannelTileCompositor.cpp | copying (clipped, masked, with border), visibility check |
| PixelModel | BitmapOperations.hpp/.cpp, utilities.h | pixel conversions, fill, RGB/BGR swap |
| CompositorModel | MultiChannelCompositor.cpp | tinting, black/white point, curves, weights |
| BitonalModel | libCZI_Pixels.cpp, BitmapOperationsBitonal.h/.cpp | bitonal get/set/fill/decimate |
| ChunkModel | SubblockAttachmentAccessor.cpp | chunk container, valid-pixel mask |
| HiLoModel | utilities.cpp, utilities_simd.cpp | hi-lo byte packing, scalar and AVX2 |
| ZstdModel | zstdCompress.cpp, decoder_zstd.cpp, CreateBitmap.cpp | zstd0/zstd1 framing around the oracle, size-mismatch handling |
| CacheModel | subblock_cache.h/.cpp | sub-block cache, threads, pruning |
| LockModel | bitmapData.h, libCZI_Pixels.h | lock counts, scope guards |
| TextModel | libCZI_DimCoordinate.cpp, libCZI_Utilities.cpp, IndexSet, utilities.cpp | coordinate/bounds/index-set/colour/property-bag texts |
| CoordModel | libCZI_Utilities.cpp, CziUtils.cpp, CziReaderCommon.cpp, CziWriter.cpp (validation) | comparison, enumeration, plane check, selection, orderings |
| CodesModel | CziUtils.cpp | pixel-type, compression and pyramid-type codes |
| StreamModel | StreamImpl.cpp, StreamsLib/curlhttpinputstream.cpp (callback), ../libCZIAPI/src (handles) | streams, handle table |

## 4. What is not modelled

* XML: document type declarations and the in-place buffer of pugixml's parser (the result of parsing is modelled), document information and display
  settings built on the nodes (CziMetadataDocumentInfo*.cpp, CziDisplaySettings.cpp), SubblockMetadata.cpp.
  Metadata segments are byte strings.
* JPEG and JPEG XR codecs (decoder_wic, JxrDecode) including the JPEG XR branch of the size-mismatch
  handling (CreateBitmap.cpp l.16-68); the zstd library itself (oracle).
* azure and curl streams apart from the curl write callback; Windows-only streams.
* libCZIAPI apart from the handle table; the command-line tool (CZICmd).
* Stream errors of the operating system (they are exceptions), failing allocation, torn writes,
  big-endian hosts (except HostModel), alignment, null bitmaps passed by the caller unless stated.
* The C++ memory model beyond sequential consistency; destructors of user objects.
* Compiler-specific outcomes of undefined behaviour (it is just `UB`).

## 5. Trusted base

1. Coq's kernel (8.16.1).  `coqchk` can re-check the compiled files.
2. Axioms: none.  `Print Assumptions` answers "Closed under the global context" for all 580 theorems
   listed in section 6.  No axiom, parameter, functor, module type, kernel switch or plugin is used.
   (A listing of the *whole* environment, as by `coqchk -o`, also shows
   `Coq.ssr.ssrunder.Under_rel.*`: parameters of a module type in Coq's own ssreflect library, which
   stdlib's `Lia`/`ZArith` files load; no theorem depends on them.)
3. The faithfulness of the hand-written model to the cited lines, within the simplifications named in
   the header comments and above.  This is the part nobody checks mechanically.
4. The statements of the theorems in `Prop*.v` and the specifications they use.  They were tested by
   seeding realistic faults into the model (`seeded/LOG.jsonl`): for each fault the theorems which fail to
   prove are recorded; where none failed, either the fault is equivalent or outside every claim (said so in
   the entry) or a theorem was tightened or added.

## 6. Properties, theorems and their assumptions

`closed` in the last column: `Print Assumptions` answers "Closed under the global context" for every theorem of the row.

| id | property | status | theorems (file) | assumptions |
|----|----------|--------|-----------------|-------------|
| C01 | Directory entries survive encode/decode | proved | C01_directory_roundtrip (PropCodec.v) | closed |
| C02 | Parsing an arbitrary sub-block directory never leaves the defined behaviours | partial | C02_arbitrary_directory_refuted, C02_arbitrary_directory_partial (PropCodec.v) | closed |
| C03 | Write, close, re-open returns every sub-block | proved | C03_write_close_reopen (PropWriter.v) | closed |
| C04 | Segments are aligned and never overlap | partial | C04_no_overlap_refuted, C04_no_overlap_partial (PropWriter.v) | closed |
| C05 | Crash before the end of Close leaves no half-valid header | proved | C05_crash_before_end, C05_after_end (PropWriter.v) | closed |
| C06 | A requested run of zero bytes is completely written | partial | C06_zero_fill_refuted, C06_zero_fill_partial (PropWriter.v) | closed |
| C07 | Rewriting the attachment directory never damages it | partial | C07_reserved_attachment_directory_refuted, C55_attachments_and_metadata (PropWriter.v) | closed |
| C08 | In-place editing never destroys live data (reader-writer) | partial | C08_edit_partial, C08_new_document_partial, C08_document_shows, C08_sessions_chain, C08_replaced_attachment_refuted, C08_both_directories_refuted, C08_removed_attachment_refuted, C08_failed_addition_refuted, C08_new_document_refuted (PropEdit.v) | closed |
| C09 | Sub-block payloads of any representable size can be read back | partial | C09_large_subblock_refuted, C09_large_subblock_partial, C05_after_end (PropWriter.v) | closed |
| C10 | Sub-block cache accounting is exact under concurrency | proved | C10_cache_accounting, C10_item_size, C10_combined_statistics (PropCache.v) | closed |
| C100 | Bitmaps of the C API | proved | C100_copied, C100_refused, C100_locking (PropCapi.v) | closed |
| C101 | GUIDs and creation parameters given to the C API as text | partial | C101_guid, C101_parameters, C101_m_range, C101_created, C101_m_bounds_refuted (PropGuid.v) | closed |
| C102 | Options and property bags given to the C API as JSON | proved | C102_options, C102_bag_accepted, C102_bag_content (PropGuid.v) | closed |
| C103 | Null pointers and foreign handles given to the C API | partial | C103_arguments_partial, C103_given_partial, C103_crash_refuted, C103_empty_handed_refuted (PropArgs.v) | closed |
| C104 | Metadata and masks of sub-blocks | partial | C104_tags, C104_valid, C104_format, C104_written, C104_number_partial, C104_stage, C104_mask_partial, C104_no_mask, C104_hang_refuted, C104_wide_refuted, C104_mask_refuted (PropSubMeta.v) | closed |
| C105 | Composing channels with the display settings of the document | partial | C105_helper, C105_capi_partial, C105_same, C105_copy, C105_disabled_refuted, C105_all_disabled_refuted (PropShow.v) | closed |
| C106 | Compression options given as text | partial | C106_meaning, C106_total, C106_written, C106_pixels_partial (PropOpts.v) | closed |
| C107 | Reserved space is used | partial | C107_reserved, C107_capi, C107_estimate_partial, C107_range_refuted (PropReserve.v) | closed |
| C108 | A cache does not change the picture | partial | C108_same_picture_partial, C108_threads_partial, C108_scale, C108_scale_threads, C108_places, C108_mask_refuted, C108_position_refuted (PropView.v) | closed |
| C109 | What was written is what is seen | partial | C109_seen_partial, C109_scaled_partial, C109_scenes_partial, C109_bgra_refuted (PropEnd.v) | closed |
| C11 | Prune enforces its limits and evicts least-recently-used first | proved | C11_prune (PropCache.v) | closed |
| C110 | A plane scan delivers the region, cut into tiles | partial | C110_cuts_partial, C110_region_partial, C110_stitched_partial, C110_zoom_refuted, C110_nothing_refuted, C110_overflow_refuted (PropScan.v) | closed |
| C111 | A mosaic created by the command-line tool is complete | partial | C111_mosaic_partial, C111_complete_partial, C111_statistics_partial, C111_single_partial, C111_endless_refuted, C111_far_refuted, C111_nothing_refuted, C111_comment_refuted (PropCreate.v) | closed |
| C112 | Arguments of the command-line tool mean what they say | partial | C112_size_partial, C112_tiles_partial, C112_rect, C112_pyramid, C112_format_partial, C112_levels_partial, C112_bytes_partial, C112_bytes_exact_partial, C112_exception_refuted, C112_hex_refuted, C112_hole_refuted, C112_bytes_refuted (PropArgText.v) | closed |
| C113 | JSON given to the C API and handed out by it | partial | C113_read, C113_options, C113_parameters, C113_infinite_refuted, C113_other_dimensions_refuted, C113_written_partial, C113_general, C113_z_partial, C113_t_partial, C113_nothing_told, C113_torn, C113_pyramid (PropJson.v) | closed |
| C114 | What the C API tells of the channels | partial | C114_channels_partial, C114_right_partial, C114_condenser_refuted, C114_digits_refuted, C114_torn, C114_colour_refuted, C114_none (PropChan.v) | closed |
| C115 | External streams live as long as some handle needs them | partial | C115_life_partial, C115_end, C115_fail_partial, C115_create_refuted, C115_released (PropLife.v) | closed |
| C116 | The same document on hosts of either byte order | partial | C116_structures, C116_members, C116_written, C116_found, C116_any, C116_types_partial, C116_types_refuted, C116_guid_partial, C116_guid_refuted, C116_pixels_partial, C116_pixels_refuted (PropHost.v) | closed |
| C117 | JPEG XR: the quality parameter and what comes back | partial | C117_defined, C117_decode_defined, C117_mismatch, C117_accepted_partial, C117_float_refuted, C117_best, C117_less, C117_monotone_partial, C117_monotone_refuted, C117_lossless_partial, C117_lossless_refuted, C117_floats, C117_kept, C117_error_partial, C117_error_refuted (PropJxr.v) | closed |
| C118 | Files: creating, replacing, changing and reading them by name | partial | C118_refused_partial, C118_refused_refuted, C118_made, C118_written_partial, C118_edited_partial, C118_edit_refuted, C118_missing_refuted, C118_read_partial, C118_large_refuted, C118_short_partial, C118_reported_partial, C118_lost_refuted, C118_short_read_partial, C118_descriptors_partial, C118_descriptors_refuted (PropFile.v) | closed |
| C119 | Streams by class name, and blobs | partial | C119_classes, C119_unknown, C119_class, C119_same, C119_file, C119_nul_refuted, C119_blob_partial, C119_host_partial, C119_host_refuted, C119_read_partial, C119_count, C119_end_refuted, C119_end (PropBlob.v) | closed |
| C12 | Cache behaves like a map | proved | C12_get_returns_last_added, C12_get_finds, C12_operations_total, C12_concurrent_get, C12_concurrent_get_logged (PropCache.v) | closed |
| C120 | Attachments and metadata through the C API, there and back | partial | C120_refused, C120_way_partial, C120_negative_refuted, C120_negative, C120_long_refuted (PropHandAtt.v) | closed |
| C121 | Asking and reading in the middle of an editing session | partial | C121_asked_partial, C121_gone, C121_type_refuted, C121_name_refuted, C121_grown_refuted (PropAsk.v) | closed |
| C122 | Choosing what is extracted on the command line | partial | C122_asked, C122_extracted_partial, C122_different_partial, C122_fraction_refuted, C122_kind_refuted, C122_integer_refuted, C122_same_refuted, C122_elsewhere_refuted (PropPick.v) | closed |
| C123 | One site object and one decoder of each kind for the whole program | partial | C123_alone, C123_history, C123_threads, C123_late_partial, C123_wait, C123_decoders, C123_decoders_wait, C123_race_refuted, C123_twice_refuted, C123_null_refuted (PropSite.v) | closed |
| C124 | Background colour and zoom on the command line | partial | C124_grey, C124_three, C124_two, C124_colour_partial, C124_zoom_partial, C124_zoom_taken, C124_zoom_refused_range, C124_value, C124_rest_refuted, C124_range_refuted, C124_missing_refuted, C124_joined_refuted, C124_nan_refuted (PropBg.v) | closed |
| C13 | Balanced bitmap locks never throw and the lock count is exact | partial | C13_surplus_unlock_disturbs_refuted, C13_balanced_partial, C13_count_exact_partial, C13_surplus_unlock_partial, C13_surplus_unlock_throws_partial (PropLock.v) | closed |
| C14 | Rectangle coverage is exact | proved | C14_coverage_exact (PropRect.v) | closed |
| C15 | Visibility optimisation does not change the picture | proved | C15_visibility_same_picture (PropCompose.v) | closed |
| C16 | Visibility optimisation is also correct with valid-pixel masks | partial | C16_visibility_with_masks_refuted, C16_visibility_with_masks_partial (PropCompose.v) | closed |
| C17 | Composition shows the topmost tile | proved | C17_topmost_tile (PropCompose.v) | closed |
| C18 | Copy with offset stays in bounds | proved | C18_copy_in_bounds (PropCompose.v) | closed |
| C19 | Mask-aware copy with pixel-type conversion | partial | C19_masked_converting_copy_refuted, C19_masked_copy_partial (PropCompose.v) | closed |
| C20 | Hi-lo byte packing is inverted by unpacking; vector code equals scalar code | proved | C20_split, C20_round_trip, C20_same_split, C20_same_join (PropZstd.v) | closed |
| C21 | zstd1 compression round trip | partial | C21_bgr48_refuted, C21_round_trip_partial, C21_zstd0_round_trip (PropZstd.v) | closed |
| C22 | Size-mismatch protocol (crop or zero-pad) | partial | C22_odd_refuted, C22_bgr48_refuted, C22_wide_refuted, C22_header_refuted, C22_zstd_partial, C22_zstd_packed_partial, C22_uncompressed_partial, C22_strict_zstd, C22_strict_uncompressed, C22_header_partial (PropZstd.v) | closed |
| C23 | Coordinate strings round-trip | proved | C23_round_trip, C23_accepts_iff, C23_one_meaning, C23_letters (PropText.v) | closed |
| C24 | Coordinate parser is total | partial | C24_refuted, C24_total_partial, C24_sound (PropText.v) | closed |
| C25 | Bounds strings round-trip | proved | C25_round_trip (PropText.v) | closed |
| C26 | Index sets contain what their text says | proved | C26_contains (PropText.v) | closed |
| C27 | Coordinate comparison is a total preorder | proved | C27_antisymmetric, C27_transitive, C27_equal (PropCoord.v) | closed |
| C28 | Writer's sub-block ordering is a strict weak order | partial | C28_refuted, C28_circle, C28_overflow_refuted, C28_order_partial, C28_ties_partial (PropCoord.v) | closed |
| C29 | Sort-by-zoom comparator is a strict weak order | partial | C29_refuted, C29_order_partial (PropCoord.v) | closed |
| C30 | Enumerating all coordinates visits each exactly once | partial | C30_empty_interval_refuted, C30_overflow_refuted, C30_enumeration_partial, C30_no_dimension (PropCoord.v) | closed |
| C31 | EnumSubset delivers exactly the matching sub-blocks | proved | C31_calls, C31_plane, C31_roi, C31_layer0, C31_selected (PropCoord.v) | closed |
| C32 | Statistics describe the sub-blocks | partial | C32_statistics_partial, C32_m_range_refuted, C32_far_tiles_refuted, C32_last_coordinate_refuted (PropStat.v) | closed |
| C33 | Statistics stay correct under editing | partial | C33_statistics_partial, C33_pyramid_modify_refuted, C33_pyramid_remove_refuted (PropStat.v) | closed |
| C34 | Editing a sub-block directory behaves like a map | proved | C34_map (PropStat.v) | closed |
| C35 | Coordinate-system transformation is invertible | partial | C35_no_layer0_refuted, C35_transform_partial, C35_transform_exact_partial, C35_back_partial, C35_rectangle_partial (PropAccess.v) | closed |
| C36 | Plane coordinate validation | partial | C36_overflow_refuted, C36_plane_validation_partial (PropCoord.v) | closed |
| C37 | Writer bounds validation | partial | C37_overflow_refuted, C37_writer_validation_partial (PropCoord.v) | closed |
| C38 | Filling a region of a bitonal bitmap | partial | C38_fill_refuted, C38_fill_overflow_refuted, C38_fill_partial (PropBitonal.v) | closed |
| C39 | Bitonal get/set | proved | C39_get, C39_set, C39_set_all, C39_out_of_range (PropBitonal.v) | closed |
| C40 | Decimation computes the documented neighbourhood AND | partial | C40_value_refuted, C40_overrun_refuted, C40_safe_partial, C40_value_partial, C40_bad_radius (PropBitonal.v) | closed |
| C41 | Chunk container enumeration | partial | C41_two_chunks_refuted, C41_index_refuted, C41_hostile_refuted, C41_terminates, C41_inside_partial, C41_exact_partial (PropBitonal.v) | closed |
| C42 | Multi-channel composition is order independent and saturating | proved | C42_saturated_sum, C42_order, C42_refused (PropCompositor.v) | closed |
| C43 | Handle kinds of the C API cannot be confused | partial | C43_tags_refuted, C43_tags_partial, C43_session_partial (PropStream.v) | closed |
| C44 | Re-opening a reader shows the new document only | partial | C44_reopen_refuted, C44_reopen_partial, C44_reopen_sub_blocks (PropReader.v) | closed |
| C45 | Attachment identity is unique in a written document | partial | C45_refused_iff_present, C45_distinct, C45_reopened_refuted, C45_reopened_partial, C45_replace_refuted, C45_edit_partial (PropAttachment.v) | closed |
| C46 | Property-bag string tokenizer | partial | C46_drops_refuted, C46_backslash_refuted, C46_round_trip_partial, C46_lookup, C46_keys (PropText.v) | closed |
| C47 | Colour strings round-trip | partial | C47_overlong_refuted, C47_wide_refuted, C47_round_trip, C47_meaning_partial (PropText.v) | closed |
| C48 | Numeric codes of pixel type and compression round-trip | proved | C48_pixel_codes, C48_compression_codes, C48_pyramid_codes, C48_round_trip (PropZstd.v) | closed |
| C49 | Pyramid layer computation terminates | partial | C49_termination_refuted, C49_overflow_refuted, C49_least_layer_partial, C49_pixel_size_partial (PropAccess.v) | closed |
| C50 | Pixel conversions read and write only their pixel | partial | C50_bgr24_to_bgr48_refuted, C50_bgr24_to_bgr48_values_refuted, C50_conversions_partial, C50_refused (PropPixel.v) | closed |
| C51 | Tile border drawing keeps the tile content | partial | C51_tile_border_refuted, C51_tile_border_partial (PropCompose.v) | closed |
| C52 | In-memory stream reads | proved | C52_mem_read, C52_rejects (PropStream.v) | closed |
| C53 | Concurrent writes to a stdio-based output stream | partial | C53_stdio_refuted, C53_stdio_partial, C53_pwrite (PropStream.v) | closed |
| C54 | Pyramid accessor places tiles consistently | partial | C54_negative_offset_refuted, C54_position_partial, C54_shift_partial (PropAccess.v) | closed |
| C55 | Attachments and metadata survive write, close, re-open | proved | C55_attachments_and_metadata (PropWriter.v) | closed |
| C56 | An empty document can be re-opened from every kind of stream | partial | C56_empty_document_refuted, C03_write_close_reopen (PropWriter.v) | closed |
| C57 | A failed addition leaves no trace | partial | C57_failed_addition_refuted, C57_bad_arguments_partial, C03_write_close_reopen (PropWriter.v) | closed |
| C58 | Cache operations never deadlock | proved | C58_cache_progress (PropCache.v) | closed |
| C59 | Scope guards keep bitmap lock counts exact | proved | C59_scope_guards (PropLock.v) | closed |
| C60 | Bounds parser accepts only bounds | partial | C60_refuted, C60_complete_partial, C60_total (PropText.v) | closed |
| C61 | Valid-pixel mask of a sub-block | partial | C61_no_mask_refuted, C61_short_mask_refuted, C61_wide_mask_refuted, C61_mask_partial (PropBitonal.v) | closed |
| C62 | Concurrent reads through a stdio-based input stream | proved | C62_reads, C62_progress (PropStream.v) | closed |
| C63 | Receiving data over HTTP | partial | C63_receive_refuted, C63_receive_partial, C63_safe (PropStream.v) | closed |
| C64 | Releasing a handle of the C API leaves the others alone | proved | C64_release_others (PropStream.v) | closed |
| C65 | Filling a bitmap with a colour | partial | C65_fill, C65_nan_refuted, C65_infinity_refuted (PropPixel.v) | closed |
| C66 | Swapping red and blue of a 48-bit image | proved | C66_swap_components, C66_padding (PropPixel.v) | closed |
| C67 | What a channel contributes to a composed pixel | partial | C42_saturated_sum, C67_point_range_refuted, C67_table_size_refuted (PropCompositor.v) | closed |
| C68 | Channel weights scale contributions relative to the mean weight | partial | C68_weighted_partial, C68_equal_weights, C68_overflow_refuted (PropCompositor.v) | closed |
| C69 | Strict parsing rejects exactly the non-conforming directory entries | proved | C69_strict_parsing (PropCodec.v); C69_open_options (PropReader.v) | closed |
| C70 | Pyramid layer of a sub-block is classified exactly | proved | C70_layer_exact, C70_layer_unique (PropStat.v) | closed |
| C71 | Pyramid statistics and pyramid accessor agree on layers | partial | C71_layers_disagree_refuted, C71_layers_partial, C71_bottom_partial (PropAccess.v) | closed |
| C72 | Tile accessor delivers the topmost tile | proved | C72_picture, C72_optimisation (PropAccess.v) | closed |
| C73 | Pyramid accessor delivers the requested layer | partial | C73_absent_layer_refuted, C73_picture_partial (PropAccess.v) | closed |
| C74 | A closed reader refuses every request | partial | C74_closed_reader_refuted, C74_closed_reader_partial, C74_open_twice (PropReader.v) | closed |
| C75 | Directory and header of a sub-block are reconciled as configured | partial | C75_discrepancy_refuted, C75_discrepancy_partial, C75_written_documents, C75_described (PropReader.v) | closed |
| C76 | Selecting attachments by type and name | partial | C76_attachment_subset_refuted, C76_attachment_subset_partial (PropReader.v) | closed |
| C77 | An arbitrary sub-block of a channel | proved | C77_sub_block_in_channel (PropReader.v) | closed |
| C78 | Reading while another thread closes the reader | proved | C78_close_while_reading, C78_after_close, C78_reopen_mixes_documents, C78_reopen_races (PropConc.v) | closed |
| C79 | Drawing a scaled sub-block | partial | C79_left_edge_refuted, C79_right_edge_refuted, C79_scaled_partial (PropScale.v) | closed |
| C80 | Scaling accessor shows the document at the requested zoom | partial | C80_seam_refuted, C80_incomplete_pyramid_refuted, C80_magnified_refuted, C80_no_scene_refuted, C80_picture_partial, C80_scenes_partial, C80_size (PropScale.v) | closed |
| C81 | Scaling accessor at zoom 1 and its visibility optimisation | partial | C81_no_scene_refuted, C81_optimisation_refuted, C81_tiles_partial, C81_optimisation_partial (PropScale.v) | closed |
| C82 | The MD5 digest of data and bitmaps | partial | C82_read_beyond_refuted, C82_ignored_data_refuted, C82_digest_partial, C82_pieces_partial, C82_bitmap_partial (PropMd5.v) | closed |
| C83 | Look-up tables from gamma and splines | partial | C83_length_refuted, C83_one_sample_refuted, C83_gamma_zero_refuted, C83_gamma_partial, C83_toe_partial, C83_splines_partial (PropLut.v) | closed |
| C84 | Gradation curves pass through their control points smoothly | partial | C84_close_points_refuted, C84_very_close_points_refuted, C84_natural_spline_partial, C84_unique (PropSpline.v) | closed |
| C85 | Dates and times as text | partial | C85_negative_offset_refuted, C85_negative_year_refuted, C85_leap_second_refuted, C85_small_offset_refuted, C85_long_year_refuted, C85_written_iff, C85_round_trip_partial, C85_read_iff (PropDate.v) | closed |
| C86 | Paths and values of the metadata XML | partial | C86_cdata_refuted, C86_comment_refuted, C86_invalid_path_refuted, C86_lookup, C86_create, C86_create_succeeds, C86_last_write_partial, C86_attribute, C86_remove, C86_remove_attribute, C86_clear (PropXml.v) | closed |
| C87 | Numbers and truth values in the metadata XML | partial | C87_white_space_refuted, C87_negative_refuted, C87_empty_double_refuted, C87_wide_refuted, C87_signed_partial, C87_unsigned_partial, C87_numbers_partial, C87_bool_partial, C87_truth (PropXml.v) | closed |
| C88 | Metadata saved as XML and loaded | partial | C88_blank_refuted, C88_return_refuted, C88_names_refuted, C88_reload_refuted, C88_section_refuted, C88_saved_partial, C88_settled, C88_twice, C88_values, C88_loaded, C88_total (PropPugi.v) | closed |
| C89 | Floating point numbers written to the metadata are read back | partial | C89_digits_refuted, C89_accuracy_partial, C89_zero, C89_decimal_partial, C89_twenty_digits (PropNum.v) | closed |
| C90 | Information about the document and its scaling are read back | partial | C90_said, C90_general_refuted, C90_general_partial, C90_general_plain, C90_general_writes, C90_decimal, C90_hexadecimal, C90_no_number, C90_scaling_refuted, C90_scaling_partial (PropDoc.v) | closed |
| C91 | Dimensions and channels in the metadata are read back | partial | C91_start_refuted, C91_sizes_partial, C91_interval_partial, C91_interval_refuted, C91_positions_refuted, C91_positions_unread, C91_offsets_partial, C91_offsets_end, C91_z_read_partial, C91_t_read, C91_channel_words, C91_image_type_partial, C91_t_interval_kept, C91_t_list_kept, C91_z_interval_kept, C91_z_list_kept, C91_range_refuted, C91_drive_mode_refuted, C91_prepared, C91_channels_partial, C91_prepared_total, C91_default_names, C91_comma_refuted, C91_types_refuted (PropDims.v) | closed |
| C92 | Display settings in the metadata are read back | partial | C92_weight_refuted, C92_digits_refuted, C92_gaps_refuted, C92_settings_partial, C92_again, C92_total, C92_rest, C92_points_refuted, C92_points_end, C92_points_exact (PropDisp.v) | closed |
| C93 | Custom values in the metadata | partial | C93_keys, C93_values_partial, C93_values_refuted (PropDisp.v) | closed |
| C94 | Exposure times and wavelengths of channels | partial | C94_exposure_partial, C94_exposure_refuted, C94_bands_sound_partial, C94_bands_complete_partial, C94_peak, C94_bands_refuted (PropRange.v) | closed |
| C95 | Lists of numbers in the settings of channels | partial | C95_integers, C95_numbers_partial, C95_mapping, C95_line_partial, C95_total_partial, C95_total_refuted (PropRange.v) | closed |
| C96 | Pictures handed over with a stride or line by line | partial | C96_strided_partial, C96_writer_accepts, C96_lines, C96_editor_partial, C96_editor_refuted, C96_editor_reads_refuted (PropAdd.v) | closed |
| C97 | Adding sub-blocks with the C API | partial | C97_recorded_partial, C97_accepted_partial, C97_compression_refuted, C97_pixels_refuted, C97_size_refuted (PropAdd.v) | closed |
| C98 | Coordinates, bounds, statistics and descriptions handed out by the C API | proved | C98_coordinates, C98_coordinates_back, C98_bounds, C98_statistics, C98_all_scenes, C98_description (PropCapi.v) | closed |
| C99 | Texts and data copied into the memory of the caller | proved | C99_text, C99_name, C99_data, C99_data_two_calls, C99_metadata, C99_dimensions (PropCapi.v) | closed |

## 7. Findings

What a maintainer may want to look at first (all are theorems about the model):

* Editing in place can destroy documents although every call reports success (C08): replacing an
  attachment by a longer one and then adding something; modifying sub-blocks and attachments in one
  session; removing an attachment (all are lost); a failing data source.
* Re-opening a reader with a document without attachments shows those of the previous one (C44).
* A directory entry with a dimension count of -1, 41 … writes outside a stack buffer (C02).
* zstd: decoding short or unusual data leaves pixels uninitialised or writes out of bounds (C21, C22);
  chunk sizes of a hostile attachment read out of bounds (C41); mask decoding of hostile data (C61).
* Decimating bitonal bitmaps is wrong for radius >= 2 and overruns the destination for widths 33, 49 … (C40).
* Converting copies under a mask do not advance (C19); Bgr24 to Bgr48 reads 16-bit values (C50).
* Zero padding of more than 4096 bytes writes too much (C06); reserved attachment directories (C07).
* Two handle types share one tag (C43); output on a FILE is not thread safe (C53).
* The scaling accessor (C80, C81): at zooms above about 1.05 it delivers background only; one pyramid tile in the
  region hides all finer tiles; sub-blocks without scene vanish if two scenes are touched; seams at the edges of tiles.
* The MD5 digest of a buffer of 4 GiB or more is wrong, or memory behind the buffer is read (C82).
* Look-up tables: too many elements if the black point is above the white point; undefined conversions of NaN if the points
  are one element apart or gamma is 0 (C83). Gradation curves miss control points which are very close (C84).
* Dates with offsets of -1 to -9 hours, negative years or leap seconds are written but not read back (C85).
* Reading a number from a metadata node (`TryGetValueAsInt32` and its siblings, `TryConvert`, CziMetadata.cpp l.117-123)
  does not return if white space follows the number: the loop does not advance (C87_white_space_refuted).
  `isspace` is moreover called with wide characters, for which it is undefined (C87_wide_refuted), "-1" is accepted as
  unsigned number (C87_negative_refuted), and an empty text as floating point number 0, against the documentation
  (C87_empty_double_refuted).
* `SetValue` on a node with a CDATA section adds a text which `TryGetValue` does not find (C86_cdata_refuted); if a
  comment cut the old text in two the second part stays (C86_comment_refuted).  `GetOrCreateChildNode` creates the
  leading nodes of a path before it finds the rest to be invalid, and throws for paths with an index which
  `GetChildNode` accepts (C86_invalid_path_refuted).
* Metadata written by `GetXml` and loaded again is not always the same (C88): `SetValue` with an empty text or one of blanks only
  leaves a node whose value cannot be read after loading; "a\r\nb" is read as "a\nb"; a CDATA section "a]]>b" is written as two
  sections and its value is then "a]]"; `GetOrCreateChildNode("Metadata/1st value")` is accepted and `GetXml` then returns
  a text which is not well-formed.
* `SetValueDbl` writes fifteen digits (`digits10`, not `max_digits10`), so a double such as 1/3 or 2^53-1 is not read back as the
  same number (C89); scalings, display ranges and gammas saved in the metadata change slightly. Gradation points use twenty digits and survive.
* Scalings are written with fifteen digits and change (C90); a name, comment etc. made of blanks is read as empty.
* `WriteDimInfoT_Interval/_List` and `WriteDimInfoZ_Interval/_List` write below `Metadata/Information/Dimensions`, while
  `GetDimensionTInfo`/`GetDimensionZInfo` read below `Metadata/Information/Image/Dimensions`: nothing written is ever read (C91).
  `WriteDimInfoZ_List` writes the start position to `T/StartTime`. `GetDimensionZInfo` compares the text of `ZAxisDirection` with the
  words for the drive mode. `std::stod`'s `out_of_range` is not caught (`GetDimensionTInfo`, offsets "0 1e400").
* The metadata prepared by a writer has sizes only, not starts, of dimensions; a channel name with one of `/ [ ] , ;` makes
  `GetPreparedMetadata` throw; `Gray32` and `Gray64Float` channels get no pixel type (C91).
* `WriteDisplaySettings` does not write the weight of a channel (read as 1), writes black point, white point and gamma with six digits
  (0.99999994 becomes 1), invents default settings for channels in gaps (and one channel for no settings at all) and a spline
  without points is read as linear (C92).
* `GetDisplaySettings` lets `std::out_of_range` of `std::stod` escape (points such as `1e-310`), and calls `isspace` with a wide
  character (undefined behaviour above 255) (C92).
* `TryParseRangeOrSingleValue` uses `numeric_limits<double>::min` (the smallest positive number) as the start of a band without one, so
  0 is not in "-500" and "-0" is an empty band; "10--1" is accepted as an exposure time from 10 to 2^64-1, "100 200" as 100200; a blank
  after the last comma of a list of bands loses them all (C94).
* `ParseDoubleXmlArray`, `ParseInt32XmlArray` call `isspace` with a wide character (C95).
* `AddSubBlockHelper::SyncAddSubBlock` (used by the editor) stores `strideBitmap` bytes per row instead of the bytes of a row, reads the
  padding of the last row, and computes the offset of a row with 32 bits (C96).
* `libCZI_WriterAddSubBlock` always records "uncompressed" and does not compare `size_data` with the extent and stride (C97).
* The M bounds which libCZI_WriterCreate takes from its parameters (minimum_m_index, maximum_m_index) have no effect: CCziWriter::CheckCoordinate (CziWriter.cpp l.1318-1322) accepts everything if no dimension bounds were given, and the C API cannot give any. C101_m_bounds_refuted.
* Functions of the C API which crash on null although they test other arguments: libCZI_ReaderGetMetadataSegment, libCZI_MetadataSegmentGetMetadataAsXml (output), libCZI_ReaderReadAttachment (tests with && instead of ||: either argument), libCZI_CreateInputStream (stream identifier), libCZI_CompositorDoMultiChannelComposition (a null handle in the array). libCZI_CompositorFillOutCompositionChannelInfoInterop dereferences an empty pointer if the channel has no display settings. libCZI_CziDocumentInfoGetDisplaySettings succeeds with a handle of nothing if the document has no display settings, whose first use crashes; libCZI_CziDocumentInfoGetDimensionInfo succeeds without setting its output. C103_crash_refuted, C103_empty_handed_refuted.
* The stage position in the metadata of a sub-block (and every tag read as a number) is read with the loop of C87: a number followed by white space, as in a pretty-printed `<StageXPosition>12.5` + line end, makes TryGetStagePositionFromTags never return. C104_hang_refuted. A character above 255 behind the number is given to isspace: C104_wide_refuted.
* Metadata which declare a chunk container while the attachment has no mask chunk: drawing the sub-block (mask-aware) reads an uninitialised ChunkInfo. C104_mask_refuted (the consequence of C61 for drawing).
* The C API turns a disabled channel into one of weight 0, but the compositor divides by the mean weight of all channels it gets: with k of n channels enabled the picture is n/k times as bright as with CDisplaySettingsHelper (which drops disabled channels). C105_disabled_refuted; C105_capi_partial gives the factor.
* All channels disabled: with the C API all weights are 0, so weights are ignored, and black = white = 0 makes every pixel above 0 white; with the helper, ComposeMultiChannel_Bgr24 reads the first of zero bitmaps before the channel count is checked. C105_all_disabled_refuted.
* ReserveSubBlockDirectory computes the number of M-indices as mMax - mMin + 1 in int: with the range 0 to INT_MAX ("no upper limit") and a reservation without a number this is a signed overflow, reachable through the C API (C107_range_refuted).
* A call of an accessor which is not mask-aware puts the bitmap without its mask into the sub-block cache; a later mask-aware call with the same cache then ignores the mask. Conversely the tile and the pyramid accessor apply a mask found in the cache although the call did not ask for masks (C108_mask_refuted).
* With precedence of the sub-block header and IgnoreDiscrepancy (policy 129) an accessor places a tile where its header says if it is read, and where the directory says if it comes from the cache: the same call made twice gives two pictures (C108_position_refuted).
* A sub-block of pixel type Bgra32 can be written and read, but no accessor can deliver it: Copy knows no pair of pixel types with Bgra32 and throws (C109_bgra_refuted).
* The command-line tool scans a plane with tiles whose sizes are rounded down one by one at a zoom other than 1: the pictures do not add up to the picture of the region (C110_zoom_refuted). A tile size of 2^31 or more (accepted by the parser as uint32_t, then cast to int), or a missing region (width and height -1), means that no file is written although the tool reports success (C110_nothing_refuted); the number of tiles is computed as extent + tile - 1 in int, which overflows (C110_overflow_refuted). Without --rect the flag "relative" is read uninitialised (not modelled).
* The command CreateCZI counts tiles with 32 bits: with rows times columns of 2^32 or more, which the parser accepts, it never ends (C111_endless_refuted); positions are uint32 and converted to int, so that far tiles come back to the first ones (C111_far_refuted). The modes "jpgxr:" and "jpg:" pass the validation of --compressionopts, but AddSubBlock has no branch for them: a document without sub-blocks is written and success reported (C111_nothing_refuted). The overlap in the comment of the document is truncated after a float multiplication: 53 percent become 52 (C111_comment_refuted).
* Arguments of the command-line tool: std::stoull and std::stoi throw out_of_range, which TryParseCreateSize, TryParseCreateTileInfo and TryParseChannelCompositionFormatWithAlphaValue do not catch (C112_exception_refuted). The test for the prefix "0X" compares the first character instead of the second with 'X', so that bgra32(0X7f), which the expression accepts, has alpha 0 (C112_hex_refuted). The loops over lists of verbosity and information levels stop at an empty item: "Errors,,nonsense,Infos" is accepted as "Errors" (C112_hole_refuted). llround of a cache size from 2^63 on is unspecified (C112_bytes_refuted). An overlap of "0%" is refused although it is the default; a pyramid layer may be negative.
* ConvertToJsonString does not look at what Accept returns: a number which is not finite, which strtod makes of a text as 1e999 in the metadata, ends the writing, and libCZI_CziDocumentInfoGetDimensionInfo succeeds with a text which is no JSON (C113_infinite_refuted, exactly these cases: C113_torn). For other dimensions than Z, C and T the function succeeds without setting the pointer to the text (C113_other_dimensions_refuted).
* FormatIDimensionChannelInfoAsJson fills condensor_contrast with what TryGetReflector gives: CondenserContrast of the metadata is never told, the reflector stands in its place (C114_condenser_refuted). The bounds of bands of wavelengths go through an ostringstream with its default of six digits: different bands give the same text (C114_digits_refuted); an open band is told with 2.22507e-308 or 1.79769e+308 as its bound.
* CCziWriter::Create stores the stream before it writes the file header. If that fails, the writer stays operational: it refuses another stream (already operational), goes on writing to the first one, and keeps it open although all its handles are released (C115_create_refuted). The magic number of a handle, meant to recognise handles which were released, is read from memory which was freed (C115_released).
* On big-endian hosts (LIBCZI_ISBIGENDIANHOST): CCZIParse::ReadSubBlock does not convert an entry of the schema DE, so pixel type and compression are wrong (C116_types_refuted). CCziReaderWriter remembers the file header of a new document, and the GUID which UpdateFileHeaderGuid returns, after they were converted for writing; UpdateFileHeader converts the GUID again, and the closed file has it in the wrong order (C116_guid_refuted). Bitmaps of Gray16 and Bgr48 compressed with zstd0 (or zstd1 without packing) are decompressed without conversion, uncompressed ones written without conversion, and Gray32Float cannot be read or hashed at all (C116_pixels_refuted).
* JPEG XR (C117): ApplyQuality chooses YUV_420 for Gray32Float below a quality of 0.5, which jxrlib refuses for floats, so such a compression always throws (C117_float_refuted). The table for YUV_420 used below 0.5 is finer than the one for 8 bit used from 0.5 on, so quality 500 is coarser in every component than 499, also for Gray8 where there is no chroma to make up for it (C117_monotone_refuted). "Loss-less" is not for Gray32Float: with nLenMantissaOrShift left at zero jxrlib keeps 13 of 23 bits of the mantissa, FLT_MAX becomes infinite and -0 becomes 0 (C117_lossless_refuted). ThrowJxrlibError constructs its ostringstream with the message but without std::ios::ate, so the code is written over the beginning of the message (C117_error_refuted).
* Files (C118): CSimpleInputOutputStreamImpl opens with "rwb", which is "r": it can never write (C118_edit_refuted). CInputOutputStreamImplPreadPwrite uses O_CREAT, so opening a missing document for editing leaves an empty file behind, where the two others refuse (C118_missing_refuted). CSimpleOutputStreamStreams looks for an existing file with fopen "rb" before fopen "wb": an unreadable file, and one which appears in between, is emptied without permission to overwrite (C118_refused_refuted); its destructor ignores what fclose says, so that a full disk goes unnoticed (C118_lost_refuted). pread and pwrite are called once, and Linux transfers at most 0x7ffff000 bytes (C118_large_refuted). The destructors of the pread and pwrite streams take descriptor 0 for "none" (C118_descriptors_refuted).
* Blobs (C119): the value of `account` is pasted between `https://` and `.blob.core.windows.net` without a look at its characters; `account=example.org/` makes the SDK talk to (and send a token to) example.org (C119_host_refuted). AzureBlobInputStream::Read turns the service's refusal of a range behind the end into an exception, although IStream::Read must not throw there (C119_end_refuted). Identifications are cut at a NUL (C119_nul_refuted).
* Attachments through the C API (C120): CCziAttachmentsDirectory::TryGetAttachment compares the index with the upper bound only; a negative one makes vector::at throw, and the C API answers UnspecifiedError although the header documents IndexOutOfRange (C120_negative_refuted). A name filling all 80 bytes is cut by the reader, empty metadata is accepted but cannot be got back (C120_long_refuted).
* Asking in the middle of an editing session (C121): CCziReaderWriter::EnumerateAttachments leaves the ninth byte of the type as the stack held it (C121_type_refuted); names of 80 bytes, which AddAttachment accepts, are given to std::string without a length and read behind the array (C121_name_refuted).
* Extracting with CZICmd (C122): TryParseSelection accepts only numbers for which rapidjson says IsDouble, so {"index":1} is refused while {"index":1.0} is not (C122_integer_refuted); the number is cast to int, cutting fractions (C122_fraction_refuted); members of another kind or name are ignored, which extracts everything (C122_kind_refuted); names and types of attachments are put into the path as they are (C122_same_refuted, C122_elsewhere_refuted).
* The site object (C123): SetSiteObject does not take part in the call_once of GetSite. Its test and its assignment can lie on both sides of the first use, so that users get the default at first and the object set later on (C123_race_refuted); two calls can both succeed (C123_twice_refuted). The documentation forbids both, but the exception suggests a check. A null pointer is not refused (C123_null_refuted): SetSiteObject(GetDefaultSiteObject(WithWICDecoder)) silently does nothing where there is no WIC.
* Background and zoom (C124): TryParseParseBackgroundColor does not look whether strtof found a number, so that ";" is black and ";;0.5" blue (C124_missing_refuted), and uses NaN as the mark of "not given", so that 1;nan;nan is grey (C124_nan_refuted). TryParseZoom uses std::stof without position: 1/2 is 1 (C124_rest_refuted); NaN passes the test GetZoom() <= 0 (C124_range_refuted). The message for a wrong zoom quotes the text of -y (l.884).
* The sub-block orderings handed to std::sort are not strict weak orders (C28, C29).

Observations outside the theorems, made while reading: a null source bitmap is dereferenced before it is
tested in the compositor (MultiChannelCompositor.cpp l.1056/1064); TryGetAttachmentInfo of the
reader-writer copies nine bytes out of an eight-byte array (CziReaderWriter.cpp l.779 ff.); the strided
AddSubBlock helpers of writer and reader-writer store lines of different length.

Per property (the notes of MANIFEST.json):

* **C02** (Parsing an arbitrary sub-block directory never leaves the defined behaviours) REFUTED by witness (dimension count -1, also 41 and 214748365); defined behaviour proved when all dimension counts are in 0..40.
* **C04** (Segments are aligned and never overlap) REFUTED by witness: a source announcing 16384 bytes and delivering none; proved for sources which deliver what they announce.
* **C06** (A requested run of zero bytes is completely written) REFUTED for every N > 4096; exact for N <= 4096.
* **C07** (Rewriting the attachment directory never damages it) REFUTED whenever more entries are reserved than used; exact reservation or none proved (C55).
* **C08** (In-place editing never destroys live data (reader-writer)) REFUTED by five witnesses computed on small files (every call and Close report success): replacing an attachment by a longer one and adding something; modifying sub-blocks and attachments in one session; removing an attachment; an addition whose data source fails; new documents with attachments or without sub-blocks. Proved for every sound document and every sequence of the seven calls outside those constellations (no attachment grows; at Close the attachment directory is unchanged, fits exactly, or moves while the sub-block directory stays): the file is again a sound document - pairwise disjoint segments, readable by any reader - with exactly the intended contents, each call reports what the specification says, and sessions chain. I/O errors and editing after Close are not covered.
* **C09** (Sub-block payloads of any representable size can be read back) REFUTED by witness of 2^31 bytes; exact limit INT_MAX proved (C05_after_end: readable iff at most INT_MAX).
* **C101** (GUIDs and creation parameters given to the C API as text) REFUTED by witness C101_m_bounds_refuted: minimum_m_index and maximum_m_index given to libCZI_WriterCreate have no effect, because CheckCoordinate accepts everything if no dimension bounds were given, and the C API cannot give any. The rest is proved: forms of GUIDs, parameters, the document created. The JSON parser is an oracle.
* **C103** (Null pointers and foreign handles given to the C API) REFUTED by witnesses: libCZI_ReaderGetMetadataSegment, libCZI_ReaderReadAttachment, libCZI_CreateInputStream, libCZI_MetadataSegmentGetMetadataAsXml and libCZI_CompositorDoMultiChannelComposition use a null pointer, libCZI_CompositorFillOutCompositionChannelInfoInterop an empty one; libCZI_CziDocumentInfoGetDisplaySettings and libCZI_CziDocumentInfoGetDimensionInfo succeed without a usable result. All other functions are proved well behaved. Memory of the caller is as large as announced; released handles are not given.
* **C104** (Metadata and masks of sub-blocks) REFUTED by witnesses: TryGetStagePositionFromTags and TryGetTagAsDouble never return if the number is followed by white space, e.g. a line end (C104_hang_refuted), hand a wide character to isspace (C104_wide_refuted); if the metadata declare a chunk container without a mask, drawing uses uninitialised values (C104_mask_refuted). Proved: which element is read, what is read back after writing, numbers without white space around them, masks without chunks with a payload before them.
* **C105** (Composing channels with the display settings of the document) REFUTED by witnesses: with the C API a disabled channel gets weight 0 but counts in the mean weight, one enabled and one disabled channel give a picture twice as bright as with the C++ helper (C105_disabled_refuted); with all channels disabled the C API gives a white picture and the helper leads to an access to an empty list (C105_all_disabled_refuted). Proved for the C++ helper (within the accuracy of C68), for the C API with the exact factor of the mean weight, equality of both if all channels are enabled.
* **C107** (Reserved space is used) REFUTED by witness: a range of the M-index from 0 to the greatest int and a reservation without number overflow a signed int (C107_range_refuted). Proved: what fits is placed in the reserved space, for every session of well-formed requests; the estimate for ranges of less than 2^31 M-indices and less than 2^64 sub-blocks.
* **C108** (A cache does not change the picture) REFUTED by witness: calls which ask for masks and calls which do not influence each other through the cache (C108_mask_refuted); with precedence of the sub-block header and discrepancies ignored the second of two equal calls places the tile elsewhere (C108_position_refuted). Proved for every history and interleaving otherwise; the scaling accessor without masks is not disturbed by any use of the cache (C108_scale).
* **C109** (What was written is what is seen) REFUTED by witness: a picture of type Bgra32 is written, but the accessor throws when it is to be delivered (C109_bgra_refuted). Proved end to end for all other pixel types delivered in the type in which they were written, uncompressed or compressed with the library's compressors, for the tile accessor and, at other zooms than 1, for the scaling accessor (one scene or several; within the limits of C80). Missing: JPG-XR (external codec) and the conversion to other pixel types.
* **C110** (A plane scan delivers the region, cut into tiles) REFUTED by witness: at half the size two tiles of three pixels yield one column each, the region three (C110_zoom_refuted); with a tile size of 2^31 or more, or without a region, nothing is written (C110_nothing_refuted); the number of tiles overflows for large tiles (C110_overflow_refuted). Proved for tile sizes where extent plus tile size is in the range of int; the agreement of the pictures at zoom 1, with one scene, where the order of overlapping sub-blocks is settled by their M-indices.
* **C111** (A mosaic created by the command-line tool is complete) REFUTED by witness: 2^32 tiles or more are never finished (C111_endless_refuted); positions beyond 2^31 come back to the first tiles (C111_far_refuted); with jpgxr or jpg, which are accepted, no sub-block is written (C111_nothing_refuted); the comment tells 52 percent for 53 (C111_comment_refuted). Proved for mosaics whose extent fits an int, with at most 2^31 tiles, an overlap up to 100 percent; the statistics without overlap.
* **C112** (Arguments of the command-line tool mean what they say) REFUTED by witness: enormous numerals raise an exception instead of being refused (C112_exception_refuted); bgra32(0X7f) is accepted with alpha 0 (C112_hex_refuted); a list of levels is not looked at behind an empty item (C112_hole_refuted); cache sizes from 2^63 bytes give an unspecified value (C112_bytes_refuted). Proved: exact characterisations of the texts accepted with their values; pixel types for texts without a capital X; lists without a hole; cache sizes below 2^61 bytes, exact up to 2^49.
* **C113** (JSON given to the C API and handed out by it) REFUTED by witness: a start position 1e999 in the metadata makes the function for the dimension Z succeed with a text which breaks off at the number and is no JSON (C113_infinite_refuted); for dimensions other than Z, C, T it succeeds without setting the text (C113_other_dimensions_refuted). Proved: reading is exact; everything written from finite numbers is JSON with the value meant, everything with a number which is not finite is not (C113_written_partial, C113_torn); general information and pyramid statistics in full, Z and T for finite numbers. The text rapidjson makes of a finite number is a parameter; assumed of it: a JSON number with fraction or exponent which is read as the same double.
* **C114** (What the C API tells of the channels) REFUTED by witness: condensor_contrast is filled with the reflector, so a channel with CondenserContrast C and no Reflector has no such member and one with Reflector R has the value R (C114_condenser_refuted); the bounds of bands are printed with six digits, so 500.1234-600 and 500.123-600 give the same text (C114_digits_refuted); a colour with a wide character is undefined behaviour (C114_colour_refuted); a number which is not finite spoils the whole text (C114_torn). Proved: for finite numbers and narrow colours the text is JSON and says exactly the twenty-nine items of every channel except for the contrast of the condenser (C114_channels_partial), and all of them where the two texts are the same or both missing (C114_right_partial); bounds of bands up to one part in 10^5.
* **C115** (External streams live as long as some handle needs them) REFUTED by witness: a writer whose creation failed keeps the stream, so it refuses another stream, writes to the first one although its handle was released, and keeps it open (C115_create_refuted). Proved: for all sequences of calls the functions of streams are called and closed as the handles say, where such a writer counts as needing the stream (C115_life_partial); all is closed in the end (C115_end); every other call which fails changes nothing (C115_fail_partial); any use of a released handle is undefined behaviour, whatever the comments about the magic number say (C115_released). Every handle is assumed to be released with the function for its kind; files and threads are not modelled.
* **C116** (The same document on hosts of either byte order) REFUTED by witness: on a big-endian host a sub-block with an entry of the schema DE has pixel type 16777216 instead of 1 (C116_types_refuted); a document created with the reader-writer, or given a GUID, has the GUID in the wrong order once it is closed (C116_guid_refuted); pixels of sixteen bits compressed with zstd without packing are read in the wrong order, uncompressed ones are written so, floats are refused (C116_pixels_refuted). Proved for all values and all bytes: every structure and every member is converted right (C116_structures, C116_members); directories and sub-blocks are written alike (C116_written), found again (C116_found), and any bytes are told alike (C116_any); types for every other schema (C116_types_partial); GUIDs of documents which existed (C116_guid_partial); uncompressed reading, packed data, checksums (C116_pixels_partial). The start coordinate of a dimension is always written as zero and never read; it is not converted.
* **C117** (JPEG XR: the quality parameter and what comes back) REFUTED by witness: floats are never accepted with a quality below 500 (C117_float_refuted); 500 quantizes 8-bit pictures more coarsely than 499 (C117_monotone_refuted); the loss-less setting rounds floats to 13 bits of mantissa, makes the largest infinite and drops the sign of zero (C117_lossless_refuted); the message of an error is overwritten by its code (C117_error_refuted). Proved for all bitmaps, strides and qualities: nothing undefined (C117_defined, C117_decode_defined), everything else accepted (C117_accepted_partial), loss-less exactly as documented (C117_best, C117_less), monotone on either side of 500 and for 16 bit throughout, by checking all 1000 numbers with exact binary32 arithmetic (C117_monotone_partial), integer pixels unchanged (C117_lossless_partial), what becomes of each float that is not tiny (C117_floats, C117_kept). The transform and entropy coding of jxrlib is a parameter; that it loses nothing with the loss-less settings is a hypothesis.
* **C118** (Files: creating, replacing, changing and reading them by name) REFUTED by witness: with the C runtime a file which cannot be read, or appears in between, is emptied although overwriting was not permitted (C118_refused_refuted); its stream for changing files is opened with rwb and can never write (C118_edit_refuted); with pwrite a missing file to be changed is created empty (C118_missing_refuted); more than 2147479552 bytes are not transferred by one call on Linux, so such sub-blocks can be neither written nor read (C118_large_refuted); the result of fclose is ignored and what was buffered may be lost silently (C118_lost_refuted); descriptor 0 is never closed (C118_descriptors_refuted). Proved for all worlds and sequences of calls: existing files are refused untouched (C118_refused_partial), contents after any writes and reads at any positions (C118_written_partial, C118_edited_partial, C118_read_partial), short transfers told exactly (C118_short_partial, C118_reported_partial, C118_short_read_partial), descriptors balanced after any calls, by an invariant (C118_descriptors_partial).
* **C119** (Streams by class name, and blobs) REFUTED by witness: what follows a NUL in an identification is ignored, so two identifications open the same file (C119_nul_refuted); the account's name is pasted into the address unchecked, account=example.org/ makes example.org the host asked (C119_host_refuted); reading at or behind the end of a blob throws, where the contract of IStream asks for zero bytes (C119_end_refuted). Proved: the classes, names and numbers, narrow and wide texts for all classes, files by name, exactly the blob asked for with identifications which C46 can write down, in UTF-8 or wide, the host for plain account names, reading before the end, and the count told for any answer. Missing: characters outside the basic plane where wide texts are UTF-16, size 0, what curl and the SDK do with the address.
* **C120** (Attachments and metadata through the C API, there and back) REFUTED by witness: an index below zero gives UnspecifiedError instead of the documented IndexOutOfRange, only the upper bound is looked at (C120_negative_refuted); a name filling its array of 80 bytes comes back without its last character, and metadata of zero bytes, which the writer accepts, cannot be got back (C120_long_refuted). Proved: everything else of the claim, for all sequences of calls, through the bytes of the file, with what happens in the refuted cases spelled out. Missing: more attachments reserved for than added (see C07), handles and their validity, the metadata segment's own attachment, which the C API cannot read.
* **C121** (Asking and reading in the middle of an editing session) REFUTED by witness: the enumeration of attachments never sets the ninth byte of the type, so a type of eight characters is handed out without an end (C121_type_refuted); an attachment accepted with a name filling its 80 bytes makes asking, reading and enumerating read behind the array (C121_name_refuted); an attachment replaced by a longer one cannot be read once a sub-block is added, as the longer one was written over what follows or is overwritten (C121_grown_refuted, see C08). Proved: everything else of the claim, for all documents and sequences of edits, and that removed keys stay gone. Missing: selecting by a type of eight characters where types have no NUL (see C76), enumerating the subset of sub-blocks by coordinate (C31), the statistics (C33).
* **C122** (Choosing what is extracted on the command line) REFUTED by witness: an index with a fraction is cut, so 1.9 extracts attachment 1 (C122_fraction_refuted); a name given as number, an index given as text, or a key in other letters are accepted and ignored, everything is extracted (C122_kind_refuted); an index written as JSON integer is refused, one beyond int is undefined behaviour (C122_integer_refuted); two attachments can go into one file (C122_same_refuted); the attachment's name and type, which come from the document, can lead out of the output's directory (C122_elsewhere_refuted). Proved: when a selection is refused, what it asks for otherwise, and for indices which are integers the exact list of files and bytes, from the writer to the extraction; the files are different if no type has a dot. Missing: creating the files and the hash, the pictures of ExtractSubBlock.
* **C123** (One site object and one decoder of each kind for the whole program) REFUTED by witness: SetSiteObject tests and assigns the global pointer without the flag protecting its first use, so that an object is accepted although the default was used already, and uses differ (C123_race_refuted); two threads setting different objects are both told to have succeeded (C123_twice_refuted); a null pointer, which GetDefaultSiteObject returns for a decoder not available, is accepted without error, and in a race the library then gets it (C123_null_refuted). The first two break the documented rule to call SetSiteObject once and first. Proved for all interleavings: calls one after the other; all threads if the object was set before or never; refusal of all calls begun after the first use; the decoders, with failing creations; waiting only for calls in progress. Missing: the accesses of the pointer are single steps, formally they are a data race; the WIC site object.
* **C124** (Background colour and zoom on the command line) REFUTED by witness: what follows the number of a zoom is ignored, 1/2 is a zoom of 1 (C124_rest_refuted); zooms above 1, infinity and NaN are in use, the test being GetZoom() <= 0 (C124_range_refuted); a colour text without any number is black, numbers left out count as 0 (C124_missing_refuted); separators may be missing, .5.25.5 are three numbers, and the range from 0 to 1 is not tested (C124_joined_refuted); 1;nan;nan is a grey value (C124_nan_refuted). Proved for all texts: one and three decimal numbers are read as such, two are refused, everything accepted has one of two forms, positive zooms in range are taken, those out of the range of float refused, and the floats are near the numbers of the texts. Missing: hexadecimal numbers, nan(...), bytes from 128 on in isspace.
* **C13** (Balanced bitmap locks never throw and the lock count is exact) REFUTED by witness: a surplus Unlock in one thread makes another thread's balanced Lock/Unlock throw; balanced use proved for every schedule.
* **C16** (Visibility optimisation is also correct with valid-pixel masks) REFUTED by a two-tile witness; pixel-wise restriction (topmost tile not masked out there) proved.
* **C19** (Mask-aware copy with pixel-type conversion) REFUTED for converting copies; proved for identical pixel types.
* **C21** (zstd1 compression round trip) REFUTED by witness: a Bgr48 bitmap compressed with packing is decoded (default option) with two thirds of its pixels never written; proved for all other pixel types, packing modes and options, given that zstd round-trips.
* **C22** (Size-mismatch protocol (crop or zero-pad)) REFUTED by witness: odd-sized short packed data, short packed Bgr48 data, lines of 2^32 bytes and more, one- or two-byte zstd1 headers; proved for every size otherwise. JPEG XR mismatch not included.
* **C24** (Coordinate parser is total) REFUTED by witness: a non-ASCII (negative) character is passed to isdigit, undefined behaviour; proved for strings without negative characters.
* **C28** (Writer's sub-block ordering is a strict weak order) REFUTED by witness: three sub-blocks forming a circle (zoom tolerance), signed overflow of position differences; proved when zooms are equal or clearly different and positions below 2^30.
* **C29** (Sort-by-zoom comparator is a strict weak order) REFUTED by witness: a sub-block 30x10 for 30x11 logical pixels; proved when layer-0 and other sub-blocks never share a zoom and no zoom is NaN.
* **C30** (Enumerating all coordinates visits each exactly once) REFUTED for an empty interval (visited once) and for an interval ending at INT_MAX (overflow); proved for all other bounds.
* **C32** (Statistics describe the sub-blocks) REFUTED by witness: a sub-block with M index but no dimension is left out of the M range; bounds which do not fit an int (tiles far apart, coordinate INT_MAX twice) are undefined behaviour. Proved: everything else is tight, M range over the sub-blocks with a dimension.
* **C33** (Statistics stay correct under editing) REFUTED by witness: pyramid statistics still count a replaced or removed sub-block. Proved for all other statistics after every history, and for pyramid statistics as long as nothing is replaced or removed.
* **C35** (Coordinate-system transformation is invertible) REFUTED by witness: in a document without sub-blocks on layer 0 the origin of the pixel frame is read from an uninitialised rectangle. Proved whenever the layer-0 bounding box is valid and the coordinates fit an int.
* **C36** (Plane coordinate validation) REFUTED only where start+size exceeds INT_MAX (overflow); proved for all other bounds.
* **C37** (Writer bounds validation) REFUTED only where start+size exceeds INT_MAX (overflow); proved for all other bounds.
* **C38** (Filling a region of a bitonal bitmap) REFUTED by witness: region (-10,0,5,1), entirely left of the bitmap, fills pixels; also region ending beyond INT_MAX (overflow). Proved for all other regions.
* **C40** (Decimation computes the documented neighbourhood AND) REFUTED by witness: radius 2, 32x6 pixels (wrong value); width 33 (write behind the destination). Proved: value for radius 0,1 or width below 32; no access outside either bitmap for all radii, both when width mod 16 is not 1.
* **C41** (Chunk container enumeration) REFUTED by witness: two chunks with payload; 21-byte attachment with size 2^32-20 (read outside). Proved: always terminates; exact if only the last chunk has a payload (apart from the index, always 0); inside the attachment if no size is near 2^32.
* **C43** (Handle kinds of the C API cannot be confused) REFUTED by witness: attachment and document-info handles have the same tag 0x3A4A3D7A. Proved for all other pairs and for every session which does not mix these two.
* **C44** (Re-opening a reader shows the new document only) REFUTED: a document without attachments opened after one with attachments shows those of the first (the directory is only assigned if the new document has one). Proved: after any history every sequence of calls is answered like by a new reader if the document has an attachment directory or no earlier one carried attachments, and unconditionally for calls not about attachments.
* **C45** (Attachment identity is unique in a written document) The writer's check is proved exact for every history. REFUTED for what is read back: names of 80 characters are cut to 79 and may coincide (proved for terminated names). REFUTED for editing: replacing an attachment does not check (proved for every session without that call).
* **C46** (Property-bag string tokenizer) REFUTED by witness: 'a=b;=v' loses v, keys ending in a backslash cannot be written; proved for all other maps (last value not empty).
* **C47** (Colour strings round-trip) REFUTED by witness: '#FF11223344' is accepted, a character above 255 is undefined behaviour; round trip proved for all colours, exact meaning for all strings of narrow characters.
* **C49** (Pyramid layer computation terminates) REFUTED: factor 0 or 1 never returns for a sub-block of ratio 2 or more; factor 255 with ratio 16581376 overflows an int. Proved for factor >= 2 and ratio * factor <= INT_MAX.
* **C50** (Pixel conversions read and write only their pixel) REFUTED by witness: Bgr24 to Bgr48 reads 16-bit values: out of bounds at the end of the buffer, wrong values elsewhere. Proved for every other conversion.
* **C51** (Tile border drawing keeps the tile content) REFUTED (interior shifted by one pixel; width 1 is undefined behaviour); exact behaviour for blocks >= 2x2 proved.
* **C53** (Concurrent writes to a stdio-based output stream) REFUTED by witness: seek/seek/write/write of two threads. Proved for calls not overlapping in time, and for the pwrite-based stream under every schedule of any number of threads.
* **C54** (Pyramid accessor places tiles consistently) REFUTED by witness: int division truncates towards zero, so a tile starting less than a pixel left of the region is placed at 0 instead of -1. Proved for offsets >= 0 or multiples of the pixel size.
* **C56** (An empty document can be re-opened from every kind of stream) REFUTED for the in-memory stream; C03 covers the other streams (strict = false).
* **C57** (A failed addition leaves no trace) REFUTED by witness (getter returning a null pointer); C03 shows that refused calls (bad arguments, duplicates) leave no trace.
* **C60** (Bounds parser accepts only bounds) REFUTED by witness: '?C0:3' and 'C|5:3' are accepted; completeness and totality proved.
* **C61** (Valid-pixel mask of a sub-block) REFUTED by witness: no mask chunk (uninitialised data used), chunk shorter than its header, width 2^32-1. Proved: mask behind empty chunks is found exactly.
* **C63** (Receiving data over HTTP) REFUTED by witness: excess piece of exactly 23 bytes (CURLE_WRITE_ERROR) is taken for success. Proved: memory safety always; exact behaviour if no piece has 23 bytes.
* **C65** (Filling a bitmap with a colour) REFUTED by witness for colours which are not a number (or infinities which cancel): undefined conversion. Proved for colour components between 0 and 1; components outside of that range are not covered.
* **C67** (What a channel contributes to a composed pixel) REFUTED by witness: black point below 0 makes the conversion to a byte undefined; a negative table size passes the check and the table is read unchecked. Proved for points in 0..1 and tables of the right size: exact, tinting within 1/2 + 2^-15. A four-component source with curve throws after the destination was partly written (not covered).
* **C68** (Channel weights scale contributions relative to the mean weight) REFUTED by witness: finite weights whose sum overflows give a black image. Proved for weights 0 or in 2^-40..2^40, at most 1024 channels, mean at least 2^-10.
* **C71** (Pyramid statistics and pyramid accessor agree on layers) REFUTED by witness: a tile of 84x84 stored as 5x5 is counted on layer 4 of a factor-2 pyramid but delivered on layer 5. Proved: exact criterion when both agree.
* **C73** (Pyramid accessor delivers the requested layer) REFUTED: an exception is thrown if the region holds sub-blocks but none of the requested layer; negative offsets are truncated (C54). Proved otherwise.
* **C74** (A closed reader refuses every request) REFUTED: TryGetSubBlockInfo answers from the closed document, TransformPoint on a reader never opened reads an indeterminate origin. Proved for all other calls and all histories. The accessors created earlier keep the reader's internals and are not covered.
* **C75** (Directory and header of a sub-block are reconciled as configured) REFUTED: a sub-block header without X or Y leaves the extents compared uninitialised. Proved for headers with non-zero extents, all policies; documents of the writer are always accepted.
* **C76** (Selecting attachments by type and name) REFUTED: a type of eight characters (e.g. Zip-Comp) fills the array without terminator, strcmp reads behind it. Proved for types of at most seven characters or documents whose types are all terminated.
* **C79** (Drawing a scaled sub-block) REFUTED: single-precision rounding and the rounded step may leave out the pixel at which a tile starts and may draw one at which it ends already (witnesses). Proved with a tolerance of 1/32 pixel at the edges and 1/64 pixel inside, for sizes up to 2^20, tiles not stored larger than they are and magnified at most twice.
* **C80** (Scaling accessor shows the document at the requested zoom) REFUTED: a seam between adjacent tiles at zoom 1.049; a pyramid tile hides finer tiles elsewhere in the region; zooms above 1.05 show nothing; sub-blocks without S vanish if the region touches two scenes. Proved: apart from these the picture is that of the level chosen, scaled as in C79, per scene. The sorts enter by their contracts.
* **C81** (Scaling accessor at zoom 1 and its visibility optimisation) REFUTED: sub-blocks without S are missing if the region touches two scenes; at zoom 1.049 the optimisation leaves out a tile which shows through a seam. Proved for regions touching one scene, without levels between 1/1.05 and 1.
* **C82** (The MD5 digest of data and bitmaps) REFUTED for single buffers of 4 GiB and more: the size is masked with a 32-bit constant, so data is ignored or memory behind the buffer is read. Proved for every sequence of pieces below 4 GiB (any total length) and for bitmaps with lines below 4 GiB. The table of constants is checked against the sine series.
* **C83** (Look-up tables from gamma and splines) REFUTED: with black point above white point the table has too many elements (384 instead of 256); points one element apart and gamma 0 give 0/0, the conversion of which to an integer is undefined. Proved otherwise for 0 <= black <= white <= 1, in single and double precision with rounding; std::pow is a parameter with a monotonicity contract; gamma < 1 for moderate slope parameters.
* **C84** (Gradation curves pass through their control points smoothly) REFUTED for control points closer than 0.001 (the slope jumps) and closer than 1e-7 (the curve misses the point), whatever the solver. Proved for points at least 0.001 apart in exact arithmetic; Eigen's solver enters through its contract (finds a solution if there is one), which elimination meets.
* **C85** (Dates and times as text) REFUTED: offsets of -1 to -9 hours are written with one digit and not accepted when read; so are negative years and leap seconds; reading -00:30 loses the sign; a year beyond int throws. Proved for every other date of the calendar; the accepted texts are characterised exactly. The regular expression is modelled as a matcher, not through std::regex.
* **C86** (Paths and values of the metadata XML) REFUTED: the value written to a node with a CDATA section cannot be read; where a comment cuts a text in two only the first part is replaced; a call with an invalid path or one with an index creates nodes before it throws. Proved otherwise for every document.
* **C87** (Numbers and truth values in the metadata XML) REFUTED: reading a number followed by white space does not return; negative numbers are accepted as unsigned ones; an empty text is accepted as a floating point number; isspace is called with wide characters. Proved for every text without white space or wide characters after the number; wcstod is a parameter.
* **C88** (Metadata saved as XML and loaded) REFUTED: values of white space only are lost, carriage returns become line feeds, a section of character data with the sequence ending one is cut in two of which only the first is the value, texts beside each other are joined, and names which are none of XML are accepted so that the text saved cannot be loaded. What happens to every document of proper names is stated exactly (C88_settled); the document is unchanged if its texts are none of the above, and in any case from the second time on. Document type declarations are not modelled.
* **C89** (Floating point numbers written to the metadata are read back) REFUTED by witness 2^53-1 (written as 9.00719925474099e+15, read back one less): only fifteen digits are written. Proved: the error is below 10^-14 relative and settles after one round; texts are read correctly rounded; numbers from texts of up to fifteen digits survive; the twenty digits used for gradation curves restore every number. Numbers outside 10^-307..10^307 are not covered.
* **C90** (Information about the document and its scaling are read back) REFUTED: a text of blanks is read as an empty one, a carriage return as a line feed (exactly as C88 says), and lengths are written with fifteen digits. Proved: these are the only changes, for every document and every subset of fields; what is not written is as before; lengths are kept within 10^-14 relative (10^-307..10^307).
* **C91** (Dimensions and channels in the metadata are read back) REFUTED: the start of a dimension is not written; positions in T and Z are written to a place which is never read (and the Z start position of a list to the start time of T); the drive mode is taken from the axis direction; a number out of range throws; the interval may overflow; channel names with a comma throw, Gray32 and Gray64Float have no word. Proved for every document: sizes of all dimensions, the metadata prepared by a writer, channels in order with identifier, name and pixel type for names without / [ ] , ;.
* **C92** (Display settings in the metadata are read back) REFUTED: the weight is not written; black point, white point and gamma are written with six digits; channels without settings in between (and channel 0 of no settings at all) appear with default settings; a spline without points becomes linear; a number out of range in the points throws, a character above 255 in them is undefined behaviour. Proved for every document and all settings (numbers 10^-37..10^38): everything else is read as written, numbers within 10^-5 relative, points exactly; what has been read is read unchanged when written again; writing never fails; the rest of the document is unchanged.
* **C93** (Custom values in the metadata) REFUTED: a text of blanks is lost and numbers are written with fifteen (double) and six (float) digits. Proved: exactly the keys described are accepted, others throw; value (within these digits; texts as C88 says) and type are found after saving and loading, replacing what was there; every other node is unchanged.
* **C94** (Exposure times and wavelengths of channels) REFUTED: '100 200' is read as 100200, '10--1' as 10 to 2^64-1; a band without a start begins at 2^-1022 (numeric_limits<double>::min) instead of below all numbers, '-0' begins above its end; a blank after the last comma loses all bands. Proved: exactly which texts are accepted and what is reported, for exposure times completely, for wavelengths with zero and numbers 10^-307..10^307 (acceptance implies a range text without restriction).
* **C95** (Lists of numbers in the settings of channels) REFUTED: a character above 255 next to a number is undefined behaviour (isspace of a wide character). Proved: lists of 32 bit integers are read exactly, of floating point numbers (zero, 10^-307..10^307) within 2^-52 relative; every text of characters up to 255 is read without exception.
* **C96** (Pictures handed over with a stride or line by line) REFUTED for the editor: it stores stride bytes per row, so a picture with padding is shown skewed, and the padding of the last row is read even if the memory ends before it. Proved: the writer stores and shows exactly the picture, end to end; the editor does the same for rows without padding below 4 GiB and for pictures given line by line.
* **C97** (Adding sub-blocks with the C API) REFUTED: the compression given is never recorded (always uncompressed), so compressed data is shown as pixels; size_data is documented as validated but is not (witness reads behind the memory). Proved end to end: coordinate, M-index, position, extent, pixel type, metadata, attachment, the picture for uncompressed data and the bytes for compressed data.
