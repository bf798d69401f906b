{"id": "C01", "title": "Directory entries survive encode/decode", "statement": "Encoding any sub-block directory entry (pixel type, compression, file position, pyramid type, coordinate, M-index, logical rectangle, stored size) into the on-disk DV format and parsing it back yields the same entry: no field, dimension or sign is lost, for every subset of dimensions and every M-index validity.", "quantifier": "every directory entry with representable field values; every list of such entries", "why_tests_cant": "the entry has 2^9 dimension subsets times 32-bit values per dimension; a unit test exercises a handful", "anchors": ["Src/libCZI/CziWriter.cpp: CWriterUtils::FillSubBlockDirectoryEntryDV", "Src/libCZI/CziParse.cpp: CCZIParse::ParseThroughDirectoryEntries, AddEntryToSubBlockDirectory", "Src/libCZI/CziStructs.h"]}
{"id": "C02", "title": "Parsing an arbitrary sub-block directory never leaves the defined behaviours", "statement": "For any byte content of a sub-block directory segment the parser either delivers entries or raises a parse error; it never writes outside its entry buffer.", "quantifier": "every byte string used as directory payload", "why_tests_cant": "adversarial files form an infinite input space; the failing ones are precisely those nobody puts in a test corpus", "anchors": ["Src/libCZI/CziParse.cpp: ParseThroughDirectoryEntries", "Src/libCZI/CziStructs.h: MAXDIMENSIONS"]}
{"id": "C03", "title": "Write, close, re-open returns every sub-block", "statement": "After any sequence of successful sub-block additions on a fresh writer followed by Close, opening the resulting bytes enumerates exactly the added sub-blocks, and reading each of them returns exactly the pixel data, metadata and attachment bytes which were handed in.", "quantifier": "every history of additions, every payload content and size up to 2^31-1 bytes (larger ones are C09)", "why_tests_cant": "the layout of each segment depends on all earlier ones; tests fix a few histories and small payloads", "anchors": ["Src/libCZI/CziWriter.cpp: CWriterUtils::WriteSubBlock, WriteSubBlkDirectory, CCziWriter::SyncAddSubBlock, Finish, WriteFileHeader", "Src/libCZI/CziParse.cpp: ReadFileHeaderSegment, ReadSubBlockDirectory, ReadSubBlock"]}
{"id": "C04", "title": "Segments are aligned and never overlap", "statement": "In every state of the writer all segments written so far start at multiples of 32, lie behind the file header and occupy pairwise disjoint byte ranges, and a later write never touches bytes of an earlier completed segment.", "quantifier": "every history of writer operations and every payload size", "why_tests_cant": "a global invariant over unbounded histories", "anchors": ["Src/libCZI/CziWriter.cpp: AlignSegmentSize, CalculateSegmentDataSize, CCziWriter::WriteCurrentSubBlkDirectory, WriteCurrentAttachmentsDirectory"]}
{"id": "C05", "title": "Crash before the end of Close leaves no half-valid header", "statement": "If the process dies after any prefix of the stream writes issued by the writer, the file header on disk is either the initial one (announcing no directory) or the final one, and in the latter case everything it references is completely on disk.", "quantifier": "every history and every crash point (prefix of stream writes)", "why_tests_cant": "crash points are proportional to the number of writes of every history", "anchors": ["Src/libCZI/CziWriter.cpp: CCziWriter::Create, Finish, WriteFileHeader"]}
{"id": "C06", "title": "A requested run of zero bytes is completely written", "statement": "When the writer pads or zero-fills N bytes at an offset, N zero bytes are written there and N is reported, for every N.", "quantifier": "every N", "why_tests_cant": "the defect shows only above the internal block size of 4096 bytes", "anchors": ["Src/libCZI/CziWriter.cpp: CWriterUtils::WriteZeroes, WriteSubBlkDataGeneric"]}
{"id": "C07", "title": "Rewriting the attachment directory never damages it", "statement": "Writing the attachment directory into an existing or reserved segment which is large enough leaves a segment from which exactly the listed attachments are read back.", "quantifier": "every number of attachments and every size of the existing segment", "why_tests_cant": "depends on the relation of two sizes; the usual test has equal sizes", "anchors": ["Src/libCZI/CziWriter.cpp: CWriterUtils::WriteAttachmentDirectory, CCziWriter::ReserveAttachmentDirectory", "Src/libCZI/CziParse.cpp: ReadAttachmentsDirectory"]}
{"id": "C08", "title": "In-place editing never destroys live data (reader-writer)", "statement": "Any sequence of add / replace / remove / write-metadata on the in-place editor followed by Close leaves all segments which are still referenced pairwise disjoint and intact.", "quantifier": "every history of edit operations on every initial file", "why_tests_cant": "needs specific interleavings of edits and sizes", "anchors": ["Src/libCZI/CziReaderWriter.cpp: ReplaceAttachmentAddNewAtEnd, Finish, EnsureNextSegmentInfo"]}
{"id": "C09", "title": "Sub-block payloads of any representable size can be read back", "statement": "A sub-block whose data size fits the on-disk field is readable; in particular sizes of 2 GiB and more.", "quantifier": "every data size", "why_tests_cant": "no unit test writes 2 GiB payloads", "anchors": ["Src/libCZI/CziParse.cpp: CCZIParse::ReadSubBlock, ReadAttachment"]}
{"id": "C10", "title": "Sub-block cache accounting is exact under concurrency", "statement": "Whenever no cache operation is in flight, the reported memory usage equals the sum of the sizes of the cached elements and the reported element count equals their number, for any interleaving of Get, Add, Prune and GetStatistics calls by any number of threads.", "quantifier": "every schedule of any number of threads with any number of operations", "why_tests_cant": "schedules cannot be enumerated by tests", "anchors": ["Src/libCZI/subblock_cache.cpp: SubBlockCache::Add, Get, Prune, GetStatistics"]}
{"id": "C11", "title": "Prune enforces its limits and evicts least-recently-used first", "statement": "After Prune(options) both limits hold (or the cache is empty), no element is evicted needlessly, and every evicted element was used less recently than every surviving one.", "quantifier": "every cache content and every limit", "why_tests_cant": "depends on arbitrary access histories", "anchors": ["Src/libCZI/subblock_cache.cpp: SubBlockCache::PruneByMemoryUsageAndElementCount"]}
{"id": "C12", "title": "Cache behaves like a map", "statement": "Get(k) returns the most recently added bitmap for k unless it was pruned since; it never returns another key's bitmap.", "quantifier": "every sequence of operations", "why_tests_cant": "all histories", "anchors": ["Src/libCZI/subblock_cache.cpp: SubBlockCache::Get, Add"]}
{"id": "C13", "title": "Balanced bitmap locks never throw and the lock count is exact", "statement": "If every thread only unlocks bitmaps it has locked, no Unlock throws under any interleaving and the lock count equals the number of outstanding locks; a surplus Unlock throws and leaves the count unchanged; and one thread's surplus Unlock does not disturb other threads.", "quantifier": "every schedule of any number of threads", "why_tests_cant": "atomics interleavings", "anchors": ["Src/libCZI/bitmapData.h: CBitmapData::Lock, Unlock", "Src/libCZI/libCZI_Pixels.h: ScopedBitmapLocker"]}
{"id": "C14", "title": "Rectangle coverage is exact", "statement": "After adding any list of rectangles, the computed area of the intersection with a query rectangle equals the number of lattice points of the query rectangle which lie in at least one added rectangle; adding terminates.", "quantifier": "every list of rectangles and every query rectangle", "why_tests_cant": "overlap patterns are combinatorial; the recursion depth is unbounded", "anchors": ["Src/libCZI/utilities.cpp: RectangleCoverageCalculator"]}
{"id": "C15", "title": "Visibility optimisation does not change the picture", "statement": "With the visibility-check optimisation the tile accessor produces, pixel for pixel, the same bitmap as without it (tiles without masks).", "quantifier": "every list of tiles, every region of interest, every pixel content", "why_tests_cant": "arbitrary overlaps of arbitrarily many tiles", "anchors": ["Src/libCZI/SingleChannelAccessorBase.cpp: CheckForVisibilityCore", "Src/libCZI/SingleChannelTileAccessor.cpp: ComposeTiles"]}
{"id": "C16", "title": "Visibility optimisation is also correct with valid-pixel masks", "statement": "The same holds when mask-aware composition is requested.", "quantifier": "every list of masked tiles", "why_tests_cant": "needs overlapping tiles whose upper one is partly masked", "anchors": ["Src/libCZI/SingleChannelAccessorBase.cpp: CheckForVisibilityCore", "Src/libCZI/SingleChannelTileAccessor.cpp: ComposeTiles"]}
{"id": "C17", "title": "Composition shows the topmost tile", "statement": "Every pixel of the composed bitmap has the value of the last drawn tile covering it (and not masking it out), and the background otherwise; pixels are placed at logical position minus region-of-interest origin (tiles with a mask: same pixel type as the destination; the masked copy with conversion is C19).", "quantifier": "every list of tiles and every pixel", "why_tests_cant": "infinite families of arrangements", "anchors": ["Src/libCZI/SingleChannelTileCompositor.cpp", "Src/libCZI/BitmapOperations.cpp: CopyWithOffset", "Src/libCZI/BitmapOperationsBitonal.cpp: CopyWithOffsetAndMask"]}
{"id": "C18", "title": "Copy with offset stays in bounds", "statement": "Copying a source bitmap into a destination at any offset reads only source pixels and writes only destination pixels, and changes exactly the overlap.", "quantifier": "every size and every offset", "why_tests_cant": "all sizes and signs of the offset", "anchors": ["Src/libCZI/BitmapOperations.cpp: CBitmapOperations::CopyWithOffset", "Src/libCZI/utilities.cpp: Utilities::Intersect"]}
{"id": "C19", "title": "Mask-aware copy with pixel-type conversion", "statement": "Copying with a mask and with a pixel type conversion stores, for every pixel with mask bit 1, the converted source pixel at its position.", "quantifier": "every bitmap, mask and offset", "why_tests_cant": "the result differs from the expectation only for width > 1", "anchors": ["Src/libCZI/BitmapOperationsBitonal.cpp: CopyWithMask"]}
{"id": "C20", "title": "Hi-lo byte packing is inverted by unpacking; vector code equals scalar code", "statement": "The hi-lo byte split used by zstd1 is inverted exactly by the packing step for every width, height and stride, and the AVX2 and NEON implementations compute the same result as the portable one.", "quantifier": "every buffer length, width, height, stride", "why_tests_cant": "remainder handling depends on sizes modulo the vector width", "anchors": ["Src/libCZI/utilities.cpp: LoHiByteUnpackStrided_C, LoHiBytePackStrided_C", "Src/libCZI/utilities_simd.cpp"]}
{"id": "C21", "title": "zstd1 compression round trip", "statement": "Decoding what the zstd1 compressor produced gives back the original pixels, for every supported pixel type, whether hi-lo packing was requested or not.", "quantifier": "every bitmap size and content, both packing modes, given that zstd itself round-trips", "why_tests_cant": "depends on pixel type times packing mode times decode options", "anchors": ["Src/libCZI/zstdCompress.cpp: CompressZStd1", "Src/libCZI/decoder_zstd.cpp: CZstd1Decoder::Decode"]}
{"id": "C22", "title": "Size-mismatch protocol (crop or zero-pad)", "statement": "If the decompressed or stored data is longer or shorter than the bitmap requires, the resulting bitmap equals the data truncated, respectively extended by zeros, and nothing else.", "quantifier": "every actual and every expected size", "why_tests_cant": "all relations of the two sizes including partial lines", "anchors": ["Src/libCZI/decoder_zstd.cpp: DecodeAndHandleSizeMismatch, DecodeAndHiLoBytePackAndHandleSizeMismatch", "Src/libCZI/CreateBitmap.cpp: CreateBitmapFromSubBlock_Uncompressed"]}
{"id": "C23", "title": "Coordinate strings round-trip", "statement": "Parsing the textual form of any coordinate gives back this coordinate, and every accepted string denotes exactly one coordinate with no dimension given twice.", "quantifier": "every subset of dimensions and every 32-bit value; every string", "why_tests_cant": "2^9 times 2^32 per dimension", "anchors": ["Src/libCZI/DimCoordinate.cpp: CDimCoordinate::Parse", "Src/libCZI/libCZI_Utilities.cpp: DimCoordinateToString"]}
{"id": "C24", "title": "Coordinate parser is total", "statement": "For every input string the coordinate parser returns success or failure; on success the string contains only dimension/number pairs and separators.", "quantifier": "every string", "why_tests_cant": "unbounded input", "anchors": ["Src/libCZI/DimCoordinate.cpp: ParseCoordinate"]}
{"id": "C25", "title": "Bounds strings round-trip", "statement": "Parsing the textual form of any non-degenerate bounds gives back these bounds.", "quantifier": "every subset of dimensions, every start and size", "why_tests_cant": "all values", "anchors": ["Src/libCZI/DimCoordinate.cpp: CDimBounds::Parse", "Src/libCZI/libCZI_Utilities.cpp: DimBoundsToString"]}
{"id": "C26", "title": "Index sets contain what their text says", "statement": "An index-set string consisting of comma separated numbers and ranges (possibly open-ended) is accepted, and IsContained(i) holds iff i is in one of the listed intervals.", "quantifier": "every list of intervals and every index", "why_tests_cant": "all lists", "anchors": ["Src/libCZI/IndexSet.cpp: CIndexSet::ParsePart, IsContained"]}
{"id": "C27", "title": "Coordinate comparison is a total preorder", "statement": "Utils::Compare on coordinates is antisymmetric, transitive, and returns 0 exactly for equal coordinates, so that it may be used to order coordinates.", "quantifier": "every triple of coordinates", "why_tests_cant": "a law over triples", "anchors": ["Src/libCZI/libCZI_Utilities.cpp: Utils::Compare"]}
{"id": "C28", "title": "Writer's sub-block ordering is a strict weak order", "statement": "The ordering used to keep the sub-blocks sorted and to detect duplicates satisfies the strict-weak-order laws std::set requires.", "quantifier": "every triple of sub-blocks", "why_tests_cant": "a law over triples of sub-blocks with nearly equal zoom", "anchors": ["Src/libCZI/CziSubBlockDirectory.cpp: CWriterCziSubBlockDirectory::SubBlkEntryCompare"]}
{"id": "C29", "title": "Sort-by-zoom comparator is a strict weak order", "statement": "The ordering used by the scaling accessor when sorting by M-index is a strict weak order.", "quantifier": "every triple of sub-blocks", "why_tests_cant": "a law over triples", "anchors": ["Src/libCZI/SingleChannelScalingTileAccessor.cpp: CreateSortByZoom"]}
{"id": "C30", "title": "Enumerating all coordinates visits each exactly once", "statement": "EnumAllCoordinates over given bounds calls the functor exactly once for each coordinate inside the bounds, and stops at the first false.", "quantifier": "every bounds", "why_tests_cant": "the number of coordinates is a product of arbitrary sizes", "anchors": ["Src/libCZI/libCZI_Utilities.cpp: Utils::EnumAllCoordinates"]}
{"id": "C31", "title": "EnumSubset delivers exactly the matching sub-blocks", "statement": "EnumSubset calls the functor for exactly those sub-blocks whose coordinate matches the plane, whose rectangle intersects the ROI and which are on layer 0 if requested, in directory order, until the functor returns false.", "quantifier": "every directory, plane, ROI and functor", "why_tests_cant": "all combinations of optional filters", "anchors": ["Src/libCZI/CziReaderCommon.cpp: EnumSubset", "Src/libCZI/CziUtils.cpp: CompareCoordinate"]}
{"id": "C32", "title": "Statistics describe the sub-blocks", "statement": "The statistics of an opened document (count, bounding boxes, layer-0 bounding box, dimension bounds, M range, per-scene boxes) are exactly the tight bounds over its sub-blocks.", "quantifier": "every list of sub-blocks", "why_tests_cant": "accumulated over arbitrarily many entries in any order", "anchors": ["Src/libCZI/CziSubBlockDirectory.cpp: CSbBlkStatisticsUpdater"]}
{"id": "C33", "title": "Statistics stay correct under editing", "statement": "After any sequence of add/modify/remove the statistics reported by the in-place editor are those of the current sub-blocks, including pyramid statistics.", "quantifier": "every history of edits", "why_tests_cant": "needs query-modify-query histories", "anchors": ["Src/libCZI/CziSubBlockDirectory.cpp: CReaderWriterCziSubBlockDirectory, CSbBlkStatisticsUpdater::Clear"]}
{"id": "C34", "title": "Editing a sub-block directory behaves like a map", "statement": "Keys handed out by the in-place editor stay valid and refer to the same sub-block until it is removed; keys are never reused.", "quantifier": "every history of edits", "why_tests_cant": "histories", "anchors": ["Src/libCZI/CziSubBlockDirectory.cpp: CReaderWriterCziSubBlockDirectory"]}
{"id": "C35", "title": "Coordinate-system transformation is invertible", "statement": "Transforming a point (rectangle) from pixel coordinates to raw sub-block coordinates and back is the identity, for every bounding box.", "quantifier": "every point and bounding box without overflow", "why_tests_cant": "all values", "anchors": ["Src/libCZI/CZIReader.cpp: CCZIReader::TransformPoint", "Src/libCZI/CziReaderWriter.cpp: TransformPoint"]}
{"id": "C36", "title": "Plane coordinate validation", "statement": "An accessor accepts a plane coordinate iff it has no S, gives an in-range value for every dimension of extent > 1 and for every other given dimension, and gives no dimension unknown to the document.", "quantifier": "every coordinate and every document bounds", "why_tests_cant": "2^8 subsets times values", "anchors": ["Src/libCZI/SingleChannelAccessorBase.cpp: CheckPlaneCoordinates"]}
{"id": "C37", "title": "Writer bounds validation", "statement": "With bounds given at creation the writer accepts a sub-block iff its coordinate has exactly the dimensions of the bounds, every value in range, and a valid M inside the M range if one was given.", "quantifier": "every coordinate, bounds, M", "why_tests_cant": "all combinations", "anchors": ["Src/libCZI/CziWriter.cpp: CCziWriter::CheckCoordinate"]}
{"id": "C38", "title": "Filling a region of a bitonal bitmap", "statement": "Fill sets exactly the pixels inside the region of interest clipped to the bitmap and leaves all other pixels unchanged, for every (also partly or fully outside) region.", "quantifier": "every bitmap size and every region", "why_tests_cant": "byte/bit boundary cases times clipping cases", "anchors": ["Src/libCZI/BitmapOperationsBitonal.cpp: BitmapOperationsBitonal::Fill"]}
{"id": "C39", "title": "Bitonal get/set", "statement": "Setting one pixel of a bitonal bitmap changes this pixel only; SetAllPixels sets all; out-of-range coordinates throw.", "quantifier": "every size, stride, coordinate", "why_tests_cant": "all coordinates", "anchors": ["Src/libCZI/BitmapOperationsBitonal.h: GetPixelFromBitonal, SetPixelInBitonal", "Src/libCZI/BitmapOperationsBitonal.cpp: Set"]}
{"id": "C40", "title": "Decimation computes the documented neighbourhood AND", "statement": "A destination pixel is set iff all source pixels within the given neighbourhood (clipped to the bitmap) of the corresponding source pixel are set; no byte outside the source bitmap is read.", "quantifier": "every bitmap, every region size 0..7", "why_tests_cant": "only wide bitmaps and specific contents expose deviations", "anchors": ["Src/libCZI/BitmapOperationsBitonal.cpp: BitonalDecimate, DecimateHelpers::GetDword, GetByteAfter"]}
{"id": "C41", "title": "Chunk container enumeration", "statement": "Enumerating the chunks of a sub-block attachment reports every chunk (guid, offset, size) in order with its index, never reads outside the attachment, and terminates, for arbitrary attachment bytes.", "quantifier": "every attachment byte string; every list of well-formed chunks", "why_tests_cant": "needs containers with two or more chunks or hostile sizes", "anchors": ["Src/libCZI/SubblockAttachmentAccessor.cpp: EnumerateChunksInChunkContainer, GetValidPixelMaskFromChunkContainer"]}
{"id": "C42", "title": "Multi-channel composition is order independent and saturating", "statement": "Without weights each colour component of the composed pixel is min(255, sum of the channels' contributions), so the order of channels is irrelevant; the alpha value is the requested one.", "quantifier": "every number of channels and every pixel value", "why_tests_cant": "number of channels and values unbounded", "anchors": ["Src/libCZI/MultiChannelCompositor.cpp: ComposeMultiChannel, CAddRgb, CStoreBgr"]}
{"id": "C43", "title": "Handle kinds of the C API cannot be confused", "statement": "A handle of one kind passed where another kind is expected is rejected, because the tags of any two kinds differ.", "quantifier": "every pair of handle kinds", "why_tests_cant": "tests do not pass wrong handles for all pairs", "anchors": ["Src/libCZIAPI/src/sharedptrwrapper.h"]}
{"id": "C44", "title": "Re-opening a reader shows the new document only", "statement": "After Close and a second Open all information returned (sub-blocks, attachments, header) stems from the second document.", "quantifier": "every pair of documents", "why_tests_cant": "stateful sequence, specific combination of documents", "anchors": ["Src/libCZI/CZIReader.cpp: CCZIReader::Open, Close"]}
{"id": "C45", "title": "Attachment identity is unique in a written document", "statement": "Adding an attachment whose id (guid, name, type) is already present is refused and changes nothing; otherwise it is appended.", "quantifier": "every history of additions", "why_tests_cant": "histories", "anchors": ["Src/libCZI/CziAttachmentsDirectory.cpp: CWriterCziAttachmentsDirectory::TryAddAttachment, CompareForEquality_Id"]}
{"id": "C46", "title": "Property-bag string tokenizer", "statement": "Splitting a key=value;... string with backslash escapes inverts the corresponding escaping of any non-empty map of keys and values, and every accepted string loses no value.", "quantifier": "every map and every string", "why_tests_cant": "escape sequences at every position", "anchors": ["Src/libCZI/utilities.cpp: Utilities::TokenizeAzureUriString"]}
{"id": "C47", "title": "Colour strings round-trip", "statement": "Formatting an RGB colour as text and parsing it gives the colour back; malformed strings are rejected.", "quantifier": "all colours, every string", "why_tests_cant": "2^24 colours, infinitely many strings", "anchors": ["Src/libCZI/utilities.cpp: Rgb8ColorToString, TryGetRgb8ColorFromString"]}
{"id": "C48", "title": "Numeric codes of pixel type and compression round-trip", "statement": "Mapping an enumeration value to its file code and back is the identity on all valid values and every other code is mapped to Invalid.", "quantifier": "every 32-bit code", "why_tests_cant": "2^32 codes", "anchors": ["Src/libCZI/CziUtils.cpp: PixelTypeFromInt, IntFromPixelType, CompressionModeFromInt"]}
{"id": "C49", "title": "Pyramid layer computation terminates", "statement": "Determining the pyramid layer of a sub-block terminates for every minification factor and sub-block size, and returns the least layer whose accumulated factor reaches the minification.", "quantifier": "every factor and size", "why_tests_cant": "non-termination cannot be observed by a finite test", "anchors": ["Src/libCZI/SingleChannelPyramidLevelTileAccessor.cpp: CalcPyramidLayerNo, CalcSizeOfPixelOnLayer0"]}
{"id": "C50", "title": "Pixel conversions read and write only their pixel", "statement": "Every pixel conversion functor reads exactly the bytes of one source pixel, and computes the documented value (e.g. 8 to 16 bit widening keeps the component values).", "quantifier": "every pixel value and every position including the last pixel of the buffer", "why_tests_cant": "depends on memory after the buffer", "anchors": ["Src/libCZI/BitmapOperations.hpp: CConvBgr24ToBgr48 and the other CConv functors"]}
{"id": "C51", "title": "Tile border drawing keeps the tile content", "statement": "With tile borders enabled the interior of the tile equals the source pixels at the same positions and the outermost pixels are zero, for every tile size.", "quantifier": "every tile size and content", "why_tests_cant": "shift by one pixel is invisible in constant test images; width 1 is unusual", "anchors": ["Src/libCZI/BitmapOperations.hpp: CopySamePixelType"]}
{"id": "C52", "title": "In-memory stream reads", "statement": "Reading from an in-memory stream returns exactly the available bytes of the requested range, reports their number, never touches bytes outside the buffer, and rejects offsets at or behind the end.", "quantifier": "every buffer, offset, size", "why_tests_cant": "all 64-bit offsets and sizes", "anchors": ["Src/libCZI/StreamImpl.cpp: CStreamImplInMemory::Read"]}
{"id": "C53", "title": "Concurrent writes to a stdio-based output stream", "statement": "Concurrent Write calls at disjoint offsets place each block at its own offset under every interleaving.", "quantifier": "every schedule of two threads", "why_tests_cant": "interleavings", "anchors": ["Src/libCZI/StreamImpl.cpp: CSimpleOutputStreamStreams::Write"]}
{"id": "C54", "title": "Pyramid accessor places tiles consistently", "statement": "A pyramid tile at logical position p appears in the output at floor((p - roi)/pixelsize), so that shifting the ROI by a multiple of the pixel size shifts the picture.", "quantifier": "every tile position and ROI", "why_tests_cant": "negative offsets that are not multiples", "anchors": ["Src/libCZI/SingleChannelPyramidLevelTileAccessor.cpp: ComposeTiles"]}
{"id": "C55", "title": "Attachments and metadata survive write, close, re-open", "statement": "After any session on a fresh writer the attachments whose addition succeeded, with their identifiers and bytes, and the metadata written last are read back exactly from the closed file.", "quantifier": "every history of operations, every reservation not exceeding the number of attachments", "why_tests_cant": "unbounded histories; metadata is rewritten in place or relocated depending on sizes", "anchors": ["Src/libCZI/CziWriter.cpp: WriteAttachment, WriteAttachmentDirectory, WriteMetadata", "Src/libCZI/CziParse.cpp: ReadAttachmentsDirectory, ReadAttachment, ReadMetadataSegment"]}
{"id": "C56", "title": "An empty document can be re-opened from every kind of stream", "statement": "A document closed without any sub-block can be opened again, whatever stream implementation is used.", "quantifier": "every stream kind", "why_tests_cant": "tests of empty documents use one stream kind", "anchors": ["Src/libCZI/CziParse.cpp: ReadSubBlockDirectory", "Src/libCZI/StreamImpl.cpp: CStreamImplInMemory::Read"]}
{"id": "C57", "title": "A failed addition leaves no trace", "statement": "If adding a sub-block throws, the document closed afterwards lists exactly the successfully added sub-blocks.", "quantifier": "every history containing failing calls", "why_tests_cant": "failure injection at each point of a call", "anchors": ["Src/libCZI/CziWriter.cpp: CCziWriter::SyncAddSubBlock"]}
{"id": "C58", "title": "Cache operations never deadlock", "statement": "Whatever other threads do, a thread inside a cache operation can take its next step as soon as the cache's lock is free, and the thread holding the lock always can.", "quantifier": "every schedule of any number of threads", "why_tests_cant": "schedules cannot be enumerated", "anchors": ["Src/libCZI/subblock_cache.cpp: SubBlockCache::Add, Get, Prune, GetStatistics"]}
{"id": "C59", "title": "Scope guards keep bitmap lock counts exact", "statement": "However lock guards are created, copied, moved, assigned (also to themselves or between guards of one bitmap) and destroyed, no exception occurs and each bitmap's lock count equals the number of guards referring to it.", "quantifier": "every program over guards and bitmaps", "why_tests_cant": "combinations of copy/move/assign are unbounded", "anchors": ["Src/libCZI/libCZI_Pixels.h: ScopedBitmapLocker"]}
{"id": "C60", "title": "Bounds parser accepts only bounds", "statement": "A bounds string is accepted iff it is a sequence of dimension, start, ':' , size triples separated by white space, and it then denotes these intervals; every other string makes the parser throw.", "quantifier": "every string", "why_tests_cant": "the set of strings is infinite; tests try a handful of malformed ones", "anchors": ["Src/libCZI/DimCoordinate.cpp: CDimBounds::Parse"]}
{"id": "C61", "title": "Valid-pixel mask of a sub-block", "statement": "Asking for the valid-pixel mask of a sub-block whose attachment contains one gives a bitmap with exactly the stored size and pixels, every pixel of which lies inside the attachment; without such a mask the request fails in a defined way.", "quantifier": "every attachment", "why_tests_cant": "needs hostile or unusual attachments", "anchors": ["Src/libCZI/SubblockAttachmentAccessor.cpp: GetValidPixelMaskFromChunkContainer, CreateBitonalBitmapFromMaskInfo"]}
{"id": "C62", "title": "Concurrent reads through a stdio-based input stream", "statement": "Concurrent Read calls each deliver the bytes at their own offset, under every interleaving of any number of threads, and some thread can always proceed.", "quantifier": "every file, every set of calls, every schedule", "why_tests_cant": "interleavings", "anchors": ["Src/libCZI/StreamsLib/simplefileinputstream.cpp: SimpleFileInputStream::Read"]}
{"id": "C63", "title": "Receiving data over HTTP", "statement": "A read over HTTP never writes outside the buffer of the caller; it succeeds with exactly the bytes the server sent if these fit, and fails if the server sends more than requested.", "quantifier": "every division of the data into pieces", "why_tests_cant": "the division into pieces is up to network and library", "anchors": ["Src/libCZI/StreamsLib/curlhttpinputstream.cpp: Read, WriteData"]}
{"id": "C64", "title": "Releasing a handle of the C API leaves the others alone", "statement": "After releasing one handle every other handle gives the same result as before.", "quantifier": "every set of handles, every release call", "why_tests_cant": "all pairs of handles and kinds", "anchors": ["Src/libCZIAPI/src/libCZIApi.cpp: libCZI_Release...", "Src/libCZIAPI/src/sharedptrwrapper.h"]}
{"id": "C65", "title": "Filling a bitmap with a colour", "statement": "Filling sets every pixel to the value of the pixel type nearest to the requested colour (up to single-precision arithmetic) and changes no other byte; a colour outside the range is clamped.", "quantifier": "every bitmap geometry, every colour", "why_tests_cant": "all colours and strides; special float values", "anchors": ["Src/libCZI/BitmapOperations.cpp: CBitmapOperations::Fill and Fill_...", "Src/libCZI/utilities.h: clampToByte, clampToUShort"]}
{"id": "C66", "title": "Swapping red and blue of a 48-bit image", "statement": "Converting RGB48 to BGR48 exchanges the first and the third component of every pixel, touches nothing else, and applying it twice restores the image.", "quantifier": "every image content and stride", "why_tests_cant": "all contents", "anchors": ["Src/libCZI/BitmapOperations.cpp: CBitmapOperations::RGB48ToBGR48"]}
{"id": "C67", "title": "What a channel contributes to a composed pixel", "statement": "A channel without tinting and curves contributes its grey value (high byte for 16 bit) or colour; with a look-up table exactly the table's entry; with tinting the colour scaled by the intensity; with black and white point the intensity is 0 up to the black point, full from the white point and linear between.", "quantifier": "every pixel value, colour, table, pair of points in 0..1", "why_tests_cant": "all combinations of pixel type, tinting, table and points", "anchors": ["Src/libCZI/MultiChannelCompositor.cpp: CMultiChannelCompositor2::ComposeMultiChannel and the getters"]}
{"id": "C68", "title": "Channel weights scale contributions relative to the mean weight", "statement": "With weights given, every pixel is the saturated sum of the contributions scaled by the weight over the mean weight; equal weights have no effect.", "quantifier": "every list of channels and weights", "why_tests_cant": "floating-point weights of all sizes", "anchors": ["Src/libCZI/MultiChannelCompositor.cpp: CalcWeights, weighted compositing"]}
{"id": "C69", "title": "Strict parsing rejects exactly the non-conforming directory entries", "statement": "For every set of parsing options a sub-block directory is accepted iff each entry meets the selected rules (known dimensions, X and Y present, sizes 1, M sizes 1), and the accepted entry has the values of its dimension entries, the last one counting if a dimension is repeated.", "quantifier": "every set of options, every list of dimension entries", "why_tests_cant": "combinations of options and malformed entries", "anchors": ["Src/libCZI/CziParse.cpp: CCZIParse::AddEntryToSubBlockDirectory"]}
{"id": "C70", "title": "Pyramid layer of a sub-block is classified exactly", "statement": "The pyramid layer reported for a sub-block depends only on the exact ratio of its logical to its stored size along the larger stored side: the layer whose factor differs from it by at most the documented tolerance, and never two of them, although the computation uses floating point.", "quantifier": "all positive sizes up to INT_MAX", "why_tests_cant": "ratios at the border of the tolerance, rounding", "anchors": ["Src/libCZI/CziSubBlockDirectory.cpp: CSbBlkStatisticsUpdater::TryToDeterminePyramidLayerInfo", "Src/libCZI/CziUtils.cpp: CziUtils::CalculateMinificationFactor"]}
{"id": "C71", "title": "Pyramid statistics and pyramid accessor agree on layers", "statement": "A sub-block which the pyramid statistics count on layer k of a pyramid with factor b is delivered by the pyramid accessor when layer k with factor b is requested (and on no other layer).", "quantifier": "all sizes", "why_tests_cant": "ratios near the border of a tolerance", "anchors": ["Src/libCZI/CziSubBlockDirectory.cpp: TryToDeterminePyramidLayerInfo", "Src/libCZI/SingleChannelPyramidLevelTileAccessor.cpp: CalcPyramidLayerNo"]}
{"id": "C72", "title": "Tile accessor delivers the topmost tile", "statement": "Every pixel of the bitmap delivered by the single-channel tile accessor shows, of all layer-0 sub-blocks of the plane which have a (valid) pixel at this document position, the one with the highest M index (or directory position if not sorted); where there is none it shows the background. The visibility optimisation does not change the result for tiles without masks.", "quantifier": "every directory, plane, region and set of bitmaps", "why_tests_cant": "all arrangements of overlapping tiles", "anchors": ["Src/libCZI/SingleChannelTileAccessor.cpp: InternalGet, ComposeTiles, GetSubBlocksSubset"]}
{"id": "C73", "title": "Pyramid accessor delivers the requested layer", "statement": "Every pixel of the bitmap delivered by the pyramid-layer accessor shows the topmost sub-block of the requested layer (of the plane and the allowed scenes, meeting the region), reduced by the pixel size; where there is none it shows the background.", "quantifier": "every directory, plane, region, layer", "why_tests_cant": "all arrangements, offsets and missing layers", "anchors": ["Src/libCZI/SingleChannelPyramidLevelTileAccessor.cpp: InternalGet, ComposeTiles, CalcByLayer"]}
{"id": "C74", "title": "A closed reader refuses every request", "statement": "Before the first successful Open and after Close every request to a reader object throws and changes nothing; an open reader refuses to open another document.", "quantifier": "every sequence of calls", "why_tests_cant": "sequences of calls; some calls look harmless when they answer from stale data", "anchors": ["Src/libCZI/CZIReader.cpp: CCZIReader (all methods), ThrowIfNotOperational, TryGetSubBlockInfo, TransformPoint"]}
{"id": "C75", "title": "Directory and header of a sub-block are reconciled as configured", "statement": "Reading a sub-block throws if its header in the segment disagrees with the directory (unless told to ignore it), and otherwise describes it by the source preferred; documents of the library's own writer are never refused.", "quantifier": "every document, sub-block and policy; every writer session", "why_tests_cant": "all combinations of contradicting fields, including absent ones", "anchors": ["Src/libCZI/CZIReader.cpp: CCZIReader::ReadSubBlock", "Src/libCZI/CziParse.cpp: CCZIParse::ReadSubBlock"]}
{"id": "C76", "title": "Selecting attachments by type and name", "statement": "Enumerating the attachments with a given type and/or name reports exactly those, in order, with the index under which they can be read.", "quantifier": "every attachment directory, type and name", "why_tests_cant": "names and types of every length, including those which fill their field", "anchors": ["Src/libCZI/CziReaderCommon.cpp: CziReaderCommon::EnumerateSubset", "Src/libCZI/CZIReader.cpp: EnumerateSubset, EnumerateAttachments"]}
{"id": "C77", "title": "An arbitrary sub-block of a channel", "statement": "The sub-block reported for a channel has that channel index, and none is reported only if the document has none; documents without channels report their first sub-block.", "quantifier": "every directory and channel index", "why_tests_cant": "all directories", "anchors": ["Src/libCZI/CziReaderCommon.cpp: TryGetSubBlockInfoOfArbitrarySubBlockInChannel"]}
{"id": "C78", "title": "Reading while another thread closes the reader", "statement": "While threads read sub-blocks, attachments or metadata another thread may call Close: no stream is used after its destruction, every read delivers exactly what was asked for or throws, reads begun after Close returned throw, the stream is released in the end, and nothing is stuck.", "quantifier": "every interleaving of any number of threads and calls", "why_tests_cant": "interleavings", "anchors": ["Src/libCZI/CZIReader.cpp: CCZIReader::ReadSubBlock, ReadAttachment, ReadMetadataSegment, Close, Open"]}
{"id": "C79", "title": "Drawing a scaled sub-block", "statement": "At a zoom other than 1 a sub-block is drawn exactly on those pixels of the output whose document position lies in its extent, each showing the nearest pixel of the (unmasked) sub-block; every other byte of the destination stays as it is and nothing outside either bitmap is touched.", "quantifier": "every position, size, stored size, region and output size", "why_tests_cant": "rounding depends on all sizes and positions at once", "anchors": ["Src/libCZI/BitmapOperations.hpp: NNScale2", "Src/libCZI/BitmapOperations.cpp: NNResizeMaskAware", "Src/libCZI/SingleChannelScalingTileAccessor.cpp: ScaleBlt"]}
{"id": "C80", "title": "Scaling accessor shows the document at the requested zoom", "statement": "Every pixel delivered by the scaling accessor shows the topmost sub-block (of the plane, the scenes asked for, and the coarsest pyramid level with enough pixels) which covers the position in the document; only where the document has none it shows the background. Levels are chosen per scene, later scenes are on top.", "quantifier": "every directory, plane, region, zoom and set of bitmaps", "why_tests_cant": "all arrangements of tiles, levels, scenes and zooms", "anchors": ["Src/libCZI/SingleChannelScalingTileAccessor.cpp: InternalGet, Paint, GetSubSet, GetSubSetFilteredBySceneSortedByZoom, GetIdxOf1stSubBlockWithZoomGreater, DetermineInvolvedScenes"]}
{"id": "C81", "title": "Scaling accessor at zoom 1 and its visibility optimisation", "statement": "At zoom 1 the scaling accessor delivers the picture of the tile accessor, and the visibility optimisation does not change the picture for tiles without masks.", "quantifier": "every directory, plane, region and set of bitmaps", "why_tests_cant": "all arrangements of overlapping tiles", "anchors": ["Src/libCZI/SingleChannelScalingTileAccessor.cpp: InternalGet, Paint", "Src/libCZI/SingleChannelAccessorBase.cpp: CheckForVisibility"]}
{"id": "C82", "title": "The MD5 digest of data and bitmaps", "statement": "The hash delivered for a buffer is the MD5 digest of RFC 1321 of exactly its bytes, however it is fed in pieces; the hash of a bitmap is the digest of its pixels line by line, independent of stride and padding.", "quantifier": "every buffer, every way of splitting it, every bitmap", "why_tests_cant": "lengths around block borders and 4 GiB, all splittings", "anchors": ["Src/libCZI/MD5Sum.cpp: CMd5Sum::update, complete, md5_transform", "Src/libCZI/libCZI_Utilities.cpp: Utils::CalcMd5SumHash", "Src/libCZI/BitmapOperations.cpp: CalcMd5Sum"]}
{"id": "C83", "title": "Look-up tables from gamma and splines", "statement": "A look-up table created from a gamma or from splines has the requested number of elements, is 0 below the black point and maximal from the white point, follows the curve in between, and (gamma) never decreases.", "quantifier": "every table size up to 65536, every black and white point, every gamma and spline", "why_tests_cant": "float rounding of every sample and of the two cut points, quotients of zero", "anchors": ["Src/libCZI/libCZI_Utilities.cpp: Create8BitLookUpTableFromGamma, Create16BitLookUpTableFromGamma, Create8BitLookUpTableFromSplines", "Src/libCZI/splines.cpp: CSplines::CalculateSplineValue", "Src/libCZI/libCZI_Helpers.h"]}
{"id": "C84", "title": "Gradation curves pass through their control points smoothly", "statement": "The pieces computed from control points in increasing order form the natural cubic spline through (0,0), the control points and (1,1): the curve passes through every point, slope and curvature do not jump, and there is no curvature at the ends.", "quantifier": "every number and position of control points", "why_tests_cant": "all configurations of points, in particular close ones, need an argument about the linear system", "anchors": ["Src/libCZI/splines.cpp: CSplines::GetSplineCoefficients, CalculateSplineValue", "Src/libCZI/libCZI_Utilities.cpp: Utils::CalcSplineDataFromPoints, CalcSplineValue"]}
{"id": "C85", "title": "Dates and times as text", "statement": "A valid date/time is written as a text of the XSD dateTime format which is read back as the same date/time; reading accepts exactly the texts of dates of the calendar (white space around them allowed) and reports failure for all others.", "quantifier": "every date/time (any year, any offset) and every text", "why_tests_cant": "texts and dates are unbounded; leap years, signs, padding and ranges interact", "anchors": ["Src/libCZI/libCZI_Metadata.h: XmlDateTime", "Src/libCZI/CziMetadataBuilder.cpp: XmlDateTime::ToXmlString, TryParse, IsValid"]}
{"id": "C86", "title": "Paths and values of the metadata XML", "statement": "A node path leads to the first node with the names, attributes and indices it states and to none if there is none; creating a node by path returns the node that path leads to and adds nothing but missing nodes; the value written last to a node is the value read, whatever is written elsewhere; attributes and removal likewise affect only what is named; calls reporting an error change nothing.", "quantifier": "every document, every path and every sequence of writes", "why_tests_cant": "documents and paths are unbounded; nodes with equal names, attributes and indices interact", "anchors": ["Src/libCZI/XmlNodeWrapper.h: XmlNodeWrapperReadonly::GetChildNodeReadonly, TryGetValue, TryGetAttribute, XmlPathSpecifierUtils", "Src/libCZI/CziMetadataBuilder.cpp: CNodeWrapper::GetOrCreateChildNode, SetValue, SetAttribute, RemoveChild"]}
{"id": "C87", "title": "Numbers and truth values in the metadata XML", "statement": "A number or truth value written to a node is read back as the same value; a text is read as a number exactly if it denotes one in the range of the type (white space around it allowed), otherwise the call reports failure - it always returns.", "quantifier": "every number, every text", "why_tests_cant": "texts are unbounded; termination for all of them", "anchors": ["Src/libCZI/CziMetadata.cpp: TryConvert, IXmlNodeRead::TryGetValueAsDouble, TryGetValueAsInt32, TryGetValueAsInt64, TryGetValueAsUInt32, TryGetValueAsUInt64, TryGetValueAsBool", "Src/libCZI/CziMetadataBuilder.cpp: IXmlNodeWrite::SetValueI32, SetValueUI32, SetValueI64, SetValueUI64, SetValueBool"]}
{"id": "C88", "title": "Metadata saved as XML and loaded", "statement": "Metadata written as XML text (indented or not, by a builder or by an opened document) and loaded again is the same document: same elements, attributes and texts; hence every value written to a builder can be read from a builder created from its text. Loading any text ends, with a document or with an error.", "quantifier": "every document, every sequence of values written, every text", "why_tests_cant": "documents and texts are unbounded; escaping, white space and character data sections interact", "anchors": ["Src/libCZI/CziMetadataBuilder.cpp: CCZiMetadataBuilder::GetXml, CreateMetadataBuilderFromXml", "Src/libCZI/CziMetadata.cpp: CCziMetadata::GetXml, CCziMetadata", "Src/libCZI/pugixml.cpp: xml_document::save, load_buffer_inplace_own (vendored)"]}
{"id": "C89", "title": "Floating point numbers written to the metadata are read back", "statement": "A floating point number written to a node of the metadata and read again is the same number; a decimal text is read as the number it denotes, correctly rounded; a number read from a text of up to fifteen digits survives writing and reading.", "quantifier": "every finite double, every decimal text", "why_tests_cant": "2^64 numbers; digit generation and correct rounding need an argument about rationals", "anchors": ["Src/libCZI/CziMetadataBuilder.cpp: CNodeWrapper::SetValueDbl, WriteDisplaySettings (l.985-996)", "Src/libCZI/CziMetadata.cpp: IXmlNodeRead::TryGetValueAsDouble", "Src/libCZI/pugixml.cpp: get_value_double (vendored)"]}
{"id": "C90", "title": "Information about the document and its scaling are read back", "statement": "Name, title, user, description, comment, keywords, creation date, rating and the scaling (lengths and units) written to the metadata of a document are what is read after the document has been saved and loaded; fields which are not written keep what was there before; integers in the metadata are read as the number denoted or the closest int.", "quantifier": "every document in a builder, all field values, every subset of fields, every text as integer", "why_tests_cant": "fields share a tree which is created on demand; independence of any two of them, and of what was there before, is a statement about all documents", "anchors": ["Src/libCZI/CziMetadataBuilder.cpp: WriteGeneralDocumentInfo, WriteScalingInfo, WriteScalingInfoEx (l.862-922)", "Src/libCZI/CziMetadataDocumentInfo.cpp: GetGeneralDocumentInfo, GetScalingInfo, GetScalingInfoEx (l.24-166)", "Src/libCZI/pugixml.cpp: get_value_int, xml_text (vendored)"]}
{"id": "C91", "title": "Dimensions and channels in the metadata are read back", "statement": "The bounds of dimensions, the positions in T and Z and the channels (identifier, name, pixel type) written to the metadata of a document - by the helpers for metadata or as prepared by a writer - are what is read after it has been saved and loaded; reading does not throw for malformed positions.", "quantifier": "every document, all bounds, all lists of positions, all channel names and types", "why_tests_cant": "the values share one tree with everything else in the document; the statement is about all documents and all sequences of channels", "anchors": ["Src/libCZI/CziMetadataBuilder.cpp: FillDimensionChannel (l.486-601), WriteFillWithSubBlockStatistics, WriteDimInfoT_*, WriteDimInfoZ_* (l.725-860)", "Src/libCZI/CziMetadataDocumentInfo.cpp: EnumDimensions, GetDimensionZInfo, GetDimensionTInfo (l.168-521)", "Src/libCZI/CziMetadataDocumentInfo2.cpp: CDimensionsChannelsInfo", "Src/libCZI/CziWriter.cpp: GetPreparedMetadata (l.1007-1019)"]}
{"id": "C92", "title": "Display settings in the metadata are read back", "statement": "The display settings of channels (enabled, weight, tinting colour, black and white point, gradation curve) written to the metadata of a document are what is read after it has been saved and loaded; reading them does not throw; the remaining document is unchanged and identifiers and names are copied from the channels of the document.", "quantifier": "every document, all settings of any set of channels, all curves", "why_tests_cant": "the numbers pass through text and the nodes share one tree with the document; the statement is about all numbers, curves and documents", "anchors": ["Src/libCZI/CziMetadataBuilder.cpp: MetadataUtils::WriteDisplaySettings (l.924-1105)", "Src/libCZI/CziDisplaySettings.cpp: CDisplaySettingsOnPod::CreateFromXml, ParseSplinePoints (l.15-70, l.270-405)", "Src/libCZI/CziMetadataDocumentInfo.cpp: GetDisplaySettings (l.459-469)"]}
{"id": "C93", "title": "Custom values in the metadata", "statement": "A custom value added under a key is found after the document has been saved and loaded, with its type and value; adding under the same key replaces value and type; other keys and the remaining document are unchanged; a key is accepted if and only if it consists of letters, digits and underscores, does not begin with a digit and does not begin with 'xml' in any case.", "quantifier": "every document, every key, every value of every type", "why_tests_cant": "keys range over all strings, and the regular expression has four alternatives; the tree is shared with the document", "anchors": ["Src/libCZI/CziMetadataBuilder.cpp: MetadataUtils::SetOrAddCustomKeyValuePair (l.1107-1170)"]}
{"id": "C94", "title": "Exposure times and wavelengths of channels", "statement": "The exposure time of a channel and the bands of its illumination and detection wavelengths are reported if and only if the text in the metadata is a number or a range with a start, an end or both (several separated by commas for wavelengths), and what is reported covers exactly the numbers the text stands for.", "quantifier": "every channel node, every text", "why_tests_cant": "the texts are arbitrary strings, numbers of any length; tests try a few spellings", "anchors": ["Src/libCZI/CziMetadataDocumentInfo2.cpp: CDimensionChannelInfo::TryParseRangeOrSingleValue, TryParseSpectrumCharacteristic (l.518-536, l.618-631, l.710-924)", "Src/libCZI/utilities.h: Split, RemoveSpaces (l.24-51)"]}
{"id": "C95", "title": "Lists of numbers in the settings of channels", "statement": "A list of numbers separated by white space (fibre mapping, illumination lines of Airyscan settings) is read as exactly these numbers; reading any text ends without an exception.", "quantifier": "every text, lists of any length", "why_tests_cant": "arbitrary texts; the loop runs over positions computed from what the library functions consumed", "anchors": ["Src/libCZI/CziMetadataDocumentInfo2.cpp: CFastAiryScanSettings::ParseInformation, CXmlEnums::ParseDoubleXmlArray, ParseInt32XmlArray (l.1484-1513, l.1802-1873)"]}
{"id": "C96", "title": "Pictures handed over with a stride or line by line", "statement": "A picture whose rows lie any distance apart in memory, or which is delivered line by line, is stored with exactly its pixels, nothing outside the picture is read, and reading the sub-block back shows the picture - both when a file is written and when it is edited in place.", "quantifier": "every picture, pixel type, extent and stride", "why_tests_cant": "strides and extents are unbounded; padding only matters when it is present, and over-reads of a few bytes go unnoticed", "anchors": ["Src/libCZI/CziWriter.cpp: ICziWriter::SyncAddSubBlock (l.15-127)", "Src/libCZI/CziWriter.h: AddSubBlockHelper (l.26-140)", "Src/libCZI/CziReaderWriter.cpp: ICziReaderWriter::SyncAddSubBlock (l.20-76)"]}
{"id": "C97", "title": "Adding sub-blocks with the C API", "statement": "A sub-block added with the C API is found by a reader with the coordinate, M-index, position, extent, pixel type, compression, metadata, attachment and picture given; a bitmap which does not fit into the announced size is refused.", "quantifier": "every argument, any history of other operations on the writer", "why_tests_cant": "all combinations of coordinates, sizes and compressions; the effect is visible only after closing and reading the file", "anchors": ["Src/libCZIAPI/src/libCZIApi.cpp: libCZI_WriterAddSubBlock (l.1698-1782)", "Src/libCZIAPI/src/parameterhelpers.cpp: ConvertCoordinateInteropToDimCoordinate (l.562-578)", "Src/libCZIAPI/inc/add_subblock_info_interop.h"]}
{"id": "C98", "title": "Coordinates, bounds, statistics and descriptions handed out by the C API", "statement": "The structures filled in by the C API mean exactly the coordinate, the bounds, the statistics and the description of the sub-block; converting a coordinate to the structure and back loses nothing; as many scenes as there is room for are handed out and their number is told, so that two calls deliver all; a sub-block added with the C API is described with what was given.", "quantifier": "every coordinate, bounds, statistics, capacity and sub-block", "why_tests_cant": "2^9 sets of dimensions times all values; any number of scenes", "anchors": ["Src/libCZIAPI/src/parameterhelpers.cpp: ConvertIDimCoordinateToCoordinateInterop, ConvertCoordinateInteropToDimCoordinate (l.562-597)", "Src/libCZIAPI/src/libCZIApi.cpp: ConvertDimBounds, CopyFromSubBlockInfoToSubBlockInfoInterop, libCZI_ReaderGetStatisticsEx (l.31-49, l.77-96, l.271-328)"]}
{"id": "C99", "title": "Texts and data copied into the memory of the caller", "statement": "A text is cut in front of a character as late as possible, is terminated and never exceeds the buffer, and the caller is told whether it is complete; of binary data no more than the announced size is written and the true size is reported, so that two calls deliver everything; metadata is terminated; the list of dimensions is complete or refused.", "quantifier": "every text (also invalid UTF-8), every data, every size of buffer", "why_tests_cant": "texts with characters of several bytes at every position relative to the end of the buffer", "anchors": ["Src/libCZIAPI/src/parameterhelpers.cpp: CopyUtf8StringTruncate, AllocString (l.110-122, l.322-349)", "Src/libCZIAPI/src/libCZIApi.cpp: CopyFromAttachmentInfoToAttachmentInfoInterop, libCZI_SubBlockGetRawData, libCZI_MetadataSegmentGetMetadataAsXml, libCZI_CziDocumentInfoGetAvailableDimension, libCZI_AttachmentGetRawData (l.51-67, l.854-898, l.1104-1145, l.1243-1277, l.1437-1473)"]}
{"id": "C100", "title": "Bitmaps of the C API", "statement": "Copying a bitmap writes exactly the pixels of each row and nothing else, and is refused if extent, pixel type or stride do not fit; in any history of calls Unlock succeeds if and only if the bitmap is locked and Release if and only if it is not.", "quantifier": "every bitmap, stride and history of calls", "why_tests_cant": "all extents and strides; histories of any length", "anchors": ["Src/libCZIAPI/src/libCZIApi.cpp: libCZI_BitmapLock, libCZI_BitmapUnlock, libCZI_ReleaseBitmap, libCZI_BitmapCopyTo (l.986-1101)"]}
{"id": "C101", "title": "GUIDs and creation parameters given to the C API as text", "statement": "A GUID is accepted exactly in the three documented forms and means the bytes written; the parameters of a new document are read from their JSON text as documented, others are refused; the document which is created and saved carries them; sub-blocks outside the M bounds which were given are refused.", "quantifier": "every text, every set of parameters, every document written", "why_tests_cant": "all texts; the parameters act many calls later, when sub-blocks are added and when the document is read", "anchors": ["Src/libCZIAPI/src/parameterhelpers.cpp: HexCharToInt, ConvertHexStringToInteger, TryParseCZIWriterInfo, TryParseGuid, trim (l.17-75, l.379-560)", "Src/libCZIAPI/src/libCZIApi.cpp: libCZI_WriterCreate (l.1656-1694)", "Src/libCZI/CziWriter.cpp: Create, CheckCoordinate (l.911-951, l.1316-1322)", "Src/libCZI/libCZI_Write.h (l.99-150, l.601-654)"]}
{"id": "C102", "title": "Options and property bags given to the C API as JSON", "statement": "Options of the writer and properties of an input stream are read from their JSON text exactly as documented: unknown names are ignored, known ones must have the type of the property and then have the given value, everything else refuses the whole text.", "quantifier": "every JSON object, every list of members", "why_tests_cant": "objects with any members in any order", "anchors": ["Src/libCZIAPI/src/parameterhelpers.cpp: TryParseInputStreamCreationPropertyBag, TryParseCZIWriterOptions (l.124-205, l.351-377, l.615-630)", "Src/libCZI/StreamsLib/streamsFactory.cpp (l.131-162)"]}
{"id": "C103", "title": "Null pointers and foreign handles given to the C API", "statement": "No function of the C API crashes whatever is null and whatever object a handle belongs to; a required pointer which is null is refused as an invalid argument, a handle of another object as an invalid handle; success means that every output is set and can be used; on failure nothing is set.", "quantifier": "every function of the C API, every combination of null, foreign and good arguments, every outcome of the calls inside", "why_tests_cant": "some seventy functions times all combinations of arguments times all failures of the calls inside", "anchors": ["Src/libCZIAPI/src/libCZIApi.cpp (all exported functions)", "Src/libCZIAPI/inc/libCZIApi.h"]}
{"id": "C104", "title": "Metadata and masks of sub-blocks", "statement": "The tags, the stage position and the attachment format which the metadata of a sub-block report are those written with the sub-block: the text of the first element of the name, numbers as they stand there, nothing if there is no such element. A mask in the attachment is applied when the sub-block is drawn exactly if the metadata declare it; a call on any metadata returns.", "quantifier": "every text given as metadata, every tag, every attachment, every document written", "why_tests_cant": "all XML texts and numbers; the effect is seen only after the document has been written and read", "anchors": ["Src/libCZI/SubblockMetadata.cpp (l.13-173)", "Src/libCZI/libCZI_Utilities.cpp: CreateSubBlockMetadata (l.597-618)", "Src/libCZI/SubblockAttachmentAccessor.cpp: constructor (l.17-30)", "Src/libCZI/libCZI_Lib.cpp: CreateSubBlockMetadataFromSubBlock, CreateSubBlockAttachmentAccessor (l.151-179)", "Src/libCZI/SingleChannelAccessorBase.cpp: TryToGetMaskBitmapFromSubBlock (l.196-213)", "Src/libCZI/CziMetadata.cpp: TryConvert (l.104-160)"]}
{"id": "C105", "title": "Composing channels with the display settings of the document", "statement": "The picture composed with the display settings of a document is the weighted sum of the enabled channels: each shows its own bitmap with the tint, the black and white point and the gradation curve of its setting, its weight counts relative to the mean weight of the enabled channels, and a channel which is switched off has no influence. The C API and the C++ helper give the same picture; with no channel enabled the call reports an error or gives a black picture.", "quantifier": "every set of display settings, every bitmaps of the channels, every subset of enabled channels", "why_tests_cant": "all combinations of channels, weights, curves and bitmaps; two implementations compared", "anchors": ["Src/libCZI/libCZI_Helpers.h: CDisplaySettingsHelper (l.20-206)", "Src/libCZIAPI/src/parameterhelpers.cpp: FillOutCompositionChannelInfoFromDisplaySettings, ConvertCompositionChannelInfoInteropToChannelInfo (l.1458-1520, l.633-647)", "Src/libCZIAPI/src/libCZIApi.cpp: libCZI_CompositorDoMultiChannelComposition (l.1968-2010)", "Src/libCZI/MultiChannelCompositor.cpp (l.1310-1318)"]}
{"id": "C106", "title": "Compression options given as text", "statement": "A text with compression options is accepted exactly if it has the form method : key = value ; ... (white space and case of letters do not matter, the last semicolon may be left out) with one of the five methods, and every level is an integer in the range of int; the result is the method, the last level given and whether the byte preprocessing is named; unknown keys are ignored, all other texts give an exception. Options written in the usual way are read back. The options influence only the size of the compressed data: whatever is accepted, a compressed picture is decoded to the same pixels.", "quantifier": "every text; every method, level and preprocessing; every picture", "why_tests_cant": "the texts are unbounded and a regular expression with backtracking decides; all levels and pictures", "anchors": ["Src/libCZI/libCZI_Utilities.cpp: _tryParseCompressionMode, _tryParseCompressionOptions, Utils::ParseCompressionOptions (l.24-106, l.457-477, l.698-737)", "Src/libCZI/zstdCompress.cpp: CompressZstd, CompressZstd1 (l.75-92, l.244-254)"]}
{"id": "C107", "title": "Reserved space is used", "statement": "When space was reserved at creation and what is written fits, the metadata (also when written again), the directory of sub-blocks and the directory of attachments are placed in the reserved space at the begin of the file; behind it the file is the same as if no metadata was written. If the number of sub-blocks is left to the library, space for one sub-block for each coordinate and M-index of the document is reserved.", "quantifier": "every reserved size, every sequence of requests, every bounds of the document", "why_tests_cant": "all sequences of requests and sizes; the number of sub-blocks is unbounded", "anchors": ["Src/libCZI/CziWriter.cpp: Create, WriteMetadata, Finish, ReserveMetadataSegment, ReserveSubBlockDirectory, ReserveAttachmentDirectory (l.911-956, l.564-778, l.1148-1299, l.1368-1466)", "Src/libCZIAPI/src/parameterhelpers.cpp: writer parameters"]}
{"id": "C108", "title": "A cache does not change the picture", "statement": "Calls of the tile, pyramid and scaling accessors of an open document which share a sub-block cache deliver exactly the pictures or errors which they deliver without a cache: whatever was called before with the same cache and whatever options, whatever the cache was told to drop in between, and whichever threads make the calls at the same time.", "quantifier": "every open document, every sequence and every interleaving of calls, every pruning of the cache, every codec", "why_tests_cant": "all histories of a shared cache and all interleavings of threads are unbounded", "anchors": ["Src/libCZI/SingleChannelAccessorBase.cpp: GetSubBlockDataForSubBlockIndex (l.146-213)", "Src/libCZI/CreateBitmap.cpp (l.16-68, l.174-189)", "Src/libCZI/SingleChannelTileAccessor.cpp (l.54-179)", "Src/libCZI/SingleChannelPyramidLevelTileAccessor.cpp (l.75-172)", "Src/libCZI/SingleChannelScalingTileAccessor.cpp (l.85-174, l.286-447)", "Src/libCZI/subblock_cache.cpp"]}
{"id": "C109", "title": "What was written is what is seen", "statement": "The pixels handed to the writer or to the editor are the pixels which the single-channel tile accessor delivers when the document is opened again: each pixel of the region asked for is the pixel of the addition with the highest M-index which has a pixel (not masked out) there, or the background where there is none. This does not depend on the stride or the compression with which the pictures were given, on what the reader was used for before, or on earlier calls with the same cache. Likewise each pixel of the scaling accessor is a pixel, at the scaled position, of one of the pictures handed over: the finest of the level for the zoom, per scene, later scenes on top.", "quantifier": "every sequence of requests to the writer or the editor, every document, region, plane, background, mask, every history of the reader and of the cache", "why_tests_cant": "end-to-end over all documents, compressions, overlaps and histories", "anchors": ["Src/libCZI/CziWriter.cpp", "Src/libCZI/CZIReader.cpp", "Src/libCZI/CreateBitmap.cpp", "Src/libCZI/SingleChannelTileAccessor.cpp (l.54-179)", "Src/libCZI/SingleChannelAccessorBase.cpp (l.146-213)", "Src/libCZI/BitmapOperations.cpp", "Src/libCZI/zstdCompress.cpp"]}
{"id": "C110", "title": "A plane scan delivers the region, cut into tiles", "statement": "Scanning a region with the command-line tool writes one picture per tile; the tiles lie in the region, have the size asked for except at the far borders, and cover each point of the region exactly once. Each picture is the corresponding part of the picture which the accessor delivers for the whole region.", "quantifier": "every region, tile size, zoom, document and plane which the tool accepts", "why_tests_cant": "all regions and tile sizes, including those where the arithmetic of the tool overflows; agreement of pictures for all documents", "anchors": ["Src/CZICmd/executePlaneScan.cpp", "Src/CZICmd/executeBase.cpp (l.59-69)", "Src/libCZI/SingleChannelScalingTileAccessor.cpp", "Src/CZICmd/cmdlineoptions.cpp (l.1799-1834)"]}
{"id": "C111", "title": "A mosaic created by the command-line tool is complete", "statement": "For every coordinate within the bounds given, the command CreateCZI writes rows times columns sub-blocks of the size given, numbered line by line by their M-index. Without overlap they lie side by side; with an overlap they are moved towards the first tile by this part of their distance, up to rounding, and leave no gap. No sub-block is refused by the writer, and the statistics of the document tell the bounds, the extent and the range of M-indices asked for.", "quantifier": "all bounds, numbers of rows and columns, tile sizes, overlaps and modes of compression which the tool accepts", "why_tests_cant": "positions are computed in unsigned and floating-point arithmetic; that no gap occurs for any overlap follows from the monotonicity of rounding only", "anchors": ["Src/CZICmd/executeCreateCzi.cpp", "Src/CZICmd/cmdlineoptions.cpp (l.1836-1921)", "Src/CZICmd/cmdlineoptions.h (l.130-137)", "Src/libCZI/libCZI_Utilities.cpp (l.620-676)"]}
{"id": "C112", "title": "Arguments of the command-line tool mean what they say", "statement": "The texts given for sizes, tiles with their overlap, regions, pyramid layers, pixel types with an alpha value, lists of verbosity and information levels and the size of the sub-block cache are accepted exactly if they have the documented form, whatever white space and letter case it allows, and the value used is the number written: for levels, exactly the bits of the words in the list, for the cache the number of bytes rounded to the nearest. Any other text is refused, without an exception.", "quantifier": "all texts", "why_tests_cant": "the forms are infinite languages with optional parts, and a capture which is right for one spelling may be wrong for another; rounding of decimal numbers times powers of ten and two", "anchors": ["Src/CZICmd/cmdlineoptions.cpp (l.1358-1493, l.1560-1589, l.1692-1920, l.2164-2267, l.2354-2437)", "Src/CZICmd/utils.cpp (l.106-205)"]}
{"id": "C113", "title": "JSON given to the C API and handed out by it", "statement": "A text given to the C API as parameters is understood exactly if it is JSON (RFC 8259), and the options, the GUID, the reserved sizes and the range of M used are those of the first member of the name. The texts handed out by the C API about the general information of a document, its dimensions Z and T and its pyramid statistics are JSON, whatever characters the metadata contain; they are objects with a member for each item which is known and no other, each of them once, and the values are those of the document: texts in UTF-8, numbers which are read as the same double, the words for directions and modes, for every scene the layers with the number of their sub-blocks.", "quantifier": "all texts, documents and sub-blocks", "why_tests_cant": "texts which are almost JSON are unlimited in number, escapes and white space may stand anywhere, and metadata may contain every character", "anchors": ["Src/libCZIAPI/src/parameterhelpers.cpp (l.77-84, l.207-320, l.351-459, l.650-864)", "Src/libCZIAPI/src/libCZIApi.cpp (l.331-353, l.1229-1379)"]}
{"id": "C114", "title": "What the C API tells of the channels", "statement": "The text which the C API hands out about the dimension C of a document is JSON: an object with a member for each channel in the order of the document, and for each channel an object with a member for every item the metadata give, and no other: Id and Name, texts, the words for kinds and modes, numbers which are read as the same double, the colour as #rrggbb, the exposure time, the wavelengths as a single peak or as bands, the reflector, the contrast and the aperture of the condenser, each taken from the element it is named after. Metadata without channels are an error.", "quantifier": "all documents", "why_tests_cant": "twenty-nine optional items for each of any number of channels, with all texts, numbers, colours and bands, cannot be combined in tests", "anchors": ["Src/libCZIAPI/src/parameterhelpers.cpp (l.866-1440)", "Src/libCZIAPI/src/libCZIApi.cpp (l.1335-1379)", "Src/libCZI/CziMetadataDocumentInfo2.cpp (l.119-135, l.448-703, l.945-963)"]}
{"id": "C115", "title": "External streams live as long as some handle needs them", "statement": "A stream given to the C API by the caller's functions is used exactly as long as something needs it: a handle of the stream, a reader opened with it, an accessor made from such a reader, or a writer which is writing to it. Whatever calls are made in whatever order, and whichever of them fail, the functions of the stream are called only before its close function, the close function is called exactly once, at the moment when the last handle needing the stream is released or its writer closed, and not before; after all handles are released every stream is closed. A call which fails changes none of this.", "quantifier": "all sequences of calls of the C API creating, opening, reading, writing, closing and releasing, with any outcome of each", "why_tests_cant": "the order in which handles are released, shared and reused and which calls fail has no bound, and a use after the end need not show", "anchors": ["Src/libCZIAPI/src/libCZIApi.cpp (l.171-216, l.355-508, l.655-797, l.1546-1965)", "Src/libCZIAPI/src/sharedptrwrapper.h (l.38-60)", "Src/libCZI/CZIReader.cpp (l.43-80, l.237-241)", "Src/libCZI/CziWriter.cpp (l.907-956, l.1028-1058)", "Src/libCZI/SingleChannelAccessorBase.h (l.18)"]}
{"id": "C116", "title": "The same document on hosts of either byte order", "statement": "On a big-endian host the library writes the same file and tells the same about a file as on a little-endian one. Every number in every segment (headers, directory entries with any number of dimensions, attachments, metadata, GUIDs) is written little-endian and read back as the number it is; every directory, whatever its bytes, gives the same entries or is refused alike; pixels of sixteen bits and more have the values they were written with, for every compression; checksums of bitmaps agree.", "quantifier": "all structures with all values of their members, all bytes of directories, all numbers of entries and dimensions, all pixel values", "why_tests_cant": "the tests run on little-endian machines only, where all of the conversions are compiled to nothing", "anchors": ["Src/libCZI/CziStructs.cpp (l.11-202)", "Src/libCZI/CziStructs.h (l.21-293)", "Src/libCZI/utilities.cpp (l.269-376, l.543-577)", "Src/libCZI/CziParse.cpp (l.25-53, l.252-388, l.491-519)", "Src/libCZI/CziReaderWriter.cpp (l.338-355, l.430-475)", "Src/libCZI/CreateBitmap.cpp (l.102-172)", "Src/libCZI/BitmapOperations.cpp (l.18-60, l.378-424)"]}
{"id": "C117", "title": "JPEG XR: the quality parameter and what comes back", "statement": "Every bitmap of Gray8, Gray16, Gray32Float, Bgr24 or Bgr48 can be compressed with JPEG XR with every quality, whatever its stride, without anything outside of the bitmap being read. Without a quality, or with 1000, the compression is loss-less: decompressing gives bitmaps with exactly the same pixels, with the components of Bgr48 in their places. Below 1000 a higher number never gives a coarser picture. Data which do not agree with the pixel type or size told are refused; an error says what failed.", "quantifier": "all bitmaps, strides, contents and qualities; all codings which lose nothing if asked to", "why_tests_cant": "tests compress a few pictures with a few qualities and compare them approximately; floats are only compared with tolerances", "anchors": ["Src/libCZI/jxrlibcompress.cpp (l.34-111)", "Src/JxrDecode/JxrDecode.cpp (l.99-583)", "Src/libCZI/decoder.cpp (l.16-115)", "Src/JxrDecode/jxrlib/image/encode/strenc.c (l.344-389, l.776-795, l.1181-1241, l.1311-1318)", "Src/JxrDecode/jxrlib/image/decode/strdec.c (l.466-503)", "Src/libCZI/libCZI_compress.h (l.28-32)"]}
{"id": "C118", "title": "Files: creating, replacing, changing and reading them by name", "statement": "A stream for writing made for a name without permission to overwrite never touches a file which exists. What is written through a stream is in the file at the positions told when the stream is gone, with zeros between, and no other file has changed. A stream for changing a file reads what was there and what was written since, and writes. Writing or reading less than asked for is told to the caller, and a document is only reported as written if its bytes are in the file. Every stream keeps exactly one descriptor of the process and gives it back.", "quantifier": "all contents, names, positions, sizes and sequences of calls; all failures and partial transfers of the system; other processes", "why_tests_cant": "tests write and read back small files which nobody else uses, on one platform, and no call of the system fails", "anchors": ["Src/libCZI/StreamImpl.cpp (l.24-478)", "Src/libCZI/StreamsLib/preadfileinputstream.cpp (l.17-60)", "Src/libCZI/StreamsLib/simplefileinputstream.cpp (l.20-84)", "Src/libCZI/StreamsLib/windowsfileinputstream.cpp (l.17-65)", "Src/libCZI/libCZI_Lib.cpp (l.113-157)", "Src/libCZI/CziWriter.cpp (l.1078-1109)", "Src/libCZI/CziReaderWriter.cpp (l.605-636)"]}
{"id": "C119", "title": "Streams by class name, and blobs", "statement": "A stream asked for by the name of a class and an identification is of this class and reads what is identified: the classes the library tells of can all be asked for, any other name gives no stream; an identification means the same as a narrow and as a wide text, and different identifications are different things. An identification of an Azure blob gives exactly the account, container, blob and kind of authentication asked for, at Azure's blob service for an account's name, and an exception if something is missing. Reading a blob gives its bytes as for any other stream: never more than asked for, fewer or none at the end.", "quantifier": "all options of building the library, class names, identifications, property bags, platform conversions of text, answers of the service, offsets and sizes", "why_tests_cant": "tests need a storage account and network, and run with the one set of classes of their build", "anchors": ["Src/libCZI/StreamsLib/streamsFactory.cpp (l.24-118, l.165-245)", "Src/libCZI/StreamsLib/azureblobinputstream.cpp (l.18-281)", "Src/libCZI/utilities.cpp (l.95-158, l.378-492)", "Src/libCZI/libCZI.h (l.236-258)"]}
{"id": "C120", "title": "Attachments and metadata through the C API, there and back", "statement": "Attachments and metadata handed to the writer with the C API, whatever else is written between, are got back with the C API from the file: as many attachments as were accepted, in order, each with its GUID, type, name and bytes, also into memory which is too small or larger (no byte behind is touched, and the full size is told); the metadata written last, ended by a NUL. Calls which tell of bytes but give no memory are refused and change nothing. Any other index is told to be out of range.", "quantifier": "all sequences of calls, accepted or refused, all attachments, names, data, metadata, memory handed in, indices, reader options and earlier contents of the storage", "why_tests_cant": "tests hand over one attachment and look at its fields; they do not mix refused and accepted calls, ask for negative indices, fill the name's array to its end or write empty metadata", "anchors": ["Src/libCZIAPI/src/libCZIApi.cpp (l.51-67, l.390-508, l.1104-1145, l.1437-1472, l.1788-1852)", "Src/libCZI/CziAttachmentsDirectory.cpp (l.58-67)", "Src/libCZI/CziWriter.cpp (l.815-821, l.870-881)", "Src/libCZI/CZIReader.cpp (l.262-281)", "Src/libCZIAPI/inc/libCZIApi.h (l.160-175)"]}
{"id": "C121", "title": "Asking and reading in the middle of an editing session", "statement": "At any moment of an editing session, after any sequence of calls to add, replace and remove, accepted or refused, the questions answered by the session tell of the document as edited so far: the sub-blocks and attachments with their keys (all of them, or those of a type and a name, up to where the caller's function says to stop), the one of a key and its contents, how many attachments there are, and the metadata written last. A key which was removed is never given to another attachment.", "quantifier": "all documents opened or begun, all sequences of edits, all keys, types, names and functions of the caller, every moment of the session", "why_tests_cant": "tests edit, close and open again with the reader; they do not ask in between, let the caller stop an enumeration, or use types and names which fill their arrays", "anchors": ["Src/libCZI/CziReaderWriter.cpp (l.232-245, l.645-701, l.773-835, l.932-945)", "Src/libCZI/CziSubBlockDirectory.cpp (l.627-655)", "Src/libCZI/CziReaderCommon.cpp (l.85-110)", "Src/libCZI/libCZI_ReadWrite.h"]}
{"id": "C122", "title": "Choosing what is extracted on the command line", "statement": "With --selection given to CZICmd as a JSON object, exactly the attachments whose name and index are equal to those given (for ExtractSubBlock: the sub-blocks whose index is) are extracted, and all of them without it. Each goes into a file of its own in the directory of the output, with all its bytes. A selection which says something else is refused.", "quantifier": "all documents made by the writer, all JSON texts, names, types, indices and outputs", "why_tests_cant": "tests do not run the extraction commands; the texts, names and types which go wrong come from users and from documents", "anchors": ["Src/CZICmd/cmdlineoptions.cpp (l.893-897, l.1171-1188, l.1609-1666)", "Src/CZICmd/cmdlineoptions.h (l.99-130)", "Src/CZICmd/execute.cpp (l.891-1108)", "Src/CZICmd/utils.cpp (l.67-105)", "docs/source/pages/czicmd_usage.rst (l.161-167, l.617-628)"]}
{"id": "C123", "title": "One site object and one decoder of each kind for the whole program", "statement": "All uses of the library, from any threads, get one and the same site object: the one given to SetSiteObject, or the default if none was given before the first use. A call of SetSiteObject is accepted only if nothing was accepted or used before, and never with a null pointer; all others throw and change nothing. The site object hands out one and the same decoder for the same type to all threads, also if creating it failed at first, different ones for different types and none for types it does not know. Nobody waits except for another thread's call in progress.", "quantifier": "all numbers of threads, all interleavings of calls of SetSiteObject, of uses and of requests for decoders, all patterns of failing creations", "why_tests_cant": "which interleavings occur is decided by the scheduler; the object is global, so that a test process can set it at most once", "anchors": ["Src/libCZI/libCZI_Site.cpp (l.115-214)", "Src/libCZI/libCZI.h (l.35-55)", "Src/CZICmd/CZIcmd.cpp (l.85-100)"]}
{"id": "C124", "title": "Background colour and zoom on the command line", "statement": "CZICmd takes -b with one number from 0 to 1 as a grey value and with three, separated by comma, semicolon or bar and perhaps white space, as red, green and blue, and refuses all other texts. It takes -z with a number above 0 and up to 1 as the zoom and refuses all other texts for the commands which scale; without -z the zoom is 1. The numbers used are those of the texts, rounded to float.", "quantifier": "all texts without NUL", "why_tests_cant": "the texts come from users; tests try single texts, the accepted ones are infinitely many and so are those to be refused", "anchors": ["Src/CZICmd/cmdlineoptions.cpp (l.869-885, l.1037-1047, l.1100-1112, l.1511-1558, l.1591-1607)", "Src/CZICmd/utils.cpp (l.337-357)", "docs/source/pages/czicmd_usage.rst (l.132-150)"]}
