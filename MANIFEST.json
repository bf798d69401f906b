{
 "claims": [
  {
   "property": "C01",
   "status": "proved",
   "theorems": [
    "C01_directory_roundtrip"
   ],
   "note": "All entries with representable fields, all parse option sets."
  },
  {
   "property": "C02",
   "status": "partial",
   "theorems": [
    "C02_arbitrary_directory_refuted",
    "C02_arbitrary_directory_partial"
   ],
   "note": "REFUTED by witness (dimension count -1, also 41 and 214748365); defined behaviour proved when all dimension counts are in 0..40."
  },
  {
   "property": "C03",
   "status": "proved",
   "theorems": [
    "C03_write_close_reopen"
   ],
   "note": "All reservations, all interleavings with attachments/metadata and refused calls; sources deliver what they announce; file below 2^63 bytes."
  },
  {
   "property": "C04",
   "status": "partial",
   "theorems": [
    "C04_no_overlap_refuted",
    "C04_no_overlap_partial"
   ],
   "note": "REFUTED by witness: a source announcing 16384 bytes and delivering none; proved for sources which deliver what they announce."
  },
  {
   "property": "C05",
   "status": "proved",
   "theorems": [
    "C05_crash_before_end",
    "C05_after_end"
   ],
   "note": "Crash between stream writes; a torn single write is not modelled."
  },
  {
   "property": "C06",
   "status": "partial",
   "theorems": [
    "C06_zero_fill_refuted",
    "C06_zero_fill_partial"
   ],
   "note": "REFUTED for every N > 4096; exact for N <= 4096."
  },
  {
   "property": "C07",
   "status": "partial",
   "theorems": [
    "C07_reserved_attachment_directory_refuted",
    "C55_attachments_and_metadata"
   ],
   "note": "REFUTED whenever more entries are reserved than used; exact reservation or none proved (C55)."
  },
  {
   "property": "C08",
   "status": "partial",
   "theorems": [
    "C08_edit_partial",
    "C08_new_document_partial",
    "C08_document_shows",
    "C08_sessions_chain",
    "C08_replaced_attachment_refuted",
    "C08_both_directories_refuted",
    "C08_removed_attachment_refuted",
    "C08_failed_addition_refuted",
    "C08_new_document_refuted"
   ],
   "note": "REFUTED by five witnesses computed on small files (every call and Close report success): replacing an attachment by a longer one and adding something; modifying sub-blocks and attachments in one session; removing an attachment; an addition whose data source fails; new documents with attachments or without sub-blocks. Proved for every sound document and every sequence of the seven calls outside those constellations (no attachment grows; at Close the attachment directory is unchanged, fits exactly, or moves while the sub-block directory stays): the file is again a sound document - pairwise disjoint segments, readable by any reader - with exactly the intended contents, each call reports what the specification says, and sessions chain. I/O errors and editing after Close are not covered."
  },
  {
   "property": "C09",
   "status": "partial",
   "theorems": [
    "C09_large_subblock_refuted",
    "C09_large_subblock_partial",
    "C05_after_end"
   ],
   "note": "REFUTED by witness of 2^31 bytes; exact limit INT_MAX proved (C05_after_end: readable iff at most INT_MAX)."
  },
  {
   "property": "C10",
   "status": "proved",
   "theorems": [
    "C10_cache_accounting",
    "C10_item_size",
    "C10_combined_statistics"
   ],
   "note": "Totals below 2^64 / 2^32 (counter width). Every atomic access is one step."
  },
  {
   "property": "C100",
   "status": "proved",
   "theorems": [
    "C100_copied",
    "C100_refused",
    "C100_locking"
   ],
   "note": "The handle holds the only reference to the bitmap; the lock count does not wrap at 2^31."
  },
  {
   "property": "C101",
   "status": "partial",
   "theorems": [
    "C101_guid",
    "C101_parameters",
    "C101_m_range",
    "C101_created",
    "C101_m_bounds_refuted"
   ],
   "note": "REFUTED by witness C101_m_bounds_refuted: minimum_m_index and maximum_m_index given to libCZI_WriterCreate have no effect, because CheckCoordinate accepts everything if no dimension bounds were given, and the C API cannot give any. The rest is proved: forms of GUIDs, parameters, the document created. The JSON parser is an oracle."
  },
  {
   "property": "C102",
   "status": "proved",
   "theorems": [
    "C102_options",
    "C102_bag_accepted",
    "C102_bag_content"
   ],
   "note": "The JSON parser (rapidjson) is an oracle: a text is refused or is a list of members."
  },
  {
   "property": "C103",
   "status": "partial",
   "theorems": [
    "C103_arguments_partial",
    "C103_given_partial",
    "C103_crash_refuted",
    "C103_empty_handed_refuted"
   ],
   "note": "REFUTED by witnesses: libCZI_ReaderGetMetadataSegment, libCZI_ReaderReadAttachment, libCZI_CreateInputStream, libCZI_MetadataSegmentGetMetadataAsXml and libCZI_CompositorDoMultiChannelComposition use a null pointer, libCZI_CompositorFillOutCompositionChannelInfoInterop an empty one; libCZI_CziDocumentInfoGetDisplaySettings and libCZI_CziDocumentInfoGetDimensionInfo succeed without a usable result. All other functions are proved well behaved. Memory of the caller is as large as announced; released handles are not given."
  },
  {
   "property": "C104",
   "status": "partial",
   "theorems": [
    "C104_tags",
    "C104_valid",
    "C104_format",
    "C104_written",
    "C104_number_partial",
    "C104_stage",
    "C104_mask_partial",
    "C104_no_mask",
    "C104_hang_refuted",
    "C104_wide_refuted",
    "C104_mask_refuted"
   ],
   "note": "REFUTED by witnesses: TryGetStagePositionFromTags and TryGetTagAsDouble never return if the number is followed by white space, e.g. a line end (C104_hang_refuted), hand a wide character to isspace (C104_wide_refuted); if the metadata declare a chunk container without a mask, drawing uses uninitialised values (C104_mask_refuted). Proved: which element is read, what is read back after writing, numbers without white space around them, masks without chunks with a payload before them."
  },
  {
   "property": "C105",
   "status": "partial",
   "theorems": [
    "C105_helper",
    "C105_capi_partial",
    "C105_same",
    "C105_copy",
    "C105_disabled_refuted",
    "C105_all_disabled_refuted"
   ],
   "note": "REFUTED by witnesses: with the C API a disabled channel gets weight 0 but counts in the mean weight, one enabled and one disabled channel give a picture twice as bright as with the C++ helper (C105_disabled_refuted); with all channels disabled the C API gives a white picture and the helper leads to an access to an empty list (C105_all_disabled_refuted). Proved for the C++ helper (within the accuracy of C68), for the C API with the exact factor of the mean weight, equality of both if all channels are enabled."
  },
  {
   "property": "C106",
   "status": "partial",
   "theorems": [
    "C106_meaning",
    "C106_total",
    "C106_written",
    "C106_pixels_partial"
   ],
   "note": "Proved for the texts. The pixels: for zstd0 and zstd1 except packed Bgr48 with the default decoder (the C21 finding), zstd itself is an oracle for each level."
  },
  {
   "property": "C107",
   "status": "partial",
   "theorems": [
    "C107_reserved",
    "C107_capi",
    "C107_estimate_partial",
    "C107_range_refuted"
   ],
   "note": "REFUTED by witness: a range of the M-index from 0 to the greatest int and a reservation without number overflow a signed int (C107_range_refuted). Proved: what fits is placed in the reserved space, for every session of well-formed requests; the estimate for ranges of less than 2^31 M-indices and less than 2^64 sub-blocks."
  },
  {
   "property": "C108",
   "status": "partial",
   "theorems": [
    "C108_same_picture_partial",
    "C108_threads_partial",
    "C108_scale",
    "C108_scale_threads",
    "C108_places",
    "C108_mask_refuted",
    "C108_position_refuted"
   ],
   "note": "REFUTED by witness: calls which ask for masks and calls which do not influence each other through the cache (C108_mask_refuted); with precedence of the sub-block header and discrepancies ignored the second of two equal calls places the tile elsewhere (C108_position_refuted). Proved for every history and interleaving otherwise; the scaling accessor without masks is not disturbed by any use of the cache (C108_scale)."
  },
  {
   "property": "C109",
   "status": "partial",
   "theorems": [
    "C109_seen_partial",
    "C109_scaled_partial",
    "C109_scenes_partial",
    "C109_bgra_refuted"
   ],
   "note": "REFUTED by witness: a picture of type Bgra32 is written, but the accessor throws when it is to be delivered (C109_bgra_refuted). Proved end to end for all other pixel types delivered in the type in which they were written, uncompressed or compressed with the library's compressors, for the tile accessor and, at other zooms than 1, for the scaling accessor (one scene or several; within the limits of C80). Missing: JPG-XR (external codec) and the conversion to other pixel types."
  },
  {
   "property": "C11",
   "status": "proved",
   "theorems": [
    "C11_prune"
   ],
   "note": "Recency is last Get/Add in the history; LRU counter does not wrap."
  },
  {
   "property": "C110",
   "status": "partial",
   "theorems": [
    "C110_cuts_partial",
    "C110_region_partial",
    "C110_stitched_partial",
    "C110_zoom_refuted",
    "C110_nothing_refuted",
    "C110_overflow_refuted"
   ],
   "note": "REFUTED by witness: at half the size two tiles of three pixels yield one column each, the region three (C110_zoom_refuted); with a tile size of 2^31 or more, or without a region, nothing is written (C110_nothing_refuted); the number of tiles overflows for large tiles (C110_overflow_refuted). Proved for tile sizes where extent plus tile size is in the range of int; the agreement of the pictures at zoom 1, with one scene, where the order of overlapping sub-blocks is settled by their M-indices."
  },
  {
   "property": "C111",
   "status": "partial",
   "theorems": [
    "C111_mosaic_partial",
    "C111_complete_partial",
    "C111_statistics_partial",
    "C111_single_partial",
    "C111_endless_refuted",
    "C111_far_refuted",
    "C111_nothing_refuted",
    "C111_comment_refuted"
   ],
   "note": "REFUTED by witness: 2^32 tiles or more are never finished (C111_endless_refuted); positions beyond 2^31 come back to the first tiles (C111_far_refuted); with jpgxr or jpg, which are accepted, no sub-block is written (C111_nothing_refuted); the comment tells 52 percent for 53 (C111_comment_refuted). Proved for mosaics whose extent fits an int, with at most 2^31 tiles, an overlap up to 100 percent; the statistics without overlap."
  },
  {
   "property": "C112",
   "status": "partial",
   "theorems": [
    "C112_size_partial",
    "C112_tiles_partial",
    "C112_rect",
    "C112_pyramid",
    "C112_format_partial",
    "C112_levels_partial",
    "C112_bytes_partial",
    "C112_bytes_exact_partial",
    "C112_exception_refuted",
    "C112_hex_refuted",
    "C112_hole_refuted",
    "C112_bytes_refuted"
   ],
   "note": "REFUTED by witness: enormous numerals raise an exception instead of being refused (C112_exception_refuted); bgra32(0X7f) is accepted with alpha 0 (C112_hex_refuted); a list of levels is not looked at behind an empty item (C112_hole_refuted); cache sizes from 2^63 bytes give an unspecified value (C112_bytes_refuted). Proved: exact characterisations of the texts accepted with their values; pixel types for texts without a capital X; lists without a hole; cache sizes below 2^61 bytes, exact up to 2^49."
  },
  {
   "property": "C113",
   "status": "partial",
   "theorems": [
    "C113_read",
    "C113_options",
    "C113_parameters",
    "C113_infinite_refuted",
    "C113_other_dimensions_refuted",
    "C113_written_partial",
    "C113_general",
    "C113_z_partial",
    "C113_t_partial",
    "C113_nothing_told",
    "C113_torn",
    "C113_pyramid"
   ],
   "note": "REFUTED by witness: a start position 1e999 in the metadata makes the function for the dimension Z succeed with a text which breaks off at the number and is no JSON (C113_infinite_refuted); for dimensions other than Z, C, T it succeeds without setting the text (C113_other_dimensions_refuted). Proved: reading is exact; everything written from finite numbers is JSON with the value meant, everything with a number which is not finite is not (C113_written_partial, C113_torn); general information and pyramid statistics in full, Z and T for finite numbers. The text rapidjson makes of a finite number is a parameter; assumed of it: a JSON number with fraction or exponent which is read as the same double."
  },
  {
   "property": "C114",
   "status": "partial",
   "theorems": [
    "C114_channels_partial",
    "C114_right_partial",
    "C114_condenser_refuted",
    "C114_digits_refuted",
    "C114_torn",
    "C114_colour_refuted",
    "C114_none"
   ],
   "note": "REFUTED by witness: condensor_contrast is filled with the reflector, so a channel with CondenserContrast C and no Reflector has no such member and one with Reflector R has the value R (C114_condenser_refuted); the bounds of bands are printed with six digits, so 500.1234-600 and 500.123-600 give the same text (C114_digits_refuted); a colour with a wide character is undefined behaviour (C114_colour_refuted); a number which is not finite spoils the whole text (C114_torn). Proved: for finite numbers and narrow colours the text is JSON and says exactly the twenty-nine items of every channel except for the contrast of the condenser (C114_channels_partial), and all of them where the two texts are the same or both missing (C114_right_partial); bounds of bands up to one part in 10^5."
  },
  {
   "property": "C115",
   "status": "partial",
   "theorems": [
    "C115_life_partial",
    "C115_end",
    "C115_fail_partial",
    "C115_create_refuted",
    "C115_released"
   ],
   "note": "REFUTED by witness: a writer whose creation failed keeps the stream, so it refuses another stream, writes to the first one although its handle was released, and keeps it open (C115_create_refuted). Proved: for all sequences of calls the functions of streams are called and closed as the handles say, where such a writer counts as needing the stream (C115_life_partial); all is closed in the end (C115_end); every other call which fails changes nothing (C115_fail_partial); any use of a released handle is undefined behaviour, whatever the comments about the magic number say (C115_released). Every handle is assumed to be released with the function for its kind; files and threads are not modelled."
  },
  {
   "property": "C116",
   "status": "partial",
   "theorems": [
    "C116_structures",
    "C116_members",
    "C116_written",
    "C116_found",
    "C116_any",
    "C116_types_partial",
    "C116_types_refuted",
    "C116_guid_partial",
    "C116_guid_refuted",
    "C116_pixels_partial",
    "C116_pixels_refuted"
   ],
   "note": "REFUTED by witness: on a big-endian host a sub-block with an entry of the schema DE has pixel type 16777216 instead of 1 (C116_types_refuted); a document created with the reader-writer, or given a GUID, has the GUID in the wrong order once it is closed (C116_guid_refuted); pixels of sixteen bits compressed with zstd without packing are read in the wrong order, uncompressed ones are written so, floats are refused (C116_pixels_refuted). Proved for all values and all bytes: every structure and every member is converted right (C116_structures, C116_members); directories and sub-blocks are written alike (C116_written), found again (C116_found), and any bytes are told alike (C116_any); types for every other schema (C116_types_partial); GUIDs of documents which existed (C116_guid_partial); uncompressed reading, packed data, checksums (C116_pixels_partial). The start coordinate of a dimension is always written as zero and never read; it is not converted."
  },
  {
   "property": "C117",
   "status": "partial",
   "theorems": [
    "C117_defined",
    "C117_decode_defined",
    "C117_mismatch",
    "C117_accepted_partial",
    "C117_float_refuted",
    "C117_best",
    "C117_less",
    "C117_monotone_partial",
    "C117_monotone_refuted",
    "C117_lossless_partial",
    "C117_lossless_refuted",
    "C117_floats",
    "C117_kept",
    "C117_error_partial",
    "C117_error_refuted"
   ],
   "note": "REFUTED by witness: floats are never accepted with a quality below 500 (C117_float_refuted); 500 quantizes 8-bit pictures more coarsely than 499 (C117_monotone_refuted); the loss-less setting rounds floats to 13 bits of mantissa, makes the largest infinite and drops the sign of zero (C117_lossless_refuted); the message of an error is overwritten by its code (C117_error_refuted). Proved for all bitmaps, strides and qualities: nothing undefined (C117_defined, C117_decode_defined), everything else accepted (C117_accepted_partial), loss-less exactly as documented (C117_best, C117_less), monotone on either side of 500 and for 16 bit throughout, by checking all 1000 numbers with exact binary32 arithmetic (C117_monotone_partial), integer pixels unchanged (C117_lossless_partial), what becomes of each float that is not tiny (C117_floats, C117_kept). The transform and entropy coding of jxrlib is a parameter; that it loses nothing with the loss-less settings is a hypothesis."
  },
  {
   "property": "C118",
   "status": "partial",
   "theorems": [
    "C118_refused_partial",
    "C118_refused_refuted",
    "C118_made",
    "C118_written_partial",
    "C118_edited_partial",
    "C118_edit_refuted",
    "C118_missing_refuted",
    "C118_read_partial",
    "C118_large_refuted",
    "C118_short_partial",
    "C118_reported_partial",
    "C118_lost_refuted",
    "C118_short_read_partial",
    "C118_descriptors_partial",
    "C118_descriptors_refuted"
   ],
   "note": "REFUTED by witness: with the C runtime a file which cannot be read, or appears in between, is emptied although overwriting was not permitted (C118_refused_refuted); its stream for changing files is opened with rwb and can never write (C118_edit_refuted); with pwrite a missing file to be changed is created empty (C118_missing_refuted); more than 2147479552 bytes are not transferred by one call on Linux, so such sub-blocks can be neither written nor read (C118_large_refuted); the result of fclose is ignored and what was buffered may be lost silently (C118_lost_refuted); descriptor 0 is never closed (C118_descriptors_refuted). Proved for all worlds and sequences of calls: existing files are refused untouched (C118_refused_partial), contents after any writes and reads at any positions (C118_written_partial, C118_edited_partial, C118_read_partial), short transfers told exactly (C118_short_partial, C118_reported_partial, C118_short_read_partial), descriptors balanced after any calls, by an invariant (C118_descriptors_partial)."
  },
  {
   "property": "C119",
   "status": "partial",
   "theorems": [
    "C119_classes",
    "C119_unknown",
    "C119_class",
    "C119_same",
    "C119_file",
    "C119_nul_refuted",
    "C119_blob_partial",
    "C119_host_partial",
    "C119_host_refuted",
    "C119_read_partial",
    "C119_count",
    "C119_end_refuted",
    "C119_end"
   ],
   "note": "REFUTED by witness: what follows a NUL in an identification is ignored, so two identifications open the same file (C119_nul_refuted); the account's name is pasted into the address unchecked, account=example.org/ makes example.org the host asked (C119_host_refuted); reading at or behind the end of a blob throws, where the contract of IStream asks for zero bytes (C119_end_refuted). Proved: the classes, names and numbers, narrow and wide texts for all classes, files by name, exactly the blob asked for with identifications which C46 can write down, in UTF-8 or wide, the host for plain account names, reading before the end, and the count told for any answer. Missing: characters outside the basic plane where wide texts are UTF-16, size 0, what curl and the SDK do with the address."
  },
  {
   "property": "C12",
   "status": "proved",
   "theorems": [
    "C12_get_returns_last_added",
    "C12_get_finds",
    "C12_operations_total",
    "C12_concurrent_get",
    "C12_concurrent_get_logged"
   ],
   "note": ""
  },
  {
   "property": "C120",
   "status": "partial",
   "theorems": [
    "C120_refused",
    "C120_way_partial",
    "C120_negative_refuted",
    "C120_negative",
    "C120_long_refuted"
   ],
   "note": "REFUTED by witness: an index below zero gives UnspecifiedError instead of the documented IndexOutOfRange, only the upper bound is looked at (C120_negative_refuted); a name filling its array of 80 bytes comes back without its last character, and metadata of zero bytes, which the writer accepts, cannot be got back (C120_long_refuted). Proved: everything else of the claim, for all sequences of calls, through the bytes of the file, with what happens in the refuted cases spelled out. Missing: more attachments reserved for than added (see C07), handles and their validity, the metadata segment's own attachment, which the C API cannot read."
  },
  {
   "property": "C121",
   "status": "partial",
   "theorems": [
    "C121_asked_partial",
    "C121_gone",
    "C121_type_refuted",
    "C121_name_refuted",
    "C121_grown_refuted"
   ],
   "note": "REFUTED by witness: the enumeration of attachments never sets the ninth byte of the type, so a type of eight characters is handed out without an end (C121_type_refuted); an attachment accepted with a name filling its 80 bytes makes asking, reading and enumerating read behind the array (C121_name_refuted); an attachment replaced by a longer one cannot be read once a sub-block is added, as the longer one was written over what follows or is overwritten (C121_grown_refuted, see C08). Proved: everything else of the claim, for all documents and sequences of edits, and that removed keys stay gone. Missing: selecting by a type of eight characters where types have no NUL (see C76), enumerating the subset of sub-blocks by coordinate (C31), the statistics (C33)."
  },
  {
   "property": "C122",
   "status": "partial",
   "theorems": [
    "C122_asked",
    "C122_extracted_partial",
    "C122_different_partial",
    "C122_fraction_refuted",
    "C122_kind_refuted",
    "C122_integer_refuted",
    "C122_same_refuted",
    "C122_elsewhere_refuted"
   ],
   "note": "REFUTED by witness: an index with a fraction is cut, so 1.9 extracts attachment 1 (C122_fraction_refuted); a name given as number, an index given as text, or a key in other letters are accepted and ignored, everything is extracted (C122_kind_refuted); an index written as JSON integer is refused, one beyond int is undefined behaviour (C122_integer_refuted); two attachments can go into one file (C122_same_refuted); the attachment's name and type, which come from the document, can lead out of the output's directory (C122_elsewhere_refuted). Proved: when a selection is refused, what it asks for otherwise, and for indices which are integers the exact list of files and bytes, from the writer to the extraction; the files are different if no type has a dot. Missing: creating the files and the hash, the pictures of ExtractSubBlock."
  },
  {
   "property": "C123",
   "status": "partial",
   "theorems": [
    "C123_alone",
    "C123_history",
    "C123_threads",
    "C123_late_partial",
    "C123_wait",
    "C123_decoders",
    "C123_decoders_wait",
    "C123_race_refuted",
    "C123_twice_refuted",
    "C123_null_refuted"
   ],
   "note": "REFUTED by witness: SetSiteObject tests and assigns the global pointer without the flag protecting its first use, so that an object is accepted although the default was used already, and uses differ (C123_race_refuted); two threads setting different objects are both told to have succeeded (C123_twice_refuted); a null pointer, which GetDefaultSiteObject returns for a decoder not available, is accepted without error, and in a race the library then gets it (C123_null_refuted). The first two break the documented rule to call SetSiteObject once and first. Proved for all interleavings: calls one after the other; all threads if the object was set before or never; refusal of all calls begun after the first use; the decoders, with failing creations; waiting only for calls in progress. Missing: the accesses of the pointer are single steps, formally they are a data race; the WIC site object."
  },
  {
   "property": "C124",
   "status": "partial",
   "theorems": [
    "C124_grey",
    "C124_three",
    "C124_two",
    "C124_colour_partial",
    "C124_zoom_partial",
    "C124_zoom_taken",
    "C124_zoom_refused_range",
    "C124_value",
    "C124_rest_refuted",
    "C124_range_refuted",
    "C124_missing_refuted",
    "C124_joined_refuted",
    "C124_nan_refuted"
   ],
   "note": "REFUTED by witness: what follows the number of a zoom is ignored, 1/2 is a zoom of 1 (C124_rest_refuted); zooms above 1, infinity and NaN are in use, the test being GetZoom() <= 0 (C124_range_refuted); a colour text without any number is black, numbers left out count as 0 (C124_missing_refuted); separators may be missing, .5.25.5 are three numbers, and the range from 0 to 1 is not tested (C124_joined_refuted); 1;nan;nan is a grey value (C124_nan_refuted). Proved for all texts: one and three decimal numbers are read as such, two are refused, everything accepted has one of two forms, positive zooms in range are taken, those out of the range of float refused, and the floats are near the numbers of the texts. Missing: hexadecimal numbers, nan(...), bytes from 128 on in isspace."
  },
  {
   "property": "C13",
   "status": "partial",
   "theorems": [
    "C13_surplus_unlock_disturbs_refuted",
    "C13_balanced_partial",
    "C13_count_exact_partial",
    "C13_surplus_unlock_partial",
    "C13_surplus_unlock_throws_partial"
   ],
   "note": "REFUTED by witness: a surplus Unlock in one thread makes another thread's balanced Lock/Unlock throw; balanced use proved for every schedule."
  },
  {
   "property": "C14",
   "status": "proved",
   "theorems": [
    "C14_coverage_exact"
   ],
   "note": "Area = lattice point count; termination proved. Int arithmetic in Z."
  },
  {
   "property": "C15",
   "status": "proved",
   "theorems": [
    "C15_visibility_same_picture"
   ],
   "note": "Byte-level copy model; tiles without masks, no tile border."
  },
  {
   "property": "C16",
   "status": "partial",
   "theorems": [
    "C16_visibility_with_masks_refuted",
    "C16_visibility_with_masks_partial"
   ],
   "note": "REFUTED by a two-tile witness; pixel-wise restriction (topmost tile not masked out there) proved."
  },
  {
   "property": "C17",
   "status": "proved",
   "theorems": [
    "C17_topmost_tile"
   ],
   "note": "Same pixel type with or without mask, or converting without mask; tile border is C51."
  },
  {
   "property": "C18",
   "status": "proved",
   "theorems": [
    "C18_copy_in_bounds"
   ],
   "note": "Every access is bounds-checked in the model; outcome never UB; exactly the overlap changes."
  },
  {
   "property": "C19",
   "status": "partial",
   "theorems": [
    "C19_masked_converting_copy_refuted",
    "C19_masked_copy_partial"
   ],
   "note": "REFUTED for converting copies; proved for identical pixel types."
  },
  {
   "property": "C20",
   "status": "proved",
   "theorems": [
    "C20_split",
    "C20_round_trip",
    "C20_same_split",
    "C20_same_join"
   ],
   "note": "Intrinsics modelled per byte lane; the upper half of cast registers is arbitrary."
  },
  {
   "property": "C21",
   "status": "partial",
   "theorems": [
    "C21_bgr48_refuted",
    "C21_round_trip_partial",
    "C21_zstd0_round_trip"
   ],
   "note": "REFUTED by witness: a Bgr48 bitmap compressed with packing is decoded (default option) with two thirds of its pixels never written; proved for all other pixel types, packing modes and options, given that zstd round-trips."
  },
  {
   "property": "C22",
   "status": "partial",
   "theorems": [
    "C22_odd_refuted",
    "C22_bgr48_refuted",
    "C22_wide_refuted",
    "C22_header_refuted",
    "C22_zstd_partial",
    "C22_zstd_packed_partial",
    "C22_uncompressed_partial",
    "C22_strict_zstd",
    "C22_strict_uncompressed",
    "C22_header_partial"
   ],
   "note": "REFUTED by witness: odd-sized short packed data, short packed Bgr48 data, lines of 2^32 bytes and more, one- or two-byte zstd1 headers; proved for every size otherwise. JPEG XR mismatch not included."
  },
  {
   "property": "C23",
   "status": "proved",
   "theorems": [
    "C23_round_trip",
    "C23_accepts_iff",
    "C23_one_meaning",
    "C23_letters"
   ],
   "note": "Numbers longer than 11 characters are not accepted (part of the exact characterisation)."
  },
  {
   "property": "C24",
   "status": "partial",
   "theorems": [
    "C24_refuted",
    "C24_total_partial",
    "C24_sound"
   ],
   "note": "REFUTED by witness: a non-ASCII (negative) character is passed to isdigit, undefined behaviour; proved for strings without negative characters."
  },
  {
   "property": "C25",
   "status": "proved",
   "theorems": [
    "C25_round_trip"
   ],
   "note": "Bounds with at least one dimension and no zero size."
  },
  {
   "property": "C26",
   "status": "proved",
   "theorems": [
    "C26_contains"
   ],
   "note": ""
  },
  {
   "property": "C27",
   "status": "proved",
   "theorems": [
    "C27_antisymmetric",
    "C27_transitive",
    "C27_equal"
   ],
   "note": ""
  },
  {
   "property": "C28",
   "status": "partial",
   "theorems": [
    "C28_refuted",
    "C28_circle",
    "C28_overflow_refuted",
    "C28_order_partial",
    "C28_ties_partial"
   ],
   "note": "REFUTED by witness: three sub-blocks forming a circle (zoom tolerance), signed overflow of position differences; proved when zooms are equal or clearly different and positions below 2^30."
  },
  {
   "property": "C29",
   "status": "partial",
   "theorems": [
    "C29_refuted",
    "C29_order_partial"
   ],
   "note": "REFUTED by witness: a sub-block 30x10 for 30x11 logical pixels; proved when layer-0 and other sub-blocks never share a zoom and no zoom is NaN."
  },
  {
   "property": "C30",
   "status": "partial",
   "theorems": [
    "C30_empty_interval_refuted",
    "C30_overflow_refuted",
    "C30_enumeration_partial",
    "C30_no_dimension"
   ],
   "note": "REFUTED for an empty interval (visited once) and for an interval ending at INT_MAX (overflow); proved for all other bounds."
  },
  {
   "property": "C31",
   "status": "proved",
   "theorems": [
    "C31_calls",
    "C31_plane",
    "C31_roi",
    "C31_layer0",
    "C31_selected"
   ],
   "note": "Rectangles in unbounded integers."
  },
  {
   "property": "C32",
   "status": "partial",
   "theorems": [
    "C32_statistics_partial",
    "C32_m_range_refuted",
    "C32_far_tiles_refuted",
    "C32_last_coordinate_refuted"
   ],
   "note": "REFUTED by witness: a sub-block with M index but no dimension is left out of the M range; bounds which do not fit an int (tiles far apart, coordinate INT_MAX twice) are undefined behaviour. Proved: everything else is tight, M range over the sub-blocks with a dimension."
  },
  {
   "property": "C33",
   "status": "partial",
   "theorems": [
    "C33_statistics_partial",
    "C33_pyramid_modify_refuted",
    "C33_pyramid_remove_refuted"
   ],
   "note": "REFUTED by witness: pyramid statistics still count a replaced or removed sub-block. Proved for all other statistics after every history, and for pyramid statistics as long as nothing is replaced or removed."
  },
  {
   "property": "C34",
   "status": "proved",
   "theorems": [
    "C34_map"
   ],
   "note": "Sub-blocks whose bounds fit an int (the statistics are updated on every addition, see C32)."
  },
  {
   "property": "C35",
   "status": "partial",
   "theorems": [
    "C35_no_layer0_refuted",
    "C35_transform_partial",
    "C35_transform_exact_partial",
    "C35_back_partial",
    "C35_rectangle_partial"
   ],
   "note": "REFUTED by witness: in a document without sub-blocks on layer 0 the origin of the pixel frame is read from an uninitialised rectangle. Proved whenever the layer-0 bounding box is valid and the coordinates fit an int."
  },
  {
   "property": "C36",
   "status": "partial",
   "theorems": [
    "C36_overflow_refuted",
    "C36_plane_validation_partial"
   ],
   "note": "REFUTED only where start+size exceeds INT_MAX (overflow); proved for all other bounds."
  },
  {
   "property": "C37",
   "status": "partial",
   "theorems": [
    "C37_overflow_refuted",
    "C37_writer_validation_partial"
   ],
   "note": "REFUTED only where start+size exceeds INT_MAX (overflow); proved for all other bounds."
  },
  {
   "property": "C38",
   "status": "partial",
   "theorems": [
    "C38_fill_refuted",
    "C38_fill_overflow_refuted",
    "C38_fill_partial"
   ],
   "note": "REFUTED by witness: region (-10,0,5,1), entirely left of the bitmap, fills pixels; also region ending beyond INT_MAX (overflow). Proved for all other regions."
  },
  {
   "property": "C39",
   "status": "proved",
   "theorems": [
    "C39_get",
    "C39_set",
    "C39_set_all",
    "C39_out_of_range"
   ],
   "note": "Width and height up to INT_MAX. SetAllPixels also sets the unused bits of the last byte of each line."
  },
  {
   "property": "C40",
   "status": "partial",
   "theorems": [
    "C40_value_refuted",
    "C40_overrun_refuted",
    "C40_safe_partial",
    "C40_value_partial",
    "C40_bad_radius"
   ],
   "note": "REFUTED by witness: radius 2, 32x6 pixels (wrong value); width 33 (write behind the destination). Proved: value for radius 0,1 or width below 32; no access outside either bitmap for all radii, both when width mod 16 is not 1."
  },
  {
   "property": "C41",
   "status": "partial",
   "theorems": [
    "C41_two_chunks_refuted",
    "C41_index_refuted",
    "C41_hostile_refuted",
    "C41_terminates",
    "C41_inside_partial",
    "C41_exact_partial"
   ],
   "note": "REFUTED by witness: two chunks with payload; 21-byte attachment with size 2^32-20 (read outside). Proved: always terminates; exact if only the last chunk has a payload (apart from the index, always 0); inside the attachment if no size is near 2^32."
  },
  {
   "property": "C42",
   "status": "proved",
   "theorems": [
    "C42_saturated_sum",
    "C42_order",
    "C42_refused"
   ],
   "note": "Exact sums; the contributions are those of C67."
  },
  {
   "property": "C43",
   "status": "partial",
   "theorems": [
    "C43_tags_refuted",
    "C43_tags_partial",
    "C43_session_partial"
   ],
   "note": "REFUTED by witness: attachment and document-info handles have the same tag 0x3A4A3D7A. Proved for all other pairs and for every session which does not mix these two."
  },
  {
   "property": "C44",
   "status": "partial",
   "theorems": [
    "C44_reopen_refuted",
    "C44_reopen_partial",
    "C44_reopen_sub_blocks"
   ],
   "note": "REFUTED: a document without attachments opened after one with attachments shows those of the first (the directory is only assigned if the new document has one). Proved: after any history every sequence of calls is answered like by a new reader if the document has an attachment directory or no earlier one carried attachments, and unconditionally for calls not about attachments."
  },
  {
   "property": "C45",
   "status": "partial",
   "theorems": [
    "C45_refused_iff_present",
    "C45_distinct",
    "C45_reopened_refuted",
    "C45_reopened_partial",
    "C45_replace_refuted",
    "C45_edit_partial"
   ],
   "note": "The writer's check is proved exact for every history. REFUTED for what is read back: names of 80 characters are cut to 79 and may coincide (proved for terminated names). REFUTED for editing: replacing an attachment does not check (proved for every session without that call)."
  },
  {
   "property": "C46",
   "status": "partial",
   "theorems": [
    "C46_drops_refuted",
    "C46_backslash_refuted",
    "C46_round_trip_partial",
    "C46_lookup",
    "C46_keys"
   ],
   "note": "REFUTED by witness: 'a=b;=v' loses v, keys ending in a backslash cannot be written; proved for all other maps (last value not empty)."
  },
  {
   "property": "C47",
   "status": "partial",
   "theorems": [
    "C47_overlong_refuted",
    "C47_wide_refuted",
    "C47_round_trip",
    "C47_meaning_partial"
   ],
   "note": "REFUTED by witness: '#FF11223344' is accepted, a character above 255 is undefined behaviour; round trip proved for all colours, exact meaning for all strings of narrow characters."
  },
  {
   "property": "C48",
   "status": "proved",
   "theorems": [
    "C48_pixel_codes",
    "C48_compression_codes",
    "C48_pyramid_codes",
    "C48_round_trip"
   ],
   "note": ""
  },
  {
   "property": "C49",
   "status": "partial",
   "theorems": [
    "C49_termination_refuted",
    "C49_overflow_refuted",
    "C49_least_layer_partial",
    "C49_pixel_size_partial"
   ],
   "note": "REFUTED: factor 0 or 1 never returns for a sub-block of ratio 2 or more; factor 255 with ratio 16581376 overflows an int. Proved for factor >= 2 and ratio * factor <= INT_MAX."
  },
  {
   "property": "C50",
   "status": "partial",
   "theorems": [
    "C50_bgr24_to_bgr48_refuted",
    "C50_bgr24_to_bgr48_values_refuted",
    "C50_conversions_partial",
    "C50_refused"
   ],
   "note": "REFUTED by witness: Bgr24 to Bgr48 reads 16-bit values: out of bounds at the end of the buffer, wrong values elsewhere. Proved for every other conversion."
  },
  {
   "property": "C51",
   "status": "partial",
   "theorems": [
    "C51_tile_border_refuted",
    "C51_tile_border_partial"
   ],
   "note": "REFUTED (interior shifted by one pixel; width 1 is undefined behaviour); exact behaviour for blocks >= 2x2 proved."
  },
  {
   "property": "C52",
   "status": "proved",
   "theorems": [
    "C52_mem_read",
    "C52_rejects"
   ],
   "note": "The memory behind the destination pointer has at least the requested size."
  },
  {
   "property": "C53",
   "status": "partial",
   "theorems": [
    "C53_stdio_refuted",
    "C53_stdio_partial",
    "C53_pwrite"
   ],
   "note": "REFUTED by witness: seek/seek/write/write of two threads. Proved for calls not overlapping in time, and for the pwrite-based stream under every schedule of any number of threads."
  },
  {
   "property": "C54",
   "status": "partial",
   "theorems": [
    "C54_negative_offset_refuted",
    "C54_position_partial",
    "C54_shift_partial"
   ],
   "note": "REFUTED by witness: int division truncates towards zero, so a tile starting less than a pixel left of the region is placed at 0 instead of -1. Proved for offsets >= 0 or multiples of the pixel size."
  },
  {
   "property": "C55",
   "status": "proved",
   "theorems": [
    "C55_attachments_and_metadata"
   ],
   "note": "Attachment data at most INT_MAX bytes; over-reservation is C07."
  },
  {
   "property": "C56",
   "status": "partial",
   "theorems": [
    "C56_empty_document_refuted",
    "C03_write_close_reopen"
   ],
   "note": "REFUTED for the in-memory stream; C03 covers the other streams (strict = false)."
  },
  {
   "property": "C57",
   "status": "partial",
   "theorems": [
    "C57_failed_addition_refuted",
    "C57_bad_arguments_partial",
    "C03_write_close_reopen"
   ],
   "note": "REFUTED by witness (getter returning a null pointer); C03 shows that refused calls (bad arguments, duplicates) leave no trace."
  },
  {
   "property": "C58",
   "status": "proved",
   "theorems": [
    "C58_cache_progress"
   ],
   "note": ""
  },
  {
   "property": "C59",
   "status": "proved",
   "theorems": [
    "C59_scope_guards"
   ],
   "note": ""
  },
  {
   "property": "C60",
   "status": "partial",
   "theorems": [
    "C60_refuted",
    "C60_complete_partial",
    "C60_total"
   ],
   "note": "REFUTED by witness: '?C0:3' and 'C|5:3' are accepted; completeness and totality proved."
  },
  {
   "property": "C61",
   "status": "partial",
   "theorems": [
    "C61_no_mask_refuted",
    "C61_short_mask_refuted",
    "C61_wide_mask_refuted",
    "C61_mask_partial"
   ],
   "note": "REFUTED by witness: no mask chunk (uninitialised data used), chunk shorter than its header, width 2^32-1. Proved: mask behind empty chunks is found exactly."
  },
  {
   "property": "C62",
   "status": "proved",
   "theorems": [
    "C62_reads",
    "C62_progress"
   ],
   "note": "fseeko and fread atomic; no I/O errors other than a failing seek."
  },
  {
   "property": "C63",
   "status": "partial",
   "theorems": [
    "C63_receive_refuted",
    "C63_receive_partial",
    "C63_safe"
   ],
   "note": "REFUTED by witness: excess piece of exactly 23 bytes (CURLE_WRITE_ERROR) is taken for success. Proved: memory safety always; exact behaviour if no piece has 23 bytes."
  },
  {
   "property": "C64",
   "status": "proved",
   "theorems": [
    "C64_release_others"
   ],
   "note": "The lock-count check on releasing a bitmap is not modelled."
  },
  {
   "property": "C65",
   "status": "partial",
   "theorems": [
    "C65_fill",
    "C65_nan_refuted",
    "C65_infinity_refuted"
   ],
   "note": "REFUTED by witness for colours which are not a number (or infinities which cancel): undefined conversion. Proved for colour components between 0 and 1; components outside of that range are not covered."
  },
  {
   "property": "C66",
   "status": "proved",
   "theorems": [
    "C66_swap_components",
    "C66_padding"
   ],
   "note": ""
  },
  {
   "property": "C67",
   "status": "partial",
   "theorems": [
    "C42_saturated_sum",
    "C67_point_range_refuted",
    "C67_table_size_refuted"
   ],
   "note": "REFUTED by witness: black point below 0 makes the conversion to a byte undefined; a negative table size passes the check and the table is read unchecked. Proved for points in 0..1 and tables of the right size: exact, tinting within 1/2 + 2^-15. A four-component source with curve throws after the destination was partly written (not covered)."
  },
  {
   "property": "C68",
   "status": "partial",
   "theorems": [
    "C68_weighted_partial",
    "C68_equal_weights",
    "C68_overflow_refuted"
   ],
   "note": "REFUTED by witness: finite weights whose sum overflows give a black image. Proved for weights 0 or in 2^-40..2^40, at most 1024 channels, mean at least 2^-10."
  },
  {
   "property": "C69",
   "status": "proved",
   "theorems": [
    "C69_strict_parsing",
    "C69_open_options"
   ],
   "note": "At most 40 dimensions per entry (see C02 for more)."
  },
  {
   "property": "C70",
   "status": "proved",
   "theorems": [
    "C70_layer_exact",
    "C70_layer_unique"
   ],
   "note": ""
  },
  {
   "property": "C71",
   "status": "partial",
   "theorems": [
    "C71_layers_disagree_refuted",
    "C71_layers_partial",
    "C71_bottom_partial"
   ],
   "note": "REFUTED by witness: a tile of 84x84 stored as 5x5 is counted on layer 4 of a factor-2 pyramid but delivered on layer 5. Proved: exact criterion when both agree."
  },
  {
   "property": "C72",
   "status": "proved",
   "theorems": [
    "C72_picture",
    "C72_optimisation"
   ],
   "note": "std::sort enters through its contract (sorted permutation); decoding of bitmaps is a parameter (their size being the stored one)."
  },
  {
   "property": "C73",
   "status": "partial",
   "theorems": [
    "C73_absent_layer_refuted",
    "C73_picture_partial"
   ],
   "note": "REFUTED: an exception is thrown if the region holds sub-blocks but none of the requested layer; negative offsets are truncated (C54). Proved otherwise."
  },
  {
   "property": "C74",
   "status": "partial",
   "theorems": [
    "C74_closed_reader_refuted",
    "C74_closed_reader_partial",
    "C74_open_twice"
   ],
   "note": "REFUTED: TryGetSubBlockInfo answers from the closed document, TransformPoint on a reader never opened reads an indeterminate origin. Proved for all other calls and all histories. The accessors created earlier keep the reader's internals and are not covered."
  },
  {
   "property": "C75",
   "status": "partial",
   "theorems": [
    "C75_discrepancy_refuted",
    "C75_discrepancy_partial",
    "C75_written_documents",
    "C75_described"
   ],
   "note": "REFUTED: a sub-block header without X or Y leaves the extents compared uninitialised. Proved for headers with non-zero extents, all policies; documents of the writer are always accepted."
  },
  {
   "property": "C76",
   "status": "partial",
   "theorems": [
    "C76_attachment_subset_refuted",
    "C76_attachment_subset_partial"
   ],
   "note": "REFUTED: a type of eight characters (e.g. Zip-Comp) fills the array without terminator, strcmp reads behind it. Proved for types of at most seven characters or documents whose types are all terminated."
  },
  {
   "property": "C77",
   "status": "proved",
   "theorems": [
    "C77_sub_block_in_channel"
   ],
   "note": ""
  },
  {
   "property": "C78",
   "status": "proved",
   "theorems": [
    "C78_close_while_reading",
    "C78_after_close",
    "C78_reopen_mixes_documents",
    "C78_reopen_races"
   ],
   "note": "Every access to a member is one step, sequentially consistent; the plain flag isOperational is taken to be atomic (formally a data race). Re-opening while reads are on their way is not safe: two witnesses."
  },
  {
   "property": "C79",
   "status": "partial",
   "theorems": [
    "C79_left_edge_refuted",
    "C79_right_edge_refuted",
    "C79_scaled_partial"
   ],
   "note": "REFUTED: single-precision rounding and the rounded step may leave out the pixel at which a tile starts and may draw one at which it ends already (witnesses). Proved with a tolerance of 1/32 pixel at the edges and 1/64 pixel inside, for sizes up to 2^20, tiles not stored larger than they are and magnified at most twice."
  },
  {
   "property": "C80",
   "status": "partial",
   "theorems": [
    "C80_seam_refuted",
    "C80_incomplete_pyramid_refuted",
    "C80_magnified_refuted",
    "C80_no_scene_refuted",
    "C80_picture_partial",
    "C80_scenes_partial",
    "C80_size"
   ],
   "note": "REFUTED: a seam between adjacent tiles at zoom 1.049; a pyramid tile hides finer tiles elsewhere in the region; zooms above 1.05 show nothing; sub-blocks without S vanish if the region touches two scenes. Proved: apart from these the picture is that of the level chosen, scaled as in C79, per scene. The sorts enter by their contracts."
  },
  {
   "property": "C81",
   "status": "partial",
   "theorems": [
    "C81_no_scene_refuted",
    "C81_optimisation_refuted",
    "C81_tiles_partial",
    "C81_optimisation_partial"
   ],
   "note": "REFUTED: sub-blocks without S are missing if the region touches two scenes; at zoom 1.049 the optimisation leaves out a tile which shows through a seam. Proved for regions touching one scene, without levels between 1/1.05 and 1."
  },
  {
   "property": "C82",
   "status": "partial",
   "theorems": [
    "C82_read_beyond_refuted",
    "C82_ignored_data_refuted",
    "C82_digest_partial",
    "C82_pieces_partial",
    "C82_bitmap_partial"
   ],
   "note": "REFUTED for single buffers of 4 GiB and more: the size is masked with a 32-bit constant, so data is ignored or memory behind the buffer is read. Proved for every sequence of pieces below 4 GiB (any total length) and for bitmaps with lines below 4 GiB. The table of constants is checked against the sine series."
  },
  {
   "property": "C83",
   "status": "partial",
   "theorems": [
    "C83_length_refuted",
    "C83_one_sample_refuted",
    "C83_gamma_zero_refuted",
    "C83_gamma_partial",
    "C83_toe_partial",
    "C83_splines_partial"
   ],
   "note": "REFUTED: with black point above white point the table has too many elements (384 instead of 256); points one element apart and gamma 0 give 0/0, the conversion of which to an integer is undefined. Proved otherwise for 0 <= black <= white <= 1, in single and double precision with rounding; std::pow is a parameter with a monotonicity contract; gamma < 1 for moderate slope parameters."
  },
  {
   "property": "C84",
   "status": "partial",
   "theorems": [
    "C84_close_points_refuted",
    "C84_very_close_points_refuted",
    "C84_natural_spline_partial",
    "C84_unique"
   ],
   "note": "REFUTED for control points closer than 0.001 (the slope jumps) and closer than 1e-7 (the curve misses the point), whatever the solver. Proved for points at least 0.001 apart in exact arithmetic; Eigen's solver enters through its contract (finds a solution if there is one), which elimination meets."
  },
  {
   "property": "C85",
   "status": "partial",
   "theorems": [
    "C85_negative_offset_refuted",
    "C85_negative_year_refuted",
    "C85_leap_second_refuted",
    "C85_small_offset_refuted",
    "C85_long_year_refuted",
    "C85_written_iff",
    "C85_round_trip_partial",
    "C85_read_iff"
   ],
   "note": "REFUTED: offsets of -1 to -9 hours are written with one digit and not accepted when read; so are negative years and leap seconds; reading -00:30 loses the sign; a year beyond int throws. Proved for every other date of the calendar; the accepted texts are characterised exactly. The regular expression is modelled as a matcher, not through std::regex."
  },
  {
   "property": "C86",
   "status": "partial",
   "theorems": [
    "C86_cdata_refuted",
    "C86_comment_refuted",
    "C86_invalid_path_refuted",
    "C86_lookup",
    "C86_create",
    "C86_create_succeeds",
    "C86_last_write_partial",
    "C86_attribute",
    "C86_remove",
    "C86_remove_attribute",
    "C86_clear"
   ],
   "note": "REFUTED: the value written to a node with a CDATA section cannot be read; where a comment cuts a text in two only the first part is replaced; a call with an invalid path or one with an index creates nodes before it throws. Proved otherwise for every document."
  },
  {
   "property": "C87",
   "status": "partial",
   "theorems": [
    "C87_white_space_refuted",
    "C87_negative_refuted",
    "C87_empty_double_refuted",
    "C87_wide_refuted",
    "C87_signed_partial",
    "C87_unsigned_partial",
    "C87_numbers_partial",
    "C87_bool_partial",
    "C87_truth"
   ],
   "note": "REFUTED: reading a number followed by white space does not return; negative numbers are accepted as unsigned ones; an empty text is accepted as a floating point number; isspace is called with wide characters. Proved for every text without white space or wide characters after the number; wcstod is a parameter."
  },
  {
   "property": "C88",
   "status": "partial",
   "theorems": [
    "C88_blank_refuted",
    "C88_return_refuted",
    "C88_names_refuted",
    "C88_reload_refuted",
    "C88_section_refuted",
    "C88_saved_partial",
    "C88_settled",
    "C88_twice",
    "C88_values",
    "C88_loaded",
    "C88_total"
   ],
   "note": "REFUTED: values of white space only are lost, carriage returns become line feeds, a section of character data with the sequence ending one is cut in two of which only the first is the value, texts beside each other are joined, and names which are none of XML are accepted so that the text saved cannot be loaded. What happens to every document of proper names is stated exactly (C88_settled); the document is unchanged if its texts are none of the above, and in any case from the second time on. Document type declarations are not modelled."
  },
  {
   "property": "C89",
   "status": "partial",
   "theorems": [
    "C89_digits_refuted",
    "C89_accuracy_partial",
    "C89_zero",
    "C89_decimal_partial",
    "C89_twenty_digits"
   ],
   "note": "REFUTED by witness 2^53-1 (written as 9.00719925474099e+15, read back one less): only fifteen digits are written. Proved: the error is below 10^-14 relative and settles after one round; texts are read correctly rounded; numbers from texts of up to fifteen digits survive; the twenty digits used for gradation curves restore every number. Numbers outside 10^-307..10^307 are not covered."
  },
  {
   "property": "C90",
   "status": "partial",
   "theorems": [
    "C90_said",
    "C90_general_refuted",
    "C90_general_partial",
    "C90_general_plain",
    "C90_general_writes",
    "C90_decimal",
    "C90_hexadecimal",
    "C90_no_number",
    "C90_scaling_refuted",
    "C90_scaling_partial"
   ],
   "note": "REFUTED: a text of blanks is read as an empty one, a carriage return as a line feed (exactly as C88 says), and lengths are written with fifteen digits. Proved: these are the only changes, for every document and every subset of fields; what is not written is as before; lengths are kept within 10^-14 relative (10^-307..10^307)."
  },
  {
   "property": "C91",
   "status": "partial",
   "theorems": [
    "C91_start_refuted",
    "C91_sizes_partial",
    "C91_interval_partial",
    "C91_interval_refuted",
    "C91_positions_refuted",
    "C91_positions_unread",
    "C91_offsets_partial",
    "C91_offsets_end",
    "C91_z_read_partial",
    "C91_t_read",
    "C91_channel_words",
    "C91_image_type_partial",
    "C91_t_interval_kept",
    "C91_t_list_kept",
    "C91_z_interval_kept",
    "C91_z_list_kept",
    "C91_range_refuted",
    "C91_drive_mode_refuted",
    "C91_prepared",
    "C91_channels_partial",
    "C91_prepared_total",
    "C91_default_names",
    "C91_comma_refuted",
    "C91_types_refuted"
   ],
   "note": "REFUTED: the start of a dimension is not written; positions in T and Z are written to a place which is never read (and the Z start position of a list to the start time of T); the drive mode is taken from the axis direction; a number out of range throws; the interval may overflow; channel names with a comma throw, Gray32 and Gray64Float have no word. Proved for every document: sizes of all dimensions, the metadata prepared by a writer, channels in order with identifier, name and pixel type for names without / [ ] , ;."
  },
  {
   "property": "C92",
   "status": "partial",
   "theorems": [
    "C92_weight_refuted",
    "C92_digits_refuted",
    "C92_gaps_refuted",
    "C92_settings_partial",
    "C92_again",
    "C92_total",
    "C92_rest",
    "C92_points_refuted",
    "C92_points_end",
    "C92_points_exact"
   ],
   "note": "REFUTED: the weight is not written; black point, white point and gamma are written with six digits; channels without settings in between (and channel 0 of no settings at all) appear with default settings; a spline without points becomes linear; a number out of range in the points throws, a character above 255 in them is undefined behaviour. Proved for every document and all settings (numbers 10^-37..10^38): everything else is read as written, numbers within 10^-5 relative, points exactly; what has been read is read unchanged when written again; writing never fails; the rest of the document is unchanged."
  },
  {
   "property": "C93",
   "status": "partial",
   "theorems": [
    "C93_keys",
    "C93_values_partial",
    "C93_values_refuted"
   ],
   "note": "REFUTED: a text of blanks is lost and numbers are written with fifteen (double) and six (float) digits. Proved: exactly the keys described are accepted, others throw; value (within these digits; texts as C88 says) and type are found after saving and loading, replacing what was there; every other node is unchanged."
  },
  {
   "property": "C94",
   "status": "partial",
   "theorems": [
    "C94_exposure_partial",
    "C94_exposure_refuted",
    "C94_bands_sound_partial",
    "C94_bands_complete_partial",
    "C94_peak",
    "C94_bands_refuted"
   ],
   "note": "REFUTED: '100 200' is read as 100200, '10--1' as 10 to 2^64-1; a band without a start begins at 2^-1022 (numeric_limits<double>::min) instead of below all numbers, '-0' begins above its end; a blank after the last comma loses all bands. Proved: exactly which texts are accepted and what is reported, for exposure times completely, for wavelengths with zero and numbers 10^-307..10^307 (acceptance implies a range text without restriction)."
  },
  {
   "property": "C95",
   "status": "partial",
   "theorems": [
    "C95_integers",
    "C95_numbers_partial",
    "C95_mapping",
    "C95_line_partial",
    "C95_total_partial",
    "C95_total_refuted"
   ],
   "note": "REFUTED: a character above 255 next to a number is undefined behaviour (isspace of a wide character). Proved: lists of 32 bit integers are read exactly, of floating point numbers (zero, 10^-307..10^307) within 2^-52 relative; every text of characters up to 255 is read without exception."
  },
  {
   "property": "C96",
   "status": "partial",
   "theorems": [
    "C96_strided_partial",
    "C96_writer_accepts",
    "C96_lines",
    "C96_editor_partial",
    "C96_editor_refuted",
    "C96_editor_reads_refuted"
   ],
   "note": "REFUTED for the editor: it stores stride bytes per row, so a picture with padding is shown skewed, and the padding of the last row is read even if the memory ends before it. Proved: the writer stores and shows exactly the picture, end to end; the editor does the same for rows without padding below 4 GiB and for pictures given line by line."
  },
  {
   "property": "C97",
   "status": "partial",
   "theorems": [
    "C97_recorded_partial",
    "C97_accepted_partial",
    "C97_compression_refuted",
    "C97_pixels_refuted",
    "C97_size_refuted"
   ],
   "note": "REFUTED: the compression given is never recorded (always uncompressed), so compressed data is shown as pixels; size_data is documented as validated but is not (witness reads behind the memory). Proved end to end: coordinate, M-index, position, extent, pixel type, metadata, attachment, the picture for uncompressed data and the bytes for compressed data."
  },
  {
   "property": "C98",
   "status": "proved",
   "theorems": [
    "C98_coordinates",
    "C98_coordinates_back",
    "C98_bounds",
    "C98_statistics",
    "C98_all_scenes",
    "C98_description"
   ],
   "note": "At most 2^31-1 scenes. The description is that of a sub-block which shows what was given (C97)."
  },
  {
   "property": "C99",
   "status": "proved",
   "theorems": [
    "C99_text",
    "C99_name",
    "C99_data",
    "C99_data_two_calls",
    "C99_metadata",
    "C99_dimensions"
   ],
   "note": "The memory of the caller has at least the announced size."
  }
 ]
}