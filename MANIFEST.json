{
 "claims": [
  {
   "property": "C01",
   "status": "proved",
   "theorems": [
    "C01_readBits_exact",
    "C01_readBits_any_stream",
    "C01_file_serves",
    "C01_file_past_end",
    "C01_readBits_zero",
    "C01_negative_address_refuted"
   ],
   "note": "All non-negative addresses, in-memory streams and seekable files (and any stream meeting the read contract). Negative addresses index from the end of the data (C01_negative_address_refuted)."
  },
  {
   "property": "C02",
   "status": "proved",
   "theorems": [
    "C02_adjacent_reads_join",
    "C02_adjacent_reads_split"
   ],
   "note": ""
  },
  {
   "property": "C03",
   "status": "proved",
   "theorems": [
    "C03_readInteger_twos_complement",
    "C03_readInteger_past_end"
   ],
   "note": ""
  },
  {
   "property": "C04",
   "status": "proved",
   "theorems": [
    "C04_writeBits_then_readBits",
    "C04_complete_bytes",
    "C04_writeBit_refuted"
   ],
   "note": "Whole histories of writeBits. The single-bit writeBit does not have the property (C04_writeBit_refuted)."
  },
  {
   "property": "C05",
   "status": "partial",
   "theorems": [
    "C05_writeInteger_unsigned_partial",
    "C05_writeInteger_signed_refuted",
    "C05_writeInteger_unaligned"
   ],
   "note": "Unsigned values proved; for every signed value the value read back differs (offset binary is written): C05_writeInteger_signed_refuted."
  },
  {
   "property": "C06",
   "status": "partial",
   "theorems": [
    "C06_copyBytesFrom",
    "C06_copyBytesFrom_short_input",
    "C06_copyBitsFrom",
    "C06_extends_reads",
    "C06_long_unaligned_refuted"
   ],
   "note": "copyBytesFrom proved for all lengths; copyBitsFrom proved up to the 256-bit limit the code asserts on unaligned copies; longer unaligned copies are refused (C06_long_unaligned_refuted)."
  },
  {
   "property": "C07",
   "status": "proved",
   "theorems": [
    "C07_searchBytes_first",
    "C07_searchBytes_unaligned",
    "C07_searchBytesLength"
   ],
   "note": ""
  },
  {
   "property": "C08",
   "status": "partial",
   "theorems": [
    "C08_substream_window",
    "C08_substream_bits",
    "C08_past_parent",
    "C08_confinement_refuted"
   ],
   "note": "Window contents proved; confinement to the window is false (C08_confinement_refuted)."
  },
  {
   "property": "C09",
   "status": "proved",
   "theorems": [
    "C09_fragmented_reads",
    "C09_fragmented_size",
    "C09_fragmented_end"
   ],
   "note": "Byte-aligned non-empty fragments over a parent of known size; a single-fragment chain must lie inside the parent (the constructor does not check)."
  },
  {
   "property": "C10",
   "status": "proved",
   "theorems": [
    "C10_concat_serves",
    "C10_concat_readBits",
    "C10_concat_readBytes"
   ],
   "note": ""
  },
  {
   "property": "C11",
   "status": "partial",
   "theorems": [
    "C11_pipe_like_file",
    "C11_pipe_small_file",
    "C11_pipe_first_size",
    "C11_pipe_size_partial",
    "C11_pipe_size_refuted"
   ],
   "note": "Data answers proved for every history; the first announced size is right; later announcements are wrong unless the source is a whole number of blocks (C11_pipe_size_refuted)."
  },
  {
   "property": "C12",
   "status": "proved",
   "theorems": [
    "C12_pipe_lru"
   ],
   "note": ""
  },
  {
   "property": "C13",
   "status": "proved",
   "theorems": [
    "C13_file_view"
   ],
   "note": "Non-negative positions and sizes, stream of known non-zero size."
  },
  {
   "property": "C14",
   "status": "proved",
   "theorems": [
    "C14_long2raw",
    "C14_raw_roundtrip",
    "C14_negative",
    "C14_middle"
   ],
   "note": ""
  },
  {
   "property": "C15",
   "status": "proved",
   "theorems": [
    "C15_long2bin_layout",
    "C15_bin2long_long2bin",
    "C15_byte2bin",
    "C15_str2bin",
    "C15_str2hex_decodes",
    "C15_str2hex_injective",
    "C15_countBits"
   ],
   "note": ""
  },
  {
   "property": "C16",
   "status": "proved",
   "theorems": [
    "C16_strswapmid",
    "C16_strswapmid_odd",
    "C16_swap16",
    "C16_swap32",
    "C16_swap16_involutive",
    "C16_swap32_involutive"
   ],
   "note": ""
  },
  {
   "property": "C17",
   "status": "proved",
   "theorems": [
    "C17_paddingSize",
    "C17_alignValue",
    "C17_align_is_padding"
   ],
   "note": ""
  },
  {
   "property": "C18",
   "status": "proved",
   "theorems": [
    "C18_binarySearch",
    "C18_lowerBound"
   ],
   "note": ""
  },
  {
   "property": "C19",
   "status": "partial",
   "theorems": [
    "C19_dict_history_partial",
    "C19_replace_clash_refuted"
   ],
   "note": "All histories without a replace onto another key in use; with one the claim is false (C19_replace_clash_refuted)."
  },
  {
   "property": "C20",
   "status": "partial",
   "theorems": [
    "C20_names_and_sizes",
    "C20_tiling_partial",
    "C20_clash_refuted"
   ],
   "note": "Distinct names and sizes for every parser; the tiling for parsers that do not themselves name a field like an array element and give no negative leaf size. Without that it is false (C20_clash_refuted)."
  },
  {
   "property": "C21",
   "status": "partial",
   "theorems": [
    "C21_order_independence",
    "C21_same_answers",
    "C21_same_named_field",
    "C21_same_field_seen",
    "C21_missing_refuted",
    "C21_iteration_refuted"
   ],
   "note": "Fields, sizes, by-index, len and size answers: every parser and history. By-name answers agree when both find a field; the first by-name question or iteration may miss a field added at the end (C21_missing_refuted, C21_iteration_refuted)."
  },
  {
   "property": "C22",
   "status": "partial",
   "theorems": [
    "C22_feeding_ends",
    "C22_cover_partial",
    "C22_cover_refuted"
   ],
   "note": "Feeding always ends with current size = size; exact coverage as C20 (C22_cover_refuted otherwise)."
  },
  {
   "property": "C23",
   "status": "proved",
   "theorems": [
    "C23_array_names"
   ],
   "note": "Parsers that yield leaves with any list of names (explicit names distinct, not of the form key[i])."
  },
  {
   "property": "C24",
   "status": "partial",
   "theorems": [
    "C24_by_address",
    "C24_negative_refuted"
   ],
   "note": "Non-negative addresses, parsers as in C20; a negative address is answered with the first field (C24_negative_refuted)."
  },
  {
   "property": "C25",
   "status": "partial",
   "theorems": [
    "C25_replace",
    "C25_replace_accepts",
    "C25_write",
    "C25_rejected_partial",
    "C25_atomic_refuted"
   ],
   "note": "Successful calls proved; a rejected call leaves the set unchanged for one new field; with several new fields it may leave it half replaced (C25_atomic_refuted)."
  },
  {
   "property": "C26",
   "status": "partial",
   "theorems": [
    "C26_path_partial",
    "C26_relative_partial",
    "C26_dots",
    "C26_valid",
    "C26_join_path",
    "C26_absolute_address",
    "C26_extent_partial",
    "C26_path_refuted"
   ],
   "note": "Lookups by path, relative path and dots in every tree reached by a history. Partial: names with a slash, empty or made of dots are refuted (C26_path_refuted); extents need the naming hypothesis of C20."
  },
  {
   "property": "C27",
   "status": "partial",
   "theorems": [
    "C27_gaps_exact_partial",
    "C27_gaps_maximal_partial",
    "C27_gaps_general",
    "C27_window_refuted",
    "C27_maximal_refuted",
    "C27_repair",
    "C27_empty_refuted"
   ],
   "note": "Exactness needs blocks that start inside the window, maximality non-empty blocks; both hypotheses are shown necessary (C27_window_refuted, C27_maximal_refuted). The repair of seekable sets is covered; on no field it raises ValueError."
  },
  {
   "property": "C28",
   "status": "partial",
   "theorems": [
    "C28_static_size_partial",
    "C28_redefinition_refuted",
    "C28_leaf_refuted"
   ],
   "note": "For every history of instantiations. Partial: replacing an inherited format and the classes whose static_size is not their size are refuted."
  },
  {
   "property": "C29",
   "status": "partial",
   "theorems": [
    "C29_items",
    "C29_len_partial",
    "C29_len_refuted"
   ],
   "note": "Items, membership, iteration for every history; len for histories that do not ask an out-of-range index before the first len or iteration (C29_len_refuted otherwise)."
  },
  {
   "property": "C30",
   "status": "partial",
   "theorems": [
    "C30_bytes",
    "C30_unterminated",
    "C30_wide_partial",
    "C30_text_partial",
    "C30_text",
    "C30_bom_partial",
    "C30_pascal",
    "C30_strip",
    "C30_straddle_refuted",
    "C30_line_endian_refuted",
    "C30_pascal_bom_refuted"
   ],
   "note": "One byte per character and UTF-8: always. UTF-16/32: exactly when no terminator straddles two characters (C30_wide_partial is an equivalence); straddling texts are refuted, as are lines whose charset and parser endian differ and Pascal strings with a byte-order mark. Python's codecs are a parameter."
  },
  {
   "property": "C31",
   "status": "partial",
   "theorems": [
    "C31_unmodified",
    "C31_edited_bytes",
    "C31_edited_bits",
    "C31_unedited_kept",
    "C31_field_content",
    "C31_accepted_fits",
    "C31_signed_refuted",
    "C31_pascal_refuted",
    "C31_character_refuted",
    "C31_inserted_bytes_refuted",
    "C31_unaligned_refuted",
    "C31_large_unaligned_refuted",
    "C31_insert_lost_refuted",
    "C31_insert_order_refuted",
    "C31_integer_size_refuted"
   ],
   "note": "Proved for every tree and every history of expected edits (spec edited): on whole-byte trees writing succeeds and writes the edited document; on trees with bit fields the document is written whenever writing succeeds; unmentioned fields are kept unchanged and in order. The property as stated is false of the code for other edits: see the C31_..._refuted theorems (signed integers, Pascal strings, characters, inserted bytes, unaligned copies, lost or reordered insertions). EditableFloat, NewFieldSet and the renaming of \"name[]\" are not modelled."
  },
  {
   "property": "C32",
   "status": "partial",
   "theorems": [
    "C32_bytes",
    "C32_bits",
    "C32_signed_size_refuted",
    "C32_delete_refuted",
    "C32_insert_before_nothing_refuted"
   ],
   "note": "Proved for every tree and every history of expected edits. Refuted by the code for a signed 8-bit value above 127, for the deletion of an unknown name and for insertBefore(\"\"): C32_..._refuted."
  },
  {
   "property": "C33",
   "status": "partial",
   "theorems": [
    "C33_language_partial",
    "C33_total",
    "C33_excluded_refuted",
    "C33_dot_refuted",
    "C33_repeat_refuted",
    "C33_repeat_or_refuted",
    "C33_refused_refuted",
    "C33_operand_refuted"
   ],
   "note": "Every expression of strings, ranges, dots, tests, &, | and repetitions whose counts multiply without gap; excluded ranges, dots in texts with newlines, (a{2})*, (a{2,}|b)+, (a?|b)* and operands changed in place are refuted. Python's re engine is the specification (RegexSpec.denote), not modelled."
  },
  {
   "property": "C34",
   "status": "partial",
   "theorems": [
    "C34_bounds",
    "C34_reached",
    "C34_max",
    "C34_raises_refuted"
   ],
   "note": "Bounds hold and are reached for every object; maxLength of (a*)? raises TypeError (refuted)."
  },
  {
   "property": "C35",
   "status": "proved",
   "theorems": [
    "C35_canonical",
    "C35_every_symbol",
    "C35_code_fits",
    "C35_prefix_free",
    "C35_decode",
    "C35_decode_sound",
    "C35_fixed",
    "C35_empty"
   ],
   "note": "Every list of lengths; decoding with codes of at most 257 bits (the recursion depth of the model's reader covers them; DEFLATE uses at most 15)."
  },
  {
   "property": "C36",
   "status": "partial",
   "theorems": [
    "C36_copy_partial",
    "C36_unique",
    "C36_offset_refuted"
   ],
   "note": "For offsets inside the data; an offset beyond the data is not refused and gives fewer bytes (C36_offset_refuted)."
  },
  {
   "property": "C37",
   "status": "proved",
   "theorems": [
    "C37_tables",
    "C37_cover",
    "C37_unique"
   ],
   "note": ""
  },
  {
   "property": "C38",
   "status": "partial",
   "theorems": [
    "C38_root",
    "C38_minimal",
    "C38_minimal_kept",
    "C38_grows",
    "C38_kept",
    "C38_sound",
    "C38_range_partial",
    "C38_int_range",
    "C38_duration_range",
    "C38_date_range",
    "C38_last_day_refuted",
    "C38_get",
    "C38_nan_refuted",
    "C38_prefix_refuted",
    "C38_track"
   ],
   "note": "Equality is Python's ==; NaN, which is not equal to itself, may be stored twice and outside the limits (C38_nan_refuted). Texts longer than MAX_STR_LENGTH are cut, as configured. The date filter refuses the last day of 2030 when a time is given (C38_last_day_refuted). parseDatetime, int() and str() are parameters."
  },
  {
   "property": "C39",
   "status": "partial",
   "theorems": [
    "C39_lines",
    "C39_order",
    "C39_str_refuted",
    "C39_newline_refuted",
    "C39_dictionary_partial",
    "C39_dictionary_refuted",
    "C39_groups",
    "C39_group_lines",
    "C39_group_key_refuted",
    "C39_group_dictionary_refuted"
   ],
   "note": "exportPlaintext of one metadata and of groups. str() of an empty metadata raises, newlines in a value forge lines, and exportDictionary drops values and groups (refuted)."
  },
  {
   "property": "C40",
   "status": "partial",
   "theorems": [
    "C40_sound",
    "C40_complete_partial",
    "C40_skip",
    "C40_skip_complete_partial",
    "C40_slices_refuted",
    "C40_overlap_refuted",
    "C40_same_magic_refuted",
    "C40_magics",
    "C40_unaligned_refuted",
    "C40_optional_refuted"
   ],
   "note": "Soundness in general; completeness for magics within one slice, without overlaps; the content of a found file is skipped and everything after it is found (C40_skip_complete_partial). Magics across slices, overlapping ones and equal magics of two parsers are missed (refuted). Magics given as regular expressions are not in this model."
  },
  {
   "property": "C41",
   "status": "proved",
   "theorems": [
    "C41_midi",
    "C41_midi_any",
    "C41_asn_length",
    "C41_oid",
    "C41_oid_any",
    "C41_ebml",
    "C41_ebml_signed",
    "C41_ebml_zero",
    "C41_sevenzip",
    "C41_xiph",
    "C41_git_size",
    "C41_git_object",
    "C41_unary",
    "C41_ends"
   ],
   "note": "Over every stream that serves the bytes; midi and OID: complete description on any data."
  },
  {
   "property": "C42",
   "status": "partial",
   "theorems": [
    "C42_filesize_partial",
    "C42_bitsize_partial",
    "C42_duration",
    "C42_unique",
    "C42_nanosec"
   ],
   "note": "Durations: the whole range of timedelta, and nanoseconds. File sizes up to 2^53, bit sizes below 2^53/10 (beyond them floats are too coarse to compare with the units); humanFrequency is not modelled."
  },
  {
   "property": "C43",
   "status": "partial",
   "theorems": [
    "C43_unix",
    "C43_mac",
    "C43_win64_partial",
    "C43_uuid60_partial",
    "C43_duration_partial",
    "C43_millis",
    "C43_exact_refuted",
    "C43_distinct_refuted"
   ],
   "note": "UNIX and Mac exactly. Win64 and UUID60 divide by 10 in floating point: proved to within half a microsecond plus the float error, nearest microsecond for v < 2^53, order kept; exactness and distinctness are refuted."
  },
  {
   "property": "C44",
   "status": "proved",
   "theorems": [
    "C44_text",
    "C44_injective",
    "C44_text_injective"
   ],
   "note": ""
  },
  {
   "property": "C45",
   "status": "proved",
   "theorems": [
    "C45_newlines",
    "C45_clean",
    "C45_fixed_points",
    "C45_idempotent"
   ],
   "note": ""
  },
  {
   "property": "C46",
   "status": "partial",
   "theorems": [
    "C46_time_handler",
    "C46_time_call",
    "C46_time_alarm_partial",
    "C46_time_alarm_refuted",
    "C46_memory_partial",
    "C46_memory_refuted"
   ],
   "note": "The signal handler is always restored; a pending alarm is cancelled (refuted); a previous memory limit is multiplied by the page size (refuted)."
  },
  {
   "property": "C47",
   "status": "partial",
   "theorems": [
    "C47_reads",
    "C47_deflate",
    "C47_bzip2_refuted"
   ],
   "note": "For streams of known size; the zlib object is taken to behave as documented (zlib_contract). Reading bzip2 data raises TypeError (refuted)."
  },
  {
   "property": "C48",
   "status": "partial",
   "theorems": [
    "C48_any",
    "C48_decode",
    "C48_greedy",
    "C48_full_refuted",
    "C48_reset_refuted",
    "C48_old_reset"
   ],
   "note": "C48_any: on every bit stream the decoder stops, its fields are the consecutive codes, lengths shown and pixels agree, the padding ends on a byte. C48_decode: for every writer following LZW (any parse, greedy or not, any number of resets) whose table does not fill up and that does not reset when the next free code is a power of two, the pixels, codes and widths come back; C48_greedy for the longest match writer. False beyond: C48_full_refuted (13 bit codes once the table is full), C48_reset_refuted and C48_old_reset (resets where the width just grew)."
  },
  {
   "property": "C49",
   "status": "proved",
   "theorems": [
    "C49_move",
    "C49_table",
    "C49_round_trip",
    "C49_onto",
    "C49_block",
    "C49_coded"
   ],
   "note": "The Huffman decoding of the codes is C35; the choice of the tree every 50 codes is not modelled."
  },
  {
   "property": "C50",
   "status": "partial",
   "theorems": [
    "C50_order",
    "C50_first",
    "C50_fallback",
    "C50_choice",
    "C50_again",
    "C50_id_refuted",
    "C50_class_refuted",
    "C50_cache_refuted",
    "C50_extension"
   ],
   "note": "C50_order excludes queries that name a class (refuted: it is tried twice); an unknown id turns validation off (refuted); the answer depends on the parser the stream remembers (refuted)."
  },
  {
   "property": "C51",
   "status": "partial",
   "theorems": [
    "C51_inflate_partial",
    "C51_ends",
    "C51_stored_refuted",
    "C51_crossing_refuted",
    "C51_repeat_refuted"
   ],
   "note": "Fixed and dynamic blocks whose runs of code lengths do not cross from the literal to the distance lengths and where code 16 does not follow a run of zeros; stored blocks, crossing runs and code 16 after zeros are refuted."
  },
  {
   "property": "C52",
   "status": "partial",
   "theorems": [
    "C52_printable",
    "C52_literal_partial",
    "C52_unicode_partial",
    "C52_unique",
    "C52_backslash_refuted",
    "C52_c1_refuted"
   ],
   "note": "Round trip for texts without backslash (backslashes are not escaped: refuted); ASCII control characters never appear, but the controls U+0080..U+009F do (refuted). Charsets ASCII, ISO-8859-1 and UTF-8."
  },
  {
   "property": "C53",
   "status": "partial",
   "theorems": [
    "C53_round_trip_partial",
    "C53_escape",
    "C53_range_refuted",
    "C53_repeat_refuted",
    "C53_terminates_refuted"
   ],
   "note": "Repetitions of strings, ranges and dots, ranges without \\ - ] ^; unescaped range characters, unbracketed repetitions of repetitions and parse('(a|') never ending are refuted."
  },
  {
   "property": "C54",
   "status": "partial",
   "theorems": [
    "C54_union",
    "C54_pattern",
    "C54_none",
    "C54_refused",
    "C54_prefix_refuted"
   ],
   "note": "For regexes without zero-width tests (getPattern) and, in texts with newlines, without dots; getPattern may give a pattern that matches only the beginning of the match (refuted)."
  },
  {
   "property": "C55",
   "status": "partial",
   "theorems": [
    "C55_offset_refuted",
    "C55_offset_partial",
    "C55_copy_refuted",
    "C55_size_refuted",
    "C55_copy_partial"
   ],
   "note": "Offsets below 128 and copies with one offset byte and one size byte; larger offsets, several bytes and size 65536 are refuted."
  },
  {
   "property": "C56",
   "status": "partial",
   "theorems": [
    "C56_lookup",
    "C56_unique_id",
    "C56_refused",
    "C56_accepted",
    "C56_id_refuted",
    "C56_id_partial",
    "C56_inherit",
    "C56_construct"
   ],
   "note": "Identifiers are well formed except for a trailing newline (refuted)."
  },
  {
   "property": "C57",
   "status": "proved",
   "theorems": [
    "C57_eval",
    "C57_injective"
   ],
   "note": "C57_eval: an evaluator of list expressions gives back the chain; C57_injective."
  },
  {
   "property": "C58",
   "status": "partial",
   "theorems": [
    "C58_any",
    "C58_chain",
    "C58_fragments",
    "C58_content",
    "C58_error",
    "C58_sectors_refuted",
    "C58_content_size",
    "C58_content_size_refuted"
   ],
   "note": "For full sectors of 32-bit words. Proved for every table: termination, no repeated block, completeness, maximal fragments, content of the sub-stream. Refuted: sectors of 4096 bytes are looked up 3584 bytes too early (C58_sectors_refuted); the content size cuts a last one-block chain (C58_content_size_refuted). Not modelled: the properties in the mini stream (small blocks), directory entries."
  },
  {
   "property": "C59",
   "status": "partial",
   "theorems": [
    "C59_entry",
    "C59_clusters_refuted"
   ],
   "note": "The text of an entry is right for all entries (C59_entry). The cluster chain of a file cannot be followed: TypeError for every first cluster (C59_clusters_refuted)."
  },
  {
   "property": "C60",
   "status": "partial",
   "theorems": [
    "C60_ascii",
    "C60_utf8",
    "C60_valid",
    "C60_utf16",
    "C60_latin1",
    "C60_latin1_refuted",
    "C60_other",
    "C60_utf32_refuted"
   ],
   "note": "The UTF-8 decoder of Python is a parameter that accepts exactly the UTF-8 encodings (utf8_codec). Refuted: a French ISO-8859-1 text with two signs after a letter is taken for UTF-8 (C60_latin1_refuted), UTF-32 with a mark for UTF-16 (C60_utf32_refuted)."
  },
  {
   "property": "C61",
   "status": "partial",
   "theorems": [
    "C61_bytes",
    "C61_large",
    "C61_large_refuted",
    "C61_empty_refuted",
    "C61_bits",
    "C61_bits_refuted",
    "C61_off"
   ],
   "note": "Right for paddings of at most 4096 bytes or 128 bits (C61_bytes, C61_bits). Refuted: only the start of a larger one is looked at, although all of it is shown as the pattern (C61_large_refuted, C61_bits_refuted); an empty pattern is compared for ever (C61_empty_refuted)."
  },
  {
   "property": "C62",
   "status": "partial",
   "theorems": [
    "C62_msdos",
    "C62_any",
    "C62_null_refuted",
    "C62_fat"
   ],
   "note": "All dates are read back and all other bytes give a date that exists or ValueError. Refuted: null bytes (no date) are shown as 1980-01-01 in archives (C62_null_refuted)."
  },
  {
   "property": "C63",
   "status": "partial",
   "theorems": [
    "C63_ipv4",
    "C63_ipv6",
    "C63_ipv6_refuted",
    "C63_mac",
    "C63_guid",
    "C63_version",
    "C63_version_refuted"
   ],
   "note": "All text forms are right except IPv6 in a little-endian field set (C63_ipv6_refuted); the version of a big-endian GUID and the variant of a little-endian one are read in the wrong bits (C63_version_refuted)."
  },
  {
   "property": "C64",
   "status": "partial",
   "theorems": [
    "C64_runs",
    "C64_any",
    "C64_sparse_refuted"
   ],
   "note": "All lists without holes are read back (C64_runs), reading ends on all bytes (C64_any). Refuted: a hole is given the clusters of the run before it (C64_sparse_refuted)."
  },
  {
   "property": "C65",
   "status": "proved",
   "theorems": [
    "C65_cylinder"
   ],
   "note": "For all sectors and cylinders."
  },
  {
   "property": "C66",
   "status": "partial",
   "theorems": [
    "C66_check",
    "C66_png",
    "C66_jpeg",
    "C66_mpeg",
    "C66_au",
    "C66_riff",
    "C66_avi",
    "C66_riff_size",
    "C66_riff_clean",
    "C66_flag_only_refuted",
    "C66_png_text_refuted",
    "C66_jpeg_xmp_refuted",
    "C66_tar_refuted"
   ],
   "note": "For all PNG, JPEG, MPEG audio, AU and RIFF files (C66_check with the fields named by C66_png/jpeg/mpeg; C66_au; C66_riff, C66_avi, C66_riff_size, C66_riff_clean). Refuted: TAR archives cannot be stripped (C66_tar_refuted), some texts of PNG and JPEG files are kept, a flag alone is not written."
  },
  {
   "property": "C67",
   "status": "partial",
   "theorems": [
    "C67_bencode",
    "C67_exact",
    "C67_stops",
    "C67_long_refuted",
    "C67_names_refuted",
    "C67_values",
    "C67_integer_keys"
   ],
   "note": "For all documents within the limits of the parser (C67_bencode), with an exact characterisation of what is accepted (C67_exact) and termination (C67_stops). Refuted: strings of a million bytes and numbers of more than 21 characters are refused (C67_long_refuted); two keys may get one name (C67_names_refuted). Not modelled: lengths in non-ASCII digits, the limit of nested calls of Python, the cut made by a field set after an error (C27)."
  },
  {
   "property": "C68",
   "status": "partial",
   "theorems": [
    "C68_members",
    "C68_valid",
    "C68_any",
    "C68_content_size_refuted",
    "C68_large_refuted",
    "C68_prefix_refuted"
   ],
   "note": "For all ustar archives: files, numbers, contents, end (C68_members, C68_valid); for all files: termination and blocks that follow one another (C68_any). Refuted: sizes in binary are read as 0 (C68_large_refuted), the content size misses a block (C68_content_size_refuted), the name of a content has no prefix (C68_prefix_refuted). Not modelled: the checksum and device fields, texts with bytes above 127 in the numeric fields, dates."
  },
  {
   "property": "C69",
   "status": "partial",
   "theorems": [
    "C69_values",
    "C69_valid",
    "C69_trailing",
    "C69_any",
    "C69_set_refuted",
    "C69_oid_refuted"
   ],
   "note": "For all values in definite-length encodings with integers of at most 2048 bytes (C69_values, C69_valid, C69_trailing); for all files, termination and containment (C69_any). Refuted: only the first element of a set is shown (C69_set_refuted); object identifiers from 2.40 are shown wrong (C69_oid_refuted). Not modelled: constructed strings, tags above 30 (refused in the universal class only), the dates shown as descriptions."
  },
  {
   "property": "C70",
   "status": "partial",
   "theorems": [
    "C70_chunks",
    "C70_valid",
    "C70_any",
    "C70_last_refuted"
   ],
   "note": "For all trees of chunks whose lists do not end with an empty chunk (C70_chunks, C70_valid); for all files, termination and containment (C70_any). Refuted: an empty chunk at the end of a list is not shown (C70_last_refuted). Not modelled: the fields inside the chunks that are not lists."
  },
  {
   "property": "C71",
   "status": "partial",
   "theorems": [
    "C71_elements",
    "C71_valid",
    "C71_content_size",
    "C71_unknown",
    "C71_any",
    "C71_live_refuted",
    "C71_nested_refuted",
    "C71_tables",
    "C71_identifiers",
    "C71_missing_refuted"
   ],
   "note": "For all trees of elements (C71_elements, C71_valid, C71_content_size, C71_tables), with a last segment of unknown size (C71_unknown); for all files, termination and containment (C71_any). Refuted: a cluster of unknown size ends what is shown (C71_live_refuted); nested chapters and tags are unknown elements (C71_nested_refuted, C71_missing_refuted). The identifiers and types agree with a table written from the registry of the format (C71_identifiers). Not modelled: the links of the cues; the fields of blocks are C72."
  },
  {
   "property": "C72",
   "status": "partial",
   "theorems": [
    "C72_blocks",
    "C72_content",
    "C72_any",
    "C72_single_refuted",
    "C72_empty_refuted"
   ],
   "note": "C72_blocks (what is shown), C72_content (the bytes of the frames), C72_any (every content). Refuted: EBML lacing of a single frame (C72_single_refuted), empty frames (C72_empty_refuted). Blocks whose head is cut are only shown to be refused."
  },
  {
   "property": "C73",
   "status": "partial",
   "theorems": [
    "C73_atoms",
    "C73_open",
    "C73_any",
    "C73_valid",
    "C73_wide_refuted",
    "C73_mime",
    "C73_registry",
    "C73_mvex_refuted",
    "C73_meta_refuted"
   ],
   "note": "The fields of the contents other than lists, metadata and the tables of C74 are not modelled, among them those of stsd, dref, ilst, keys, sinf and schi, which hold atoms too. Refuted: a file whose first atom has a size of 64 bits is refused by validate; metadata followed by one to three bytes shows none of its atoms; the boxes in mvex are not shown (C73_mvex_refuted)."
  },
  {
   "property": "C74",
   "status": "partial",
   "theorems": [
    "C74_tables",
    "C74_any"
   ],
   "note": "A compact table with numbers of 0 bits, and tables cut inside their first fields, are outside of the claim. The fields for version and flags are not modelled."
  },
  {
   "property": "C75",
   "status": "partial",
   "theorems": [
    "C75_members",
    "C75_valid",
    "C75_any",
    "C75_extra_refuted",
    "C75_two_refuted"
   ],
   "note": "False for an empty extra field (C75_extra_refuted: nothing after it is shown) and for files of several members (C75_two_refuted: shown as one member, with the checksum and the size of the last). What the contents decompress to is zlib's and outside of the model; files of unknown size raise NotImplementedError in the code and are not modelled."
  },
  {
   "property": "C76",
   "status": "partial",
   "theorems": [
    "C76_chunks",
    "C76_any",
    "C76_valid",
    "C76_signature",
    "C76_content_size",
    "C76_content_size_refuted",
    "C76_gray_refuted",
    "C76_empty_refuted",
    "C76_text_refuted"
   ],
   "note": "False for texts longer than 65535 bytes (C76_text_refuted), backgrounds of gray or palette pictures (C76_gray_refuted), image data after an empty first chunk of image data (C76_empty_refuted), and for the size of contents when the bytes of the last chunk occur earlier (C76_content_size_refuted). Checksums are shown and not checked, as in the code; the links between fragments and the decompressed picture are not modelled."
  },
  {
   "property": "C77",
   "status": "partial",
   "theorems": [
    "C77_records",
    "C77_prefix",
    "C77_any",
    "C77_valid",
    "C77_method_refuted",
    "C77_cut",
    "C77_mime",
    "C77_suffix_refuted",
    "C77_streamed_refuted",
    "C77_content_size",
    "C77_comment_refuted",
    "C77_zip64_refuted",
    "C77_noname_refuted"
   ],
   "note": "False for archives written as streams (C77_streamed_refuted: the first bytes of contents are shown as their lengths), ZIP64 archives (C77_zip64_refuted), compression methods since 2012 (C77_method_refuted), files without names in the central directory (C77_noname_refuted), the size of archives with a comment (C77_comment_refuted) and the suffix of OpenDocument files (C77_suffix_refuted: MissingField). The search of descriptors by incomplete entries is modelled (C77_any) but not specified; decompression is C47."
  },
  {
   "property": "C78",
   "status": "partial",
   "theorems": [
    "C78_pages",
    "C78_prefix",
    "C78_any",
    "C78_valid",
    "C78_signature",
    "C78_content_size",
    "C78_no_content_size",
    "C78_mime",
    "C78_description_refuted",
    "C78_data",
    "C78_packets_refuted",
    "C78_packets",
    "C78_content_size_refuted",
    "C78_empty_refuted",
    "C78_data_refuted"
   ],
   "note": "Proved for every file of pages with data (C78_pages, C78_prefix), every file (C78_any), acceptance (C78_valid, C78_signature), logical streams (C78_data), the type (C78_mime), the size of the contents (C78_content_size, C78_no_content_size) and the packets shown (C78_packets). Refuted: C78_content_size_refuted (chained files), C78_empty_refuted (a page with one empty packet has no segments), C78_data_refuted (data after a page without data are lost), C78_packets_refuted (the list of packets always ends with an error). C78_description_refuted (the description never tells the format)."
  },
  {
   "property": "C79",
   "status": "partial",
   "theorems": [
    "C79_members",
    "C79_prefix",
    "C79_any",
    "C79_valid",
    "C79_description",
    "C79_large_refuted"
   ],
   "note": "Proved for all members of less than ten digits (C79_members, C79_prefix), all files (C79_any), acceptance (C79_valid) and descriptions (C79_description). Refuted for larger members (C79_large_refuted). Simplified: the text of a header is read as ISO-8859-1."
  },
  {
   "property": "C80",
   "status": "partial",
   "theorems": [
    "C80_file",
    "C80_any",
    "C80_valid",
    "C80_version5_refuted",
    "C80_description",
    "C80_content_size",
    "C80_metadata",
    "C80_dpi_refuted",
    "C80_colours_refuted",
    "C80_nibbles_refuted",
    "C80_core_refuted",
    "C80_topdown_refuted"
   ],
   "note": "Proved for all pictures with headers of 40 and 108 bytes (C80_file), all files (C80_any), acceptance (C80_valid), descriptions and sizes (C80_description, C80_content_size) and metadata (C80_metadata). Refuted: colors (C80_colours_refuted), pixels of four bits (C80_nibbles_refuted), pictures stored from the top (C80_topdown_refuted), OS/2 headers (C80_core_refuted), other headers (C80_version5_refuted), resolutions (C80_dpi_refuted)."
  },
  {
   "property": "C81",
   "status": "partial",
   "theorems": [
    "C81_file",
    "C81_any",
    "C81_valid",
    "C81_stream",
    "C81_content_size",
    "C81_content_size_le",
    "C81_content_size_refuted",
    "C81_metadata",
    "C81_transparency_refuted",
    "C81_delay_refuted",
    "C81_description_refuted",
    "C81_netscape_refuted"
   ],
   "note": "Proved for all pictures (C81_file), all files (C81_any), acceptance (C81_valid), data of images (C81_stream), size of the content (C81_content_size, C81_content_size_le) and metadata (C81_metadata). Refuted: C81_content_size_refuted, C81_transparency_refuted, C81_delay_refuted, C81_description_refuted, C81_netscape_refuted. The LZW codes are in C48."
  },
  {
   "property": "C82",
   "status": "partial",
   "theorems": [
    "C82_file",
    "C82_valid",
    "C82_invalid",
    "C82_description",
    "C82_integer",
    "C82_integer_value",
    "C82_integer_long",
    "C82_any",
    "C82_content_size",
    "C82_content_size_le",
    "C82_content_size_missing_refuted",
    "C82_sysex_refuted",
    "C82_notes",
    "C82_notes_refuted",
    "C82_last_notes"
   ],
   "note": "Descriptions of commands and tracks, the texts of tempo and of hexadecimal numbers are not modelled. System exclusive events, the content size of files without tracks, and the names of notes are refuted."
  },
  {
   "property": "C83",
   "status": "partial",
   "theorems": [
    "C83_file",
    "C83_prefix",
    "C83_any",
    "C83_valid",
    "C83_description",
    "C83_content_size",
    "C83_content_size_le",
    "C83_quality",
    "C83_quality_gray",
    "C83_metadata",
    "C83_quality_comment",
    "C83_unknown_refuted",
    "C83_content_size_refuted",
    "C83_thumbnail_refuted",
    "C83_scan_refuted",
    "C83_fill_refuted",
    "C83_tem_refuted",
    "C83_nearest",
    "C83_thumbnail",
    "C83_jfif",
    "C83_dpi_refuted"
   ],
   "note": "Exif, Photoshop and the units of the coded data are shown as bytes in the model. Thumbnails without a palette, densities per centimeter, scans of a component that is not the first, fill bytes, TEM, and sizes of pictures with FF D9 in a later segment are refuted."
  },
  {
   "property": "C85",
   "status": "partial",
   "theorems": [
    "C85_file",
    "C85_any",
    "C85_valid",
    "C85_description",
    "C85_metadata",
    "C85_content_size",
    "C85_duration_refuted",
    "C85_padding_refuted"
   ],
   "note": "Free format frames (bit rate index 0) are shown by the model of the parser but are outside of the files of the claims. Durations of files whose later frames have another bit rate, and content sizes when bytes precede the first frame, are refuted."
  },
  {
   "property": "C84",
   "status": "partial",
   "theorems": [
    "C84_id3v2",
    "C84_id3v1",
    "C84_metadata_v1",
    "C84_metadata_v2",
    "C84_genre_refuted",
    "C84_track_refuted",
    "C84_picture_refuted",
    "C84_flags_refuted",
    "C84_title_refuted",
    "C84_padding_refuted"
   ],
   "note": "Tags with unsynchronisation, extended headers or footers are outside of the model of files. The metadata of dates, languages and track numbers of ID3v2 tags, and of files with both tags, is modelled; of it only that it ends without changing the other keys is proved (C85). Genre 32, 30 character comments, UTF-16 pictures, flags of version 2.4, short paddings are refuted."
  },
  {
   "property": "C86",
   "status": "partial",
   "theorems": [
    "C86_tga",
    "C86_pcx",
    "C86_ico",
    "C86_tga_any",
    "C86_pcx_any",
    "C86_ico_any",
    "C86_tga_valid",
    "C86_pcx_valid",
    "C86_ico_valid",
    "C86_ico_description",
    "C86_ico_size",
    "C86_tga_metadata",
    "C86_pcx_metadata",
    "C86_ico_metadata",
    "C86_tga_lines_refuted",
    "C86_tga_map_refuted",
    "C86_pcx_width_refuted",
    "C86_pcx_marker_refuted",
    "C86_ico_mono_refuted",
    "C86_ico_256_refuted",
    "C86_ico_png_refuted"
   ],
   "note": "Maps of colors whose number is not one per value of a pixel, lines of TGA pixels and PNG icons are refuted. The compression and the names of the groups of icons are not modelled."
  },
  {
   "property": "C87",
   "status": "partial",
   "theorems": [
    "C87_file",
    "C87_unknown",
    "C87_any",
    "C87_valid",
    "C87_unknown_refuted",
    "C87_metadata"
   ],
   "note": "The content size of sounds of unknown size is refuted (C87_unknown_refuted). Texts are shown as their bytes; the value of the rate of compression is not claimed."
  },
  {
   "property": "C88",
   "status": "proved",
   "theorems": [
    "C88_file",
    "C88_any",
    "C88_valid",
    "C88_size_refuted",
    "C88_padding_refuted",
    "C88_marker_refuted",
    "C88_metadata"
   ],
   "note": "The content size, the padding of odd sounds and comments with a marker are refuted (C88_size_refuted, C88_padding_refuted, C88_marker_refuted). C88_metadata is for rates that are whole numbers. Texts are shown as their bytes."
  },
  {
   "property": "C89",
   "status": "proved",
   "theorems": [
    "C89_file",
    "C89_any",
    "C89_valid",
    "C89_refused",
    "C89_metadata"
   ],
   "note": "Texts are shown as their bytes. The description of the file is not modelled; the rate of compression is modelled and not claimed."
  },
  {
   "property": "C90",
   "status": "proved",
   "theorems": [
    "C90_file",
    "C90_names",
    "C90_any",
    "C90_valid",
    "C90_refused",
    "C90_empty_refuted"
   ],
   "note": "Archives with an empty file before others are refuted (C90_empty_refuted). Texts are shown as their bytes; the charset of the names is not modelled."
  }
 ]
}