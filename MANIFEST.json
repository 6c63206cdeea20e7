{
 "claims": [
  {
   "property": "C01",
   "status": "proved",
   "theorems": [
    "C01_base64_roundtrip",
    "C01_tight_buffer_refuted"
   ],
   "note": "Large enough means two bytes more than the text; with one spare byte the text is complete but not NUL-terminated (C01_tight_buffer_refuted)."
  },
  {
   "property": "C02",
   "status": "partial",
   "theorems": [
    "C02_blob_pieces_partial",
    "C02_buffer_size_refuted"
   ],
   "note": "Proved for every buffer size that is not 4k+2; for those sizes a full piece is not terminated and old bytes show (refuted)."
  },
  {
   "property": "C03",
   "status": "proved",
   "theorems": [
    "C03_hex_roundtrip",
    "C03_hex_bound"
   ],
   "note": "Round trip for every byte string and the store bound for every text and size."
  },
  {
   "property": "C04",
   "status": "proved",
   "theorems": [
    "C04_guid_roundtrip",
    "C04_guid_shape"
   ],
   "note": ""
  },
  {
   "property": "C05",
   "status": "partial",
   "theorems": [
    "C05_int64_roundtrip_partial",
    "C05_int64_min_refuted",
    "C05_int64_print_partial",
    "C05_special_value_refuted"
   ],
   "note": "Holds for every value except INT64_MIN, where printing and scanning overflow a signed integer, and one value that XBT_ToStringChunk special-cases with a mistyped constant."
  },
  {
   "property": "C06",
   "status": "proved",
   "theorems": [
    "C06_uint64_scan",
    "C06_uint64_hex_scan",
    "C06_uint64_print"
   ],
   "note": ""
  },
  {
   "property": "C07",
   "status": "proved",
   "theorems": [
    "C07_ipv4_roundtrip",
    "C07_ipv4_only",
    "C07_ipv4_print"
   ],
   "note": "The scanner also admits white space and a minus zero inside the parts; the sound part says exactly what a part is."
  },
  {
   "property": "C08",
   "status": "partial",
   "theorems": [
    "C08_date_number_partial",
    "C08_before_1969_refuted"
   ],
   "note": "Proved for the years 1969 to 369689 (all the parser admits above); refuted before 1969 because C division truncates toward zero."
  },
  {
   "property": "C09",
   "status": "partial",
   "theorems": [
    "C09_date_text_partial",
    "C09_date_roundtrip_partial",
    "C09_leap_december_refuted"
   ],
   "note": "Exact for every day number the function can represent: the Gregorian date, except that December 31 of a leap year has no text."
  },
  {
   "property": "C10",
   "status": "proved",
   "theorems": [
    "C10_time_roundtrip",
    "C10_msec_roundtrip",
    "C10_msec_zone",
    "C10_last_day_refuted"
   ],
   "note": "All 2^32 seconds and all milliseconds of that range. gmtime_r is taken to give the calendar date of the day number. Inputs after the last 32-bit second wrap (C10_last_day_refuted)."
  },
  {
   "property": "C11",
   "status": "partial",
   "theorems": [
    "C11_fixed_print",
    "C11_fixed_denotes_partial",
    "C11_fixed_roundtrip_partial",
    "C11_small_negative_refuted",
    "C11_minimum_refuted",
    "C11_maximum_refuted"
   ],
   "note": "Printing proved for every value but INT_MIN (undefined behaviour). The text denotes the value except for -10^k < V < 0, where the sign is lost; reading back is proved for |V| <= INT_MAX-48, above it the scanner overflows."
  },
  {
   "property": "C12",
   "status": "partial",
   "theorems": [
    "C12_exact_partial",
    "C12_empty",
    "C12_milliseconds_partial",
    "C12_hex_partial",
    "C12_ipv4_partial",
    "C12_lost_refuted",
    "C12_altered_refuted",
    "C12_ipv4_refuted",
    "C12_overflow_refuted"
   ],
   "note": "Proved for integers, fractions with 1,2,3,6,9 decimals, dates, times, GUID, SHA1, plain strings (letter by letter), milliseconds (hour loses its leading zero), hex (line breaks added), IPv4 (through the chunk interface). Refuted for unsigned 32-bit and large numbers that cannot be stored, non-canonical numbers, small negative fractions, odd hex."
  },
  {
   "property": "C13",
   "status": "partial",
   "theorems": [
    "C13_join_idempotent",
    "C13_join_commutative",
    "C13_join_associative",
    "C13_column_order_partial",
    "C13_only_strings_matter_partial",
    "C13_column_order_refuted"
   ],
   "note": "The algebra of the join holds for all data types. The column type is order independent unless a plain string follows values of incompatible types; that case is refuted."
  },
  {
   "property": "C14",
   "status": "proved",
   "theorems": [
    "C14_smallest_reserve",
    "C14_monotone",
    "C14_not_wasteful",
    "C14_too_long_refuted"
   ],
   "note": "For every length below 2^30 (n+1 is at most 2^30); at 2^30 itself and above the doubling overflows an int (C14_too_long_refuted)."
  },
  {
   "property": "C15",
   "status": "partial",
   "theorems": [
    "C15_aligned_partial",
    "C15_string_partial",
    "C15_refused_only_for_room_partial",
    "C15_string_size_refuted",
    "C15_variant_refuted",
    "C15_wrong_size_refuted",
    "C15_sha1_refuted"
   ],
   "note": "Proved for all aligned types and for strings given their true length or more; refuted for strings with content size 0, VARIANT, wrong sizes and 20-byte SHA1 sources."
  },
  {
   "property": "C16",
   "status": "partial",
   "theorems": [
    "C16_antisymmetric",
    "C16_transitive_partial",
    "C16_zero_means_same_partial",
    "C16_same_means_zero_partial",
    "C16_equal_symmetric",
    "C16_equal_same",
    "C16_equal_text",
    "C16_float_zero_refuted",
    "C16_nan_refuted",
    "C16_blob_refuted"
   ],
   "note": "Antisymmetry proved for all types and contents; transitivity and zero-iff-same for all but NaN / negative zero (refuted); BLOB is never comparable (refuted)."
  },
  {
   "property": "C17",
   "status": "partial",
   "theorems": [
    "C17_history_partial",
    "C17_survives_63_calls",
    "C17_int64_refuted",
    "C17_uint64_refuted",
    "C17_leap_december_refuted",
    "C17_blob_refuted"
   ],
   "note": "Proved for all types except INT64, UINT64 (nonzero), BLOB whose size is no multiple of 3 and December 31 of leap years, each refuted. Assumes printf(%f) writes at most 255 characters."
  },
  {
   "property": "C18",
   "status": "proved",
   "theorems": [
    "C18_string",
    "C18_blob_string",
    "C18_hex_refuted"
   ],
   "note": "STRING and BLOB_STRING of every length. HEX values emit a NUL byte (C18_hex_refuted, outside the property)."
  },
  {
   "property": "C19",
   "status": "proved",
   "theorems": [
    "C19_mergesort"
   ],
   "note": "Arrays of up to 2^30 elements whose size in bytes fits an int (the code computes it in an int); larger arrays overflow."
  },
  {
   "property": "C20",
   "status": "partial",
   "theorems": [
    "C20_permutes_partial",
    "C20_keeps_order_partial",
    "C20_refuted"
   ],
   "note": "Refuted: the pivot is referred to by its slot, whose content the exchanges change. Proved: termination, memory safety, permutation, ordered arrays stay ordered."
  },
  {
   "property": "C21",
   "status": "proved",
   "theorems": [
    "C21_pieces",
    "C21_at_once"
   ],
   "note": "Every message below 2^61 bytes and every cutting, against an independent FIPS 180-4 specification."
  },
  {
   "property": "C22",
   "status": "partial",
   "theorems": [
    "C22_full_reads_partial",
    "C22_prefix_partial",
    "C22_short_read_refuted"
   ],
   "note": "Refuted: the read loop stops at the first short read. Proved for schedules without short reads; otherwise the digest is that of a beginning of the file."
  },
  {
   "property": "C23",
   "status": "partial",
   "theorems": [
    "C23_no_star_partial",
    "C23_sound_partial",
    "C23_complete_partial",
    "C23_tail_star_partial",
    "C23_empty_star_refuted",
    "C23_star_question_refuted",
    "C23_star_in_value_refuted"
   ],
   "note": "Exact for masks without a star; with stars sound and complete when no '?' follows a '*', the value has no '*' and the mask does not end in '*' (a final star wants a character). Three refutations outside of that."
  },
  {
   "property": "C24",
   "status": "proved",
   "theorems": [
    "C24_identifier",
    "C24_unchanged",
    "C24_length"
   ],
   "note": ""
  },
  {
   "property": "C25",
   "status": "partial",
   "theorems": [
    "C25_extension_partial",
    "C25_dot_slash",
    "C25_target_partial",
    "C25_getxb_partial",
    "C25_dir_dot_refuted",
    "C25_overflow_refuted",
    "C25_wsdl_refuted"
   ],
   "note": "Refuted for a last component without a dot below a directory with one, for an over-long target directory and for .wsdl names; proved otherwise."
  },
  {
   "property": "C26",
   "status": "partial",
   "theorems": [
    "C26_sorted_set",
    "C26_find_partial",
    "C26_index",
    "C26_full",
    "C26_typed",
    "C26_et_tecera_refuted"
   ],
   "note": "Strictly ordered table with exactly the registered names and the joined types, for any sequence; lookups return the index holding the name; ids 0..32767; a full table is left alone. Exception, refuted: the name et-tecera is looked up as reserved id -9 (also among attribute names)."
  },
  {
   "property": "C27",
   "status": "proved",
   "theorems": [
    "C27_getID",
    "C27_getSymbol_inverse"
   ],
   "note": "Binary search over any strictly ordered loaded table; getSymbol inverts getID."
  },
  {
   "property": "C28",
   "status": "partial",
   "theorems": [
    "C28_names_inside_partial",
    "C28_negative_types_refuted",
    "C28_outside_file_refuted"
   ],
   "note": "Proved for every byte content when type_count is not negative. Refuted: a negative type_count admits names before the block; the block size is not compared with the file size, so Load may read behind the file."
  },
  {
   "property": "C29",
   "status": "partial",
   "theorems": [
    "C29_same_document_partial",
    "C29_leading_zeros_refuted",
    "C29_column_refuted",
    "C29_hex_attribute_refuted",
    "C29_hex_value_refuted",
    "C29_ipv4_refuted",
    "C29_uint32_refuted",
    "C29_date_attribute_refuted",
    "C29_milliseconds_refuted"
   ],
   "note": "Proved for every tree within the format's limits whose texts are stored exactly (canonical integers of 32 bits, fractions, dates as values, times, GUIDs, SHA-1 sums, plain strings, anything kept as text), read in any state of the text ring. Refuted with concrete documents for the rest: leading zeros, columns widened by other values, hexadecimal attributes (which overwrite their neighbours), IPv4, 3000000000, dates as attributes, milliseconds at odd positions."
  },
  {
   "property": "C30",
   "status": "proved",
   "theorems": [
    "C30_opens"
   ],
   "note": "For every tree within the limits (32768 names, 32767 attributes per element), every file name and every buffer of at most 2 GB that was large enough."
  },
  {
   "property": "C31",
   "status": "partial",
   "theorems": [
    "C31_inside_partial",
    "C31_element_partial",
    "C31_safe_partial",
    "C31_value_refuted",
    "C31_after_text_refuted",
    "C31_damaged_refuted",
    "C31_negative_refuted"
   ],
   "note": "Proved for files whose reachable elements have no negative counts and only attributes stored in their records; for other elements the records and the first text or wide attribute. Missing: values are never checked, after the first text or wide attribute nothing is checked (so nothing of a converted document), and negative counts make the check itself read outside (all refuted by example)."
  },
  {
   "property": "C32",
   "status": "partial",
   "theorems": [
    "C32_ends_partial",
    "C32_forward_partial",
    "C32_single",
    "C32_refuted"
   ],
   "note": "Proved for all files in which no reachable element contains itself, and for the check of single elements; an element that names itself as child makes the check recurse for ever (refuted)."
  },
  {
   "property": "C33",
   "status": "partial",
   "theorems": [
    "C33_attributes_partial",
    "C33_date_refuted",
    "C33_hex_refuted",
    "C33_ipv4_refuted"
   ],
   "note": "Proved for every attribute of every element of documents without hexadecimal attribute texts: empty, text or four converted bytes are delivered. Missing: dates, hexadecimal digits and IPv4 addresses are not delivered (refuted by example)."
  },
  {
   "property": "C34",
   "status": "proved",
   "theorems": [
    "C34_order",
    "C34_content"
   ],
   "note": "For every sequence of appends (each of any size, at any file length) to a converted document whose last child is et-tecera, the client's loop yields the original children and then the appended elements in order: C34_order for any texts (names and counts), C34_content with the whole content for texts that survive conversion (C29). Elements must use names of the document; hexadecimal attributes excluded; the file stays below 2 GiB."
  },
  {
   "property": "C35",
   "status": "partial",
   "theorems": [
    "C35_torn_partial",
    "C35_lost_refuted",
    "C35_endless_refuted"
   ],
   "note": "C35_torn_partial: after any byte prefix of an append the reader sees all earlier appends completely and nothing else. The second half of the claim is false: after a torn append later appends are misread (C35_lost_refuted), or the loop over the children never ends (C35_endless_refuted, one byte written)."
  },
  {
   "property": "C36",
   "status": "partial",
   "theorems": [
    "C36_same_document_partial",
    "C36_any_text_partial",
    "C36_wide_refuted"
   ],
   "note": "For documents in which SHA-1 separates the nodes: with steady texts (as in C29) both images read as the source; with any texts, but no 64-bit or hexadecimal values and no dates as attributes, both images read the same. Refuted with a 64-bit value (C36_wide_refuted)."
  },
  {
   "property": "C37",
   "status": "partial",
   "theorems": [
    "C37_shared_partial",
    "C37_padding_refuted"
   ],
   "note": "The packed image is never longer, and elements with the same bytes in the plain image are one place in the packed image. Refuted: equal source elements that need different padding are stored twice."
  },
  {
   "property": "C38",
   "status": "partial",
   "theorems": [
    "C38_same_value_partial",
    "C38_moved_refuted"
   ],
   "note": "Holds when the packer moves the element by a multiple of 8 bytes. Refuted otherwise: the packer moves nodes by multiples of 4, and the reader looks for the value at the next multiple of 8."
  },
  {
   "property": "C39",
   "status": "partial",
   "theorems": [
    "C39_bound_partial",
    "C39_refuted"
   ],
   "note": "Refuted: 250 elements <a/> overflow the buffer of 1024 + 4 * source bytes. Proved instead: 1024 + file name + 8 * source bytes always hold the image."
  },
  {
   "property": "C40",
   "status": "proved",
   "theorems": [
    "C40_blocks",
    "C40_zero",
    "C40_zero8",
    "C40_element"
   ],
   "note": ""
  },
  {
   "property": "C41",
   "status": "proved",
   "theorems": [
    "C41_iterate",
    "C41_add",
    "C41_join"
   ],
   "note": ""
  },
  {
   "property": "C42",
   "status": "proved",
   "theorems": [
    "C42_add",
    "C42_join"
   ],
   "note": "Assumes that the other process sees the stores in program order (the code has no barriers)."
  },
  {
   "property": "C43",
   "status": "partial",
   "theorems": [
    "C43_remove",
    "C43_replace_partial",
    "C43_only_child_refuted",
    "C43_only_child_always_refuted"
   ],
   "note": "Full for remove. replace is proved for lists of two and more; for an only child C43_only_child_refuted shows that iteration never ends afterwards."
  },
  {
   "property": "C44",
   "status": "partial",
   "theorems": [
    "C44_int32_partial",
    "C44_int64_partial",
    "C44_string_partial",
    "C44_returned_refuted",
    "C44_endless_refuted",
    "C44_time_refuted",
    "C44_sha1_partial",
    "C44_sha1_clear",
    "C44_sha1_null_refuted",
    "C44_unread_refuted"
   ],
   "note": "tagSetInt32, tagSetInt64 (INT64, UNIX_TIME64_MSEC), tagSetString and tagSetSHA1, on any reachable pool: the value is read back, lists and other elements are unchanged. Excluded and refuted: an only child stored with another type is replaced and the list then never ends; the returned element after a replacement is the removed one; tagSetTime overwrites the element behind; tagSetSHA1 reads a null digest when there is no child yet; UINT64 and DOUBLE tags store the value but getInt64 of it is null."
  },
  {
   "property": "C45",
   "status": "partial",
   "theorems": [
    "C45_known_partial",
    "C45_tag_partial",
    "C45_param_partial",
    "C45_tag_room",
    "C45_param_room",
    "C45_refuted"
   ],
   "note": "Proved for every history of registrations, allocations, stores, indexing and clearing of a pool with at most 128 names per table: lookups by name and id, types, density, refusal only for lack of space. Refuted beyond 128 names (two different names get id 128)."
  },
  {
   "property": "C46",
   "status": "partial",
   "theorems": [
    "C46_refuted"
   ],
   "note": "Refuted for every pool without names: registerTag(id,...) and registerAttr always fail there."
  },
  {
   "property": "C47",
   "status": "partial",
   "theorems": [
    "C47_partial",
    "C47_refuted"
   ],
   "note": "Proved whenever Clear reports success, for every history. Refuted in general: Clear fails and damages the dictionary when the tag table lies between 92 and the place where the tables must go."
  },
  {
   "property": "C48",
   "status": "partial",
   "theorems": [
    "C48_create_partial",
    "C48_create_refuted",
    "C48_grow_partial",
    "C48_grow_refuted"
   ],
   "note": "Proved for the crash points at the end of creating and enlarging; refuted for the others (never opened again, or opened with a phantom attribute)."
  },
  {
   "property": "C49",
   "status": "partial",
   "theorems": [
    "C49_partial",
    "C49_refuted"
   ],
   "note": "Proved for destruction in reverse order of construction; refuted for other orders (memmove is given a count of pointers as bytes)."
  },
  {
   "property": "C50",
   "status": "partial",
   "theorems": [
    "C50_partial",
    "C50_refuted",
    "C50_overwritten_refuted"
   ],
   "note": "C50_partial: with enough room every source whose text attributes are empty is converted and read back whole (no UNIX_DATE attributes, no IPv6 element values). C50_refuted: every element with one text attribute of at least three characters is converted without an error and its text is cut off at the end of the image. C50_overwritten_refuted: the second of two texts overwrites the first. The walk over the pool that delivers the source is in C63."
  },
  {
   "property": "C51",
   "status": "partial",
   "theorems": [
    "C51_space_partial",
    "C51_align8_refuted"
   ],
   "note": "Full for allocate; for allocate8 proved when n is a multiple of eight, C51_align8_refuted shows a failure otherwise."
  },
  {
   "property": "C52",
   "status": "partial",
   "theorems": [
    "C52_tokens_partial",
    "C52_parent_refuted"
   ],
   "note": "Proved for all texts and array sizes: tokens inside the text, parents before children, spans nested or disjoint. 'Inside the parent' is refuted: {}:1."
  },
  {
   "property": "C53",
   "status": "proved",
   "theorems": [
    "C53_count"
   ],
   "note": "For every text shorter than 2^31 bytes."
  },
  {
   "property": "C54",
   "status": "proved",
   "theorems": [
    "C54_tree"
   ],
   "note": "For every JSON value; primitives are runs of letters, digits, + - ."
  },
  {
   "property": "C55",
   "status": "partial",
   "theorems": [
    "C55_json_partial",
    "C55_refuted"
   ],
   "note": "Refuted for texts the tokenizer accepts ({\"a\"}, blank, unclosed string); proved for every well-formed JSON text."
  },
  {
   "property": "C56",
   "status": "partial",
   "theorems": [
    "C56_names_partial",
    "C56_one_name",
    "C56_empty_key_refuted",
    "C56_item_name"
   ],
   "note": "Every element of every opened source; refuted for items of an array with an empty key (byte before the buffer is read)."
  },
  {
   "property": "C57",
   "status": "proved",
   "theorems": [
    "C57_string_pieces",
    "C57_blob_string_pieces"
   ],
   "note": "STRING and BLOB_STRING."
  },
  {
   "property": "C58",
   "status": "partial",
   "theorems": [
    "C58_value",
    "C58_missing",
    "C58_attribute_partial",
    "C58_marker_refuted",
    "C58_column_refuted"
   ],
   "note": "Proved for all 2^32 element values with both getters and for missing values with the pointer getter; for attributes if all attributes of that name are integers. The plain getter cannot tell -134217728 from missing, and an integer in a column with fractions reads as missing (refuted)."
  },
  {
   "property": "C59",
   "status": "proved",
   "theorems": [
    "C59_field",
    "C59_word",
    "C59_bounded",
    "C59_eat_end"
   ],
   "note": ""
  },
  {
   "property": "C60",
   "status": "partial",
   "theorems": [
    "C60_tree_partial"
   ],
   "note": "For JSON values in which no non-empty array has an empty key."
  },
  {
   "property": "C61",
   "status": "partial",
   "theorems": [
    "C61_history",
    "C61_register",
    "C61_index"
   ],
   "note": "Histories without registering more than 128 names per table, replacing an only child, or a Clear that reports failure (these are refuted under C45, C43 and C47)."
  },
  {
   "property": "C62",
   "status": "partial",
   "theorems": [
    "C62_partial",
    "C62_succeeds",
    "C62_refused",
    "C62_hidden_refuted",
    "C62_time_refuted"
   ],
   "note": "Proved for every pool history and every call that is implemented: position, lookup of the first one of a name, value by getData and getters, everything else unchanged, refusals, and success whenever the mapping has space and the disk has room. Refuted: a second value of a name is never found, and getTime delivers another time after the next attribute. Missing: values given by shorter memory than the call reads."
  },
  {
   "property": "C63",
   "status": "partial",
   "theorems": [
    "C63_partial",
    "C63_builtin_refuted"
   ],
   "note": "Proved for every pool history with indexed names, trees of any size, all types the converter supports, and the buffer the program reserves. Missing: what the converter cannot do with any source (C50), sizes overflowing an int. Refuted for built-in names, which become NULL."
  },
  {
   "property": "C64",
   "status": "partial",
   "theorems": [
    "C64_partial",
    "C64_packed_partial",
    "C64_grown_partial",
    "C64_escape_refuted",
    "C64_quote_refuted",
    "C64_guid_refuted",
    "C64_stale_refuted",
    "C64_end_mark_refuted"
   ],
   "note": "Proved for converted, packed and appended documents whose names are XML names and whose texts survive the conversion (C29) and need no entities; for every content of the printer's buffer. What is missing is refuted: nothing is escaped, GUIDs lose their dashes, 64-bit numbers are followed by old bytes of the buffer, children behind one named et-tecera are not printed."
  },
  {
   "property": "C65",
   "status": "partial",
   "theorems": [
    "C65_pool_partial",
    "C65_hex_refuted",
    "C65_wide_refuted",
    "C65_text_value_refuted",
    "C65_text_children_refuted",
    "C65_text_partial"
   ],
   "note": "Proved for pools after any history whose values are of the types with a faithful text (strings, integers, scaled integers, floats, times, dates, IPv4, GUID, SHA-1, BLOB, BLOB_STRING) and whose names are XML names. What is missing is refuted: HEX values put a NUL byte into the output; DOUBLE and IPv6 values end the process; sources of texts lose values and abort on elements with children. VARIANT values do not exist in pools."
  },
  {
   "property": "C66",
   "status": "partial",
   "theorems": [
    "C66_partial",
    "C66_succeeds",
    "C66_refused",
    "C66_null_refuted",
    "C66_variant_refuted",
    "C66_time_refuted"
   ],
   "note": "Proved for all calls and types incl. success whenever the file can grow and refusal of other types; tag() for names with a type, tagInt32 and getTime for names of any type are refuted."
  },
  {
   "property": "C67",
   "status": "partial",
   "theorems": [
    "C67_partial",
    "C67_texts_partial",
    "C67_text_refuted",
    "C67_complete",
    "C67_refused",
    "C67_other_name",
    "C67_refuted",
    "C67_type_refuted",
    "C67_room_refuted"
   ],
   "note": "For every history of the pool: the copy consists of the item's attributes and of children in their order, and the rest is unchanged (C67_partial), also if texts become values of the types of the pool (C67_texts_partial); it is complete if types fit and there is room (C67_complete); other elements are refused (C67_refused, C67_other_name). Missing: texts with reserve, texts that become dates, importing dictionaries. The code violates the last sentence: children are left out silently (C67_refuted, C67_type_refuted), attributes get no room (C67_room_refuted), texts that are no numbers become 0 (C67_text_refuted)."
  },
  {
   "property": "C68",
   "status": "partial",
   "theorems": [
    "C68_tags_partial",
    "C68_params_partial",
    "C68_new_tags",
    "C68_new_params",
    "C68_agrees",
    "C68_refuted",
    "C68_skipped_refuted"
   ],
   "note": "The import is proved to add names in order with the right ids and to change no element, for every history; all names with the document's ids if the table was empty and there is room. Refuted: names without room are left out without notice; importing nothing into a new pool makes later registrations forget names. Restricted to 128 names, as C45."
  },
  {
   "property": "C69",
   "status": "partial",
   "theorems": [
    "C69_partial",
    "C69_copied",
    "C69_many",
    "C69_refuted"
   ],
   "note": "Keys are compared exactly, up to 16 of them, and copied keys are found equal, for all documents, choices of keys and histories of the pool. Refuted for 17 keys: an element is not equal to its own copy."
  },
  {
   "property": "C70",
   "status": "partial",
   "theorems": [
    "C70_partial",
    "C70_name_refuted",
    "C70_content_refuted",
    "C70_disk_refuted"
   ],
   "note": "The copy of a path keeps all that was in the pool but for one new child, returns an element with the keys of the last item (with its content if it is new), and is idempotent, for all documents, paths, choices of keys and histories. Refuted: names are not compared, an existing element is not completed, a full disk is a null pointer followed."
  },
  {
   "property": "C71",
   "status": "partial",
   "theorems": [
    "C71_partial",
    "C71_names_refuted",
    "C71_crash_refuted",
    "C71_exit_refuted",
    "C71_large_refuted",
    "C71_reserved_refuted"
   ],
   "note": "Every successful conversion gives a sound pool whose root mirrors the document (order, numbers of names, types, converted texts). The code violates the rest: names are lost, valueless elements crash, some types end the process, large sources are refused, the reserved name is dropped (refuted theorems)."
  },
  {
   "property": "C72",
   "status": "partial",
   "theorems": [
    "C72_before",
    "C72_after",
    "C72_all",
    "C72_ways_partial",
    "C72_converted",
    "C72_converted_laid",
    "C72_deep_refuted",
    "C72_cycle_refuted"
   ],
   "note": "Order, depths, completeness and the way in the array are proved for all trees and for all converted documents; below level 1024 the way is not delivered, and cyclic files are traversed for ever (refuted theorems)."
  },
  {
   "property": "C73",
   "status": "partial",
   "theorems": [
    "C73_partial",
    "C73_named",
    "C73_sha1_refuted",
    "C73_sha1_read_refuted",
    "C73_hex_refuted",
    "C73_blob_refuted",
    "C73_text_refuted",
    "C73_nan_refuted"
   ],
   "note": "First match and completeness for the types with a fixed size and texts, for attributes of one type; SHA-1, HEX, BLOB, BLOB_STRING and NaN are refuted."
  },
  {
   "property": "C74",
   "status": "partial",
   "theorems": [
    "C74_partial",
    "C74_works",
    "C74_order_refuted",
    "C74_children_refuted",
    "C74_attribute_refuted",
    "C74_type_refuted",
    "C74_full_refuted"
   ],
   "note": "Proved for children with a registered name: which of the three cases happens and exactly what changes. The place among the siblings, the children, attributes, refused types and a full disk are refuted."
  },
  {
   "property": "C75",
   "status": "partial",
   "theorems": [
    "C75_partial",
    "C75_total",
    "C75_tags",
    "C75_params",
    "C75_names_total",
    "C75_text_refuted",
    "C75_value_refuted"
   ],
   "note": "Proved: exactly when elements and names get another type, and that exactly this changes. A blob that becomes a text and the values under an altered name are refuted."
  },
  {
   "property": "C76",
   "status": "partial",
   "theorems": [
    "C76_partial",
    "C76_order_refuted",
    "C76_type_refuted",
    "C76_buffer_refuted",
    "C76_string_refuted",
    "C76_escape_refuted"
   ],
   "note": "Proved for values that survive (C29), with and without all names according to the order of evaluation; refuted: with the name computed first all elements with values lose their names, with the value first the types of names are wrong; many small objects overflow the buffer; strings and numbers are not told apart, escapes stay."
  },
  {
   "property": "C77",
   "status": "partial",
   "theorems": [
    "C77_made_partial",
    "C77_succeeds",
    "C77_only",
    "C77_slash_refuted",
    "C77_file_refuted"
   ],
   "note": "Success is proved for any actions of others; missing because the code violates it: the last name without a slash behind it, and a file instead of the directory (refuted)."
  },
  {
   "property": "C78",
   "status": "partial",
   "theorems": [
    "C78_scan_partial",
    "C78_errno_refuted",
    "C78_open_refuted"
   ],
   "note": "The calls are proved for all callbacks; missing because the code violates it: the directory stays open after an error, and an errno left by the callback is an error (refuted)."
  },
  {
   "property": "C79",
   "status": "partial",
   "theorems": [
    "C79_partial",
    "C79_whole_partial",
    "C79_null",
    "C79_buffer_partial",
    "C79_empty_refuted",
    "C79_size_refuted",
    "C79_terminator_refuted"
   ],
   "note": "Proved whenever memory is returned; missing because the code violates it: empty files, the size with a null result, the terminator of a full buffer (refuted)."
  },
  {
   "property": "C80",
   "status": "partial",
   "theorems": [
    "C80_source",
    "C80_target_partial",
    "C80_given_partial",
    "C80_nothing",
    "C80_unknown_refuted",
    "C80_no_destination_refuted",
    "C80_itself_refuted"
   ],
   "note": "Proved for all names of known kinds; missing because the code violates it: unknown kinds and a missing destination are undefined behaviour (refuted)."
  },
  {
   "property": "C81",
   "status": "partial",
   "theorems": [
    "C81_partial",
    "C81_markup_refuted"
   ],
   "note": "Proved for documents whose texts need no entities; missing because the code violates it: markup characters are not escaped (refuted)."
  },
  {
   "property": "C82",
   "status": "partial",
   "theorems": [
    "C82_partial",
    "C82_succeeds",
    "C82_hex_refuted",
    "C82_size_refuted",
    "C82_failed_refuted"
   ],
   "note": "For texts of all types but HEX with the size the library computes. Refuted for HEX, for sizes that are too small, and for the effect of a failed call."
  },
  {
   "property": "C83",
   "status": "partial",
   "theorems": [
    "C83_partial",
    "C83_word",
    "C83_no_word",
    "C83_int32",
    "C83_int32_undefined",
    "C83_no_int32",
    "C83_int64",
    "C83_int64_undefined",
    "C83_no_int64",
    "C83_unsigned",
    "C83_hex",
    "C83_text",
    "C83_line",
    "C83_last_line",
    "C83_least_refuted",
    "C83_wrapped_refuted",
    "C83_hex_refuted",
    "C83_buffer_refuted",
    "C83_column_refuted"
   ],
   "note": "Every scanner is characterised for all texts (C83_word, C83_int32, ..., C83_text, C83_line), and tables of lines of items are read back for all lists of items. Missing because the code violates it: the least number of a type, unsigned numbers beyond 64 bits, 0 before an x, a buffer of size 0, empty columns separated by blanks (all refuted)."
  },
  {
   "property": "C84",
   "status": "partial",
   "theorems": [
    "C84_equal",
    "C84_fits",
    "C84_full",
    "C84_partial",
    "C84_null_refuted",
    "C84_nul_refuted"
   ],
   "note": "streq in full. StrWrite for texts with a limit; without a limit the source position is lost, and data with a NUL are not copied (refuted)."
  },
  {
   "property": "C85",
   "status": "partial",
   "theorems": [
    "C85_partial",
    "C85_no_failure",
    "C85_values",
    "C85_inverted_refuted",
    "C85_all_pass_refuted",
    "C85_never_true_refuted",
    "C85_verdict_refuted",
    "C85_guid_refuted",
    "C85_short_refuted"
   ],
   "note": "The count of failures of one value is right in both directions for all types and texts. The verdict over several values violates the property: it is inverted (refuted); GUIDs with dashes and short texts are refuted too."
  },
  {
   "property": "C86",
   "status": "partial",
   "theorems": [
    "C86_balanced_partial",
    "C86_nothing_left",
    "C86_reads",
    "C86_writes",
    "C86_failed",
    "C86_reading",
    "C86_existing",
    "C86_zero_refuted",
    "C86_new_refuted",
    "C86_text",
    "C86_stays_open_refuted"
   ],
   "note": "Proved for all histories of a process with a standard input, and for texts that are written. Missing because the code violates it: descriptor 0 is not closed, a new file has no length, a file stays open after a failed print (refuted)."
  },
  {
   "property": "C87",
   "status": "partial",
   "theorems": [
    "C87_signed_partial",
    "C87_unsigned_partial",
    "C87_signed_different",
    "C87_unsigned_different",
    "C87_series",
    "C87_repeated_refuted",
    "C87_bit_refuted"
   ],
   "note": "Range and injectivity in the draws are proved. Missing because the code violates it: numbers of a series may repeat, and bit 31 of genU64 is not drawn (refuted)."
  },
  {
   "property": "C88",
   "status": "partial",
   "theorems": [
    "C88_requests",
    "C88_hex_partial",
    "C88_blob_partial",
    "C88_wrap_refuted"
   ],
   "note": "Proved for HEX values up to 1041200000 bytes and BLOBs up to 1610000000 bytes, after any history of requests. Missing because the code violates it: the room wraps for larger HEX values (refuted)."
  },
  {
   "property": "C89",
   "status": "partial",
   "theorems": [
    "C89_partial",
    "C89_order",
    "C89_passes",
    "C89_survives",
    "C89_converted",
    "C89_comment_refuted",
    "C89_cdata_refuted",
    "C89_cut_refuted",
    "C89_reference_refuted",
    "C89_crash_refuted",
    "C89_prefix_refuted",
    "C89_space_refuted"
   ],
   "note": "Proved for documents of any size in which the character data of each element is one text in front, attributes have no prefix and no references, and name spaces are declared by elements that belong to one; the order of the pass over all elements; exactly which trees are survived; the whole conversion for documents as in C29. Missing because the code violates it: comments and CDATA in front, references, prefixes, declared name spaces, attributes without nodes (refuted)."
  },
  {
   "property": "C90",
   "status": "partial",
   "theorems": [
    "C90_one_partial",
    "C90_test",
    "C90_empty",
    "C90_pool_partial",
    "C90_refuted",
    "C90_first",
    "C90_pool_refuted"
   ],
   "note": "Proved for one file, and for pools up to 1431644842 bytes. Missing because the code violates it: further files are not converted, larger pools get a negative size (refuted)."
  },
  {
   "property": "C91",
   "status": "partial",
   "theorems": [
    "C91_partial",
    "C91_source",
    "C91_escape_refuted",
    "C91_behind_refuted",
    "C91_blank_refuted",
    "C91_pool_partial"
   ],
   "note": "Proved for texts the specification's reader accepts (no comments, CDATA, doctype, name spaces) that are laid out with values in front of the children, with values as in C29 and printable as in C64; libxml2's tree is taken to be that of the reader. Missing because the code violates it: escaped characters, values behind children, white space (refuted), and what C29, C64, C71 and C89 refute."
  },
  {
   "property": "C92",
   "status": "partial",
   "theorems": [
    "C92_refuted",
    "C92_lost_refuted",
    "C92_partial"
   ],
   "note": "Refuted for every text: no conversion reports success, and a pool that stood in the file is emptied. Proved: the file is unchanged if the text is refused."
  },
  {
   "property": "C93",
   "status": "partial",
   "theorems": [
    "C93_value_partial",
    "C93_attribute_partial",
    "C93_other_partial",
    "C93_now_partial",
    "C93_attribute_refuted",
    "C93_value_refuted"
   ],
   "note": "Refuted for numbers stored as texts: the pointers point to static variables, which the next call overwrites or, for 32-bit values of elements, never sets again. Proved for converted 32-bit integers whatever is called later, and for all files until the same getter is called again."
  },
  {
   "property": "C94",
   "status": "partial",
   "theorems": [
    "C94_partial",
    "C94_new_partial"
   ],
   "note": "Proved for every history of a pool with at most 128 names in each table. Missing: pools with more names; a new file asked for in place of a pool whose maximal size is below the initial size."
  },
  {
   "property": "C95",
   "status": "partial",
   "theorems": [
    "C95_partial",
    "C95_all_partial",
    "C95_index_refuted",
    "C95_attributes_refuted"
   ],
   "note": "Refuted for tables without an index, where every registration is refused, and for pools without attributes, where allRegistered reports success whatever was refused. Proved for tables with indices whose types are types of the library."
  },
  {
   "property": "C96",
   "status": "partial",
   "theorems": [
    "C96_partial",
    "C96_short_refuted"
   ],
   "note": "Refuted for files shorter than a header, which are replaced by an empty pool; proved for all others."
  },
  {
   "property": "C97",
   "status": "partial",
   "theorems": [
    "C97_elements",
    "C97_attributes_partial",
    "C97_attributes_refuted"
   ],
   "note": "Elements proved for everything below an element that is a finite tree. Attributes refuted for elements that have none, in pools below 2019522954 bytes; proved for all others. The names and texts handed over with attributes are not part of it."
  },
  {
   "property": "C98",
   "status": "partial",
   "theorems": [
    "C98_space",
    "C98_empty_partial",
    "C98_names",
    "C98_index_refuted"
   ],
   "note": "Refuted where the tags have an index, which counts as data; proved that the size covers all elements and that it is zero in a pool in which nothing was allocated."
  },
  {
   "property": "C99",
   "status": "partial",
   "theorems": [
    "C99_partial",
    "C99_refuted"
   ],
   "note": "Refuted: the check looks at nothing and always succeeds. Proved only that it succeeds where it should."
  },
  {
   "property": "C100",
   "status": "partial",
   "theorems": [
    "C100_add_partial",
    "C100_join_partial",
    "C100_remove_partial",
    "C100_replace_partial"
   ],
   "note": "Proved for pools with at most 128 names in a table. The stores are those of the source, in its order; what a compiler or a machine that loses power makes of them is not modelled."
  },
  {
   "property": "C101",
   "status": "partial",
   "theorems": [
    "C101_first_partial",
    "C101_later_refuted"
   ],
   "note": "Refuted for every parent that had children already; proved for first children."
  },
  {
   "property": "C102",
   "status": "partial",
   "theorems": [
    "C102_remove_partial",
    "C102_replace_partial",
    "C102_remove_first_refuted",
    "C102_replace_first_refuted"
   ],
   "note": "Refuted for the first of several children; proved for all others, except replaced attributes that are the only one, where the finished operation is wrong already (C43)."
  },
  {
   "property": "C103",
   "status": "partial",
   "theorems": [
    "C103_id",
    "C103_tables_partial",
    "C103_tables_refuted"
   ],
   "note": "Proved for the identification and for empty tables; refuted for every table with names."
  },
  {
   "property": "C104",
   "status": "partial",
   "theorems": [
    "C104_root_partial",
    "C104_builtin_partial",
    "C104_file_partial",
    "C104_unknown_refuted"
   ],
   "note": "Refuted for roots that are attributes or whose tag is not registered; a root that is the first thing in the pool is reported by the name of the file."
  },
  {
   "property": "C105",
   "status": "partial",
   "theorems": [
    "C105_stores",
    "C105_before_partial",
    "C105_end_partial",
    "C105_torn_refuted"
   ],
   "note": "Proved until the number of names is raised and at the end; refuted in between. Missing: tables with more than 128 names."
  },
  {
   "property": "C106",
   "status": "partial",
   "theorems": [
    "C106_again_partial",
    "C106_first_refuted"
   ],
   "note": "Proved for tables with names until their number is raised; refuted for the first name of a table."
  },
  {
   "property": "C107",
   "status": "partial",
   "theorems": [
    "C107_stores",
    "C107_stores_bare",
    "C107_calls",
    "C107_partial",
    "C107_end_partial",
    "C107_grow_refuted"
   ],
   "note": "Proved for every store that leaves the length of the file and for the end; refuted for two stores when the pool is enlarged."
  }
 ]
}