{
 "claims": [
  {
   "property": "C01",
   "status": "proved",
   "theorems": [
    "C01_sub",
    "C01_sub_of_invalid"
   ],
   "note": ""
  },
  {
   "property": "C02",
   "status": "proved",
   "theorems": [
    "C02_find_first",
    "C02_find_first_nocase",
    "C02_find_first_cstr",
    "C02_find_first_invalid"
   ],
   "note": ""
  },
  {
   "property": "C03",
   "status": "proved",
   "theorems": [
    "C03_find_last",
    "C03_find_last_nocase",
    "C03_find_last_cstr"
   ],
   "note": "Needs a flat address space (c_ptr): see C62 for the strict reading."
  },
  {
   "property": "C04",
   "status": "proved",
   "theorems": [
    "C04_contains",
    "C04_contains_nocase"
   ],
   "note": ""
  },
  {
   "property": "C05",
   "status": "proved",
   "theorems": [
    "C05_trim_start",
    "C05_trim_end",
    "C05_trim",
    "C05_trim_of_invalid",
    "C05_trim_cstr"
   ],
   "note": ""
  },
  {
   "property": "C06",
   "status": "proved",
   "theorems": [
    "C06_is_match",
    "C06_is_match_nocase",
    "C06_is_match_cstr"
   ],
   "note": ""
  },
  {
   "property": "C07",
   "status": "partial",
   "theorems": [
    "C07_invalid_matches_empty_refuted",
    "C07_invalid_never_matches_partial"
   ],
   "note": "Refuted as documented: an invalid view matches a valid empty view. The _partial theorem gives the exact behaviour (false exactly for non-empty views; needs memcmp(NULL,_,0) to be allowed)."
  },
  {
   "property": "C08",
   "status": "proved",
   "theorems": [
    "C08_starts_with",
    "C08_starts_with_nocase",
    "C08_starts_with_cstr"
   ],
   "note": ""
  },
  {
   "property": "C09",
   "status": "proved",
   "theorems": [
    "C09_compare",
    "C09_compare_order"
   ],
   "note": ""
  },
  {
   "property": "C10",
   "status": "proved",
   "theorems": [
    "C10_split_first_delim",
    "C10_split_first_delim_invalid"
   ],
   "note": ""
  },
  {
   "property": "C11",
   "status": "proved",
   "theorems": [
    "C11_split_last_delim"
   ],
   "note": "Needs a flat address space (c_ptr): see C63 for the strict reading. With exclude_quotes the quotes are counted from the end of the view."
  },
  {
   "property": "C12",
   "status": "proved",
   "theorems": [
    "C12_split_all",
    "C12_split_all_fields_determined"
   ],
   "note": ""
  },
  {
   "property": "C13",
   "status": "proved",
   "theorems": [
    "C13_split_index"
   ],
   "note": ""
  },
  {
   "property": "C14",
   "status": "proved",
   "theorems": [
    "C14_split_left",
    "C14_split_right",
    "C14_split_outside",
    "C14_split_invalid"
   ],
   "note": ""
  },
  {
   "property": "C15",
   "status": "proved",
   "theorems": [
    "C15_pop_first_char",
    "C15_pop_first_char_empty",
    "C15_pop_all_chars"
   ],
   "note": ""
  },
  {
   "property": "C16",
   "status": "proved",
   "theorems": [
    "C16_split_line",
    "C16_next_line_meaning",
    "C16_split_line_empty"
   ],
   "note": ""
  },
  {
   "property": "C17",
   "status": "proved",
   "theorems": [
    "C17_stream",
    "C17_lines_determined",
    "C17_step_total"
   ],
   "note": ""
  },
  {
   "property": "C18",
   "status": "partial",
   "theorems": [
    "C18_pending_refuted",
    "C18_split_line_modifies_refuted",
    "C18_split_line_unmodified_partial"
   ],
   "note": "Refuted: with a pending half terminator the source is modified although no line is found. The _partial theorem proves it for eol NULL or *eol = 0. C18_pending_refuted: fails for every source that begins with the second half of a terminator and has no other."
  },
  {
   "property": "C19",
   "status": "proved",
   "theorems": [
    "C19_dequote",
    "C19_dequote_invalid"
   ],
   "note": ""
  },
  {
   "property": "C20",
   "status": "partial",
   "theorems": [
    "C20_equal_ends_refuted",
    "C20_dequote_strips_letters_refuted",
    "C20_unquoted_partial"
   ],
   "note": "Refuted: \"aba\" becomes \"b\". Partial: a view whose first and last characters differ is returned unchanged. C20_equal_ends_refuted: every text of two or more characters with equal ends is shortened."
  },
  {
   "property": "C21",
   "status": "proved",
   "theorems": [
    "C21_to_cstr",
    "C21_to_cstr_nothing",
    "C21_to_cstr_invalid"
   ],
   "note": ""
  },
  {
   "property": "C22",
   "status": "proved",
   "theorems": [
    "C22_cstr",
    "C22_cstr_null",
    "C22_cstr_round_trip"
   ],
   "note": ""
  },
  {
   "property": "C23",
   "status": "proved",
   "theorems": [
    "C23_unsigned"
   ],
   "note": ""
  },
  {
   "property": "C24",
   "status": "proved",
   "theorems": [
    "C24_signed",
    "C24_rest_is_view"
   ],
   "note": ""
  },
  {
   "property": "C25",
   "status": "proved",
   "theorems": [
    "C25_error_writes_nothing",
    "C25_float_error_writes_nothing",
    "C25_error_codes"
   ],
   "note": ""
  },
  {
   "property": "C26",
   "status": "proved",
   "theorems": [
    "C26_default",
    "C26_default_of_invalid",
    "C26_float_default"
   ],
   "note": ""
  },
  {
   "property": "C27",
   "status": "proved",
   "theorems": [
    "C27_printed_parses",
    "C27_decimal_round_trip"
   ],
   "note": ""
  },
  {
   "property": "C28",
   "status": "partial",
   "theorems": [
    "C28_binary_digits_refuted",
    "C28_binary_digits_partial",
    "C28_every_text",
    "C28_every_default",
    "C28_same_grammar"
   ],
   "note": "Refuted: bytes 0xB0 and 0xB1 are accepted as 0 and 1. The _partial theorem gives the value of every binary text, with these two bytes counted as digits. C28_every_text and C28_every_default: the exact behaviour on every text, without the assumption on the bytes 0xB0/0xB1 that C23-C26 make."
  },
  {
   "property": "C29",
   "status": "proved",
   "theorems": [
    "C29_float_grammar",
    "C29_every_text"
   ],
   "note": "C29_every_text: without the assumption on the misspelt word."
  },
  {
   "property": "C30",
   "status": "partial",
   "theorems": [
    "C30_exact_value_partial",
    "C30_exact_value_refuted",
    "C30_any_length_partial"
   ],
   "note": "Refuted for integral parts of three or more 19/20 digit chunks (the text of 1e40). The _partial theorem covers every text whose integral part is below 10^38, any number of fraction digits, any exponent. C30_any_length_partial: every text, exactly; right with at most two chunks, otherwise over nine times too large."
  },
  {
   "property": "C31",
   "status": "partial",
   "theorems": [
    "C31_inf_nan_partial",
    "C31_infinity_refuted",
    "C31_misspelt"
   ],
   "note": "Refuted: \"infinity\" is matched as \"infinty\"; inity is left in the source. The _partial theorem covers inf and nan. C31_misspelt: exactly what the misspelt word does."
  },
  {
   "property": "C32",
   "status": "partial",
   "theorems": [
    "C32_infinite_power_refuted",
    "C32_finite_power_partial",
    "C32_zero_mantissa_refuted"
   ],
   "note": "Refuted: \"0e400\" stores NaN and reports success. The _partial theorem: zero is stored whenever the power of ten is finite. C32_infinite_power_refuted: every zero whose power of ten is infinite gives NaN, any format."
  },
  {
   "property": "C33",
   "status": "partial",
   "theorems": [
    "C33_null_float_always_refuted",
    "C33_null_integers",
    "C33_null_double_partial",
    "C33_null_float_refuted"
   ],
   "note": "Refuted for float (the NULL source is written through). Proved for every integer type and for double/long double. C33_null_float_always_refuted: for every format and power function."
  },
  {
   "property": "C34",
   "status": "proved",
   "theorems": [
    "C34_create_empty",
    "C34_create_init",
    "C34_create_none"
   ],
   "note": ""
  },
  {
   "property": "C35",
   "status": "proved",
   "theorems": [
    "C35_create_fixed",
    "C35_create_fixed_none",
    "C35_static"
   ],
   "note": ""
  },
  {
   "property": "C36",
   "status": "proved",
   "theorems": [
    "C36_append",
    "C36_prepend",
    "C36_insert_at_index",
    "C36_append_char",
    "C36_cstr",
    "C36_fits"
   ],
   "note": "Needs a flat address space or a source in the same object as the buffer (comparable): see C66. A C string argument may also lie inside the buffer."
  },
  {
   "property": "C37",
   "status": "proved",
   "theorems": [
    "C37_insert_before",
    "C37_insert_after",
    "C37_elsewhere",
    "C37_cstr"
   ],
   "note": ""
  },
  {
   "property": "C38",
   "status": "proved",
   "theorems": [
    "C38_assign"
   ],
   "note": ""
  },
  {
   "property": "C39",
   "status": "proved",
   "theorems": [
    "C39_cat",
    "C39_cat_fixed_self"
   ],
   "note": ""
  },
  {
   "property": "C40",
   "status": "proved",
   "theorems": [
    "C40_insert_overflow",
    "C40_insert_at_view_overflow",
    "C40_assign_overflow",
    "C40_cat_overflow",
    "C40_char_overflow",
    "C40_formatted_overflow",
    "C40_never_truncated"
   ],
   "note": ""
  },
  {
   "property": "C41",
   "status": "proved",
   "theorems": [
    "C41_too_long",
    "C41_cat_too_long"
   ],
   "note": "With wrapping int arithmetic (c_wrapv); see C69 for strict ISO C."
  },
  {
   "property": "C42",
   "status": "proved",
   "theorems": [
    "C42_invariant"
   ],
   "note": "For every program of buffer calls that respects the documented preconditions (HistSpec.legal); formatter errors are excluded, see C51."
  },
  {
   "property": "C43",
   "status": "proved",
   "theorems": [
    "C43_refinement",
    "C43_placement_irrelevant"
   ],
   "note": ""
  },
  {
   "property": "C44",
   "status": "proved",
   "theorems": [
    "C44_local"
   ],
   "note": ""
  },
  {
   "property": "C45",
   "status": "proved",
   "theorems": [
    "C45_capacity",
    "C45_shrink_grow"
   ],
   "note": ""
  },
  {
   "property": "C46",
   "status": "proved",
   "theorems": [
    "C46_ownership",
    "C46_destroy"
   ],
   "note": ""
  },
  {
   "property": "C47",
   "status": "proved",
   "theorems": [
    "C47_to_cstr"
   ],
   "note": ""
  },
  {
   "property": "C48",
   "status": "proved",
   "theorems": [
    "C48_strip",
    "C48_strip_cstr",
    "C48_strip_invalid",
    "C48_without"
   ],
   "note": ""
  },
  {
   "property": "C49",
   "status": "partial",
   "theorems": [
    "C49_strip_own_text_refuted",
    "C49_strip_own",
    "C49_loses_the_rest",
    "C49_strip_own_partial"
   ],
   "note": "Refuted: stripping \"abc\" of its own first two characters gives \"\" instead of \"c\". C49_strip_own gives the exact result for every set inside the buffer; C49_strip_own_partial says when it is the documented one."
  },
  {
   "property": "C50",
   "status": "proved",
   "theorems": [
    "C50_printf"
   ],
   "note": ""
  },
  {
   "property": "C51",
   "status": "partial",
   "theorems": [
    "C51_printf_error_refuted",
    "C51_printf_error_nul_refuted",
    "C51_error_effect_partial"
   ],
   "note": "Refuted: the size becomes -1, or the terminating NUL is lost. Partial: exactly what the error changes (the size in the header drops by one, nothing else)."
  },
  {
   "property": "C52",
   "status": "proved",
   "theorems": [
    "C52_prnf",
    "C52_all_or_nothing"
   ],
   "note": ""
  },
  {
   "property": "C53",
   "status": "proved",
   "theorems": [
    "C53_append_using",
    "C53_append_using_bad"
   ],
   "note": ""
  },
  {
   "property": "C54",
   "status": "proved",
   "theorems": [
    "C54_append_read"
   ],
   "note": "The read() system call is an environment decision: an error or any byte list."
  },
  {
   "property": "C55",
   "status": "proved",
   "theorems": [
    "C55_write",
    "C55_transfer",
    "C55_drained",
    "C55_strview_write"
   ],
   "note": "Any interleaving of reads and writes, with errors and short writes, for buffers and views."
  },
  {
   "property": "C56",
   "status": "proved",
   "theorems": [
    "C56_pack",
    "C56_unpack",
    "C56_round_trip"
   ],
   "note": "Every sequence of fields of the eight exact width types, both host byte orders; the pointer comparisons of the buffer code need a flat address space (c_ptr)."
  },
  {
   "property": "C57",
   "status": "proved",
   "theorems": [
    "C57_aes256_enc",
    "C57_aes256_dec",
    "C57_aes128",
    "C57_aes192",
    "C57_sbox"
   ],
   "note": "Encryption and decryption with 256 bit keys; also the 128 and 192 bit key schedules with the generic core. The specification has no tables: S-box by inversion in GF(256) and the affine map."
  },
  {
   "property": "C58",
   "status": "proved",
   "theorems": [
    "C58_dec_enc",
    "C58_enc_dec",
    "C58_standard"
   ],
   "note": "On every host byte order; contexts may hold anything before initialisation."
  },
  {
   "property": "C59",
   "status": "proved",
   "theorems": [
    "C59_round_trip"
   ],
   "note": "On every host byte order, contents below 2147483616 bytes. Fixed buffers need room for one block more than the cipher text (see C74)."
  },
  {
   "property": "C60",
   "status": "partial",
   "theorems": [
    "C60_view_refuted",
    "C60_always_invalid"
   ],
   "note": "Refuted: the view returned is STRVIEW_INVALID in every case."
  },
  {
   "property": "C61",
   "status": "partial",
   "theorems": [
    "C61_garbage_refuted",
    "C61_empty_refuted",
    "C61_decrypt_partial",
    "C61_exact",
    "C61_short_refuted"
   ],
   "note": "Refuted: the last byte of the plain text is trusted (negative size, write before or into the header); contents below one block are always undefined (C61_short_refuted). The _partial theorem covers all contents of at least one block whose last plain byte does not exceed the size; C61_exact: exactly for these a buffer is left."
  },
  {
   "property": "C62",
   "status": "partial",
   "theorems": [
    "C62_not_found_refuted",
    "C62_not_found_nocase_refuted",
    "C62_at_start",
    "C62_find_last_strict_refuted",
    "C62_find_last_strict_partial",
    "C62_find_last_nocase_strict_partial"
   ],
   "note": "Refuted: UB_ptr in the strict configuration. Partial: defined and correct in the strict configuration when the needle occurs or enough bytes of the object precede the view. C62_not_found_refuted, C62_not_found_nocase_refuted: every unsuccessful search in a haystack at the start of its object; C62_at_start: there it is defined iff it succeeds."
  },
  {
   "property": "C63",
   "status": "partial",
   "theorems": [
    "C63_at_start_refuted",
    "C63_split_last_delim_strict_refuted",
    "C63_split_last_delim_strict_partial"
   ],
   "note": "Refuted: UB_ptr in the strict configuration. Partial: defined and correct when one byte of the object precedes the view, or the source is empty. C63_at_start_refuted: every nonempty text at the start of its object."
  },
  {
   "property": "C64",
   "status": "partial",
   "theorems": [
    "C64_strict_exact",
    "C64_any_bytes_refuted",
    "C64_any_bytes_partial"
   ],
   "note": "Refuted: isdigit() is called with a negative char. Holds if char is unsigned or the text is ASCII (_partial). C64_strict_exact: exactly which texts are undefined; all others are parsed as on other platforms."
  },
  {
   "property": "C65",
   "status": "partial",
   "theorems": [
    "C65_float_exact",
    "C65_rest_valid_refuted",
    "C65_rest_valid_partial"
   ],
   "note": "Refuted: a fully consumed \"inf\" leaves STRVIEW_INVALID. Proved for all integer types (_partial). C65_float_exact: the source becomes INVALID exactly after a special word at the end of the text."
  },
  {
   "property": "C66",
   "status": "partial",
   "theorems": [
    "C66_append_strict_refuted",
    "C66_same_object_partial",
    "C66_other_object_refuted"
   ],
   "note": "Refuted: UB_ptr in the strict configuration. Partial: correct in the strict configuration when the source lies in the same object as the buffer. C66_other_object_refuted: every view of another object."
  },
  {
   "property": "C67",
   "status": "partial",
   "theorems": [
    "C67_create_rounds_refuted",
    "C67_grow_rounds_refuted",
    "C67_create_exact",
    "C67_grow_exact",
    "C45_capacity"
   ],
   "note": "Refuted: strbuf_create and strbuf_grow use the exact capacity requested. C45 proves the rounding for all other expansions. C67_create_exact, C67_grow_exact: the capacity is always exactly what was asked for."
  },
  {
   "property": "C68",
   "status": "proved",
   "theorems": [
    "C68_no_buffer",
    "C68_accessories",
    "C68_strview_write"
   ],
   "note": "C68_accessories, C68_strview_write: the same for reading, writing, encryption and formats."
  },
  {
   "property": "C69",
   "status": "partial",
   "theorems": [
    "C69_size_check_refuted",
    "C69_size_check_partial"
   ],
   "note": "Refuted for every such pair of sizes: UB_overflow. Partial: defined and right in every configuration while the sum plus the growth step is at most INT_MAX."
  },
  {
   "property": "C70",
   "status": "partial",
   "theorems": [
    "C70_failed_allocation_refuted",
    "C70_growth_refuted",
    "C70_creation_refuted",
    "C70_no_call_partial",
    "C70_printf_no_call_partial"
   ],
   "note": "Refuted: the NULL is written through (the header documents that the allocator has to catch failures). Refuted for every buffer that has to grow and every creation. Partial: operations whose result fits, and all operations on fixed buffers, never call the allocator and are right whatever it would do."
  },
  {
   "property": "C71",
   "status": "partial",
   "theorems": [
    "C71_end_of_object_refuted",
    "C71_unpack_beyond_view_refuted",
    "C71_unpack_in_view"
   ],
   "note": "Refuted: a view that is too short makes the macro read past it. C71_unpack_in_view: with enough bytes only the view is used. C71_end_of_object_refuted: every view shorter than the type that ends with its object."
  },
  {
   "property": "C72",
   "status": "partial",
   "theorems": [
    "C72_big_endian_refuted",
    "C72_same_order"
   ],
   "note": "Refuted: the key schedule rotates a 32 bit integer in host byte order, which on a big endian host is not RotWord. C72_same_order: hosts of one byte order agree."
  },
  {
   "property": "C73",
   "status": "proved",
   "theorems": [
    "C73_no_room",
    "C73_null"
   ],
   "note": "The memory, the buffer and the pointer are unchanged."
  },
  {
   "property": "C74",
   "status": "partial",
   "theorems": [
    "C74_same_buffer_refuted",
    "C74_room_partial"
   ],
   "note": "Refuted for every fixed buffer whose capacity exceeds the cipher text by less than 16: decryption silently does nothing. C59_round_trip covers larger ones. _partial: round trip in place with 16 bytes to spare."
  },
  {
   "property": "C75",
   "status": "partial",
   "theorems": [
    "C75_large_refuted",
    "C75_below_partial"
   ],
   "note": "Refuted: with 2147483632 bytes or more the product overflows int. All other theorems cover every smaller size. _partial: defined, with the size of the cipher text, for every smaller size in every configuration."
  },
  {
   "property": "C76",
   "status": "proved",
   "theorems": [
    "C76_encrypt",
    "C76_decrypt"
   ],
   "note": "Little endian hosts (see C72)."
  },
  {
   "property": "C77",
   "status": "proved",
   "theorems": [
    "C77_nearest",
    "C77_exact"
   ],
   "note": "IEEE-754 arithmetic from Flocq; any precision with emax >= 66."
  },
  {
   "property": "C78",
   "status": "proved",
   "theorems": [
    "C78_accuracy",
    "C78_double"
   ],
   "note": "IEEE-754 arithmetic from Flocq; the accuracy of pow() is a hypothesis, met by the example power function."
  },
  {
   "property": "C79",
   "status": "partial",
   "theorems": [
    "C79_nearest_refuted",
    "C77_nearest",
    "C78_double"
   ],
   "note": "Refuted even with a correctly rounded pow(): 0.3 gives 0.30000000000000004. C78 bounds the error."
  },
  {
   "property": "C80",
   "status": "partial",
   "theorems": [
    "C80_rejected_refuted",
    "C80_zero_refuted",
    "C78_double"
   ],
   "note": "Refuted even with a correctly rounded pow(): 0.01e309 is rejected, 10000000000000000000e-324 is stored as 0. C78 gives a range where every number is accepted."
  },
  {
   "property": "C81",
   "status": "proved",
   "theorems": [
    "C81_never_infinite"
   ],
   "note": ""
  },
  {
   "property": "C82",
   "status": "proved",
   "theorems": [
    "C82_documented",
    "C82_unambiguous"
   ],
   "note": "Conditions on the components are in UriSpec.documented; isdigit must accept every char (C85)."
  },
  {
   "property": "C83",
   "status": "partial",
   "theorems": [
    "C83_colon_in_path_refuted",
    "C83_at_in_path_refuted",
    "C83_digit_path_refuted",
    "C83_exact",
    "C83_path",
    "C82_documented"
   ],
   "note": "Refuted: \"http://github.com/a:b\", \"http://medium.com/@user\" and \"tel:5551234\" are misparsed. C83_exact: if only the path contains separators, exactly the documented forms (C82) are recovered; C83_path: scheme://host/path is recovered iff the path has neither colon nor at sign."
  },
  {
   "property": "C84",
   "status": "proved",
   "theorems": [
    "C84_parts_of_input",
    "C84_invalid"
   ],
   "note": "isdigit must accept every char (C85)."
  },
  {
   "property": "C85",
   "status": "partial",
   "theorems": [
    "C85_ctype_refuted",
    "C85_ascii_partial",
    "C85_exact",
    "C85_behind_colon_refuted"
   ],
   "note": "Refuted: every text with one of the bytes 128 to 254 directly behind the first colon after scheme and user (C85_behind_colon_refuted). C85_exact: exactly these; all other texts have the same components as elsewhere. _partial: defined for ASCII text in every configuration."
  },
  {
   "property": "C86",
   "status": "proved",
   "theorems": [
    "C86_snprnf"
   ],
   "note": "Formats are lists of items (PrnfSpec): text, all documented conversions with flags, width, precision and length, column specifiers. Formats with floating point: C104."
  },
  {
   "property": "C87",
   "status": "proved",
   "theorems": [
    "C87_sprnf"
   ],
   "note": "Formats are lists of items (PrnfSpec): text, all documented conversions with flags, width, precision and length, column specifiers. Formats with floating point: C104."
  },
  {
   "property": "C88",
   "status": "proved",
   "theorems": [
    "C88_snappf"
   ],
   "note": "Formats are lists of items (PrnfSpec): text, all documented conversions with flags, width, precision and length, column specifiers. Formats with floating point: C104."
  },
  {
   "property": "C89",
   "status": "proved",
   "theorems": [
    "C89_measure",
    "C89_enough"
   ],
   "note": "Formats are lists of items (PrnfSpec): text, all documented conversions with flags, width, precision and length, column specifiers. Formats with floating point: C104."
  },
  {
   "property": "C90",
   "status": "proved",
   "theorems": [
    "C90_handler"
   ],
   "note": "Formats are lists of items (PrnfSpec): text, all documented conversions with flags, width, precision and length, column specifiers. Formats with floating point: C104."
  },
  {
   "property": "C91",
   "status": "proved",
   "theorems": [
    "C91_signed",
    "C91_unsigned",
    "C91_other_bases"
   ],
   "note": "Decimal without flags; hexadecimal and binary with or without a precision that keeps the value."
  },
  {
   "property": "C92",
   "status": "proved",
   "theorems": [
    "C92_column"
   ],
   "note": "Control characters and, where char is signed, bytes above 127 do not count as columns (C103)."
  },
  {
   "property": "C93",
   "status": "proved",
   "theorems": [
    "C93_prnf"
   ],
   "note": "Formats are lists of items (PrnfSpec): text, all documented conversions with flags, width, precision and length, column specifiers. Formats with floating point: C104."
  },
  {
   "property": "C94",
   "status": "proved",
   "theorems": [
    "C94_append_prnf"
   ],
   "note": "Formats are lists of items (PrnfSpec): text, all documented conversions with flags, width, precision and length, column specifiers. Formats with floating point: C104."
  },
  {
   "property": "C95",
   "status": "partial",
   "theorems": [
    "C95_width_partial",
    "C95_width_of_char_refuted",
    "C95_char_partial"
   ],
   "note": "Refuted for %c, which ignores the width. Proved for all other integer and string conversions. C95_char_partial: %c prints exactly its character, with any flags, width and precision."
  },
  {
   "property": "C96",
   "status": "partial",
   "theorems": [
    "C96_zeros_before_sign_refuted",
    "C96_padded_partial",
    "C96_zero_padded_refuted"
   ],
   "note": "Refuted: %05d of -42 prints 00-42. Partial: every d, i and u conversion with any width, precision and flags is read back, except zeros in front of a sign. C96_zeros_before_sign_refuted: every number with zeros in front of a sign is read as 0."
  },
  {
   "property": "C97",
   "status": "partial",
   "theorems": [
    "C97_digits_partial",
    "C97_digits_refuted",
    "C97_unsupported_refuted"
   ],
   "note": "Refuted: a precision of 0, above 16 (%x) or above 64 (%o) shifts by an undefined amount. Proved for 1..16 and 1..64. C97_unsupported_refuted: undefined in every format for every other precision (%x: modulo 64)."
  },
  {
   "property": "C98",
   "status": "partial",
   "theorems": [
    "C98_unterminated_refuted",
    "C98_string_precision_refuted",
    "C98_string_partial"
   ],
   "note": "Refuted: the length of the string is measured first, up to its NUL. Proved for terminated strings. C98_unterminated_refuted: every string without a NUL, any precision, anywhere in any format."
  },
  {
   "property": "C99",
   "status": "partial",
   "theorems": [
    "C99_signed_partial",
    "C99_plus_refuted",
    "C99_unsigned_partial",
    "C99_same_text_partial"
   ],
   "note": "Refuted: %+u prints no plus. Partial: signed conversions show the character. Exact behaviour: C99_unsigned_partial, C99_same_text_partial (unsigned conversions print the text without these flags)."
  },
  {
   "property": "C100",
   "status": "partial",
   "theorems": [
    "C100_anywhere_refuted",
    "C100_others_partial",
    "C100_most_negative_refuted"
   ],
   "note": "Refuted: %ld of LLONG_MIN negates it. All other values are covered by C86 in every configuration. _partial: all other values, in every configuration. C100_anywhere_refuted: the most negative long anywhere in any format."
  },
  {
   "property": "C101",
   "status": "partial",
   "theorems": [
    "C101_complete_partial",
    "C101_ends_in_percent_refuted",
    "C101_unfinished_refuted",
    "C101_reads_on_refuted"
   ],
   "note": "Refuted: the format \"100%\" is read beyond its NUL. Partial: formats made of complete placeholders are read up to their NUL only. Exact behaviour: every format that ends inside a placeholder at the end of its object is read out of bounds (C101_unfinished_refuted); with bytes behind it, printing continues there (C101_reads_on_refuted)."
  },
  {
   "property": "C102",
   "status": "partial",
   "theorems": [
    "C102_large_size_refuted",
    "C102_any_size",
    "C86_snprnf"
   ],
   "note": "Refuted: the size is converted to int; 2147483648 stores only a NUL. C86 covers sizes up to INT_MAX. C102_any_size: exact result for every size (taken modulo 2^32; from 2^31 on only the NUL is stored)."
  },
  {
   "property": "C103",
   "status": "partial",
   "theorems": [
    "C103_utf8_columns_refuted",
    "C103_columns_partial",
    "C92_column"
   ],
   "note": "Refuted: a two byte character counts as 0 columns (signed char) or 2 (unsigned char). C92_column covers ASCII text. C103_columns_partial: exact number of columns for every text, both signednesses of char."
  },
  {
   "property": "C104",
   "status": "proved",
   "theorems": [
    "C104_text"
   ],
   "note": "IEEE-754 arithmetic from Flocq; every precision (also negative arguments)."
  },
  {
   "property": "C105",
   "status": "proved",
   "theorems": [
    "C105_engineering",
    "C105_below_1000_refuted"
   ],
   "note": "Refuted that the number shown is below 1000 (999999.6 prints as 1000k); the rest is proved as stated."
  },
  {
   "property": "C106",
   "status": "partial",
   "theorems": [
    "C106_exact_partial",
    "C106_whole_number_refuted"
   ],
   "note": "Refuted: 16777215 is printed as 16777214.976. Proved if all printed digits form a number of at most 2^24 and the precision is at most 10."
  },
  {
   "property": "C107",
   "status": "proved",
   "theorems": [
    "C107_zero",
    "C107_shown_as_zero_refuted"
   ],
   "note": "Also a refutation of the stronger claim: -0.000001 with %.2f prints -0.00."
  },
  {
   "property": "C108",
   "status": "proved",
   "theorems": [
    "C108_refinement",
    "C108_placement_irrelevant"
   ],
   "note": "Formats without floating point; encryption on little endian machines only (C72); decrypted texts must end in a padding that fits (C61)."
  },
  {
   "property": "C109",
   "status": "proved",
   "theorems": [
    "C109_invariant",
    "C109_ownership"
   ],
   "note": "For the programs of C108."
  },
  {
   "property": "C110",
   "status": "proved",
   "theorems": [
    "C110_local"
   ],
   "note": "For the calls of C108."
  },
  {
   "property": "C111",
   "status": "proved",
   "theorems": [
    "C111_message"
   ],
   "note": "The receiver starts with an empty buffer with room for the message (append_read does not grow it)."
  },
  {
   "property": "C112",
   "status": "proved",
   "theorems": [
    "C112_secret_message"
   ],
   "note": "Both machines little endian (C72); a fixed receive buffer needs 16 spare characters (C74)."
  },
  {
   "property": "C113",
   "status": "proved",
   "theorems": [
    "C113_matches_model",
    "C113_free",
    "C113_fails",
    "C113_grants",
    "C113_assert"
   ],
   "note": "The allocator the theorems on buffers assume (alloc_call) is proved to be this code on a heap as ISO C describes malloc, realloc and free."
  },
  {
   "property": "C114",
   "status": "proved",
   "theorems": [
    "C114_says_it_twice",
    "C114_program"
   ],
   "note": "Allocations succeed (C70 otherwise); text plus growth step up to INT_MAX."
  },
  {
   "property": "C115",
   "status": "proved",
   "theorems": [
    "C115_fixed_capacity",
    "C115_runtime_size",
    "C115_char_array",
    "C115_printed"
   ],
   "note": "Printing with %s stops at a NUL."
  },
  {
   "property": "C116",
   "status": "proved",
   "theorems": [
    "C116_remembers",
    "C116_program"
   ],
   "note": "Arguments outside of the static buffers."
  },
  {
   "property": "C117",
   "status": "proved",
   "theorems": [
    "C117_options",
    "C117_integer_lines",
    "C117_float_lines",
    "C117_every_integer_line",
    "C117_every_float_line"
   ],
   "note": "The first two line theorems are without the bytes 0xB0/0xB1 (C28) and the word infinity (C31); C117_every_* are for every text, with the exact grammars of C28 and C29. Strict ISO C needs ASCII text (C64). The digits of the value printed by printf are not modelled."
  },
  {
   "property": "C118",
   "status": "partial",
   "theorems": [
    "C118_out_of_range_refuted",
    "C118_takes_all_partial"
   ],
   "note": "False (strview.h describes what the code does): _refuted; partial: everything is split off and the source is left valid and empty, for every index out of range."
  },
  {
   "property": "C119",
   "status": "partial",
   "theorems": [
    "C119_at_start_refuted",
    "C119_outside_refuted",
    "C119_end_counts_partial"
   ],
   "note": "False: _refuted (both). Partial: for every pair of views with a defined distance only the end of pos counts."
  },
  {
   "property": "C120",
   "status": "partial",
   "theorems": [
    "C120_empty_refuted",
    "C120_invalid_first_partial"
   ],
   "note": "False of empty views: _refuted. Partial: all views that are not empty."
  },
  {
   "property": "C121",
   "status": "proved",
   "theorems": [
    "C121_split_at_first",
    "C121_split_at_last"
   ],
   "note": "strview_find_last compares pointers in front of the view (C62), so the last occurrence needs flat pointers."
  },
  {
   "property": "C122",
   "status": "proved",
   "theorems": [
    "C122_each_field"
   ],
   "note": ""
  },
  {
   "property": "C123",
   "status": "proved",
   "theorems": [
    "C123_trim_in_place",
    "C123_crop_in_place"
   ],
   "note": ""
  },
  {
   "property": "C124",
   "status": "proved",
   "theorems": [
    "C124_insert_itself",
    "C124_insert_found"
   ],
   "note": "Allocations succeed (C70); text plus growth step up to INT_MAX or wrapping."
  },
  {
   "property": "C125",
   "status": "proved",
   "theorems": [
    "C125_receive"
   ],
   "note": "As C124; the header is not part of the buffer."
  },
  {
   "property": "C126",
   "status": "proved",
   "theorems": [
    "C126_with_c_string",
    "C126_strlen"
   ],
   "note": "Allocations succeed (C70). C126_strlen is an instance with strlen as the function."
  },
  {
   "property": "C127",
   "status": "proved",
   "theorems": [
    "C127_reserved",
    "C127_fixed"
   ],
   "note": "Without creating, destroying and shrinking, and without concatenating parts of a dynamic buffer into itself (which uses a temporary buffer)."
  },
  {
   "property": "C128",
   "status": "partial",
   "theorems": [
    "C128_whitespace_refuted",
    "C128_other_integers",
    "C128_other_floats",
    "C128_integer_spaces_partial",
    "C128_float_spaces_partial",
    "C128_nospace_integers",
    "C128_nospace_floats"
   ],
   "note": "False of tab, newline and the other white space characters (_refuted, and no text starting with one is accepted by any parser). Partial: any number of spaces changes neither error, value nor rest; with STRNUM_NOSPACE spaces are EINVAL."
  },
  {
   "property": "C129",
   "status": "partial",
   "theorems": [
    "C129_errors_refuted",
    "C129_errors_partial"
   ],
   "note": "False: an exponent outside of int gives ERANGE even for zero and for tiny numbers (_refuted). Partial: exactly when each error occurs."
  },
  {
   "property": "C130",
   "status": "partial",
   "theorems": [
    "C130_close",
    "C130_whole",
    "C130_special",
    "C130_same_refuted",
    "C130_large_refuted"
   ],
   "note": "Refuted for numbers that float cannot hold (prnf computes in float) and for numbers printed as OVER. Proved: every other finite number comes back within 51/100 of the last decimal plus 2^-21 relative, the text is consumed completely; whole numbers with digits below 2^24 come back exactly; NaN and the infinities come back. Not covered: width (padding with spaces on the left is skipped by the parser, zeros in front of a sign are not read, C96), more than 18 decimals. Real number axioms (DESIGN.md section 3)."
  },
  {
   "property": "C131",
   "status": "partial",
   "theorems": [
    "C131_cat_partial",
    "C131_no_buffer",
    "C131_limit",
    "C131_any_number_refuted"
   ],
   "note": "Refuted for 128 or more arguments (does not compile); C131_limit: exactly the calls with 1 to 127 arguments compile, and they concatenate (C131_cat_partial, with the fixed buffer exception of C39)."
  },
  {
   "property": "C132",
   "status": "proved",
   "theorems": [
    "C132_match",
    "C132_trim",
    "C132_find",
    "C132_find_last",
    "C132_find_invalid",
    "C132_insert",
    "C132_insert_at_view",
    "C132_strip",
    "C132_other"
   ],
   "note": "C132_strip: characters outside of the buffer (C49); find_last needs a flat address space (C03, C63)."
  },
  {
   "property": "C133",
   "status": "partial",
   "theorems": [
    "C133_integers",
    "C133_ranges",
    "C133_floats",
    "C133_all_types_refuted",
    "C133_nofloat_refuted",
    "C133_every_text",
    "C133_platform_ranges"
   ],
   "note": "Refuted for signed char (int8_t) and bool (no association) and with STRNUM_NOFLOAT (trailing comma in _Generic, never compiles). Proved for the ten integer and three floating point types."
  },
  {
   "property": "C134",
   "status": "proved",
   "theorems": [
    "C134_size",
    "C134_too_large",
    "C134_view",
    "C134_other"
   ],
   "note": ""
  },
  {
   "property": "C135",
   "status": "proved",
   "theorems": [
    "C135_literal",
    "C135_cstr",
    "C135_pointer"
   ],
   "note": ""
  },
  {
   "property": "C136",
   "status": "proved",
   "theorems": [
    "C136_unsupported"
   ],
   "note": "A format that passes an argument for such a placeholder hands it to the next one (C136_ex: undefined)."
  },
  {
   "property": "C137",
   "status": "partial",
   "theorems": [
    "C137_no_fill_partial",
    "C137_any_fill_refuted"
   ],
   "note": "Refuted: control characters (also the NUL), and bytes above 127 where char is signed, are kept as text and nothing is filled (C137_no_fill_partial, exact). C92_column and C103_columns_partial cover all other characters."
  },
  {
   "property": "C138",
   "status": "partial",
   "theorems": [
    "C138_every_format",
    "C138_too_big_refuted"
   ],
   "note": "Refuted: a column, width or precision beyond INT_MAX overflows (C138_too_big_refuted, any format), a placeholder without a type (C101) and unsupported numbers of digits (C97) are undefined. C138_every_format: these are the only cases; every other format is a list of items with a meaning (C86-C107, C136)."
  },
  {
   "property": "C139",
   "status": "partial",
   "theorems": [
    "C139_view_partial",
    "C139_buffer_partial",
    "C139_unterminated_refuted"
   ],
   "note": "Refuted for prnf: the memory behind the view is searched for a NUL; a view that no NUL follows in its object is read out of bounds (C139_unterminated_refuted, any format and view). Proved for all views followed by a NUL somewhere (invalid ones included), in particular every part of a buffer without NULs. ISO printf: C116, C117."
  },
  {
   "property": "C140",
   "status": "proved",
   "theorems": [
    "C140_calls",
    "C140_few",
    "C140_bounded",
    "C140_characters"
   ],
   "note": "Counts the calls that get or resize memory (calls that free it are determined by C45, C46). Programs of C42-C46; the accessories are not counted."
  },
  {
   "property": "C141",
   "status": "partial",
   "theorems": [
    "C141_argument_partial",
    "C141_modulo_partial",
    "C141_decimal_partial",
    "C141_string_refuted",
    "C141_zero_flag_refuted",
    "C141_float_refuted",
    "C97_unsupported_refuted"
   ],
   "note": "Refuted for negative arguments: every string is then read beyond its end (C141_string_refuted), decimal numbers lose the flag 0 (C141_zero_flag_refuted), floating point numbers get 19 decimals (C141_float_refuted), binary and hexadecimal numbers are undefined (C97_unsupported_refuted). Proved: arguments that are not negative act as in the format (C141_argument_partial), and exactly what the others do to decimal and floating point numbers."
  },
  {
   "property": "C142",
   "status": "partial",
   "theorems": [
    "C142_append_partial",
    "C142_first_partial",
    "C142_prnf_partial",
    "C142_behind_refuted",
    "C142_emptied_refuted",
    "C142_moved_refuted"
   ],
   "note": "Refuted: behind another text the own text contains that text as well (C142_behind_refuted), strbuf_prnf empties its destination first (C142_emptied_refuted), and a buffer that moves while its text is printed is read where it was (C142_moved_refuted, undefined). Proved: the exact result if the capacity suffices (C142_append_partial, C142_prnf_partial), which is the documented one if only the first placeholder refers to the buffer (C142_first_partial). Not covered: formats with floating point, pointers behind the first character given to strbuf_prnf, own text that overflows a fixed buffer, and the printf functions (the formatter is abstract in the model)."
  },
  {
   "property": "C143",
   "status": "partial",
   "theorems": [
    "C143_pack_partial",
    "C143_unpack_partial",
    "C143_host_pack_partial",
    "C143_host_unpack_partial",
    "C143_other_order_exact",
    "C143_primitive_refuted",
    "C143_float_refuted",
    "C143_tmp_refuted"
   ],
   "note": "Refuted on every platform: where the bytes have to be swapped char and one of int, long and long long do not compile (C143_primitive_refuted), where they do not floating point numbers do compile (C143_float_refuted), and a variable called tmp is not packed (C143_tmp_refuted). Proved: the types of stdint.h work in both orders everywhere, every type works in the order of the host, and nothing else compiles (C143_other_order_exact)."
  },
  {
   "property": "C144",
   "status": "partial",
   "theorems": [
    "C144_spelling_partial",
    "C144_ieee_partial",
    "C144_default_partial",
    "C144_moved_refuted"
   ],
   "note": "Refuted for a moved point: 0.3e1 is not stored as 3, even with a perfect pow() (C144_moved_refuted). Proved for everything else, in any arithmetic (C144_spelling_partial; whether a zero is written in front of the point matters only if (0+0)*pow(10,0) is not 0, which it is in IEEE-754, C144_ieee_partial). The refutation and C144_ieee_partial use the real number axioms (DESIGN.md section 3)."
  },
  {
   "property": "C145",
   "status": "proved",
   "theorems": [
    "C145_lines_read",
    "C145_all_read",
    "C145_room_refuted",
    "C145_typed",
    "C145_overlong",
    "C145_typed_refuted"
   ],
   "note": "C145_lines_read, C145_all_read (strbuf_append_read); C145_typed (strbuf_append_char, the loop of the test suite). C145_room_refuted and C145_typed_refuted show that the conditions about room are needed."
  },
  {
   "property": "C146",
   "status": "partial",
   "theorems": [
    "C146_text",
    "C146_exact_partial",
    "C146_large_refuted",
    "C146_decimals_refuted"
   ],
   "note": "Refuted: finite numbers above FLT_MAX are shown as INF (C146_large_refuted, all of them), and with 11 or more decimals the powers of ten are those of float, so that 1 is not printed as 1 (C146_decimals_refuted). Proved: all other numbers, every function, error bound per precision (C146_text); exact results with up to ten decimals (C146_exact_partial)."
  },
  {
   "property": "C147",
   "status": "proved",
   "theorems": [
    "C147_invisible"
   ],
   "note": "For flat address spaces (c_ptr), as all whole-program theorems. Generalises C43_placement_irrelevant from one platform and program to two. strbuf_append_using is left out because the claim is false of it (C147_using_ex)."
  },
  {
   "property": "C148",
   "status": "proved",
   "theorems": [
    "C148_safe",
    "C148_same"
   ],
   "note": "Memory safety and confinement (C148_safe) and independence of place and platform (C148_same). For compilers with a flat address space, harmless sizes of zero and total ctype functions (usual); what strict ISO C does not define is C62 and C63. Splitting at a position requires the position to be a view of the same object. strnum_value for the integer types; of strview_compare the sign is seen."
  },
  {
   "property": "C149",
   "status": "proved",
   "theorems": [
    "C149_safe",
    "C149_reads",
    "C149_same"
   ],
   "note": "Combines C43, C147 and C148: no undefined behaviour (C149_safe), a view that is not stale reads the current piece of its text or buffer (C149_reads), two runs see the same (C149_same). For compilers with a flat address space, harmless sizes of zero and total ctype functions. Every call on a buffer other than strbuf_view counts as a change; C149_stale_ex shows what happens otherwise. strbuf_append_using is left out of C149_same as in C147."
  },
  {
   "property": "C150",
   "status": "proved",
   "theorems": [
    "C150_table_round_trip",
    "C150_text_determines_table"
   ],
   "note": "Writing needs room for the text (fits, sums_ok) and a successful allocator, as all whole-program theorems, and a flat address space. Without wrapping arithmetic LLONG_MIN is excluded (C62). C150_text_determines_table is independent of the functions that read."
  },
  {
   "property": "C151",
   "status": "proved",
   "theorems": [
    "C151_documented",
    "C151_any_argument",
    "C151_output_tells",
    "C151_demo"
   ],
   "note": "printf is modelled for the formats of the program (ISO C 7.21.6.1); isdigit as in C85."
  },
  {
   "property": "C152",
   "status": "proved",
   "theorems": [
    "C152_views",
    "C152_buffers",
    "C152_programs",
    "C152_uri",
    "C152_float",
    "C152_double",
    "C152_snprnf",
    "C152_snappf"
   ],
   "note": "What a compiler may promise is the list of flags of the configuration in Base.v; an optimiser that exploits undefined behaviour is covered by the outcome UB, about which nothing is claimed."
  },
  {
   "property": "C153",
   "status": "proved",
   "theorems": [
    "C153_call",
    "C153_program",
    "C153_always"
   ],
   "note": "Views are well-formed (invalid or of an existing text), index arguments are ints, C strings exist, and positions for split_left and split_right are in the same object. What ISO C leaves undefined is as in the strict configuration of Base.v."
  },
  {
   "property": "C154",
   "status": "proved",
   "theorems": [
    "C154_call",
    "C154_program",
    "C154_always",
    "C154_dynamic",
    "C154_cat"
   ],
   "note": "Sizes stay below INT_MAX less the growth step (beyond that see C69 and C71), the allocator does not fail, the strip set is not in the same buffer and to_cstr is for dynamic buffers. What ISO C leaves undefined is as in the strict configuration of Base.v. The accessories are in C155."
  },
  {
   "property": "C155",
   "status": "proved",
   "theorems": [
    "C155_call",
    "C155_program",
    "C155_always",
    "C155_pack"
   ],
   "note": "As C154. Encryption on little-endian machines only (C57), padding of decrypted text as in C59; formats without floating point, as in C108."
  },
  {
   "property": "C156",
   "status": "proved",
   "theorems": [
    "C156_call",
    "C156_program",
    "C156_decided",
    "C156_always"
   ],
   "note": "As C149, C153 and C154. all_iso_legal is correct use as in C149 with sizes below INT_MAX less the growth step."
  },
  {
   "property": "C157",
   "status": "proved",
   "theorems": [
    "C157_null_string",
    "C157_invalid_view",
    "C157_null_pointer",
    "C157_buffer"
   ],
   "note": "Closes the NULL and invalid-argument cases left out of C03, C04, C11, C12, C13, C36, C37 and C48. Needs usual, the way every compiler treats NULL + 0 and memcmp of no bytes; the NULL pointer theorem needs nothing."
  },
  {
   "property": "C158",
   "status": "proved",
   "theorems": [
    "C158_same_outcome",
    "C158_shipped",
    "C158_same_text",
    "C158_snprnf",
    "C158_sprnf",
    "C158_handler",
    "C158_measure",
    "C158_argument_left",
    "C158_other_build_undefined",
    "C158_numbers"
   ],
   "note": "Formats with floating point values that are printed, in IEEE arithmetic: C158_numbers. Without long long where long is 64 bits wide; C163 is about 32 bits. PRNF_SUPPORT_DOUBLE is in C146, PRNF_SUPPORT_EXTENSIONS in C159."
  },
  {
   "property": "C159",
   "status": "partial",
   "theorems": [
    "C159_snprnf",
    "C159_sprnf",
    "C159_measure_frees",
    "C159_like_s_partial",
    "C159_like_s_refuted",
    "C159_used_again_undefined",
    "C159_not_heap_undefined",
    "C159_unchanged",
    "C159_numbers"
   ],
   "note": "Refuted: \"like %s\" fails for a literal precision of 0 with a width, where %s centres. C159_like_s_partial: for all other placeholders the text is that of the same call with %s; the full behaviour, centring placeholders included, is C159_snprnf. Formats with floating point values, in IEEE arithmetic: C159_numbers."
  },
  {
   "property": "C160",
   "status": "proved",
   "theorems": [
    "C160_prnf",
    "C160_append_prnf",
    "C160_freed",
    "C160_no_buffer_leaks",
    "C160_numbers"
   ],
   "note": "Formats with floating point values, in IEEE arithmetic: C160_numbers. The format and the strings are not stored in the buffer, and the strings handed over are not in its block."
  },
  {
   "property": "C161",
   "status": "proved",
   "theorems": [
    "C161_shipped",
    "C161_supported",
    "C161_sprnf",
    "C161_unsupported",
    "C161_sprnf_stops",
    "C161_handler",
    "C161_numbers",
    "C161_decimals"
   ],
   "note": "C161_supported, C161_unsupported and C161_handler have no floating point placeholders and hold for any arithmetic; C161_numbers and C161_decimals are for float as in the build as shipped. snprnf stands for the functions that print to an array."
  },
  {
   "property": "C162",
   "status": "proved",
   "theorems": [
    "C162_shipped",
    "C162_unused",
    "C162_written_out",
    "C162_sprnf",
    "C162_handler",
    "C162_decimals"
   ],
   "note": "snprnf and a handler of single characters stand for the functions that print to an array or through a handler."
  },
  {
   "property": "C163",
   "status": "partial",
   "theorems": [
    "C163_same_outcome",
    "C163_snprnf",
    "C163_sprnf",
    "C163_handler",
    "C163_min_refuted",
    "C163_digits_refuted",
    "C163_bits_refuted",
    "C163_size_refuted"
   ],
   "note": "The full claim, that such a build prints every int, long and size_t and any number of digits as the shipped build does, is false: C163_min_refuted, C163_digits_refuted, C163_bits_refuted and C163_size_refuted; the statement lists the exceptions. Formats are restricted by the bytes of the object they lie in. Floating point with a 32 bit prnf_long_t is not modelled."
  },
  {
   "property": "C164",
   "status": "proved",
   "theorems": [
    "C164_prnf",
    "C164_start",
    "C164_program",
    "C164_module",
    "C164_numbers"
   ],
   "note": "C164_numbers is one call with floating point placeholders; the other theorems are without. C164_prnf and C164_numbers allow a handler that assigns prnf_out_fptr; C164_program and C164_module are for handlers that leave it alone. The state J of the handlers must keep the format and the strings in memory."
  },
  {
   "property": "C165",
   "status": "proved",
   "theorems": [
    "C165_shipped",
    "C165_called",
    "C165_count",
    "C165_handler",
    "C165_silent",
    "C165_numbers",
    "C165_calm"
   ],
   "note": "The handler is modelled as the count of its calls: it does not change anything prnf works on. C165_count, C165_handler and C165_silent are without floating point and hold for any arithmetic; C165_numbers and C165_calm are for float as in the build as shipped."
  },
  {
   "property": "C166",
   "status": "proved",
   "theorems": [
    "C166_shipped",
    "C166_count",
    "C166_handler",
    "C166_silent",
    "C166_ignored",
    "C166_numbers",
    "C166_ignored_numbers"
   ],
   "note": "The handler is modelled as the count of its calls: it does not change anything prnf works on. C166_count, C166_handler and C166_ignored are without floating point and hold for any arithmetic; C166_numbers and C166_ignored_numbers are for float as in the build as shipped. C166_ignored and C166_ignored_numbers ask that the format with the flags left out is one of placeholders too (%#% is not: it becomes %%)."
  }
 ]
}