{"id": "C01", "title": "Sub-view slicing is exact", "statement": "strview_sub(v,begin,end) returns exactly the bytes begin..end of v with negative indexes counted from the end and the range clipped to v; it returns an invalid view exactly when the clipped request is outside v or begin is after end; an empty or invalid v is returned unchanged. No int overflow and no out-of-bounds pointer is formed.", "quantifier": "every view (valid, empty, invalid) in every memory and every pair of int indexes including INT_MIN/INT_MAX", "why_tests_cant": "The input space (contents, lengths, int arguments, memory placement) is unbounded; tests only visit a few literals.", "anchors": ["strview.c:strview_sub", "strview.h:strview_sub"]}
{"id": "C02", "title": "find_first returns the leftmost occurrence", "statement": "strview_find_first(_strview)(_nocase) returns the view of the leftmost occurrence of the needle in the haystack (byte equality, or equality after ASCII upper-casing for nocase), of the needle's length and inside the haystack; when there is none it returns an invalid view. An empty valid needle is found at the start.", "quantifier": "every haystack and needle, any contents, any aliasing between them", "why_tests_cant": "The input space (contents, lengths, int arguments, memory placement) is unbounded; tests only visit a few literals.", "anchors": ["strview.c:find_first", "strview.c:strview_find_first_strview", "strview.c:strview_find_first_strview_nocase"]}
{"id": "C03", "title": "find_last returns the rightmost occurrence", "statement": "strview_find_last(_strview)(_nocase) returns the view of the rightmost occurrence of the needle; when there is none it returns an invalid view.", "quantifier": "every haystack and needle", "why_tests_cant": "The input space (contents, lengths, int arguments, memory placement) is unbounded; tests only visit a few literals.", "anchors": ["strview.c:find_last", "strview.c:strview_find_last_strview", "strview.c:strview_find_last_strview_nocase"]}
{"id": "C04", "title": "contains decides occurrence", "statement": "strview_contains(_nocase) is true exactly when the needle occurs somewhere in the haystack.", "quantifier": "every haystack and needle", "why_tests_cant": "The input space (contents, lengths, int arguments, memory placement) is unbounded; tests only visit a few literals.", "anchors": ["strview.c:strview_contains_strview", "strview.c:strview_contains_strview_nocase"]}
{"id": "C05", "title": "trim removes the maximal prefix/suffix", "statement": "strview_trim_start/_end/trim remove exactly the longest prefix/suffix (both) made of the given characters; the result is a sub-view of the source; trimming twice equals trimming once; an all-trimmed view becomes empty but stays valid.", "quantifier": "every view and every set of trim characters", "why_tests_cant": "The input space (contents, lengths, int arguments, memory placement) is unbounded; tests only visit a few literals.", "anchors": ["strview.c:strview_trim", "strview.c:strview_trim_start_strview", "strview.c:strview_trim_end_strview", "strview.c:contains_char"]}
{"id": "C06", "title": "is_match decides equality of contents", "statement": "strview_is_match(_nocase) of two valid views is true exactly when their contents are equal (resp. equal after ASCII upper-casing); it is an equivalence relation.", "quantifier": "every pair of valid views, aliased or not", "why_tests_cant": "The input space (contents, lengths, int arguments, memory placement) is unbounded; tests only visit a few literals.", "anchors": ["strview.c:strview_is_match_strview", "strview.c:strview_is_match_nocase_strview", "strview.c:memcmp_nocase"]}
{"id": "C07", "title": "invalid never matches valid", "statement": "strview_is_match returns false if exactly one of the two views is invalid (docs/strview-api.md, strview_compare section).", "quantifier": "every pair with exactly one invalid view", "why_tests_cant": "The claim is about every valid view, including the empty one, which tests do not pair with an invalid view.", "anchors": ["strview.c:strview_is_match_strview", "docs/strview-api.md"]}
{"id": "C08", "title": "starts_with decides prefixes", "statement": "strview_starts_with(_nocase)(a,b) on valid views is true exactly when the contents of b are a prefix of the contents of a (after ASCII upper-casing for nocase).", "quantifier": "every pair of valid views", "why_tests_cant": "The input space (contents, lengths, int arguments, memory placement) is unbounded; tests only visit a few literals.", "anchors": ["strview.c:strview_starts_with_strview", "strview.c:strview_starts_with_nocase_strview"]}
{"id": "C09", "title": "compare is a total lexicographic order", "statement": "The sign of strview_compare is the lexicographic order of the contents as unsigned bytes, shorter-first on ties; it is 0 exactly on equal contents, antisymmetric and transitive, so views can be sorted by it.", "quantifier": "every pair/triple of valid or invalid views", "why_tests_cant": "The input space (contents, lengths, int arguments, memory placement) is unbounded; tests only visit a few literals.", "anchors": ["strview.c:strview_compare_strview"]}
{"id": "C10", "title": "split_first_delim partitions at the first delimiter", "statement": "strview_split_first_delim returns everything before the first delimiter (outside double quotes if exclude_quotes) and leaves everything after it in the source; with no delimiter it returns the whole source and invalidates it. Nothing but that one delimiter is lost.", "quantifier": "every source view, every delimiter set, both quote modes", "why_tests_cant": "The input space (contents, lengths, int arguments, memory placement) is unbounded; tests only visit a few literals.", "anchors": ["strview.c:split_first_delim", "strview.c:strview_split_first_delim_strview"]}
{"id": "C11", "title": "split_last_delim partitions at the last delimiter", "statement": "strview_split_last_delim returns everything after the last delimiter (outside double quotes, counted from the end, if exclude_quotes) and leaves everything before it in the source; with no delimiter it returns the whole source and invalidates it.", "quantifier": "every source view, every delimiter set, both quote modes", "why_tests_cant": "The input space (contents, lengths, int arguments, memory placement) is unbounded; tests only visit a few literals.", "anchors": ["strview.c:split_last_delim", "strview.c:strview_split_last_delim_strview"]}
{"id": "C12", "title": "split_all splits completely", "statement": "strview_split_all fills the destination with the consecutive fields of the source; joining the fields with the delimiters that separated them gives back the source; the count returned is min(dst_size, number of fields).", "quantifier": "every source, delimiter set and destination size", "why_tests_cant": "The number of fields and their contents are unbounded.", "anchors": ["strview.c:strview_split_all"]}
{"id": "C13", "title": "split_index partitions at an index", "statement": "strview_split_index(&v,i) splits v at index i (negative i counts from the end, out of range is clipped): for i >= 0 it returns the part before the index and leaves the part after it in v, for negative i it returns the part after the index and leaves the part before it; both parts joined are the old v.", "quantifier": "every view and every int index", "why_tests_cant": "The input space (contents, lengths, int arguments, memory placement) is unbounded; tests only visit a few literals.", "anchors": ["strview.c:split_index", "strview.c:strview_split_index"]}
{"id": "C14", "title": "split_left / split_right partition at a position", "statement": "strview_split_left(&v,pos) returns the part of v before pos and leaves the rest; split_right returns the part after pos and leaves the part before; for pos not inside v the result is invalid and v unmodified.", "quantifier": "every view v and every position view inside, at the edges of, or outside v", "why_tests_cant": "The input space (contents, lengths, int arguments, memory placement) is unbounded; tests only visit a few literals.", "anchors": ["strview.c:strview_split_left", "strview.c:strview_split_right"]}
{"id": "C15", "title": "pop_first_char iterates a view", "statement": "strview_pop_first_char returns and removes the first character, 0 without effect on an empty or invalid view; popping size() times yields the contents in order and leaves an empty valid view.", "quantifier": "every view", "why_tests_cant": "The input space (contents, lengths, int arguments, memory placement) is unbounded; tests only visit a few literals.", "anchors": ["strview.c:strview_pop_first_char"]}
{"id": "C16", "title": "split_line splits one line for CR, LF, CRLF and LFCR", "statement": "On a source holding a line terminator strview_split_line returns the text before it and removes the text and the complete terminator (one or two characters); a leading half-terminator left over from the previous call (as recorded in *eol) is dropped first.", "quantifier": "every source, with eol NULL or recording any earlier terminator", "why_tests_cant": "The input space (contents, lengths, int arguments, memory placement) is unbounded; tests only visit a few literals.", "anchors": ["strview.c:strview_split_line"]}
{"id": "C17", "title": "split_line streams", "statement": "Feeding a byte stream in arbitrary chunks, popping lines with strview_split_line and a persistent eol, and keeping the unconsumed source text when no line is found, yields exactly the lines of the whole stream, whatever the chunking.", "quantifier": "every byte stream and every chunking of it", "why_tests_cant": "The number of chunkings is exponential and terminators can straddle any chunk boundary.", "anchors": ["strview.c:strview_split_line", "docs/strview-api.md"]}
{"id": "C18", "title": "split_line leaves the source unmodified when no line is found", "statement": "If a line terminator is not found, an invalid view is returned and the source string is unmodified (docs/strview-api.md).", "quantifier": "every source and every eol state", "why_tests_cant": "A universally quantified negative effect.", "anchors": ["strview.c:strview_split_line", "docs/strview-api.md"]}
{"id": "C19", "title": "dequote removes enclosing pairs", "statement": "strview_dequote removes the longest run of enclosing identical first/last characters of the same character and nothing else; it never returns an invalid view for a valid one.", "quantifier": "every view", "why_tests_cant": "The input space (contents, lengths, int arguments, memory placement) is unbounded; tests only visit a few literals.", "anchors": ["strview.c:strview_dequote"]}
{"id": "C20", "title": "dequote only removes quotation marks", "statement": "strview_dequote leaves text that is not enclosed in quotation marks unchanged.", "quantifier": "every view whose first character is not a quotation mark", "why_tests_cant": "Universal over all unquoted texts.", "anchors": ["strview.c:strview_dequote", "strview.h:strview_dequote"]}
{"id": "C21", "title": "strview_to_cstr is bounded and terminated", "statement": "strview_to_cstr(dst,n,v) writes min(n-1,size) leading bytes of v and a terminator into dst, writes nothing else, and does nothing for n=0.", "quantifier": "every view, every destination size, every memory", "why_tests_cant": "The input space (contents, lengths, int arguments, memory placement) is unbounded; tests only visit a few literals.", "anchors": ["strview.c:strview_to_cstr"]}
{"id": "C22", "title": "cstr views the whole C string", "statement": "cstr(s) is the view of the bytes before the terminator of s; cstr(NULL) is invalid; copying it out with strview_to_cstr into a large enough buffer gives the same C string.", "quantifier": "every terminated byte string", "why_tests_cant": "The input space (contents, lengths, int arguments, memory placement) is unbounded; tests only visit a few literals.", "anchors": ["strview.c:cstr"]}
{"id": "C23", "title": "unsigned parse is exact", "statement": "For every unsigned destination type strnum_value succeeds exactly when the text (after spaces and an optional 0x/0b prefix, as allowed by the options) starts with digits of the selected base whose full value is in range; it then stores exactly that value and removes exactly the consumed text including every digit.", "quantifier": "every text of any length, every option combination, every unsigned type", "why_tests_cant": "Digit strings are unbounded; the staged accumulation limits are reached only by specific values.", "anchors": ["strnum.c:consume_unsigned", "strnum.c:consume_decimal_digits", "strnum.c:consume_hex_digits", "strnum.c:consume_bin_digits"]}
{"id": "C24", "title": "signed parse is exact", "statement": "For every signed destination type strnum_value accepts an optional sign (unless disabled), and succeeds exactly when the signed value is in range of the type, including the most negative value; it stores exactly that value.", "quantifier": "every text, every option combination, every signed type", "why_tests_cant": "As above, plus asymmetric limits.", "anchors": ["strnum.c:consume_signed", "strnum.c:consume_sign"]}
{"id": "C25", "title": "failed parse has no effect", "statement": "When strnum_value returns an error, neither the destination nor the source view is modified; ERANGE is returned exactly for a well-formed number out of range, EINVAL exactly when there is no number.", "quantifier": "every text, option and integer type", "why_tests_cant": "Universal negative effect.", "anchors": ["strnum.c:consume_signed", "strnum.c:consume_unsigned", "strnum.c:strnum_consume_int"]}
{"id": "C26", "title": "default-returning parsers", "statement": "strnum_i8..u64, strnum_int.. return the value that strnum_value would store, and the given default exactly when strnum_value fails; the source is not modified.", "quantifier": "every text, default and option", "why_tests_cant": "The input space (contents, lengths, int arguments, memory placement) is unbounded; tests only visit a few literals.", "anchors": ["strnum.c:strnum_i8", "strnum.c:strnum_u64", "strnum.c:strnum_int"]}
{"id": "C27", "title": "printed integers parse back", "statement": "Parsing the decimal (hex, binary) representation of any value of a type, with any option set that allows it, gives back that value and consumes the whole text.", "quantifier": "every value of every integer type", "why_tests_cant": "2^64 values.", "anchors": ["strnum.c:consume_signed", "strnum.c:consume_unsigned"]}
{"id": "C28", "title": "only binary digits are binary digits", "statement": "With base 2 selected only the characters 0 and 1 are accepted as digits.", "quantifier": "every byte value in every position", "why_tests_cant": "Needs all byte values at all positions.", "anchors": ["strnum.c:isbdigit", "strnum.c:consume_bin_digits"]}
{"id": "C29", "title": "float text is scanned by its grammar", "statement": "strnum_value for float types consumes exactly [spaces][sign](digits[.digits]|.digits)[exponent], the longest match; on success the source loses exactly that text.", "quantifier": "every text and option combination", "why_tests_cant": "The input space (contents, lengths, int arguments, memory placement) is unbounded; tests only visit a few literals.", "anchors": ["strnum.c:process_float_components", "strnum.c:consume_exponent", "strnum.c:split_digits"]}
{"id": "C30", "title": "float conversion computes the decimal value", "statement": "In exact arithmetic the float conversion computes exactly integral.fraction * 10^exponent with its sign, for digit strings of any length.", "quantifier": "every digit string of any length", "why_tests_cant": "Wrong only beyond a length no test uses; needs induction over the digit chunks.", "anchors": ["strnum.c:make_float_type", "docs/strnum-api.md"]}
{"id": "C31", "title": "infinity, inf and nan are recognised whole", "statement": "The texts infinity, inf and nan (any case, optional sign) are recognised and removed completely from the source.", "quantifier": "every text starting with one of the words", "why_tests_cant": "Every casing and every continuation of the text.", "anchors": ["strnum.c:consume_float_special", "docs/strnum-api.md"]}
{"id": "C32", "title": "zero with any exponent is zero", "statement": "A zero mantissa converts to zero whatever its exponent.", "quantifier": "every exponent", "why_tests_cant": "Every exponent in int range.", "anchors": ["strnum.c:make_float_type", "strnum.c:strnum_consume_double"]}
{"id": "C33", "title": "NULL source is an error for every type", "statement": "strnum_value with a NULL source pointer returns EINVAL for every destination type.", "quantifier": "every destination type and option", "why_tests_cant": "Systematic over the API.", "anchors": ["strnum.c:strnum_consume_float", "strnum.c:strnum_consume_double", "strnum.c:consume_signed"]}
{"id": "C34", "title": "buffer creation", "statement": "strbuf_create / strbuf_create_init give an empty buffer / a buffer holding a copy of the initial content, with at least the requested capacity, and touch nothing else.", "quantifier": "every capacity up to INT_MAX, every initial view, every allocator behaviour", "why_tests_cant": "Allocator placement is arbitrary.", "anchors": ["strbuf.c:strbuf_create_empty", "strbuf.c:strbuf_create_init", "strbuf.c:create_buf"]}
{"id": "C35", "title": "fixed buffer creation", "statement": "strbuf_create_fixed returns a usable empty buffer inside the given memory exactly when it is aligned and larger than the header, never uses a byte outside of it, and NULL otherwise.", "quantifier": "every address, alignment and size", "why_tests_cant": "The input space (contents, lengths, int arguments, memory placement) is unbounded; tests only visit a few literals.", "anchors": ["strbuf.c:strbuf_create_fixed"]}
{"id": "C36", "title": "insert, append, prepend, including from itself", "statement": "strbuf_append/prepend/insert_at_index insert the bytes the source view had before the call at the position requested (negative from the end, clipped), even when the source view lies inside the destination buffer and when the buffer is moved by the allocator.", "quantifier": "every content, source view (external or any sub-range of the buffer), index, capacity, allocator behaviour", "why_tests_cant": "All overlap geometries times relocation.", "anchors": ["strbuf.c:insert_strview_into_buf", "strbuf.c:strbuf_append_strview", "strbuf.c:strbuf_prepend_strview", "strbuf.c:strbuf_insert_at_index_strview"]}
{"id": "C37", "title": "insert_before / insert_after", "statement": "strbuf_insert_before/after insert at the start/end of a destination view within the buffer and do nothing for a view that is not within it.", "quantifier": "every content, destination view, source view", "why_tests_cant": "All geometries.", "anchors": ["strbuf.c:strbuf_insert_before_strview", "strbuf.c:strbuf_insert_after_strview"]}
{"id": "C38", "title": "assign, including from itself", "statement": "strbuf_assign makes the contents equal to the bytes the source view had before the call, even when it lies inside the buffer.", "quantifier": "every content and source view", "why_tests_cant": "All overlaps.", "anchors": ["strbuf.c:assign_strview_to_buf", "strbuf.c:strbuf_assign_strview"]}
{"id": "C39", "title": "cat concatenates", "statement": "strbuf_cat makes the contents the concatenation of its arguments as they were before the call; for a dynamic buffer the arguments may be views of the buffer itself.", "quantifier": "any number of arguments, any contents, any mix of external and self views", "why_tests_cant": "Argument count and aliasing unbounded.", "anchors": ["strbuf.c:buffer_vcat", "strbuf.c:_strbuf_cat"]}
{"id": "C40", "title": "overflow empties, never truncates", "statement": "When the result of append/prepend/insert/assign/cat/printf/prnf does not fit a fixed buffer, the buffer becomes empty; contents are never truncated and never written outside the buffer.", "quantifier": "every operation, content and capacity", "why_tests_cant": "All sizes.", "anchors": ["strbuf.c:insert_strview_into_buf", "strbuf.c:buffer_vcat", "strbuf.c:strbuf_append_vprintf", "strbuf.c:append_char_to_buf"]}
{"id": "C41", "title": "size overflow empties", "statement": "When the result of append/insert/cat would be longer than INT_MAX the buffer becomes empty.", "quantifier": "every pair of sizes whose sum exceeds INT_MAX", "why_tests_cant": "Needs 2 GiB strings.", "anchors": ["strbuf.c:add_will_overflow_int", "strbuf.c:insert_strview_into_buf"]}
{"id": "C42", "title": "buffer invariant", "statement": "After every API call 0 <= size <= capacity and the contents are followed by a terminating NUL inside the buffer.", "quantifier": "every sequence of API calls with any arguments", "why_tests_cant": "Unbounded histories.", "anchors": ["strbuf.h:strbuf_t", "strbuf.c"]}
{"id": "C43", "title": "history refinement", "statement": "Any sequence of buffer operations behaves like the same sequence on an abstract byte string with a capacity limit, for any number of buffers living at the same time, and independently of where the allocator places or moves them.", "quantifier": "every operation sequence, every number of buffers, every allocator behaviour", "why_tests_cant": "Unbounded histories and schedules of relocation.", "anchors": ["strbuf.c"]}
{"id": "C44", "title": "operations are local", "statement": "A buffer operation changes no memory except the buffer operated on (and memory obtained from its allocator): other buffers, views of other memory and the source text keep their contents.", "quantifier": "every operation and every memory", "why_tests_cant": "Universal negative effect.", "anchors": ["strbuf.c"]}
{"id": "C45", "title": "capacity rules", "statement": "The capacity of a fixed buffer never changes; the capacity of a dynamic buffer never decreases except in strbuf_shrink, and grows to a multiple of the grow step (or INT_MAX).", "quantifier": "every operation", "why_tests_cant": "The input space (contents, lengths, int arguments, memory placement) is unbounded; tests only visit a few literals.", "anchors": ["strbuf.c:change_buf_capacity", "strbuf.c:round_up_capacity", "strbuf.c:strbuf_grow", "strbuf.c:strbuf_shrink"]}
{"id": "C46", "title": "no leaks, no double free", "statement": "Every block obtained from an allocator is released by strbuf_destroy exactly once, with the allocator it came from; temporary blocks are released before the call returns.", "quantifier": "every operation sequence", "why_tests_cant": "Unbounded histories.", "anchors": ["strbuf.c:strbuf_destroy", "strbuf.c:buffer_vcat", "strbuf.c:destroy_buf"]}
{"id": "C47", "title": "conversion to C string", "statement": "strbuf_to_cstr turns a dynamic buffer into a NUL terminated allocation with the same contents owned by the same allocator, and sets the buffer pointer to NULL.", "quantifier": "every content and allocator behaviour", "why_tests_cant": "Overlapping move over the header; relocation.", "anchors": ["strbuf.c:strbuf_to_cstr"]}
{"id": "C48", "title": "strip removes characters", "statement": "strbuf_strip removes exactly the characters in the strip set and keeps the order of the others.", "quantifier": "every content and strip set outside the buffer", "why_tests_cant": "All contents.", "anchors": ["strbuf.c:strbuf_strip_strview"]}
{"id": "C49", "title": "strip may source from the buffer", "statement": "All buffer operations except strbuf_cat, including strbuf_strip, can source data from the destination itself (docs/strbuf-api.md).", "quantifier": "every strip set lying inside the buffer", "why_tests_cant": "All overlaps.", "anchors": ["strbuf.c:strbuf_strip_strview", "docs/strbuf-api.md"]}
{"id": "C50", "title": "printf appends the formatted text", "statement": "strbuf_append_printf appends, and strbuf_printf assigns, exactly the formatted text, or empties the buffer if it does not fit.", "quantifier": "every formatted text and capacity", "why_tests_cant": "All lengths.", "anchors": ["strbuf.c:strbuf_append_vprintf", "strbuf.c:strbuf_vprintf"]}
{"id": "C51", "title": "printf keeps the buffer valid on formatter errors", "statement": "If the formatter fails (vsnprintf returns a negative value) the buffer remains valid.", "quantifier": "every content and every formatter failure", "why_tests_cant": "Needs failure injection at any state.", "anchors": ["strbuf.c:strbuf_append_vprintf"]}
{"id": "C52", "title": "prnf is all or nothing", "statement": "strbuf_prnf/append_prnf append exactly the emitted characters or leave the buffer empty; a fixed buffer never ends with a part of the text.", "quantifier": "every emitted character sequence and capacity", "why_tests_cant": "All lengths at which overflow may happen.", "anchors": ["strbuf.c:strbuf_append_vprnf", "strbuf.c:append_char_to_buf"]}
{"id": "C53", "title": "append_using", "statement": "strbuf_append_using appends exactly what the callback delivered when it reports a count within the space offered, otherwise the buffer is emptied and an invalid view returned.", "quantifier": "every callback behaviour", "why_tests_cant": "The callback is arbitrary.", "anchors": ["strbuf.c:strbuf_append_using"]}
{"id": "C54", "title": "append_read", "statement": "strbuf_append_read appends exactly the bytes read; short reads and errors leave a valid buffer.", "quantifier": "every read outcome", "why_tests_cant": "Every sequence of short reads.", "anchors": ["accessories/strbuf_io.c:strbuf_append_read"]}
{"id": "C55", "title": "write removes what was written", "statement": "strbuf_write / strview_write remove exactly the written prefix; repeating until empty outputs exactly the original contents, in order, without loss or duplication, whatever the short-write pattern.", "quantifier": "every content and every sequence of write outcomes", "why_tests_cant": "Unbounded schedules of short writes and errors.", "anchors": ["accessories/strbuf_io.c:strbuf_write", "accessories/strview_io.c:strview_write"]}
{"id": "C56", "title": "pack / unpack round trip", "statement": "Values appended with the pack macros and read back with the unpack macros of the same byte order are unchanged, the bytes have the documented order on both little and big endian hosts.", "quantifier": "every value of 8/16/32/64 bits, every sequence of values, both host byte orders", "why_tests_cant": "Host byte order and 2^64 values.", "anchors": ["accessories/strbuf_pack.h", "accessories/strview_unpack.h", "accessories/xendian.h"]}
{"id": "C57", "title": "AES-256 is FIPS-197", "statement": "The block cipher used by strbuf_encrypt equals the FIPS-197 cipher for 256 bit keys on little endian hosts.", "quantifier": "every key and block", "why_tests_cant": "2^384 inputs.", "anchors": ["accessories/strbuf_crypt/aes/aes_enc.c", "accessories/strbuf_crypt/aes/aes_keyschedule.c"]}
{"id": "C58", "title": "AES decryption inverts encryption", "statement": "Decrypting an encrypted block with the same key gives back the block.", "quantifier": "every key and block", "why_tests_cant": "2^384 inputs.", "anchors": ["accessories/strbuf_crypt/aes/aes_dec.c", "accessories/strbuf_crypt/aes/aes_enc.c"]}
{"id": "C59", "title": "encrypt then decrypt restores the buffer", "statement": "strbuf_encrypt followed by strbuf_decrypt with the same key and IV restores the contents (dynamic buffers, or fixed buffers with room for one more block).", "quantifier": "every content, key, IV and capacity", "why_tests_cant": "All contents and keys.", "anchors": ["accessories/strbuf_crypt/strbuf_crypt.c"]}
{"id": "C60", "title": "encrypt returns the encrypted view", "statement": "strbuf_encrypt/strbuf_decrypt return a view of the resulting buffer (header comment).", "quantifier": "every content", "why_tests_cant": "Universal.", "anchors": ["accessories/strbuf_crypt/strbuf_crypt.c:strbuf_crypt"]}
{"id": "C61", "title": "decrypt is safe on any input", "statement": "strbuf_decrypt of arbitrary (corrupt) contents leaves a valid buffer and accesses only the buffer.", "quantifier": "every content, key and IV", "why_tests_cant": "Adversarial input.", "anchors": ["accessories/strbuf_crypt/strbuf_crypt.c:dec256cbc"]}
{"id": "C62", "title": "find_last is defined in strict ISO C", "statement": "strview_find_last(_nocase) never forms a pointer before the start of the haystack object nor relies on comparing such pointers (strict reading of ISO C 6.5.6/6.5.8).", "quantifier": "every haystack and needle", "why_tests_cant": "Undefined pointer arithmetic has no observable effect on the usual test platforms.", "anchors": ["strview.c:find_last"]}
{"id": "C63", "title": "split_last_delim is defined in strict ISO C", "statement": "strview_split_last_delim never forms a pointer before the start of the source object (strict reading of ISO C 6.5.6).", "quantifier": "every source and delimiter set", "why_tests_cant": "Undefined pointer arithmetic has no observable effect on the usual test platforms.", "anchors": ["strview.c:split_last_delim"]}
{"id": "C64", "title": "parsing any bytes is defined in strict ISO C", "statement": "strnum_value never passes a negative char to isdigit()/isxdigit(): parsing is defined for every byte sequence (ISO C 7.4).", "quantifier": "every byte sequence", "why_tests_cant": "Out of range ctype arguments read out of a table whose extent is platform specific.", "anchors": ["strnum.c:consume_digits", "strnum.c:consume_decimal_digits"]}
{"id": "C65", "title": "a successful parse leaves a valid source view", "statement": "After a successful strnum_value the source is a valid view of the unconsumed text (empty if everything was consumed).", "quantifier": "every text, option and destination type", "why_tests_cant": "Every text and type.", "anchors": ["strnum.c:process_float_components", "strnum.c:consume_float_special"]}
{"id": "C66", "title": "appending external text is defined in strict ISO C", "statement": "strbuf_append/prepend/insert of a view of another object relies on no undefined behaviour (strict reading of ISO C 6.5.6/6.5.8: relational comparison and subtraction of pointers into different objects).", "quantifier": "every buffer and external view", "why_tests_cant": "Undefined pointer comparisons have no observable effect on the usual test platforms.", "anchors": ["strbuf.c:buf_contains_str", "strbuf.c:insert_strview_into_buf"]}
{"id": "C67", "title": "capacity is always rounded to the grow step", "statement": "The capacity is a multiple of STRBUF_CAPACITY_GROW_STEP after strbuf_create and after expansion for any reason (comment in strbuf.h).", "quantifier": "every requested capacity", "why_tests_cant": "Every request.", "anchors": ["strbuf.h:STRBUF_CAPACITY_GROW_STEP", "strbuf.c:strbuf_create_empty", "strbuf.c:strbuf_grow"]}
{"id": "C68", "title": "no buffer, no effect", "statement": "Every buffer function called with a NULL buf_ptr or a NULL buffer returns an invalid view (NULL, where a pointer is returned) and changes nothing.", "quantifier": "every function, argument and memory", "why_tests_cant": "Every argument combination and absence of effects.", "anchors": ["strbuf.c"]}
{"id": "C69", "title": "the size check is defined in strict ISO C", "statement": "Checking whether a result would exceed INT_MAX performs no signed overflow itself.", "quantifier": "every pair of sizes whose sum exceeds INT_MAX", "why_tests_cant": "Needs 2 GiB strings, and the effect depends on the optimiser.", "anchors": ["strbuf.c:add_will_overflow_int"]}
{"id": "C70", "title": "failed allocations are reported", "statement": "When the allocator returns NULL, the call reports failure to the caller instead of using the NULL pointer.", "quantifier": "every operation that allocates, every failure", "why_tests_cant": "Needs failure injection at any allocation.", "anchors": ["strbuf.c:create_buf", "strbuf.c:change_buf_capacity", "strbuf.c:allocfunc_stdlib"]}
{"id": "C71", "title": "unpacking stays inside the view", "statement": "The value produced by the unpack macros depends only on the bytes of the view; a view shorter than the integer type never leads to an access outside of it.", "quantifier": "every view, every integer type, both byte orders", "why_tests_cant": "Reading a few bytes past a view silently yields neighbouring memory; no test input fails.", "anchors": ["accessories/strview_unpack.h:STRVIEW_UNPACK_LE", "accessories/strview_unpack.h:STRVIEW_UNPACK_BE"]}
{"id": "C72", "title": "cipher text is the same on every host", "statement": "A buffer encrypted on one host can be decrypted on another: the block cipher is the FIPS-197 cipher on big endian hosts as well.", "quantifier": "every host byte order, key and block", "why_tests_cant": "Tests run on one host.", "anchors": ["accessories/strbuf_crypt/aes/aes_keyschedule.c:aes_init"]}
{"id": "C73", "title": "a fixed buffer that cannot hold the cipher text is left alone", "statement": "strbuf_encrypt and strbuf_decrypt do nothing if the size rounded up to the next block exceeds the capacity of a fixed buffer, or if there is no buffer.", "quantifier": "every fixed buffer, content, key and IV", "why_tests_cant": "Absence of effects, for every size.", "anchors": ["accessories/strbuf_crypt/strbuf_crypt.c:strbuf_crypt"]}
{"id": "C74", "title": "what a buffer could encrypt it can decrypt", "statement": "Decrypting needs no more room than encrypting did: after strbuf_encrypt succeeded in a fixed buffer, strbuf_decrypt in the same buffer restores the contents.", "quantifier": "every fixed buffer, content, key and IV", "why_tests_cant": "The failure depends on the exact relation of size and capacity.", "anchors": ["accessories/strbuf_crypt/strbuf_crypt.c:strbuf_crypt", "accessories/strbuf_crypt/strbuf_crypt.c:cypher_size"]}
{"id": "C75", "title": "buffers of any size can be encrypted", "statement": "The size of the cipher text is computed without overflow for every buffer the library can create.", "quantifier": "every size up to INT_MAX", "why_tests_cant": "Needs 2 GiB of text.", "anchors": ["accessories/strbuf_crypt/strbuf_crypt.c:cypher_size"]}
{"id": "C76", "title": "the cipher text is AES-256-CBC with PKCS#7 padding", "statement": "strbuf_encrypt produces exactly the standard AES-256-CBC encryption with PKCS#7 padding of the contents, and strbuf_decrypt recovers the text from any such cipher text, whoever made it.", "quantifier": "every text, key and IV", "why_tests_cant": "All texts and keys.", "anchors": ["accessories/strbuf_crypt/strbuf_crypt.c:enc256cbc", "accessories/strbuf_crypt/strbuf_crypt.c:dec256cbc"]}
{"id": "C77", "title": "whole numbers parse exactly", "statement": "A number without fraction digits (other than zeros) and exponent, up to ULLONG_MAX, is stored as the nearest value of the floating point type, and exactly if it has at most as many bits as the significand.", "quantifier": "every such text, every binary floating point format, every power function with pow(10,0) = 1", "why_tests_cant": "All integers up to 2^64 in three formats.", "anchors": ["strnum.c:make_float_type", "strnum.c:process_float_components"]}
{"id": "C78", "title": "parsed floating point numbers are accurate", "statement": "The value stored differs from the number written by a relative error that is a small multiple of the rounding error of the type and of the error of pow(): for double and a pow() within 2 units, less than 2^-47 (up to 18 fraction digits, magnitudes 1e-300 to 1e300, integral part below 1e38).", "quantifier": "every text in that range, every pow() of that accuracy, IEEE-754 arithmetic", "why_tests_cant": "The worst case cannot be found by sampling decimal texts.", "anchors": ["strnum.c:make_float_type", "strnum.c:strnum_consume_double"]}
{"id": "C79", "title": "the nearest floating point number is stored", "statement": "The value stored is the double nearest to the number written, as strtod() gives.", "quantifier": "every text", "why_tests_cant": "Correct rounding of every decimal text.", "anchors": ["strnum.c:make_float_type"]}
{"id": "C80", "title": "numbers in the range of the type are accepted", "statement": "A number whose magnitude lies in the range of normal doubles is neither rejected with ERANGE nor stored as zero.", "quantifier": "every text", "why_tests_cant": "The failing mantissa/exponent combinations are sparse.", "anchors": ["strnum.c:make_float_type", "strnum.c:process_float_components"]}
{"id": "C81", "title": "a number is never stored as infinity", "statement": "When strnum_value reports success for a text that is a number (not inf), the value stored is not an infinity; overflow is ERANGE.", "quantifier": "every text and option, every binary format, every non-negative pow()", "why_tests_cant": "Every text.", "anchors": ["strnum.c:process_float_components"]}
{"id": "C82", "title": "URI parsing recovers the components", "statement": "parse_uri applied to a URI composed in any of the 27 documented forms returns exactly the scheme, user, host, port and path it was composed of, and reports the absent ones as invalid views; no two such URIs are written alike.", "quantifier": "every combination of components of any length that contain no delimiter which the grammar gives another meaning", "why_tests_cant": "Every component text of every length in every combination.", "anchors": ["examples/parse-uri/parse-uri.c:parse_uri"]}
{"id": "C83", "title": "URI parsing accepts any path", "statement": "In the documented forms with a path the path may contain any characters RFC 3986 allows there (colon, at sign) and may start with a digit.", "quantifier": "every path", "why_tests_cant": "The failing paths are absent from the demo strings.", "anchors": ["examples/parse-uri/parse-uri.c:parse_uri"]}
{"id": "C84", "title": "URI parsing only points into its input", "statement": "For any text whatsoever parse_uri terminates without undefined behaviour, and every component is the invalid view or a part of the given text, not a copy; an invalid view gives only invalid components.", "quantifier": "every text", "why_tests_cant": "Adversarial input.", "anchors": ["examples/parse-uri/parse-uri.c:parse_uri"]}
{"id": "C85", "title": "URI parsing of any bytes is defined in strict ISO C", "statement": "parse_uri passes no negative char to isdigit() (ISO C 7.4).", "quantifier": "every byte sequence", "why_tests_cant": "Out of range ctype arguments usually have no visible effect.", "anchors": ["examples/parse-uri/parse-uri.c:parse_uri"]}
{"id": "C86", "title": "snprnf prints the text, cut to the array", "statement": "snprnf stores the text the format and arguments stand for, cut to the given size less one and terminated by NUL, writes no byte beyond min(size, length + 1), and returns the length of the whole text.", "quantifier": "every format without floating point, all arguments, any size up to INT_MAX, any memory", "why_tests_cant": "Unbounded formats, widths, precisions and argument values.", "anchors": ["test/prnf.c:vsnprnf_PX", "test/prnf.c:core_prnf", "test/prnf.c:out_char", "test/prnf.c:out_terminate"]}
{"id": "C87", "title": "sprnf prints the whole text", "statement": "sprnf stores exactly the whole text and its NUL, nothing else, and returns its length.", "quantifier": "every format without floating point, all arguments, any memory with room", "why_tests_cant": "Unbounded formats and arguments.", "anchors": ["test/prnf.c:vsprnf_PX", "test/prnf.c:core_prnf"]}
{"id": "C88", "title": "snappf appends to the string", "statement": "snappf continues the string already in the array, cuts at the size of the whole array, keeps the characters in front unchanged and returns the length of the appended text before cutting.", "quantifier": "every string in the array, every format without floating point, every size", "why_tests_cant": "All relations of present length, text length and size.", "anchors": ["test/prnf.h:snappf_PX", "test/prnf.c:vsnappf_PX"]}
{"id": "C89", "title": "measuring before printing", "statement": "Printing to NULL changes nothing and returns the length; an array with one element more than that receives the whole text.", "quantifier": "every format without floating point and all arguments", "why_tests_cant": "Unbounded formats and arguments.", "anchors": ["test/prnf.c:vsnprnf_PX"]}
{"id": "C90", "title": "a character handler receives the text", "statement": "fptrprnf calls the handler with exactly the characters of the text, in order and once each, and returns their number.", "quantifier": "every handler (with any effects that leave the format and strings alone), every format without floating point", "why_tests_cant": "Handlers are arbitrary code.", "anchors": ["test/prnf.c:vfptrprnf_PX", "test/prnf.c:out_char"]}
{"id": "C91", "title": "printed integers can be read back", "statement": "An integer printed by prnf with %d, %i, %u, %x or %o and any length modifier, then parsed by strnum_value in the same base, gives the integer back with nothing left over.", "quantifier": "every value of every type, every destination type that can hold it", "why_tests_cant": "2^64 values times types.", "anchors": ["test/prnf.c:print_dec", "test/prnf.c:print_hex", "test/prnf.c:print_bin", "strnum.c:consume_signed", "strnum.c:consume_unsigned"]}
{"id": "C92", "title": "columns are aligned", "statement": "A column specifier pads the current line to exactly the column requested (or adds nothing if it is already there), counted from the last line end, whatever was printed before.", "quantifier": "every format, all arguments, any column and pad character", "why_tests_cant": "Depends on everything printed before.", "anchors": ["test/prnf.c:core_prnf", "test/prnf.c:out_char"]}
{"id": "C93", "title": "strbuf_prnf assigns the formatted text", "statement": "strbuf_prnf makes the contents exactly the text the format and arguments stand for, or empties a fixed buffer that cannot hold it.", "quantifier": "every format without floating point, all arguments, buffers and allocator behaviours", "why_tests_cant": "Unbounded formats, capacities and relocation.", "anchors": ["strbuf.c:strbuf_vprnf", "test/prnf.c:vfptrprnf_PX"]}
{"id": "C94", "title": "strbuf_append_prnf appends the formatted text", "statement": "strbuf_append_prnf appends exactly the text the format and arguments stand for, or empties a fixed buffer that cannot hold it.", "quantifier": "every format without floating point, all arguments, buffers and allocator behaviours", "why_tests_cant": "Unbounded formats, capacities and relocation.", "anchors": ["strbuf.c:strbuf_append_vprnf", "test/prnf.c:vfptrprnf_PX"]}
{"id": "C95", "title": "width is a minimum", "statement": "The width is the minimum number of characters a conversion prints.", "quantifier": "every conversion, width and argument", "why_tests_cant": "All widths and values.", "anchors": ["test/prnf.c:prepad", "test/prnf.c:postpad", "test/prnf.h"]}
{"id": "C96", "title": "zero padded numbers keep their value", "statement": "The flag 0 puts the zeros between sign and digits, so that the padded number can be read back.", "quantifier": "every negative number and width", "why_tests_cant": "The usual demos pad positive numbers.", "anchors": ["test/prnf.c:print_dec", "test/prnf.c:prepad"]}
{"id": "C97", "title": "exact number of binary and hexadecimal digits", "statement": "For %x and %o the precision is the exact number of digits printed: the low digits of the argument.", "quantifier": "every precision and value", "why_tests_cant": "All precisions.", "anchors": ["test/prnf.c:print_hex", "test/prnf.c:print_bin", "test/prnf.h"]}
{"id": "C98", "title": "string precision limits reading", "statement": "For %s the precision is the maximum number of characters to read from the source, which then needs no NUL.", "quantifier": "every string and precision", "why_tests_cant": "Reading past an array usually has no visible effect.", "anchors": ["test/prnf.c:print_str", "test/prnf.c:prnf_strlen", "test/prnf.h"]}
{"id": "C99", "title": "plus flag for positive numbers", "statement": "The flags + and space show a character in front of every positive numeric argument.", "quantifier": "every numeric conversion", "why_tests_cant": "All conversions and flags.", "anchors": ["test/prnf.c:print_dec", "test/prnf.h"]}
{"id": "C100", "title": "printing any integer is defined in strict ISO C", "statement": "Printing a signed integer performs no signed overflow.", "quantifier": "every value", "why_tests_cant": "Overflow has no visible effect on the usual platforms.", "anchors": ["test/prnf.c:print_dec"]}
{"id": "C101", "title": "any format string is safe to scan", "statement": "A format string that ends inside of a placeholder is not read beyond its NUL.", "quantifier": "every NUL terminated format string", "why_tests_cant": "Reading past a literal usually has no visible effect.", "anchors": ["test/prnf.c:core_prnf", "test/prnf.c:parse_placeholder"]}
{"id": "C102", "title": "snprnf accepts any size", "statement": "snprnf stores the text whenever the size given is larger than the text.", "quantifier": "every size_t", "why_tests_cant": "Needs sizes beyond INT_MAX.", "anchors": ["test/prnf.c:vsnprnf_PX"]}
{"id": "C103", "title": "columns count characters", "statement": "Column alignment counts the characters of UTF-8 text.", "quantifier": "every text", "why_tests_cant": "Depends on the signedness of char.", "anchors": ["test/prnf.c:out_char"]}
{"id": "C104", "title": "printed floating point numbers are accurate", "statement": "The text printed for %f differs from the argument by at most half a unit of the last decimal plus a relative error of 2^-22; NAN, INF and OVER are printed exactly in the documented cases, and the text is the same for all functions and buffers.", "quantifier": "every double, precision, flags, width, every format around it", "why_tests_cant": "2^64 arguments times precisions.", "anchors": ["test/prnf.c:print_float", "test/prnf.c:print_float_normal", "test/prnf.c:round_float_to_ulong"]}
{"id": "C105", "title": "engineering notation is accurate", "statement": "The text printed for %e, number times SI prefix, differs from the argument by at most half a unit of the last decimal plus a relative error of 2^-20, and the number shown is at least 1 and at most 1000 where a prefix exists.", "quantifier": "every double and precision", "why_tests_cant": "2^64 arguments times precisions.", "anchors": ["test/prnf.c:get_eng", "test/prnf.c:print_float_normal"]}
{"id": "C106", "title": "representable numbers are printed exactly", "statement": "A number that a float can hold and that has no more decimals than are printed is printed exactly.", "quantifier": "every such number and precision", "why_tests_cant": "2^32 floats times precisions.", "anchors": ["test/prnf.c:print_float_normal", "test/prnf.c:round_float_to_ulong"]}
{"id": "C107", "title": "zero has no sign", "statement": "A value of 0.0 is always positive: positive and negative zero are printed without minus.", "quantifier": "both zeros, every precision up to 10, flags and width", "why_tests_cant": "Negative zero times all conversions.", "anchors": ["test/prnf.c:determine_sign_char_of_float", "test/prnf.h"]}
{"id": "C108", "title": "programs that mix buffers, files, integers, encryption and prnf", "statement": "A program that uses any number of buffers with the operations of strbuf.h, STRBUF_PACK, STRVIEW_UNPACK, append_read, strbuf_write, encrypt, decrypt, strbuf_prnf and strbuf_append_prnf (also printing the text of one buffer into another) observes what it would observe on plain lists of characters, wherever the buffers are and whatever the allocators return.", "quantifier": "every sequence of calls used correctly, every number of buffers, every allocator", "why_tests_cant": "Unbounded interleavings.", "anchors": ["strbuf.h", "accessories/strbuf_io.c:strbuf_append_read", "accessories/strbuf_io.c:strbuf_write", "accessories/strbuf_pack.h", "accessories/strview_unpack.h", "accessories/strbuf_crypt/strbuf_crypt.c", "test/prnf.c"]}
{"id": "C109", "title": "no leak and no corruption in such programs", "statement": "After every such program each buffer is consistent and terminated within its allocation, every live allocation is held by exactly one variable with the allocator it came from, and nothing is live once every buffer is destroyed.", "quantifier": "every sequence of calls used correctly", "why_tests_cant": "Unbounded interleavings; leaks and overruns are silent.", "anchors": ["strbuf.h", "accessories/strbuf_crypt/strbuf_crypt.c", "accessories/strbuf_io.c:strbuf_append_read"]}
{"id": "C110", "title": "every call affects only its own buffer", "statement": "Each of these calls leaves the other buffers, the variables that hold them and all other texts unchanged.", "quantifier": "every call used correctly in every state", "why_tests_cant": "Every combination of neighbours.", "anchors": ["strbuf.h", "accessories/strbuf_crypt/strbuf_crypt.c", "accessories/strbuf_io.c:strbuf_append_read", "accessories/strbuf_io.c:strbuf_write", "accessories/strbuf_pack.h", "accessories/strview_unpack.h"]}
{"id": "C111", "title": "messages survive the way between machines", "statement": "Integers packed and written by one program are the integers that another program reads and unpacks, for machines of different byte order and pointer size, however many short or failing writes there are and however the bytes are delivered in pieces.", "quantifier": "every list of fields and values, both configurations, every partition into writes and reads", "why_tests_cant": "Needs two machines and all partitions.", "anchors": ["accessories/strbuf_pack.h", "accessories/strview_unpack.h", "accessories/strbuf_io.c:strbuf_write", "accessories/strbuf_io.c:strbuf_append_read"]}
{"id": "C112", "title": "encrypted messages survive the way between machines", "statement": "The same with encrypt before writing and decrypt after reading: the bytes on the wire are the AES-256 CBC encryption of the packed fields and the receiver obtains the fields.", "quantifier": "every list of fields and values, every key and initial vector, every partition into writes and reads", "why_tests_cant": "All keys, messages and partitions.", "anchors": ["accessories/strbuf_crypt/strbuf_crypt.c", "accessories/strbuf_crypt/aes/aes_enc.c", "accessories/strbuf_crypt/aes/aes_dec.c", "accessories/strbuf_pack.h", "accessories/strview_unpack.h", "accessories/strbuf_io.c:strbuf_write", "accessories/strbuf_io.c:strbuf_append_read"]}
{"id": "C113", "title": "the default allocator keeps the allocator contract", "statement": "Called with nothing or an allocation of its own, allocfunc_stdlib frees it for size 0 (no double free, nothing else changed), and otherwise returns NULL with the old block untouched, or an aligned live block of exactly the size asked for, disjoint from all others, with the old contents as far as both reach, the old block gone unless it is the same; compiled with the assertion it never returns NULL for a size other than 0. The same for the allocators of the examples.", "quantifier": "every allocation, size, alignment and behaviour of malloc/realloc (moving, in place, failing)", "why_tests_cant": "The heap decides where blocks are and when it fails.", "anchors": ["strbuf.c:allocfunc_stdlib", "strbuf.h:strbuf_allocator_t", "examples/custom_allocator/custom-alloc.c:allocator", "examples/default_custom_allocator/default-custom-alloc.c:allocator"]}
{"id": "C114", "title": "the heap examples say it twice and leak nothing", "statement": "Creating a buffer, appending words, and concatenating a head, the buffer itself twice and a tail prints exactly that text, sets the variable to NULL by destroy, leaves everything that existed before unchanged and no allocation alive.", "quantifier": "every list of words, every allocator behaviour, any initial memory", "why_tests_cant": "Relocation of the buffer while it is its own argument; leaks are silent.", "anchors": ["examples/default_stdlib_allocator/default-stdlib-alloc.c:main", "examples/custom_allocator/custom-alloc.c:main", "examples/default_custom_allocator/default-custom-alloc.c:main"]}
{"id": "C115", "title": "the stack buffer example strips any text", "statement": "For any view the three functions print the text and the text without the stripped characters; the buffer sized at run time always holds the text, the one of capacity 200 is emptied by a longer text, and nothing outside of the automatic objects is written.", "quantifier": "every view (also invalid), every placement of the automatic objects", "why_tests_cant": "All lengths around the capacity; overruns of stack objects are silent.", "anchors": ["examples/stack_buffer/stack-buf.c:ex1", "examples/stack_buffer/stack-buf.c:ex2", "examples/stack_buffer/stack-buf.c:ex3", "strbuf.h:STRBUF_FIXED_CAP", "strbuf.h:strbuf_space_t"]}
{"id": "C116", "title": "static buffers keep their contents between calls", "statement": "Each call of the example shows the text stored by the previous call (at first nothing) and the new text; a text that does not fit leaves the buffer empty; the local and the global static buffer do not affect each other.", "quantifier": "every sequence of calls with any views", "why_tests_cant": "Unbounded sequences of calls.", "anchors": ["examples/static_buffer/static-buf.c:ex1", "examples/static_buffer/static-buf.c:main", "strbuf.h:STRBUF_STATIC_INIT"]}
{"id": "C117", "title": "the number test program shows what the parsers do", "statement": "The command line words select exactly their options in any letter case and order, other words nothing; a line of input is shown without its line end; for each type the line shows error, value and remainder as the number grammar and the range of the type have them, and never an uninitialised variable.", "quantifier": "every command line, every line of text, every type", "why_tests_cant": "All texts, options and types.", "anchors": ["examples/testnum/testnum.c:main", "examples/testnum/testnum.c:test_number_conversion", "strnum.h:strnum_value"]}
{"id": "C118", "title": "an index out of range splits nothing", "statement": "strview_split_index with an index outside of the range of the source returns an invalid view and leaves the source unmodified (docs/strview-api.md).", "quantifier": "every view and index", "why_tests_cant": "All indexes.", "anchors": ["docs/strview-api.md", "strview.h:strview_split_index", "strview.c:strview_split_index"]}
{"id": "C119", "title": "edge cases of strview_split_right", "statement": "If pos references the start of src an empty view is returned, if it references nothing within src an invalid one, and src is unmodified in both cases (strview.h).", "quantifier": "every source and position", "why_tests_cant": "All relative positions of two views.", "anchors": ["strview.h:strview_split_right", "strview.c:strview_split_right"]}
{"id": "C120", "title": "invalid views compare less than valid ones", "statement": "strview_compare is positive if only the second view is invalid and negative if only the first is (strview.h).", "quantifier": "every view", "why_tests_cant": "All views, also empty ones.", "anchors": ["strview.h:strview_compare", "strview.c:strview_compare"]}
{"id": "C121", "title": "splitting at a found text", "statement": "Finding a text and splitting there, as documented, gives the text before the first (last) occurrence, or the text behind it, and leaves the rest in the source; if the text does not occur the result is invalid and the source unchanged.", "quantifier": "all pairs of views", "why_tests_cant": "All texts with overlapping occurrences.", "anchors": ["docs/strview-api.md", "strview.h:strview_split_left", "strview.h:strview_split_right", "strview.c:strview_find_first", "strview.c:strview_find_last", "strview.c:strview_split_left", "strview.c:strview_split_right"]}
{"id": "C122", "title": "the documented loop visits every field", "statement": "Splitting while the source is valid, as documented, visits exactly the fields of the text in order, once each, also empty ones, and ends; fields and the delimiters between them are the text.", "quantifier": "every text and set of delimiters, with and without quotes", "why_tests_cant": "Unbounded number of fields.", "anchors": ["docs/strview-api.md", "strview.c:strview_split_first_delim"]}
{"id": "C123", "title": "buffers are trimmed and cropped in place", "statement": "Assigning a trimmed view or a sub view of a buffer to the buffer itself, as documented, leaves the trimmed text (the text between the two indexes; nothing if they are outside), keeps the buffer where it is and needs no allocation.", "quantifier": "every buffer, set of characters, pair of indexes and allocator (also failing)", "why_tests_cant": "The source of the copy is the destination.", "anchors": ["docs/strbuf-api.md", "strbuf.c:strbuf_assign", "strview.c:strview_trim", "strview.c:strview_sub"]}
{"id": "C124", "title": "inserting into a buffer where a text is found", "statement": "A buffer can be inserted into itself at any index; inserting before or after a text found in the buffer puts the new text exactly there, and does nothing if the text is not found, also if the inserted text is part of the buffer.", "quantifier": "every buffer, index, found text, inserted text and allocator behaviour", "why_tests_cant": "The buffer is source and destination and may move.", "anchors": ["docs/strbuf-api.md", "strbuf.c:strbuf_insert_at_index", "strbuf.c:strbuf_insert_before", "strbuf.c:strbuf_insert_after"]}
{"id": "C125", "title": "receiving packets", "statement": "Appending what was received and then assigning the view from the first packet header to the buffer drops exactly what is in front of the first header, and nothing if there is none.", "quantifier": "every buffer, received text and header, every allocator behaviour", "why_tests_cant": "The position of the header depends on all that was received before.", "anchors": ["README.md", "strbuf.c:strbuf_append_strview", "strbuf.c:strbuf_assign", "strview.c:strview_find_first"]}
{"id": "C126", "title": "views given to functions that need C strings", "statement": "A buffer created from a view gives any function the characters of the view and a terminating NUL in memory of its own; destroyed afterwards nothing remains, and nothing else changes.", "quantifier": "every view, function and allocator", "why_tests_cant": "Leaks are silent; every function.", "anchors": ["README.md", "strbuf.c:strbuf_create_init", "strbuf.c:strbuf_destroy"]}
{"id": "C127", "title": "buffers with enough room never need their allocator", "statement": "A program that only edits buffers which are fixed or have room for every result never calls an allocator, so it works even if every allocation would fail; no buffer moves, and every variable keeps its value.", "quantifier": "every program with any number of buffers, every allocator (also always failing)", "why_tests_cant": "Unbounded sequences of calls; failing allocations are rarely tested.", "anchors": ["strbuf.h", "strbuf.c:strbuf_grow", "strbuf.c:insert_strview_into_buf", "strbuf.c:append_char_to_buf", "strbuf.c:buffer_vcat", "strbuf.c:strbuf_assign"]}
{"id": "C128", "title": "leading white space before a number is ignored", "statement": "All number parsers ignore leading white space, unless STRNUM_NOSPACE is given (strnum.h).", "quantifier": "every text, type and option", "why_tests_cant": "All white space characters times all texts.", "anchors": ["strnum.h:strnum_value", "strnum.h:STRNUM_NOSPACE", "strnum.c:consume_signed", "strnum.c:consume_unsigned", "strnum.c:process_float_components"]}
{"id": "C129", "title": "floating point conversions only fail if the text is no number or overflows", "statement": "A floating point conversion fails only with EINVAL for a text that is no number or with ERANGE for a number too large for the type (strnum.h).", "quantifier": "every text and option, every arithmetic", "why_tests_cant": "All texts, also with exponents of any length.", "anchors": ["strnum.h:strnum_value", "strnum.c:process_float_components", "strnum.c:consume_exponent"]}
{"id": "C130", "title": "printed floating point numbers can be read back", "statement": "A double printed with %f and read back with strnum_consume_double is consumed completely and is the number printed.", "quantifier": "every double, precision, flags", "why_tests_cant": "2^64 numbers times precisions, and two error analyses in a row.", "anchors": ["test/prnf.c:print_float", "strnum.c:strnum_consume_double", "strnum.c:process_float_components"]}
{"id": "C131", "title": "any number of views can be concatenated", "statement": "strbuf_cat stores the concatenation of all its arguments, an arbitrary number of views (one or more), in the order given (strbuf.h).", "quantifier": "every number of arguments, every buffer, views inside and outside of the buffer, every allocator behaviour", "why_tests_cant": "Every number of arguments is a different program.", "anchors": ["strbuf.h:strbuf_cat", "strbuf.h:PP_NARG", "strbuf.c:_strbuf_cat"]}
{"id": "C132", "title": "C strings and views are interchangeable arguments", "statement": "Where strview.h and strbuf.h take a C string or a view, a const char*, a char* and a view of the same text have the same meaning: comparing, searching and trimming depend on the characters only, buffers receive those characters; a NULL pointer acts as an invalid view; other types are rejected at compile time.", "quantifier": "every macro, argument type, text and buffer", "why_tests_cant": "Every type at every macro with every text, also with sources inside of the buffer.", "anchors": ["strview.h:strview_is_match", "strview.h:strview_is_match_nocase", "strview.h:strview_starts_with", "strview.h:strview_starts_with_nocase", "strview.h:strview_trim", "strview.h:strview_trim_start", "strview.h:strview_trim_end", "strview.h:strview_find_first", "strview.h:strview_find_first_nocase", "strview.h:strview_find_last", "strview.h:strview_find_last_nocase", "strbuf.h:strbuf_append", "strbuf.h:strbuf_prepend", "strbuf.h:strbuf_insert_at_index", "strbuf.h:strbuf_insert_before", "strbuf.h:strbuf_insert_after", "strbuf.h:strbuf_strip"]}
{"id": "C133", "title": "strnum_value parses in the range of its destination", "statement": "strnum_value reads a number in the range of the type its destination points to, for every arithmetic type, with and without floating point support.", "quantifier": "every destination type, text and option, every platform", "why_tests_cant": "Every type with every text; a wrong selection is silent for small numbers.", "anchors": ["strnum.h:strnum_value", "strnum.h:STRNUM_NOFLOAT"]}
{"id": "C134", "title": "strbuf_create with a size or with a text", "statement": "strbuf_create with a size_t or int makes an empty buffer of that capacity, with a view a buffer of that text; a negative or too large size gives NULL without calling an allocator.", "quantifier": "every size (also negative int), view, allocator and its behaviour", "why_tests_cant": "All sizes; conversion of a negative int to size_t.", "anchors": ["strbuf.h:strbuf_create", "strbuf.c:strbuf_create_empty", "strbuf.c:strbuf_create_init"]}
{"id": "C135", "title": "views of string literals", "statement": "cstr_SL of a literal views all its characters, also NULs inside, and is the view cstr() gives exactly if there is none; given a pointer instead its length is the one of the pointer.", "quantifier": "every literal and pointer", "why_tests_cant": "All texts.", "anchors": ["strview.h:cstr_SL", "strview.c:cstr"]}
{"id": "C136", "title": "placeholders of unsupported types are harmless", "statement": "A placeholder whose type prnf does not support (such as p, g or a) prints nothing and takes no argument but those of its own stars; the rest of the format is printed as without it.", "quantifier": "every format, position, flags, width, precision, length and unsupported type character", "why_tests_cant": "All 256 type characters with all options, in any format.", "anchors": ["test/prnf.c:parse_type", "test/prnf.c:print_placeholder", "test/prnf.c:core_prnf", "test/prnf.h"]}
{"id": "C137", "title": "any character can fill a column", "statement": "The character used to fill a column is the first non-numeric character after its number (prnf.h).", "quantifier": "every column, character, and text before and after it", "why_tests_cant": "All characters on platforms with signed and unsigned char.", "anchors": ["test/prnf.c:core_prnf", "test/prnf.c:out_char", "test/prnf.h"]}
{"id": "C138", "title": "every format string has a meaning", "statement": "Every format string is a sequence of text, conversions, columns and placeholders that print nothing, each with a defined effect; leading zeros, misplaced flags and length modifiers included.", "quantifier": "every NUL-terminated byte string", "why_tests_cant": "Format strings are arbitrary; tests try a handful.", "anchors": ["test/prnf.c:core_prnf", "test/prnf.c:parse_placeholder", "test/prnf.c:prnf_atoi", "test/prnf.c:print_col_alignment", "test/prnf.h"]}
{"id": "C139", "title": "views can be printed with PRIstr and PRIstrarg", "statement": "A view passed with PRIstrarg() for the placeholder PRIstr prints exactly its characters, reading no other memory: the dynamic precision limits the number of characters read (README).", "quantifier": "every format around it, every view: inside of strings and buffers, at the end of an object, empty, invalid", "why_tests_cant": "All positions of views in objects; a read behind the view is invisible to tests.", "anchors": ["strview.h:PRIstr", "strview.h:PRIstrarg", "test/prnf.c:print_str", "test/prnf.c:prnf_strlen", "README.md"]}
{"id": "C140", "title": "how often the allocator is called", "statement": "Every program makes a number of allocator calls that is determined by the lengths alone, never by the allocator or by where the buffers are: no call while the contents fit the capacity, at most one per API call (two for a concatenation that reads the buffer itself), one per step of capacity for the prnf functions; filling a buffer character by character takes one call per STRBUF_CAPACITY_GROW_STEP characters.", "quantifier": "every program, every history of buffers, every allocator that succeeds, every grow step", "why_tests_cant": "Counts over unbounded programs and lengths.", "anchors": ["strbuf.c:change_buf_capacity", "strbuf.c:buf_ensure_capacity", "strbuf.c:round_up_capacity", "strbuf.c:_strbuf_cat", "strbuf.c:char_handler_for_prnf", "strbuf.c:append_char_to_buf"]}
{"id": "C141", "title": "precisions passed as arguments", "statement": "A precision passed as an argument has the effect of the same number in the format; a negative one has the effect of leaving the precision out, as in printf.", "quantifier": "every placeholder in every format, every int", "why_tests_cant": "2^32 precisions times all conversions; what is read behind a string is invisible to tests.", "anchors": ["test/prnf.c:parse_placeholder", "test/prnf.c:core_prnf", "test/prnf.c:print_str", "test/prnf.c:print_dec", "test/prnf.c:get_prec", "test/prnf.c:print_hex"]}
{"id": "C142", "title": "formatted text may contain the buffer's own text", "statement": "All buffer operations except strbuf_cat can source data from the destination itself (docs/strbuf-api.md): a text formatted by strbuf_prnf or strbuf_append_prnf from the contents of its own destination is the text formatted from the contents before the call.", "quantifier": "every format, every number of pointers to any character of the buffer among its arguments, every buffer and allocator behaviour", "why_tests_cant": "Source and destination are the same memory, which changes and may move while it is read.", "anchors": ["docs/strbuf-api.md", "strbuf.c:strbuf_prnf", "strbuf.c:strbuf_append_prnf", "strbuf.c:char_handler_for_prnf", "strbuf.c:append_char_to_buf", "test/prnf.c:print_str"]}
{"id": "C143", "title": "variables of any integer type can be packed", "statement": "All integer types, the primitive ones included, can be packed and unpacked in both byte orders, and a floating point variable is rejected when compiling (xendian.h).", "quantifier": "every arithmetic type, every platform (byte order, sizes, which types stdint.h names), every value and buffer, every name of the variables", "why_tests_cant": "Every type times every platform; what compiles on one host does not on another.", "anchors": ["accessories/xendian.h:xendian_SWAP", "accessories/xendian.h:xendian_pack_LE", "accessories/xendian.h:xendian_pack_BE", "accessories/xendian.h:xendian_unpack_LE", "accessories/xendian.h:xendian_unpack_BE", "accessories/strbuf_pack.h:STRBUF_PACK_LE", "accessories/strbuf_pack.h:STRBUF_PACK_BE", "accessories/strview_unpack.h:STRVIEW_UNPACK_LE", "accessories/strview_unpack.h:STRVIEW_UNPACK_BE"]}
{"id": "C144", "title": "spellings of the same number give the same value", "statement": "Two texts that write the same number are parsed to the same value with the same result code: leading spaces, a plus sign, zeros in front of the integral part or behind the fraction, a point without fraction, the case of the e, the spelling of the exponent and the position of the point (with the exponent adjusted) do not matter.", "quantifier": "every number, every pair of spellings, every following text, every floating point format and power function", "why_tests_cant": "All pairs of texts; rounding differs between formats.", "anchors": ["strnum.c:strnum_consume_float", "strnum.c:strnum_consume_double", "strnum.c:strnum_consume_ldouble", "strnum.c:make_float_type", "strnum.c:process_float_components", "strnum.c:consume_exponent"]}
{"id": "C145", "title": "lines received through a buffer", "statement": "A program that appends what arrives to a buffer, splits off lines with strview_split_line and a kept eol, and assigns the rest back to the buffer (as the test suite does) gets exactly the lines of everything received, in order and once each, whatever mixture of CR, LF, CRLF and LFCR ends them and however the input is cut into pieces, also between CR and LF. Fed by strbuf_append_read a buffer never moves or grows, and with two characters more capacity than the longest line everything is received; one is not enough. Fed by strbuf_append_char every line arrives if the buffer can grow or has those two characters, otherwise the start of the line is lost.", "quantifier": "every text, every division into reads of any size with errors in between, every buffer (dynamic or fixed), every allocator behaviour", "why_tests_cant": "All divisions of all texts; the state between calls is in the buffer, in eol and in the file.", "anchors": ["docs/strview-api.md", "strview.h:strview_split_line", "strview.c:strview_split_line", "strbuf.c:strbuf_assign", "strbuf.c:strbuf_append_char", "accessories/strbuf_io.c:strbuf_append_read", "test/test.c:test_strview_split_line"]}
{"id": "C146", "title": "prnf with support for doubles", "statement": "Compiled with PRNF_SUPPORT_DOUBLE, prnf prints every double in the precision of double: numbers are printed exactly up to 2^53 units of the last decimal, others with one rounding (and one per factor of 1000 in engineering notation) and half a unit of the last decimal; only infinite numbers are shown as INF.", "quantifier": "every double, precision, flags, format and function of prnf", "why_tests_cant": "2^64 numbers times precisions; the error has to be followed through every rounding.", "anchors": ["test/prnf.c:PRNF_SUPPORT_DOUBLE", "test/prnf.c:pow10_tbl", "test/prnf.c:determine_float_msg", "test/prnf.c:print_float_normal", "test/prnf.c:round_float_to_ulong", "test/prnf.c:get_eng"]}
{"id": "C147", "title": "capacities, allocators and the platform are invisible to programs", "statement": "Two runs of a program give the same results from every call and leave the same texts in their buffers, even if they run on different platforms (byte order, sizes of pointers and long, signedness of char, STRBUF_CAPACITY_GROW_STEP), with other allocators, other initial capacities, other places of their texts, other reallocation behaviour, and any number of strbuf_shrink and strbuf_grow calls more or less; only the capacity of a fixed buffer and strbuf_append_using, which offers its free capacity, depend on them.", "quantifier": "every pair of programs that differ only so, every pair of platforms, any number of buffers, every successful allocator behaviour", "why_tests_cant": "Two unbounded executions on different machines have to be compared.", "anchors": ["strbuf.h", "strbuf.c:round_up_capacity", "strbuf.c:buf_ensure_capacity", "strbuf.c:change_buf_capacity", "strbuf.c:strbuf_shrink", "strbuf.c:strbuf_grow", "strbuf.c:strbuf_append_using"]}
{"id": "C148", "title": "programs on views stay in the text and see only the text", "statement": "A program that uses any number of views of any number of texts, calling the functions of strview.h and strnum_value in any order on any of its variables, never reads outside of the texts and their C strings: at every moment each of its variables is invalid or a part of one of the texts it started with. What it sees depends only on the characters of the texts, not on where they are stored, what surrounds them, or the platform.", "quantifier": "every program of any length, any number of variables and texts, every placement in memory, every pair of platforms with integer types of the same range", "why_tests_cant": "Unbounded sequences of calls, each on what the ones before left; reads behind a view are invisible to tests.", "anchors": ["strview.h", "strview.c:strview_sub", "strview.c:strview_trim", "strview.c:strview_find_first", "strview.c:strview_find_last", "strview.c:strview_split_first_delim", "strview.c:strview_split_last_delim", "strview.c:strview_split_index", "strview.c:strview_split_left", "strview.c:strview_split_right", "strview.c:strview_pop_first_char", "strview.c:strview_split_line", "strview.c:strview_dequote", "strview.c:strview_is_match", "strview.c:strview_starts_with", "strview.h:strview_contains", "strview.c:strview_compare", "strnum.h:strnum_value"]}
{"id": "C149", "title": "how long views of buffers can be used", "statement": "A program may keep views of its buffers and of other texts, take them apart, compare and parse them, and use them as arguments of the buffer functions, in any order. A view of a buffer stays usable, with the same text, as long as no function changes that buffer, whatever is done to other buffers; a view returned by a function is the current contents of the buffer. Programs that use no view of a buffer changed since never read freed or foreign memory and see the same on all platforms, with all allocators, capacities and places in memory.", "quantifier": "every program of any length over any number of buffers, views and texts, every pair of platforms, every successful allocator behaviour", "why_tests_cant": "Unbounded mixtures of calls; whether a view survives depends on which buffer is changed and whether it moves.", "anchors": ["strbuf.h", "strview.h", "strbuf.c:strbuf_view", "strbuf.c:strbuf_append_strview", "strbuf.c:strbuf_assign", "strbuf.c:strbuf_cat", "strbuf.c:change_buf_capacity", "strview.c:strview_split_first_delim", "strview.c:strview_find_first", "docs/strbuf-api.md"]}
{"id": "C150", "title": "tables survive as text", "statement": "A table of numbers and texts written into a buffer, each row as a line of cells with a delimiter between them, numbers by strbuf_append_prnf and texts between double quotes, is read back unchanged by strview_split_line, strview_split_first_delim (excluding quotes), strnum_value and strview_dequote: every number and every text in its place, each row to its end and nothing left over. Different tables have different texts.", "quantifier": "every number of rows and cells, every long long, every text without quotes and line ends (it may contain the delimiter), every delimiter that is no digit, minus, quote, line end or NUL, every buffer (dynamic, or fixed and large enough) and allocator behaviour", "why_tests_cant": "Unbounded tables through six functions of three modules; a text with the delimiter inside, an empty text or the extreme numbers go wrong separately.", "anchors": ["strbuf.c:strbuf_append_prnf", "strbuf.c:strbuf_append_char", "strbuf.c:strbuf_append_strview", "strview.c:strview_split_line", "strview.c:strview_split_first_delim", "strview.c:strview_dequote", "strnum.h:strnum_value", "strnum.c:strnum_consume_llong", "test/prnf.c:print_dec"]}
{"id": "C151", "title": "parse-uri shows the components of its argument", "statement": "The example program parse-uri, run with a URI as its first argument, prints one line for each component that is present, with exactly the characters of the component between quotation marks, and an empty line; this holds for every URI of one of the documented forms, and two such URIs (without newlines) with the same output are the same text. For any other argument it prints the components the parser found, unless strict ISO C leaves isdigit() undefined for the byte it is asked about. Without arguments it prints each of the 27 documented forms followed by its components.", "quantifier": "for all platforms, memories, arguments and documented URIs", "why_tests_cant": "Tests run the program on a few arguments; that the components shown are right, complete and unambiguous for every documented URI is a statement about an unbounded set of texts.", "anchors": ["examples/parse-uri/parse-uri.c:main", "examples/parse-uri/parse-uri.c:show_uri", "examples/parse-uri/parse-uri.c:parse_uri"]}
{"id": "C152", "title": "compilers for the same machine agree about every program", "statement": "Whatever a compiler promises beyond ISO C (that signed overflow wraps, that functions of string.h accept NULL with a size of zero, that isdigit() accepts negative chars, that pointers into different objects can be compared and pointers outside of objects formed), it does not change results: a program on views and buffers whose run is defined with one compiler has the same run with every compiler for the same machine that promises at least as much, and two compilers that both define the run agree about everything the program sees and leaves, even if neither promises more than the other. The same holds for parsing floating point numbers, for snprnf and snappf, and for the program parse-uri.", "quantifier": "every program of any length on views, buffers, formatting, packing, encryption and files, defined or not, every pair of compilers for the same machine", "why_tests_cant": "A test runs with one compiler; which promises a run relies on is invisible, and two unbounded runs have to be compared.", "anchors": ["strview.c", "strbuf.c", "strnum.c", "test/prnf.c", "accessories/strbuf_io.c", "accessories/strbuf_crypt/strbuf_crypt.c", "accessories/strbuf_pack.h", "examples/parse-uri/parse-uri.c"]}
{"id": "C153", "title": "what ISO C leaves undefined in view programs", "statement": "Of the calls of the functions of strview.h (and strnum_value for integers) on well-formed views, ISO C leaves exactly these undefined: trimming a non-empty view with an invalid set of characters; searching from the end in an invalid view, in a view whose object has fewer bytes before the view than the searched text is longer, or without success in a view that starts where its object starts; splitting a non-empty view that starts where its object starts at its last delimiter; splitting an invalid view at an index; comparing an invalid view with an empty one (with strview_is_match, or strview_starts_with for an empty prefix of an invalid view); and, where char is signed, parsing a number whose digits are followed by a char from 128 to 254, unless the number is binary or exceeds every type. A program on views that makes no such call runs under the letter of ISO C as on every usual compiler; one that makes such a call is undefined. Programs that use only strview_sub, the searches and splits from the start, split_left, split_right, pop_first_char, split_line, dequote, the comparisons ignoring case, contains and compare are always defined.", "quantifier": "every program of any length on any number of views of any number of texts, every placement in memory, every platform", "why_tests_cant": "A test cannot see that a pointer before an object was formed or that memcmp() got NULL; that no other call is affected is a statement about all calls.", "anchors": ["strview.h", "strview.c:strview_trim_start", "strview.c:contains_char", "strview.c:find_last", "strview.c:split_last_delim", "strview.c:split_index", "strview.c:strview_is_match_strview", "strview.c:strview_starts_with_strview", "strnum.c:consume_digits", "strnum.h:strnum_value"]}
{"id": "C154", "title": "what ISO C leaves undefined in buffer programs", "statement": "Of the calls of the functions of strbuf.h on live buffers (with sizes far from INT_MAX), ISO C leaves exactly these undefined: appending, prepending or inserting a text that is not in the object that holds the buffer, including an invalid view; insert_before and insert_after at a position that is not in that object (insert_after at an invalid position does nothing), or at a position in the buffer with such a text; concatenating such a text, or a text that starts in the same buffer if that is dynamic; and making a buffer from a text. For a dynamic buffer this means that only parts of itself can be added, and that nothing but empty texts can be concatenated. A program that makes no such call runs under the letter of ISO C as on every usual compiler, and as specified; one that makes such a call is undefined. Programs that use only creation of empty buffers, assignment, append_char, strip, shrink, grow, the four printing functions, append_using, view, destruction and to_cstr are always defined.", "quantifier": "every program of any length on any number of buffers and texts, every placement in memory, every allocator that does not fail, every platform", "why_tests_cant": "The comparison of pointers into different objects works on the machine that runs the test; no test can tell which calls make one, on which inputs.", "anchors": ["strbuf.h", "strbuf.c:insert_strview_into_buf", "strbuf.c:buf_contains_str", "strbuf.c:strbuf_insert_before_strview", "strbuf.c:strbuf_insert_after_strview", "strbuf.c:buffer_vcat", "strbuf.c:strbuf_create_init", "strbuf.c:strbuf_assign"]}
{"id": "C155", "title": "what ISO C leaves undefined in the accessories", "statement": "Of the accessories, only packing integers is affected by the letter of ISO C: STRBUF_PACK_LE and STRBUF_PACK_BE are undefined for every buffer and every integer, because they append the bytes of a local variable. Unpacking, reading from and writing to file descriptors, encryption, decryption and prnf into buffers are defined whenever they are used correctly. A program that uses buffers and accessories and makes none of the calls of C154 and packs nothing runs under the letter of ISO C as on every usual compiler, and as specified; one that makes such a call is undefined.", "quantifier": "every program of any length on any number of buffers, texts, files, keys and formats, every placement in memory, every allocator that does not fail, every platform", "why_tests_cant": "The comparison of pointers into different objects works on the machine that runs the test; that all the other accessories never make one is a statement about all calls.", "anchors": ["accessories/strbuf_pack.h:STRBUF_PACK_LE", "accessories/strbuf_pack.h:STRBUF_PACK_BE", "accessories/strview_unpack.h", "accessories/strbuf_io.c", "accessories/strbuf_crypt/strbuf_crypt.c", "strbuf.c:strbuf_append_prnf", "strbuf.c:strbuf_prnf"]}
{"id": "C156", "title": "what ISO C leaves undefined in programs on buffers and views", "statement": "A program that keeps views of its buffers and of other texts and uses them with the functions of strview.h, strnum_value and strbuf.h in any order is defined by ISO C exactly if it makes none of the calls listed in C153 and C154, with the texts and places its variables have at the time; then it runs as on every usual compiler and as specified, and otherwise it is undefined, with no third possibility. Since the characters of a buffer never start where its object starts, searches from the end and splits at the last delimiter are defined on views of buffers where they would not be on the text they were assigned from.", "quantifier": "every program of any length over any number of buffers, views and texts, every placement in memory, every allocator that does not fail, every platform", "why_tests_cant": "Unbounded mixtures of calls; whether a call is defined depends on which object its arguments are in at the time, which tests cannot observe.", "anchors": ["strbuf.h", "strview.h", "strnum.h:strnum_value", "strbuf.c:insert_strview_into_buf", "strbuf.c:buffer_vcat", "strview.c:find_last", "strview.c:split_last_delim"]}
{"id": "C157", "title": "NULL strings, NULL pointers and invalid views as arguments", "statement": "NULL strings, NULL pointers to views and invalid views are accepted where the headers take a string, a source or a text. Looking for a NULL string or an invalid view finds nothing, looking in an invalid view finds nothing; trimming a NULL set of characters changes nothing; a NULL string matches exactly the empty and the invalid views and begins only the invalid ones. Splitting at a NULL delimiter set returns the whole source and leaves it invalid; splitting an invalid view returns an invalid view, for every delimiter and index; splitting all of it returns no parts. Splitting through a NULL pointer returns an invalid view and popping a character through one returns 0, on every platform and under the letter of ISO C. Appending, prepending or inserting a NULL string, at any index or beside any part of the buffer, leaves the contents and the capacity as they were, stripping a NULL set of characters leaves everything as it was, and assigning an invalid view empties the buffer and keeps its capacity.", "quantifier": "every view, valid or not, every buffer, every index, every delimiter set, every placement in memory, every usual compiler", "why_tests_cant": "Each test passes one NULL to one function; that no function dereferences it whatever the other arguments are is a statement about all of them.", "anchors": ["strview.h", "strview.c:cstr", "strview.c:strview_find_first_strview", "strview.c:find_last", "strview.c:strview_split_first_delim", "strview.c:strview_split_last_delim", "strview.c:strview_split_index", "strview.c:strview_split_all", "strview.c:strview_split_line", "strview.c:strview_pop_first_char", "strview.c:strview_trim_cstr", "strbuf.c:strbuf_append_cstr", "strbuf.c:strbuf_strip_cstr", "strbuf.c:strbuf_assign"]}
{"id": "C158", "title": "configuration switches of prnf", "statement": "Building prnf without long long, without floating point or without column alignment changes nothing for formats that do not use what was switched off: the same text, and for format strings whose bytes contain none of it the same outcome for all arguments, right or wrong. In other formats the meaning is exactly this: without long long the ll placeholders print the character of their type and take no value; without floating point %f, %F, %e and %E print nothing and take no value (width and precision given by * are still taken); without column alignment the characters of a column are printed as they stand. The value arguments of such placeholders are not skipped: the next placeholder that takes an argument finds the left-over one, which is undefined if it is of another kind, so a call that is fine with the build as shipped can be undefined in another.", "quantifier": "every combination of the three switches, every format and argument list, every destination and size, every platform with 64 bit long if long long is switched off", "why_tests_cant": "The tests are built with one configuration; the others are never compiled.", "anchors": ["test/prnf_conf.h", "test/prnf.c:core_prnf", "test/prnf.c:parse_placeholder", "test/prnf.c:print_placeholder", "test/prnf.c:READ_VARG"]}
{"id": "C159", "title": "the extension %n of prnf", "statement": "With PRNF_SUPPORT_EXTENSIONS, prnf accepts %n as a C string (like %s), only it frees the address after printing. A call prints its text with each string cut and padded as its placeholder says, whether the text fits or is cut, and frees each string handed over exactly once and nothing else; NULL prints nothing and frees nothing; a call that only measures (no destination) frees the strings as well. Using a string again in the same call after %n, or handing over an address that is not the start of a block of the allocator, is undefined. Formats without %n print as in the build as shipped. (Like %s in all respects is false: %10.0s centres its string, %10.0n prints ten blanks.)", "quantifier": "every format with any number of %n and other placeholders, every string and address, every destination and size, every memory, every allocator, every platform", "why_tests_cant": "The tests are built without the extension; that nothing is leaked or freed twice, in every mixture of placeholders and with every cut, is a statement about all calls.", "anchors": ["test/prnf.h", "test/prnf_conf.h", "test/prnf.c:core_prnf", "test/prnf.c:parse_placeholder", "test/prnf.c:print_placeholder", "test/prnf.c:is_centered_string", "test/prnf.c:print_str"]}
{"id": "C160", "title": "the extension %n of prnf on buffers", "statement": "With PRNF_SUPPORT_EXTENSIONS, strbuf_prnf and strbuf_append_prnf called on a buffer with strings handed over by %n assign or append the text, or leave the buffer empty if the text cannot fit, and in both cases free each string handed over exactly once, whether or not the buffer has to move; apart from the buffer and those strings nothing changes. A call without a buffer (NULL, or a pointer to NULL) does nothing, so it does not free them: strings created in the argument list are lost.", "quantifier": "every format with any number of %n and other placeholders, every string, every dynamic or fixed buffer, every allocator of the buffer and of the strings, every placement and every platform", "why_tests_cant": "The tests are built without the extension; the interplay of a buffer that moves while its text is printed with strings freed in between depends on every allocation.", "anchors": ["strbuf.c:strbuf_prnf", "strbuf.c:strbuf_append_prnf", "strbuf.c:char_handler_for_prnf", "test/prnf.h", "test/prnf.c:core_prnf", "test/prnf.c:print_placeholder"]}
{"id": "C161", "title": "prnf with an assertion handler", "statement": "With PRNF_ASSERT() defined as a handler that stops the program (such as assert), a call of prnf that is not stopped has exactly the outcome of the build as shipped, for every format and argument list, right or wrong. A format is not stopped if every placeholder in it is supported and every floating point value that is finite as a float asks for at most 19 decimals. Otherwise the program is stopped at the first other placeholder (an unsupported type or length, a format that ends inside of a placeholder, or too many decimals; decimals are counted modulo 256), whatever follows it in the format and in the arguments: by then exactly the text before that placeholder was printed, cut to the size of the destination, without a terminating NUL, and nothing else was written; a handler of single characters was called with exactly those characters.", "quantifier": "every format, every argument list, every destination and size, every handler, every memory, every platform; floating point values in IEEE-754 arithmetic", "why_tests_cant": "The tests are built without a handler; which format strings stop the program, and what was written until then, is a statement about all of them.", "anchors": ["test/prnf_conf.h", "test/prnf.c:core_prnf", "test/prnf.c:parse_placeholder", "test/prnf.c:get_prec", "test/prnf.c:determine_float_msg", "test/prnf.c:print_placeholder"]}
{"id": "C162", "title": "Default precision of %f and %e", "statement": "With other values of PRNF_FLOAT_PREC_DEFAULT and PRNF_ENG_PREC_DEFAULT, a call of prnf prints, for every double including NaN and the infinities and with any flags and width, exactly what the build as shipped prints for the format in which every %f and %e without a precision has the value written out (.5 for 5, say), with the same arguments; the values are taken modulo 256 and at most 19 decimals are shown. Formats without %f and %e do not depend on the two values, and with the values as shipped the outcome of every call, right or wrong, is that of the build as shipped. A handler of single characters is called with exactly the characters of the text.", "quantifier": "every pair of default precisions from 0 to INT_MAX, every format of supported and unsupported placeholders, every argument list, every destination and size, every handler, every memory, every platform; floating point values in IEEE-754 arithmetic", "why_tests_cant": "The tests are built with one pair of values; that a value left out and the same value written out agree is a statement about all formats and numbers in all builds.", "anchors": ["test/prnf_conf.h", "test/prnf.c:get_prec", "test/prnf.c:determine_float_msg", "test/prnf.c:print_float_normal", "test/prnf.c:core_prnf"]}
{"id": "C163", "title": "prnf without long long where long has 32 bits", "statement": "Built without PRNF_SUPPORT_LONG_LONG and without PRNF_SUPPORT_FLOAT for a machine where long has 32 bits, prnf has, for every format string and argument list, right or wrong, exactly the outcome of the build as shipped, provided the format string contains nothing the switches change and asks for nothing wider than 32 bits: no size_t or ptrdiff_t of 64 bits, and no explicit number of hexadecimal or binary digits. Formats that do use what was switched off print what the build of C158 prints for them. The one int that is not printed is INT_MIN with a signed placeholder, where negation does not wrap: that overflows. An explicit number of more than 8 hexadecimal or 32 binary digits can be undefined (%.9x and %.33o are), and so is %zu of a 64 bit size_t, although the build as shipped prints them all. A handler of single characters is called with exactly the characters of the text.", "quantifier": "every format, every argument list, every destination and size, every handler, every memory, every platform with a 32 bit long, with and without column alignment", "why_tests_cant": "The tests are built with long long on one platform; that no digit is lost in the shorter buffer and that two builds agree is a statement about all formats and numbers on other platforms.", "anchors": ["test/prnf_conf.h", "test/prnf.c:prnf_long_t", "test/prnf.c:READ_VARG", "test/prnf.c:print_dec", "test/prnf.c:print_bin", "test/prnf.c:print_hex", "test/prnf.c:ulong2asc_rev", "test/prnf.c:core_prnf"]}
{"id": "C164", "title": "Default output of prnf()", "statement": "prnf() hands the characters of its text, in order, to the function that prnf_out_fptr points to when the call starts, with NULL for the void* argument, and returns the length of the text; if that function assigns prnf_out_fptr, it still gets the rest of the text and the next call uses the new one. As long as nothing was assigned, or NULL was, prnf() prints nothing, changes nothing and returns the length. In a program that assigns functions and calls prnf() and fptrprnf() in any order, every text goes to the function assigned last or to the one named in the call with the pointer given there; fptrprnf(), and a module function like lcd_prnf() of the documentation, does not change where prnf() prints.", "quantifier": "every program of assignments and calls, every handler function including one that assigns the pointer, every format and argument list, every memory, every platform; floating point values in IEEE-754 arithmetic", "why_tests_cant": "The tests print to arrays; who gets which character is a statement about all orders of assignments and calls and all handlers.", "anchors": ["test/prnf.c:prnf_out_fptr", "test/prnf.c:prnf", "test/prnf.c:vprnf", "test/prnf.c:fptrprnf", "test/prnf.c:vfptrprnf", "test/prnf.h"]}
{"id": "C165", "title": "prnf with an assertion handler that returns", "statement": "With PRNF_ASSERT() defined as a handler that returns (one that counts or reports failures, say), every call of prnf, right or wrong, has exactly the outcome of the build as shipped. The handler is called during a call that is not undefined if and only if a handler that stops the program would have stopped it: never if every placeholder is supported and every floating point value that is finite as a float asks for at most 19 decimals. How often it is called is the sum over the placeholders of the format: once for an unsupported placeholder, which prints nothing, but twice for %L and %j (so what follows them is text); twice for a number that asks for more than 19 decimals, which is printed with 19, but once if it is then too large to be printed.", "quantifier": "every format, every argument list, every destination and size, every character handler, every memory, every platform; floating point values in IEEE-754 arithmetic", "why_tests_cant": "The tests are built without a handler; which formats it reports, and how often, is a statement about all formats and numbers.", "anchors": ["test/prnf_conf.h", "test/prnf.c:core_prnf", "test/prnf.c:parse_placeholder", "test/prnf.c:get_prec", "test/prnf.c:determine_float_msg", "test/prnf.c:print_float_normal"]}
{"id": "C166", "title": "prnf with a warning handler", "statement": "With PRNF_WARN() defined as a runtime warning handler, every call of prnf, right or wrong, has exactly the outcome of the build as shipped. The handler is called once for each # and each apostrophe among the flags of the placeholders of the format, repeated ones and those of unsupported placeholders included, and for nothing else: never if no placeholder has such a flag. The flags have no other effect: with them left out of the format, the same arguments print the same text without a warning (unless leaving them out turns an unsupported placeholder into something else, as %#% into %%).", "quantifier": "every format, every argument list, every destination and size, every character handler, every memory, every platform; floating point values in IEEE-754 arithmetic", "why_tests_cant": "The tests are built without a handler; which formats it reports, how often, and that the flags are otherwise ignored, is a statement about all formats.", "anchors": ["test/prnf_conf.h", "test/prnf.h", "test/prnf.c:parse_placeholder", "test/prnf.c:core_prnf"]}
