{"id": "C01", "title": "Printing an unsigned integer yields its canonical numeral", "statement": "For every base 2..36 and every unsigned value of a fixed-width type, print emits exactly the positional numeral of the value in that base: no leading zeros (a single '0' for zero), digits 0-9 then a-z (A-Z with uppercase), most significant first.", "quantifier": "every unsigned width 8..64, every base 2..36, every value of the width, both letter cases", "why_tests_cant": "2^64 values times 35 bases cannot be enumerated; the decimal fast path uses fixed-point reciprocal constants that are right only if no value hits a rounding edge", "anchors": ["include/fast_io_core_impl/integers/impl.h:print_reserve_integral_define", "include/fast_io_core_impl/integers/impl.h:print_reserve_integral_main_impl", "include/fast_io_core_impl/integers/jeaiii_method.h:jeaiii_main", "include/fast_io_core_impl/utils.h:chars_len"]}
{"id": "C02", "title": "Decimal fast path equals the division algorithm", "statement": "The multiply-shift (jeaiii) decimal printer used for base 10 writes, for every 32-bit and 64-bit unsigned value, the same characters as repeated division by ten, and writes exactly as many characters as the value has decimal digits.", "quantifier": "every 32-bit and every 64-bit unsigned value", "why_tests_cant": "the correctness of t=(c*u)>>v with a 32-bit fraction depends on an error bound over all 2^32 values per branch, not on samples", "anchors": ["include/fast_io_core_impl/integers/jeaiii_method.h:jeaiii_tree", "include/fast_io_core_impl/integers/jeaiii_method.h:jeaiii_main"]}
{"id": "C03", "title": "Integer output never exceeds its declared reserve size", "statement": "print_reserve_define for an integer never writes more characters than print_reserve_size announced for that type/base/flags combination, so a caller-provided buffer of that size is never overrun.", "quantifier": "every signed/unsigned width, every base, every flag combination, every value including the minimum of a signed type", "why_tests_cant": "the overrun happens only for particular (width, base, value) combinations such as the most negative value", "anchors": ["include/fast_io_core_impl/integers/impl.h:print_integer_reserved_size", "include/fast_io_core_impl/integers/impl.h:print_reserve_define", "include/fast_io_core_impl/utils.h:cal_max_int_size"]}
{"id": "C04", "title": "Signed printing is sign followed by the magnitude", "statement": "Printing a signed integer writes '-' (or '+' when showpos is requested and the value is non-negative) followed by the base prefix if requested, followed by the numeral of the absolute value, including for the most negative value whose absolute value is not representable.", "quantifier": "every signed width, every base, every value, every showpos/showbase/uppercase setting", "why_tests_cant": "the most negative value per width and the combination with flags make the space too large to sample", "anchors": ["include/fast_io_core_impl/integers/impl.h:print_reserve_integral_define", "include/fast_io_core_impl/integers/impl.h:print_reserve_show_base_impl"]}
{"id": "C05", "title": "Distinct integers print distinct texts and parse back", "statement": "Scanning the text produced by printing an integer (same base, default flags, any following non-digit text) succeeds with exactly the original value and consumes exactly the printed characters.", "quantifier": "every integer type (signed and unsigned, 8..64 bit), every base 2..36, every value, every continuation text not starting with a digit of the base", "why_tests_cant": "round trip must hold for all values in all bases with arbitrary trailing input", "anchors": ["include/fast_io_core_impl/integers/impl.h", "include/fast_io_core_impl/integers/sto/sto_contiguous.h:scan_int_contiguous_none_space_part_define_impl"]}
{"id": "C06", "title": "Integer scan is exact: accepts a numeral with its value or reports overflow", "statement": "Scanning a digit string of any length yields ok with exactly the value denoted if it fits the destination type and overflow otherwise; it never wraps, and in both cases the returned position is just after the last digit.", "quantifier": "every digit string of every length, every base, every destination type, every continuation", "why_tests_cant": "overflow detection works on strings of unbounded length and the boundary depends on base and width", "anchors": ["include/fast_io_core_impl/integers/sto/sto_contiguous.h:scan_int_contiguous_none_simd_space_part_define_impl", "include/fast_io_core_impl/integers/sto/sto_contiguous.h:scan_int_contiguous_none_space_part_define_impl"]}
{"id": "C07", "title": "Integer scan rejects malformed input", "statement": "Scanning reports an error (never ok) when no digit is present, e.g. empty text after whitespace, a lone sign or a lone base prefix.", "quantifier": "every input text and every flag setting", "why_tests_cant": "negative space of a parser is infinite", "anchors": ["include/fast_io_core_impl/integers/sto/sto_contiguous.h:scan_int_contiguous_define_impl"]}
{"id": "C08", "title": "Chunked integer scan equals contiguous scan", "statement": "Feeding an integer text to the context (streaming) scanner in pieces split at arbitrary points gives the same code, value and consumed length as scanning the concatenated text at once.", "quantifier": "every input text, every way of splitting it into chunks, every destination type", "why_tests_cant": "split points times texts is a quadratic-to-exponential space and faults sit at particular split points", "anchors": ["include/fast_io_core_impl/integers/sto/sto_contiguous.h:scan_context_define_parse_impl"]}
{"id": "C09", "title": "Vectorised decimal scan agrees with the scalar scan", "statement": "The SIMD decimal parser used when at least 32 characters are available returns the same code, value and position as the scalar parser, and never returns a position beyond the end of the input.", "quantifier": "every buffer content of length at least 32, every destination type", "why_tests_cant": "16-byte blocks have 2^128 contents and the overflow path is driven by run lengths", "anchors": ["include/fast_io_core_impl/integers/sto/sto_contiguous.h:sse_parse", "include/fast_io_core_impl/integers/sto/sto_contiguous.h:sse_skip_long_overflow_digits"]}
{"id": "C10", "title": "LEB128 round trip", "statement": "Decoding the LEB128 encoding of any unsigned or signed integer, followed by any other bytes, yields the same integer and consumes exactly the encoded bytes, through both the contiguous and the context interface.", "quantifier": "every value of every width 8..128 signed and unsigned, every trailing byte string", "why_tests_cant": "values and continuations are unbounded", "anchors": ["include/fast_io_freestanding_impl/serializations/leb128.h:pr_rsv_leb128_impl", "include/fast_io_freestanding_impl/serializations/leb128.h:scn_cnt_define_leb128_impl", "include/fast_io_freestanding_impl/serializations/leb128.h:scn_ctx_define_leb128_impl"]}
{"id": "C11", "title": "LEB128 encoding is shortest and fits the reserve", "statement": "The LEB128 encoder emits exactly the minimal number of 7-bit groups for the value, every byte but the last has the continuation bit and the last has not, and the length never exceeds ceil(bits/7), the declared reserve size.", "quantifier": "every value of every width, signed and unsigned", "why_tests_cant": "minimality and the size bound quantify over all values", "anchors": ["include/fast_io_freestanding_impl/serializations/leb128.h:pr_rsv_leb128_impl", "include/fast_io_freestanding_impl/serializations/leb128.h:print_reserve_size"]}
{"id": "C12", "title": "LEB128 decoding never accepts an out-of-range value", "statement": "If the decoder reports ok, the stored value is exactly the integer denoted by the consumed bytes (no silent truncation); encodings of integers outside the destination type yield overflow.", "quantifier": "every byte string, every destination type", "why_tests_cant": "adversarial inputs form an infinite set and truncation shows only in the last group", "anchors": ["include/fast_io_freestanding_impl/serializations/leb128.h:scn_cnt_define_leb128_impl"]}
{"id": "C13", "title": "LEB128 streaming decode is independent of chunking", "statement": "Splitting the input at any byte boundaries, including one byte at a time, does not change the decoder's result, value or total consumed length.", "quantifier": "every byte string, every split, every destination type", "why_tests_cant": "all split points of all inputs", "anchors": ["include/fast_io_freestanding_impl/serializations/leb128.h:scn_ctx_define_leb128_impl", "include/fast_io_freestanding_impl/serializations/leb128.h:scan_context_define"]}
{"id": "C14", "title": "Fixed-width little/big endian put/get round trip", "statement": "le_put/be_put of an integer that fits in sz bits writes exactly sz/8 bytes in the stated byte order independent of host order, and le_get/be_get of those bytes restores the integer; an integer that does not fit is rejected rather than truncated.", "quantifier": "every value, every supported size, both orders, both host endiannesses", "why_tests_cant": "all values, and host endianness cannot be varied in a unit test", "anchors": ["include/fast_io_freestanding_impl/serializations/lebe.h:lebe_put", "include/fast_io_freestanding_impl/serializations/lebe.h:lebe_get"]}
{"id": "C15", "title": "Unicode encode/decode round trip on all scalar values", "statement": "Converting a sequence of Unicode scalar values from UTF-32 to UTF-8 (or UTF-16) and back returns the same sequence.", "quantifier": "every finite sequence of scalar values", "why_tests_cant": "unbounded sequences over 1.1 million code points", "anchors": ["include/fast_io_core_impl/codecvt/utf.h:get_utf_code_units", "include/fast_io_core_impl/codecvt/general.h:general_code_cvt"]}
{"id": "C16", "title": "UTF-8 output is well-formed", "statement": "Whatever the input, converting to UTF-8 produces well-formed UTF-8 per the Unicode standard table 3-7.", "quantifier": "every input code-unit sequence, every source encoding", "why_tests_cant": "ill-formed inputs are unbounded", "anchors": ["include/fast_io_core_impl/codecvt/utf.h:get_utf_code_units"]}
{"id": "C17", "title": "UTF-8 decoding agrees with the standard", "statement": "Well-formed UTF-8 decodes to exactly the encoded scalar values; each ill-formed subsequence yields U+FFFD, no ill-formed sequence is decoded to a non-replacement character, and no byte of a following well-formed character is swallowed.", "quantifier": "every byte string", "why_tests_cant": "all byte strings; DFA table errors hide in rare byte combinations", "anchors": ["include/fast_io_core_impl/codecvt/utf.h:utf8 advance_with_big_table", "include/fast_io_core_impl/codecvt/utf_util_table.h"]}
{"id": "C18", "title": "Streaming code conversion is independent of chunking", "statement": "Feeding a source sequence to the stateful converter in chunks split anywhere, then finishing, produces the same output as a one-shot conversion.", "quantifier": "every source sequence, every split into chunks, each encoding pair", "why_tests_cant": "all split points of all inputs", "anchors": ["include/fast_io_core_impl/codecvt/general.h:general_code_cvt", "include/fast_io_core_impl/codecvt/general.h:general_code_cvt_full"]}
{"id": "C19", "title": "Code conversion never overruns the declared output size", "statement": "The number of units the converter writes never exceeds the reserve size announced for the input length, including the wide stores of vector fast paths.", "quantifier": "every input of every length, every encoding pair", "why_tests_cant": "the worst case expansion depends on the whole input", "anchors": ["include/fast_io_core_impl/codecvt/general.h:cal_full_reserve_size"]}
{"id": "C20", "title": "Hash updates are independent of chunking", "statement": "Updating a hash context with a message in any number of pieces of any sizes and finalising gives the same digest as a single update with the concatenation.", "quantifier": "every message, every split, each Merkle-Damgard hash offered (MD5, SHA-1, SHA-2)", "why_tests_cant": "partial-block buffering has state-dependent branches for every split", "anchors": ["include/fast_io_crypto/hash/md5_sha_hash_context.h:md5_sha_common_impl"]}
{"id": "C21", "title": "Hash padding follows the standard", "statement": "The digest of a message is the compression function folded over message || 0x80 || zeros || length exactly as the standard prescribes, for every message length including those where the padding spills into an extra block.", "quantifier": "every message", "why_tests_cant": "edge lengths modulo block size and lengths beyond 2^32 bits", "anchors": ["include/fast_io_crypto/hash/md5_sha_hash_context.h:do_final"]}
{"id": "C22", "title": "SHA-256 runtime compression equals the specification", "statement": "The optimised runtime SHA-256 block function computes the FIPS 180-4 compression function on every state and block.", "quantifier": "every 256-bit state, every 512-bit block, every number of blocks", "why_tests_cant": "2^768 inputs", "anchors": ["include/fast_io_crypto/hash/sha256.h", "include/fast_io_crypto/hash/sha256_scalar.h"]}
{"id": "C23", "title": "CRC32/CRC32C equal polynomial division", "statement": "The table driven CRC-32 and CRC-32C compute the reflected polynomial remainder bit by bit for every message and are independent of how the message is chunked.", "quantifier": "every byte string, every split", "why_tests_cant": "table entries interact with every state", "anchors": ["include/fast_io_crypto/hash/crc32.h"]}
{"id": "C24", "title": "Unix timestamp to calendar conversion is correct", "statement": "Converting a unix timestamp to a calendar date-time yields the proleptic Gregorian date and time of day of that second, and converting back yields the original timestamp.", "quantifier": "every 64-bit seconds value in the supported range", "why_tests_cant": "leap-year cycles of 400 years and negative times", "anchors": ["include/fast_io_core_impl/iso/iso8601.h:unix_timestamp_to_iso8601_tsp_impl_internal", "include/fast_io_core_impl/iso/iso8601.h:iso8601_to_unix_timestamp_impl"]}
{"id": "C25", "title": "Timestamp arithmetic is exact", "statement": "Addition, subtraction and comparison of timestamps agree with exact rational arithmetic on seconds+subseconds for all signs.", "quantifier": "all pairs of timestamps", "why_tests_cant": "sign combinations and carries over 2^64 subsecond values", "anchors": ["include/fast_io_core_impl/iso/iso8601.h:operator+", "include/fast_io_core_impl/iso/iso8601.h:operator-", "include/fast_io_core_impl/iso/iso8601.h:operator<=>"]}
{"id": "C26", "title": "ISO 8601 print/scan round trip", "statement": "Scanning the printed form of any valid ISO-8601 timestamp returns that timestamp.", "quantifier": "every valid date-time with any timezone and subsecond part", "why_tests_cant": "product of all fields", "anchors": ["include/fast_io_core_impl/iso/iso8601.h:print_reserve_iso8601_timestamp_impl", "include/fast_io_core_impl/iso/iso8601.h:scn_cnt_define_iso8601_impl"]}
{"id": "C27", "title": "IPv4 print/scan round trip", "statement": "Scanning the dotted text of any IPv4 address (with port if requested) returns the address and consumes exactly the text.", "quantifier": "all 2^32 addresses times 2^16 ports, any continuation", "why_tests_cant": "2^48 combinations with arbitrary trailing input", "anchors": ["include/fast_io_core_impl/socket/addrprt.h:prtrsv_inaddr_common_define_impl", "include/fast_io_core_impl/socket/addrscn.h:scn_cnt_define_inaddr_impl"]}
{"id": "C28", "title": "IPv6 text is unambiguous and canonical", "statement": "The printed IPv6 text, shortened or not, denotes exactly the original 128-bit address under RFC 4291, the shortened form elides the leftmost longest run of at least two zero groups, and the length is within the reserve.", "quantifier": "all 2^128 addresses", "why_tests_cant": "2^128 values", "anchors": ["include/fast_io_core_impl/socket/addrprt.h:prtrsv_in6addr_common_define_impl"]}
{"id": "C29", "title": "IPv6 scan inverts print", "statement": "Scanning the printed form of an IPv6 address returns the address.", "quantifier": "all addresses, each scan mode", "why_tests_cant": "2^128 values", "anchors": ["include/fast_io_core_impl/socket/addrscn.h:scn_cnt_define_in6addr_nonshorten_impl"]}
{"id": "C30", "title": "Buffered output preserves the byte stream", "statement": "For any sequence of writes, single-character puts, and flushes, the bytes delivered to the underlying device after a flush or close are exactly the concatenation of everything written, in order, none lost, duplicated or reordered.", "quantifier": "every sequence of operations, every buffer size, every chunk length", "why_tests_cant": "histories are unbounded and boundary conditions depend on fill level", "anchors": ["include/fast_io_freestanding_impl/io_buffer/output.h:write", "include/fast_io_freestanding_impl/io_buffer/output_normal.h", "include/fast_io_freestanding_impl/io_buffer/general.h:flush"]}
{"id": "C31", "title": "Buffered input preserves the byte stream", "statement": "For any sequence of reads and refills, the concatenation of the bytes returned is a prefix of the device's byte stream, with nothing lost or repeated, whatever short reads the device makes.", "quantifier": "every sequence of reads, every device short-read schedule, every buffer size", "why_tests_cant": "schedules of short reads are unbounded", "anchors": ["include/fast_io_freestanding_impl/io_buffer/input.h:read", "include/fast_io_freestanding_impl/io_buffer/input_normal.h"]}
{"id": "C32", "title": "read_all fills the range or reports end of file", "statement": "read_all returns normally only when every requested byte was filled with consecutive device bytes; otherwise it reports end_of_file; short reads never cause loss.", "quantifier": "every device schedule of short reads, every length", "why_tests_cant": "schedules are unbounded", "anchors": ["include/fast_io_core_impl/read_all.h:read_all_impl_decay"]}
{"id": "C33", "title": "write_all / scatter write delivers every byte under partial writes", "statement": "Writing a range or a scatter list through a device that accepts only part of each request still delivers all bytes in order.", "quantifier": "every partial-write schedule, every scatter list", "why_tests_cant": "schedules are unbounded", "anchors": ["include/fast_io_core_impl/rwreflect/reflectwrite.h:write_all_common_chtypeptr_impl", "include/fast_io_core_impl/rwreflect/reflectwrite.h:scatter_write_all_bytes_impl"]}
{"id": "C34", "title": "vector refines a mathematical sequence", "statement": "After any sequence of push_back, emplace, insert, erase, pop_back, reserve, shrink_to_fit, clear and copy/move operations, the elements and size are those of the same operations on an abstract list, and size never exceeds capacity.", "quantifier": "every operation history, every element type size", "why_tests_cant": "operation histories are unbounded", "anchors": ["include/fast_io_dsal/impl/vector.h"]}
{"id": "C35", "title": "vector bounds are enforced", "statement": "operator[], front, back, pop_back, insert_index and erase_index terminate the program when the index is out of range and never touch memory outside the live elements otherwise.", "quantifier": "every vector state, every index", "why_tests_cant": "index space", "anchors": ["include/fast_io_dsal/impl/vector.h:operator[]", "include/fast_io_dsal/impl/vector.h:erase_index"]}
{"id": "C36", "title": "Line scanner splits input into lines independent of buffering", "statement": "Reading lines returns the input split at '\\n' with nothing lost and independent of buffer refill boundaries.", "quantifier": "every text, every chunking", "why_tests_cant": "split points", "anchors": ["include/fast_io_freestanding_impl/scanners/line_scanner.h", "include/fast_io_core_impl/scan_freestanding.h"]}
{"id": "C37", "title": "Width manipulator pads exactly", "statement": "width(w, x) outputs max(w, len) characters: the text of x unchanged with the fill character added only on the requested side(s) (internal: after the sign).", "quantifier": "every width, every text, every placement", "why_tests_cant": "all widths and texts", "anchors": ["include/fast_io_freestanding_impl/width.h"]}
{"id": "C38", "title": "Character classification matches the C locale", "statement": "is_c_digit, is_c_alpha, is_c_space, to_c_lower, ... agree with the C-locale definition on every code unit, for ASCII execution sets, including code units above 127.", "quantifier": "every code unit of every character type", "why_tests_cant": "32-bit character types", "anchors": ["include/fast_io_core_impl/char_category.h"]}
{"id": "C39", "title": "Double-word division and multiplication intrinsics are exact", "statement": "The portable multi-word helpers (add-with-carry, subtract-with-borrow, widening multiply, double-word divide) compute the exact mathematical result with the exact carry for all operands.", "quantifier": "all operands of all widths", "why_tests_cant": "2^128 operand pairs", "anchors": ["include/fast_io_core_impl/intrinsics/carry.h", "include/fast_io_core_impl/intrinsics/udivmod.h", "include/fast_io_core_impl/intrinsics.h:umul"]}
{"id": "C40", "title": "concat and print size accounting is exact", "statement": "Concatenating arguments produces the concatenation of the individual printed texts, and a string built with a precise-size pre-computation has exactly the same contents.", "quantifier": "every argument list", "why_tests_cant": "argument combinations", "anchors": ["include/fast_io_core_impl/concat/concat_general.h", "include/fast_io_core_impl/print_freestanding.h"]}
{"id": "C41", "title": "SHA-2 family digests equal FIPS 180-4", "statement": "For every message given in any pieces, the digests of sha224/256/384/512/512-224/512-256 contexts are those of FIPS 180-4, on either byte order and whichever block function is compiled in.", "quantifier": "every message, every chunking, host byte order, block function (portable, 16-byte SIMD, constexpr)", "why_tests_cant": "known-answer vectors cover a handful of messages", "anchors": ["include/fast_io_crypto/hash/sha256.h: sha256_context", "include/fast_io_crypto/hash/sha512.h: sha512_context"]}
{"id": "C42", "title": "SHA-1 and MD5 digests equal FIPS 180-4 / RFC 1321", "statement": "For every message given in any pieces the sha1 and md5 contexts produce the standard digest.", "quantifier": "every message, every chunking, host byte order", "why_tests_cant": "known-answer vectors cover a handful of messages", "anchors": ["include/fast_io_crypto/hash/sha1.h: sha1_context", "include/fast_io_crypto/hash/md5.h: md5_context"]}
{"id": "C43", "title": "Hashing in constant evaluation equals hashing at run time", "statement": "A digest computed in a constant expression equals the run time digest of the same message.", "quantifier": "every message, every hash, host byte order", "why_tests_cant": "a constexpr test fixes a message at compile time; all messages are infinitely many", "anchors": ["include/fast_io_crypto/hash/md5_sha_hash_context.h: hash_digest_to_byte_ptr_common_impl", "include/fast_io_crypto/hash/md5.h: md5_main"]}
{"id": "C44", "title": "Printed timestamps have the documented form and fit the declared size", "statement": "Printing a civil time gives year (at least four digits), -MM-DDTHH:MM:SS, an exact fraction without trailing zeros and Z or the signed offset; printing a timestamp gives seconds and exact fraction; neither is longer than the size the library reserves.", "quantifier": "every value of every field of the in-memory types that fits the two-digit fields", "why_tests_cant": "64-bit years and subseconds, 32-bit offsets", "anchors": ["include/fast_io_core_impl/iso/iso8601.h:print_reserve_iso8601_timestamp_impl", "include/fast_io_core_impl/iso/iso8601.h:print_reserve_bsc_timestamp_impl", "include/fast_io_core_impl/iso/isos.h:output_iso8601_subseconds"]}
{"id": "C45", "title": "Day of the week", "statement": "weekday and c_weekday of a valid date are the day of the week of that date in the proleptic Gregorian calendar (Monday=1..Sunday=7; Sunday=0..Saturday=6).", "quantifier": "every valid date of every 64-bit year", "why_tests_cant": "2^64 years", "anchors": ["include/fast_io_core_impl/iso/iso8601.h:weekday", "include/fast_io_core_impl/iso/iso8601.h:c_weekday"]}
{"id": "C46", "title": "Epochs", "statement": "The named timestamp types count from the date they are named after; converting between epochs keeps the instant; a FILETIME value converts exactly.", "quantifier": "every timestamp that stays in range, every 64-bit FILETIME", "why_tests_cant": "all 64-bit values", "anchors": ["include/fast_io_core_impl/iso/iso8601.h:basic_timestamp", "include/fast_io_core_impl/iso/iso8601.h:to_win32_timestamp_ftu64"]}
{"id": "C47", "title": "Timestamp text round trip", "statement": "Scanning the printed form of a timestamp returns it and stops right behind it.", "quantifier": "every timestamp, every text that follows, 8/16/32-bit characters", "why_tests_cant": "all 64-bit seconds and 19-digit fractions", "anchors": ["include/fast_io_core_impl/iso/iso8601.h:scn_cnt_define_unix_timestamp_impl", "include/fast_io_core_impl/integers/chrono.h:chrono_scan_decimal_fraction_part_never_overflow_impl"]}
{"id": "C48", "title": "The ISO 8601 scanner reads only its text", "statement": "Scanning a civil time from a contiguous text never reads a character outside the text.", "quantifier": "every text, every length", "why_tests_cant": "every truncation of every text", "anchors": ["include/fast_io_core_impl/iso/iso8601.h:scn_cnt_define_iso8601_impl", "include/fast_io_core_impl/integers/chrono.h:chrono_scan_two_digits_unsafe_impl"]}
{"id": "C49", "title": "print and println output exactly their arguments", "statement": "print(out,args...) makes the stream's output grow by the texts of the arguments in order and println by the same followed by one line feed, whatever the fill level and size of the buffer, with or without optimisation, on buffered, unbuffered and scatter devices, and never stores outside a buffer.", "quantifier": "every argument list (ready texts, bounded texts, run-time bounded texts), every buffer size and fill level, every stream kind", "why_tests_cant": "argument lists, bounds and fill levels are unbounded and the code joins arguments by their sizes", "anchors": ["include/fast_io_core_impl/print_freestanding.h:print_freestanding_decay_no_status", "include/fast_io_core_impl/print_freestanding.h:print_controls_line_multi_impl", "include/fast_io_core_impl/temporary_buffer.h"]}
{"id": "C50", "title": "A tied stream delivers its output before it asks for input", "statement": "On a stream opened for both directions with tie, every request for input made to the device by read or a refill comes after everything written before has been delivered.", "quantifier": "every stream state, every request size, every device schedule", "why_tests_cant": "interleavings of output and input are unbounded", "anchors": ["include/fast_io_freestanding_impl/io_buffer/input.h:read", "include/fast_io_freestanding_impl/io_buffer/input.h:ibuffer_underflow"]}
{"id": "C51", "title": "Partial writes report exactly what was taken", "statement": "write_some returns the position behind the last element the stream took (a whole number of elements, also for wide characters over a byte device), and scatter_write_some the scatter reached, the offset in it and the total.", "quantifier": "every partial-write schedule, every range, every scatter list, every element size", "why_tests_cant": "schedules are unbounded", "anchors": ["include/fast_io_core_impl/rwreflect/reflectwrite.h:write_some_common_chtypeptr_impl", "include/fast_io_core_impl/rwreflect/reflectwrite.h:scatter_size_to_status"]}
{"id": "C52", "title": "vector destroys every element exactly once", "statement": "After any history of operations every element that left the vector has been destroyed exactly once, no slot beyond the size holds an object, and destroying the vector destroys all the rest.", "quantifier": "every operation history, every element type", "why_tests_cant": "operation histories are unbounded", "anchors": ["include/fast_io_dsal/impl/vector.h", "include/fast_io_dsal/impl/freestanding.h"]}
{"id": "C53", "title": "vector capacity guarantees", "statement": "After reserve(n) succeeds, push_back up to n elements neither fails nor moves the elements to another block; removing elements never moves them to another block; n push_backs allocate at most about log2(n)+1 blocks; shrink_to_fit leaves capacity equal to size with an exact allocator.", "quantifier": "every vector state, every n, every sequence of pushes", "why_tests_cant": "sizes are unbounded", "anchors": ["include/fast_io_dsal/impl/vector.h:reserve", "include/fast_io_dsal/impl/vector.h:shrink_to_fit", "include/fast_io_dsal/impl/vector.h:grow_twice_impl"]}
{"id": "C54", "title": "Character searches return the first match", "statement": "find_lf, find_c_space, find_html_whitespace and the constant-character searches (and their negations find_none_*) return the position of the first character with the property, or the end of the text if there is none, whatever the length and alignment of the text and whichever of the scalar, word-at-a-time, memchr and vector code paths the build selects.", "quantifier": "every text, every character, every build configuration", "why_tests_cant": "block boundaries times positions times code units times builds", "anchors": ["include/fast_io_core_impl/simd_find.h", "include/fast_io_core_impl/simd/is_all_zeros.h", "include/fast_io_core_impl/char_category.h"]}
{"id": "C55", "title": "Reading a string takes exactly the word, the line or the rest", "statement": "scan of a string reads the first whitespace-delimited word, line_get the first line, noskipws the characters up to whitespace, whole_get everything; the stream is left right after it (after the line feed for line_get); at the end of the text scan returns false. The result does not depend on how the text is split over buffer refills.", "quantifier": "every text, every chunking, every string type", "why_tests_cant": "all split points", "anchors": ["include/fast_io_unit/string_impl/scan_str_ctx_impl.h", "include/fast_io_freestanding_impl/serializations/strlike_get.h", "include/fast_io_core_impl/scan_freestanding.h"]}
{"id": "C56", "title": "str_get_all reads exactly n characters", "statement": "scan(in,str_get_all(s,n)) stores the next n characters in s and leaves the stream after them; with fewer characters left it returns false; it never writes outside of a buffer.", "quantifier": "every n, every text, every chunking, every string type", "why_tests_cant": "all n and split points", "anchors": ["include/fast_io_freestanding_impl/serializations/str_get.h", "include/fast_io_core_impl/concat/concat_buffer.h"]}
{"id": "C57", "title": "A double prints as the shortest decimal that reads back as the same double", "statement": "For every finite nonzero double the decimal digits and exponent chosen by print are such that reading them with correct rounding gives the same double, no decimal with fewer digits does, and none with as many digits is closer.", "quantifier": "every double, every build", "why_tests_cant": "2^64 values; the digit selection depends on tables for 2046 exponents", "anchors": ["include/fast_io_unit/floating/roundtrip.h dragonbox_main", "include/fast_io_unit/floating/roundtrip.h dragonbox_impl", "include/fast_io_unit/floating/roundtrip.h schubfach_asymmetric_interval"]}
{"id": "C58", "title": "A float prints as the shortest decimal that reads back as the same float", "statement": "For every finite nonzero float the decimal digits and exponent chosen by print read back as the same float, with the fewest digits, the closest such decimal.", "quantifier": "every float", "why_tests_cant": "all significands and exponents, near ties included", "anchors": ["include/fast_io_unit/floating/roundtrip.h dragonbox_main", "include/fast_io_unit/floating/roundtrip.h dragonbox_impl"]}
{"id": "C59", "title": "The decimal text of a finite number denotes the decimal that was chosen and reads back", "statement": "For every finite double or float, every format (general, scientific, decimal, fixed) and every flag combination, print writes the sign and then a text that denotes exactly the chosen decimal d*10^e, in the form the format asks for (fixed: no exponent; scientific: one nonzero digit and an exponent), without needless zeros, with the chosen separator and exponent mark, and changes nothing else in the output; so the text of a double reads back as that double.", "quantifier": "all doubles and floats, formats, flags, buffers", "why_tests_cant": "about 2^64 values times formats; the layouts switch on digit count and exponent", "anchors": ["include/fast_io_unit/floating/roundtrip.h print_rsvflt_define_impl", "include/fast_io_unit/floating/roundtrip.h print_rsv_fp_decision_impl", "include/fast_io_unit/floating/punning.h print_rsv_fp_sign_impl prt_rsv_exponent_impl"]}
{"id": "C60", "title": "The hexadecimal text of a finite number is its exact value", "statement": "For every finite nonzero double or float print with hexfloat writes sign, optional 0x, one digit (1, or 0 for subnormals), the hexadecimal fraction without trailing zeros and the binary exponent, and this text denotes exactly the value.", "quantifier": "all doubles and floats and flags", "why_tests_cant": "about 2^64 values; trailing zero trimming depends on each bit pattern", "anchors": ["include/fast_io_unit/floating/hexfloat.h print_rsvhexfloat_define_impl", "include/fast_io_unit/floating/hexfloat.h with_sign_prt_rsv_exponent_hex_impl"]}
{"id": "C61", "title": "Printing a floating point number never writes outside of the space reserved for it", "statement": "The number of characters print_reserve_size promises for a floating point manipulator is never exceeded by print_reserve_define, for any value, format and flag.", "quantifier": "all bit patterns, formats and flags", "why_tests_cant": "an overrun by one cell at rare values is not seen by examples", "anchors": ["include/fast_io_unit/floating/roundtrip.h print_rsvflt_size_impl", "include/fast_io_unit/floating/hexfloat.h print_rsvhexfloat_size_cache"]}
{"id": "C62", "title": "NaN, infinity and zero have their fixed texts", "statement": "NaN prints as nan or NAN, infinity as inf or INF, zero as 0 (0e+0 in scientific), with the sign, and the case of letters follows the flags as for other numbers.", "quantifier": "all NaN payloads, signs, formats, flags", "why_tests_cant": "all payloads of NaN", "anchors": ["include/fast_io_unit/floating/punning.h prsv_fp_nan_impl prsv_fp_dece0", "include/fast_io_unit/floating/roundtrip.h print_rsvflt_define_impl"]}
{"id": "C63", "title": "The decimal format takes the shorter of fixed and scientific", "statement": "For every value the text in decimal format is no longer than the text in fixed format and the text in scientific format.", "quantifier": "all doubles and floats", "why_tests_cant": "the comparison depends on digit count and exponent of each value", "anchors": ["include/fast_io_unit/floating/roundtrip.h print_rsv_fp_decision_impl"]}
{"id": "C64", "title": "transmit copies everything the source has to the sink, in order, and returns the number of characters", "statement": "For every source content, buffer state and buffer sizes, transmit(out,in) leaves the sink with its former text followed by every character the source still had, once and in order, and its result is the number of characters copied.", "quantifier": "all inputs, buffer sizes and buffer states, all splittings of the data into reads, in-memory, buffered and unbuffered sources and sinks", "why_tests_cant": "the loop over refills splits the data differently for every device and state", "anchors": ["include/fast_io_core_impl/transmit/transmit.h transmit transmit_buffered_impl", "include/fast_io_hosted/platforms/linux_zerocopy.h"]}
{"id": "C65", "title": "transmit64 copies at most the requested number of characters and leaves the rest readable", "statement": "transmit64(out,in,n) copies the first min(n, available) characters, returns that count, and the next read on the source continues with the first character not copied.", "quantifier": "all counts, inputs, buffer sizes and states", "why_tests_cant": "the limit may fall anywhere relative to buffer ends", "anchors": ["include/fast_io_core_impl/transmit/transmit.h transmit64"]}
{"id": "C66", "title": "An interrupted transmit loses no characters", "statement": "When the sink or the source throws in the middle of a transmit, every character of the source has either been delivered to the sink or can still be read from the source.", "quantifier": "all failure points, inputs and buffer states", "why_tests_cant": "the failure may come at any of unboundedly many calls", "anchors": ["include/fast_io_core_impl/transmit/transmit.h"]}
{"id": "C67", "title": "Calls on a stream shared through iomutex take effect one at a time", "statement": "Under every schedule of any number of threads making write, print, flush, read and transmit calls on io mutex streams, the calls take effect as if made one after the other in an order compatible with real time; in particular the texts of prints never mix and none is lost.", "quantifier": "all schedules, numbers of threads, calls, devices", "why_tests_cant": "schedules cannot be enumerated", "anchors": ["include/fast_io_hosted/iomutex.h basic_general_iomutex", "include/fast_io_core_impl/utils.h io_lock_guard", "include/fast_io_core_impl/print_freestanding.h 755-760", "include/fast_io_core_impl/transmit/transmit.h 94-108"]}
{"id": "C68", "title": "Threads sharing streams never block each other for good", "statement": "Whatever calls threads make on io mutex streams, some thread can always go on until all calls have returned, and every run ends.", "quantifier": "all schedules, numbers of threads and calls", "why_tests_cant": "deadlock needs a particular schedule", "anchors": ["include/fast_io_core_impl/utils.h io_lock_guard", "include/fast_io_core_impl/transmit/transmit.h 94-108"]}
{"id": "C69", "title": "File objects refer to their own files through copies, moves, release and reset", "statement": "After any history of opening, copying, moving, assigning, releasing, adopting, resetting, closing and destroying file objects and pipes, each object refers to the open file the operations say (a copy to the same open file, a moved-from or closed object to none), and exactly the operations the system refused threw.", "quantifier": "all histories over any number of objects, all answers of the kernel", "why_tests_cant": "histories of object operations and kernel answers are unbounded", "anchors": ["include/fast_io_hosted/platforms/posix.h basic_posix_file, basic_posix_pipe (1224-1438)", "include/fast_io_hosted/platforms/posix.h systemcall details sys_dup2, sys_close"]}
{"id": "C70", "title": "Descriptors are neither leaked nor closed twice", "statement": "After any history every descriptor held by an object is open and held only once, every open descriptor is held by someone, close is never called on a descriptor that is not open, and when all objects are destroyed all descriptors are closed.", "quantifier": "all histories over any number of objects, all answers of the kernel", "why_tests_cant": "a leak or double close needs a particular history and kernel failure", "anchors": ["include/fast_io_hosted/platforms/posix.h basic_posix_file, basic_posix_pipe (1224-1438)"]}
{"id": "C71", "title": "A process object waits for its own child only", "statement": "After any history of starting, moving, assigning, waiting for, detaching and destroying process objects, waiting gives the status of the object's own child, destroying or assigning to an object waits for its own child and no other, and a detached child is not waited for.", "quantifier": "all histories over any number of process objects and other children, all kernel choices", "why_tests_cant": "which child is collected depends on the kernel's choice among all children", "anchors": ["include/fast_io_hosted/process_revamp/posix.h posix_process, posix_waitpid, wait, detach (84-119, 258-268, 400-446)"]}
{"id": "C72", "title": "A child gets the standard streams it was given", "statement": "A started child's standard input, output and error are those asked for (inherited, an end of a pipe, a descriptor, the null device); it keeps no unneeded end of the pipes, and the parent keeps exactly its own ends.", "quantifier": "all descriptor tables, pipes and combinations of redirections", "why_tests_cant": "the combinations of descriptors and redirections are unbounded", "anchors": ["include/fast_io_hosted/process_revamp/posix.h child_process_deal_with_process_io, child_process_execveat, parent_process_deal_with_process_io (137-207)"]}
{"id": "C73", "title": "concat gives what print writes", "statement": "concat(args...) and concatln(args...) into any string type return exactly the characters that print/println of the same arguments writes, without storing outside the string.", "quantifier": "all string types (character size, local capacity, growth policy, with or without direct buffer access), all lists of arguments that keep their size promises, all integers and flags", "why_tests_cant": "path taken depends on announced sizes, capacities and the kinds of all arguments", "anchors": ["include/fast_io_core_impl/concat/concat_general.h basic_general_concat_phase1_decay_impl, basic_general_concat_decay_ref_impl, basic_general_concat_decay_ref_impl_precise", "include/fast_io_core_impl/concat/concat_buffer.h basic_concat_buffer", "include/fast_io_core_impl/integers/impl.h print_reserve_precise_define"]}
{"id": "C74", "title": "Printing to a string appends to it", "statement": "Any sequence of print/println calls on a string leaves its previous characters unchanged and appends exactly the printed texts in order, for every capacity and growth policy.", "quantifier": "all strings, capacities, growth policies and sequences of prints", "why_tests_cant": "unbounded histories of growths", "anchors": ["include/fast_io_core_impl/concat/strlike_reference_wrapper.h obuffer_overflow, write, write_strike_like_cold", "include/fast_io_unit/string_impl/ostring_ref.h"]}
{"id": "C75", "title": "Reading an IPv4 address from a stream does not depend on how the input is cut into buffers", "statement": "Scanning an address (and port) from a stream gives the printed address back for every cutting of the text into buffers, consumes exactly the text, and accepts nothing that the in-memory scanner refuses.", "quantifier": "all addresses, ports, leading white space, following texts and cuttings", "why_tests_cant": "the cuttings and texts are unbounded", "anchors": ["include/fast_io_core_impl/socket/addrscn.h scn_ctx_define_inaddr_impl, scn_ctx_define_port_impl, scan_context_eof_define"]}
{"id": "C76", "title": "scan reads its arguments in order from a buffered stream, wherever the buffers end", "statement": "scan(in, a1, ..., an) on a buffered stream whose text is the texts of the arguments one after the other stores each object, returns true and leaves the stream exactly after the last text, however the text is cut into buffers; if nothing is left for some argument the earlier ones are stored and the call returns false (scan<true>) or throws end of file.", "quantifier": "all argument lists (integers, words, lines, characters, literals, LEB128, fixed-size integers, IPv4 addresses), all objects, following texts and cuttings", "why_tests_cant": "argument lists, texts and cuttings are unbounded", "anchors": ["include/fast_io_core_impl/scan_freestanding.h scan_single_impl, scan_context_status_impl, scan_freestanding_decay", "include/fast_io_core_impl/integers/match.h match_context_impl", "include/fast_io.h scan"]}
{"id": "C77", "title": "scan on a stream without a buffer loses nothing it should not", "statement": "scan on an unbuffered stream reads the same objects; if the stream can take a character back it is left exactly after the last text, otherwise at most one character after it is lost, and none if the last argument ends with its own character.", "quantifier": "all argument lists, objects and texts", "why_tests_cant": "argument lists, texts and cuttings are unbounded", "anchors": ["include/fast_io_core_impl/scan_freestanding.h unget_temp_buffer, scan_freestanding_decay"]}
{"id": "C78", "title": "scan on text in memory", "statement": "scan on a contiguous stream (a string view or a mapped file) reads its arguments in order and leaves the stream exactly after the last text; at the end of the text it reports the end of the file as other streams do.", "quantifier": "all argument lists, objects and texts", "why_tests_cant": "argument lists, texts and cuttings are unbounded", "anchors": ["include/fast_io_core_impl/scan_freestanding.h scan_single_impl (contiguous_input_stream branches)"]}
{"id": "C79", "title": "a POSIX file is opened as its open mode says", "statement": "Opening a file with a mode made of in, out, app, trunc and excl (plus any attributes) does what the table of open modes says: the file is kept, emptied or refused when it exists, created or refused when it does not, and the descriptor can read, write or append accordingly; symbolic links are followed only with follow; every other attribute of the mode becomes exactly its flag.", "quantifier": "all 64-bit mode values, all file states", "why_tests_cant": "mode values and file states are too many to enumerate; the flag bits interact", "anchors": ["include/fast_io_hosted/platforms/posix.h calculate_posix_open_mode", "include/fast_io_core_impl/mode.h open_mode"]}
{"id": "C80", "title": "C streams are opened with the mode string of the table", "statement": "The C mode string of an open mode makes fopen do what the table says; 'b' is present exactly when text is absent; combinations outside the table give the empty string; the stream asks for exactly the rights the POSIX descriptor for the same mode has.", "quantifier": "all 64-bit mode values", "why_tests_cant": "mode values are too many to enumerate", "anchors": ["include/fast_io_core_impl/mode.h to_c_mode, c_supported", "include/fast_io_legacy_impl/c/impl.h"]}
{"id": "C81", "title": "permissions print as rwxrwxrwx", "statement": "A permissions value prints as exactly nine characters, the letter where the bit is set and '-' where not, and what is printed determines the nine bits.", "quantifier": "all 32-bit permission values", "why_tests_cant": "values are too many to enumerate", "anchors": ["include/fast_io_core_impl/perms.h print_status_impl"]}
{"id": "C82", "title": "a file loader holds the file's bytes", "statement": "Loading a file with allocation_file_loader or posix_file_loader gives exactly the file's bytes (and the requested number of zero bytes after them), however the kernel splits the reads; if the file is shorter than reported or a read fails the constructor throws and leaves no memory behind.", "quantifier": "all files, offsets, sizes and ways of splitting reads", "why_tests_cant": "short reads and shrinking files depend on the kernel's schedule", "anchors": ["include/fast_io_hosted/file_loaders/posix_file_loader.h posix_load_address, posix_load_address_extra"]}
{"id": "C83", "title": "loaders own their memory", "statement": "In any program that constructs, loads, moves, closes, releases and destroys loaders every operation is defined, each object shows exactly the bytes it holds, memory is released exactly once and nothing leaks.", "quantifier": "all histories of operations on any number of loaders", "why_tests_cant": "histories are unbounded", "anchors": ["include/fast_io_hosted/file_loaders/posix_file_loader.h posix_file_loader_impl"]}
{"id": "C84", "title": "memory maps own their mapping and have the permissions asked for", "statement": "The same for posix_memory_map_file, and a mapping can be read, written and executed as its attribute says, privately for the copy attributes.", "quantifier": "all histories of operations, all attributes", "why_tests_cant": "histories are unbounded", "anchors": ["include/fast_io_hosted/platforms/posix_mapping.h posix_memory_map_file, to_posix_file_map_attribute"]}
{"id": "C85", "title": "an HTTP header is read whole wherever the input is cut", "statement": "Reading an HTTP header into a header buffer takes exactly the input up to and including the first blank line, stores all of it and leaves the rest, whatever buffers the input arrives in; a header that does not fit, or an input that ends first, is refused.", "quantifier": "all inputs, all ways of cutting them into buffers, all buffer capacities", "why_tests_cant": "inputs and cuttings are unbounded", "anchors": ["include/fast_io_core_impl/http_header.h http_header_scan_context_define_impl, try_copy_into_buffer"]}
{"id": "C86", "title": "the parts of an HTTP header are found", "statement": "After reading a header, request(), code() and reason() are the three parts of the first line and iterating gives the keys and values of the other lines in order.", "quantifier": "all headers of any number of lines", "why_tests_cant": "headers are unbounded", "anchors": ["include/fast_io_core_impl/http_header.h determine_http_header_location, line_generator"]}
{"id": "C87", "title": "to<integer> is the value of the printed text", "statement": "to<T>(args...) for an integer type is the value of the decimal numeral the arguments print together, in however many pieces; an integer argument is converted exactly or refused with an exception.", "quantifier": "all argument lists, all texts and cuttings of them into arguments, all integer types, all values", "why_tests_cant": "texts and argument lists are unbounded", "anchors": ["include/fast_io_core_impl/to.h basic_inplace_to_decay, inplace_to_decay_buffer_context_impl, to", "include/fast_io_core_impl/integers/sto/sto_contiguous.h"]}
{"id": "C88", "title": "to and inplace_to with other targets read the printed text", "statement": "to<std::string> is the first word of what the arguments print; inplace_to of a line, a character, a literal, LEB128 or an address reads what the arguments print like a scan of that text does.", "quantifier": "all argument lists and texts", "why_tests_cant": "texts and argument lists are unbounded", "anchors": ["include/fast_io_core_impl/to.h basic_inplace_to_decay, deal_with_single_to, inplace_to_decay_buffer_scatter_context_impl"]}
{"id": "C89", "title": "to's buffer holds every argument", "statement": "The result of to and inplace_to depends only on the texts of the arguments, not on how (static size, dynamic size, scatter) they are printed; no argument overruns the internal buffer.", "quantifier": "all argument lists with honest size announcements", "why_tests_cant": "argument lists and sizes are unbounded", "anchors": ["include/fast_io_core_impl/to.h calculate_print_normal_maxium_size, calculate_print_normal_dynamic_maxium_main"]}
{"id": "C90", "title": "hex_encode and UUID text decode back to the bytes", "statement": "hex_encode(range) and hex_encode_upper(range) print exactly two digits of the chosen case for each byte, in exactly the number of characters announced, and decoding the text gives the bytes back; a UUID prints as 36 characters in the 8-4-4-4-12 form.", "quantifier": "all byte sequences of any length, both cases; all UUIDs", "why_tests_cant": "byte sequences are unbounded", "anchors": ["include/fast_io_core_impl/integers/crypto_hash.h crypto_hash_pr_df_impl, hex_encoding_prv_size_cal, hex_encode, pr_rsv_uuid", "include/fast_io_driver/boost/uuid.h print_reserve_size"]}
{"id": "C91", "title": "a digest printed after writing to as_file is the standard hash of what was written", "statement": "Whatever is written to as_file(ctx) by any sequence of write and scatter_write calls, hash_digest, hash_digest_upper and hash_digest_raw_bytes of the finished context print the standard hash of the bytes written, in order, within the announced size.", "quantifier": "all ten hash functions, all sequences of writes, all contents, both byte orders, all implementations", "why_tests_cant": "messages and write sequences are unbounded", "anchors": ["include/fast_io_core_impl/integers/crypto_hash.h write, scatter_write, update_multiple_blocks, hash_digest, prv_srv_hash_df_common_impl, copy_to_hash_df_commom_impl"]}
{"id": "C92", "title": "hash_compress hashes exactly the bytes of the range", "statement": "hash_compress<ctx>(range), hash_compress_upper and hash_compress_raw_bytes print the hash of the range's elements' bytes and read nothing else.", "quantifier": "all hash functions, all forms, all contiguous ranges of any element type and length", "why_tests_cant": "ranges are unbounded and the defect depends on the sizes of two types", "anchors": ["include/fast_io_core_impl/integers/crypto_hash.h hash_compress, hash_compress_upper, hash_compress_raw_bytes, prv_srv_hash_compress_df_impl"]}
{"id": "C93", "title": "printing a range prints the elements with the separator between them", "statement": "print(rgvw(range, sep)) outputs the text of every element in order with exactly one separator between neighbours, none at the ends and nothing for an empty range, and the size announced for a reserve-printable element type is never less than what is stored.", "quantifier": "all ranges of any length, all element texts, all separators (also empty), sized and unsized ranges, buffered output with any buffer size, size_t of any width", "why_tests_cant": "ranges are unbounded and the size is a product computed modulo 2^64", "anchors": ["include/fast_io_core_impl/range_view.h print_reserve_size, print_reserve_define, print_define, rgvw"]}
{"id": "C94", "title": "the ChaCha20 block function is that of RFC 8439", "statement": "Given any 16 word state, the ChaCha routine stores the 64 bytes that RFC 8439 section 2.3 defines, and the portable and the vector routine agree.", "quantifier": "all states, both byte orders, both routines", "why_tests_cant": "2^512 states", "anchors": ["include/fast_io_crypto/streamcipher/chacha/scalar.h chacha_main_routine", "include/fast_io_crypto/streamcipher/chacha/simd16.h chacha_runtime_routine"]}
{"id": "C95", "title": "the AES round keys are those of FIPS 197", "statement": "Constructing an AES context from a key of 16, 24 or 32 bytes stores the FIPS 197 key expansion inside the object, and applying it writes the cipher text.", "quantifier": "all keys of the three sizes, all inputs", "why_tests_cant": "2^128 to 2^256 keys", "anchors": ["include/fast_io_crypto/cipher/aes.h aes, key_schedule_size, aes_128_key_exp, aes_192_key_exp_2, aes_256_key_exp_2, operator()"]}
{"id": "C96", "title": "padding completes a block and touches nothing else", "statement": "zero_padding and pkcs7_padding return the message followed by the padding that completes the block (zeros; or r bytes of value r), for every message length the scheme allows including the empty one.", "quantifier": "all block sizes, messages and remaining counts", "why_tests_cant": "messages and block sizes are unbounded; the loop counts down with an unsigned index", "anchors": ["include/fast_io_crypto/padding/zero_padding.h", "include/fast_io_crypto/padding/pkcs7_padding.h"]}
{"id": "C97", "title": "a locale's grouping only inserts separators", "statement": "Printing an integer with a locale outputs the sign, the base prefix and the numeral cut, from the right, into groups of the sizes in the locale's grouping (the last size repeated, 0 or a huge size ending it) with the locale's thousands separator between groups; removing the separators gives the numeral; a locale without separator or grouping changes nothing; timestamps use the locale's decimal point; the announced size is never exceeded.", "quantifier": "all integer types and values, bases 2..36, flags, groupings, separators of any length, timestamps", "why_tests_cant": "values, groupings and separators are unbounded", "anchors": ["include/fast_io_i18n/lc_numbers/integers.h lc_print_reserve_integral_define, grouping_mul_sep_impl, lc_grouping_single_sep_ch_impl, print_lc_grouping_3_path_impl, lc_print_reserve_size_int_cal, print_reserve_define_grouping_timestamp_impl"]}
{"id": "C98", "title": "a timestamp scanned from a stream does not depend on how the stream is cut", "statement": "Scanning an ISO 8601 timestamp from input arriving in chunks gives the civil time and the rest of the input exactly when the input is white space, an ISO 8601 text of that time and that rest, wherever the chunks are cut and whatever the object held before; it is never undefined; what print wrote is read back.", "quantifier": "every cutting of every input text into chunks (empty ones included), all character widths", "why_tests_cant": "cuttings and texts are unbounded", "anchors": ["include/fast_io_core_impl/iso/iso8601.h scn_ctx_define_iso8601_impl, scan_iso8601_context_year_phase, scan_iso8601_context_2_digits_phase, scn_ctx_decimal_fraction_part_never_overflow_impl, scan_context_define, scan_context_eof_define", "include/fast_io_core_impl/integers/sto/sto_contiguous.h sc_int_ctx_digit_phase"]}
{"id": "C99", "title": "Searching a range returns the first or last match", "statement": "For every range of elements and every value, predicate or set of values, the freestanding find_if, find, find_not and find_first_not_of return the first position whose element is as asked, find_last, find_last_not, find_last_of and find_last_not_of the last one, all of them the end of the range if there is none; they read nothing outside of the two ranges.", "quantifier": "every memory, every range [first,last) in it, every element type with an equality, every searched value, predicate and set", "why_tests_cant": "the loops' boundaries matter for every length and every position of the match; a test tries some", "anchors": ["include/fast_io_core_impl/freestanding/algorithm.h: find_if, find, find_not, find_last, find_last_not, find_first_not_of, find_last_of, find_last_not_of"]}
{"id": "C100", "title": "Comparing and reordering ranges", "statement": "For all ranges: my_mismatch returns the first difference, equal tells equality, lexicographical_compare the dictionary order; lower_bound returns the partition point of a partitioned range with at most floor(log2 n)+1 comparisons (and stays inside of any range); remove keeps the other elements in order at the front; rotate exchanges the two parts and returns the new position of the first element. Nothing outside of the ranges is read or changed.", "quantifier": "every memory, every ranges, every total order and comparison, every partition", "why_tests_cant": "recursion and halving over every length; rotate's recursion pattern depends on the two lengths as Euclid's algorithm does", "anchors": ["include/fast_io_core_impl/freestanding/algorithm.h: my_mismatch, equal, lexicographical_compare, lower_bound, remove, rotate"]}
{"id": "C101", "title": "Copying, filling and comparing n elements", "statement": "my_copy, my_copy_n, my_copy_backward, non_overlapped_copy(_n), fill and my_compare_iter_n do what their names say for every element type, at run time and in constant expressions: the destination holds what the source held before the call, nothing else changes, the position after the destination is returned, my_compare_iter_n tells whether n elements are equal.", "quantifier": "every memory, every pair of (possibly overlapping) ranges, every pair of element types, contiguous or not, constant evaluation or run time", "why_tests_cant": "which branch of if constexpr is taken depends on the types; overlap and length are unbounded", "anchors": ["include/fast_io_core_impl/freestanding/algorithm.h: copy_n, copy, copy_backward, non_overlapped_copy_n, non_overlapped_copy, my_copy_n, my_copy, my_copy_backward, my_compare_iter_n, fill, fill_n", "include/fast_io_core_impl/freestanding/bytes.h: bytes_copy_n, bytes_fill_n"]}
{"id": "C102", "title": "Uninitialised copying cleans up after an exception", "statement": "uninitialized_copy and uninitialized_copy_n construct copies of all elements in free storage; if the copy constructor throws at any element, every object built so far is destroyed exactly once and the storage is as before.", "quantifier": "every memory, every length, every element at which the constructor throws", "why_tests_cant": "every crash point of a loop of any length", "anchors": ["include/fast_io_core_impl/freestanding/algorithm.h: uninitialized_copy, uninitialized_copy_n"]}
{"id": "C103", "title": "The SHA routines for vector units compute the standard hash", "statement": "Whatever block routine the build selects - the x86 SHA instructions through GCC/clang builtins or through the Microsoft intrinsics for SHA-224/256, the 256-bit vectors for SHA-384/512/512-224/512-256 - the state after any number of blocks is the FIPS 180-4 compression of these blocks in order, independent of what the registers and work arrays held, so the digest of every message cut in every way is the standard's and equals the portable build's.", "quantifier": "every state, every number of blocks, every block content, every prior register and work array content; every message and cutting for the digests", "why_tests_cant": "these routines keep the state in permuted lanes, build the message schedule four words at a time and hold 64 round constants as signed decimal literals; an error can show for one message in 2^32, and on a machine without these units the code does not even run", "anchors": ["include/fast_io_crypto/hash/sha256_x86_sha_extensions.h: sha256_runtime_routine", "include/fast_io_crypto/hash/sha256_x86_sha_extensions_msvc.h: sha256_runtime_routine", "include/fast_io_crypto/hash/sha512_simd32_shuffle.h: sha512_simd32_byte_swap_message_4rounds, sha512_simd32_compute_message_4rounds, sha512_runtime_routine"]}
{"id": "C104", "title": "A view over a character array never stores outside it and shows what was output", "statement": "For every history of write, put, print, println and clear on an obuffer_view, with any arguments whose text stays within the size their type announces: no store falls outside the array; if every operation returns, the characters between begin() and end() are exactly the text output since the last clear and size() is its length; nothing is cut off silently: the process is terminated when a text does not fit, and every operation returns when the announced sizes fit.", "quantifier": "every array, every history of operations, all argument lists and both optimisation modes", "why_tests_cant": "unit tests fix the array and the texts; the off-by-one cases (exactly full, newline as the last character, joined arguments, empty texts) lie at every combination of the remaining room and the lengths", "anchors": ["include/fast_io_core_impl/buffer_view.h: basic_obuffer_view, write, obuffer_overflow", "include/fast_io_core_impl/print_freestanding.h: print_control, print_controls_line_multi_impl (contiguous_output_stream)", "include/fast_io_core_impl/overflow.h: put"]}
{"id": "C105", "title": "read on an input view fills only the given range", "statement": "read(view,first,last) on an ibuffer_view should store the next min(last-first, unread) characters in [first,last), change nothing else, return the end of what it stored and consume exactly that. (It does so only when all unread characters fit in the range; otherwise it stores all of them, behind the range.)", "quantifier": "every view, every destination range and all contents", "why_tests_cant": "a test with a destination as large as the text passes; the failing case is every shorter destination and shows as a stray store", "anchors": ["include/fast_io_core_impl/buffer_view.h: read(basic_ibuffer_view)"]}
{"id": "C106", "title": "The growing buffer holds everything output to it", "statement": "After any sequence of write, put, oreserve and oshrink_to_fit on a dynamic_io_buffer the characters between obuffer_begin and obuffer_curr should be everything output, in order, and oreserve(n) should make room for n characters. (A write that finds room overwrites the text from the beginning, put on a fresh buffer stores outside, oreserve never grows.)", "quantifier": "all histories of operations, all texts and sizes", "why_tests_cant": "whether a write finds room depends on the whole history of sizes; a test that writes once, or always overflows, passes", "anchors": ["include/fast_io_core_impl/dynamic_io_buffer.h: write, obuffer_overflow, oreserve, oshrink_to_fit"]}
{"id": "C107", "title": "auto_indent lines up the tabs and stays within the size it announces", "statement": "print(auto_indent(text)) prints the text with every cell that a tab follows filled with spaces to the width of the widest cell of its column, so that the k-th tabs of all lines stand in the same column and nothing else changes; it never stores more than print reserves for it. (The last part fails for a text that ends with a tab.)", "quantifier": "all texts, all numbers of lines and columns", "why_tests_cant": "the widths come from one pass and are used in another, with different treatment of the last cell; the failing texts (empty last cell, ragged lines, no lines at all) are found by no fixed table", "anchors": ["include/fast_io_freestanding_impl/auto_indent.h: calculate_auto_width_result, print_reserve_define_auto_indent", "include/fast_io_hosted/auto_indent.h: auto_indent"]}
{"id": "C108", "title": "cond prints the chosen alternative", "statement": "print(...,cond(pred,a,b),...) prints the same text as the print with the chosen argument in its place, whatever kinds of printable types a and b are and whichever is larger, and stays within the size announced.", "quantifier": "all argument kinds, texts, sizes, both values of the condition and of the type comparisons", "why_tests_cant": "the implementation swaps the alternatives by size and offers four printing protocols; each combination is a different function", "anchors": ["include/fast_io_freestanding_impl/cond.h: cond, print_reserve_size, print_scatter_define, print_reserve_define, print_define"]}
{"id": "C109", "title": "Times of the system keep their value as timestamps", "statement": "The timestamp returned for a clock or a file time is the time the system reports; a timestamp handed to the system (clock_settime, utimensat) is that time cut off to a nanosecond; reading and setting again changes nothing; the order of times is kept; requests for 'now' and 'unchanged' are never confused with a time. (Before 1970 the first two and the order fail when there are nanoseconds.)", "quantifier": "all struct timespec values with nanoseconds below 10^9, all timestamps, all combinations of requests", "why_tests_cant": "there are 2^93 times; the failure is confined to negative times with a fraction, and the reserved nanosecond values are two points among 2^64", "anchors": ["include/fast_io_unit/timespec.h: timespec_to_unix_timestamp", "include/fast_io_hosted/timeutil/time.h: posix_clock_gettime, posix_clock_getres, posix_clock_settime", "include/fast_io_hosted/filesystem/posix_at.h: unix_timestamp_to_struct_timespec64, posix_utimensat_impl", "include/fast_io_core_impl/enums/utime_flags.h"]}
{"id": "C110", "title": "The Windows clocks measure and set the time", "statement": "The monotonic clock is the performance counter divided by its frequency, within one unit per tick, strictly increasing with the counter, and its reported resolution is its step; processor times, file times and the system time are exact; setting the system time hands over the time cut off to 100 ns and returns the old time exactly. (File times before 1970 collapse to 1970; setting a time before 1601 wraps.)", "quantifier": "all counters and frequencies, all 64-bit tick counts, all timestamps", "why_tests_cant": "the quotient of 10^19 by the frequency is rounded for all but a few frequencies; monotonicity is about every pair of counters", "anchors": ["include/fast_io_hosted/timeutil/time.h: win32_posix_clock_gettime_boottime_xp_impl, win32_posix_clock_gettime_process_or_thread_time_impl, nt_family_clock_settime", "include/fast_io_hosted/platforms/win32/utils.h: to_unix_timestamp, to_win32_timestamp_ftu64"]}
{"id": "C111", "title": "local() gives the local time of the instant", "statement": "local(t) is a valid date and time that denotes the instant of t, and its offset is the zone's offset at that instant. (The offset is that of summer time only if 1970-01-01 was in summer time; on BSD and macOS January is reported as December of the year before.)", "quantifier": "all timestamps, all time zones (standard offset, any summer-time rule)", "why_tests_cant": "it depends on the zone and on the instant: a test runs in one zone, usually UTC, and in one month", "anchors": ["include/fast_io_hosted/timeutil/time.h: local, to_iso8601_local_impl, posix_daylight"]}
{"id": "C112", "title": "Reading the DOS clock is atomic", "statement": "The date and the time of day are read by separate calls, yet the time returned is one instant at which the clock was read during the call, however the clock advances between the calls; the call fails only if the day changed in each of a hundred attempts. posix_clock_settime reports success when it set the clock. (The unix time is a day late in February of leap years; setting never reports success.)", "quantifier": "all schedules of the reads (any non-decreasing sequence of instants), all dates", "why_tests_cant": "a torn read needs midnight to fall between two calls", "anchors": ["include/fast_io_hosted/timeutil/time.h: get_dos_iso8601_timestamp, get_dos_unix_timestamp, set_dos_unix_timestamp, posix_clock_settime"]}
{"id": "C113", "title": "Encoding in GB18030", "statement": "Converting any UTF-8, UTF-16 or UTF-32 text, well-formed or not, to GB18030 reads only inside the code tables, writes well-formed GB18030 that fits in the announced space; ASCII is unchanged, the supplementary planes follow each other from 90308130, anything that is not a Unicode scalar value becomes the replacement character, and distinct texts get distinct encodings. (U+E7C7 and U+1E3F get the same code.)", "quantifier": "all unit sequences of the three widths, all 32-bit code points, all pairs of texts", "why_tests_cant": "2^32 code points against tables of 32781 entries with 13 arithmetic ranges; distinctness is about all pairs", "anchors": ["include/fast_io_unit/gb18030.h: get_gb18030_code_units, lookup_uni_to_gb18030, gb18030_ranges", "include/fast_io_core_impl/codecvt/general.h: general_code_cvt"]}
{"id": "C114", "title": "Text survives conversion to GB18030 and back", "statement": "A text of Unicode scalar values converted to GB18030 and back, through any unit widths, with or without vector instructions, is the same text. (False for the 1444 characters on an explicit list, among them all characters of U+0080-U+0451 with four-byte codes, such as U+00F6: they come back as U+FFFD.)", "quantifier": "all texts of scalar values, all widths", "why_tests_cant": "each of 1.1 million characters has to be tried; the failing ones are 1444, none of them Chinese", "anchors": ["include/fast_io_unit/gb18030.h: get_gb18030_code_units, gb18030_advance, utf32cp_by_gb18030_index"]}
{"id": "C115", "title": "Decoding any bytes as GB18030", "statement": "Decoding any byte string as GB18030 reads inside the tables and the source, gives only Unicode scalar values, is the same for all widths, with and without vector instructions and however the text is cut into chunks; only an unfinished character of at most three bytes is kept back; the output fits in the announced space; bytes that begin no character are replaced by U+FFFD. (Digits 0x3A-0x3F are accepted; the byte after a stray lead byte is lost.)", "quantifier": "all byte strings, all ways to cut them", "why_tests_cant": "the state space is that of all byte strings and cut positions; out-of-bounds reads show only at particular bytes at the very end of the source", "anchors": ["include/fast_io_unit/gb18030.h: gb18030_advance, gb18030_advance_unchecked, lookup_gb18030_to_uni4_func", "include/fast_io_core_impl/codecvt/general.h: general_code_cvt (stateful)"]}
{"id": "C116", "title": "Text survives conversion to UTF-EBCDIC and back", "statement": "A text of Unicode scalar values in UTF-8, UTF-16 or UTF-32 is converted to its UTF-EBCDIC form (five-bit groups, then a permutation of the bytes with EBCDIC letters, digits and space) and back to the same text in any width; any other source gives the form of some code points in the announced space, with U+FFFD for what is ill-formed. (From UTF-16 and UTF-32 the replacement written is U+FEFF, and UTF-32 surrogates are encoded.)", "quantifier": "all texts of scalar values, all unit sequences of the three widths", "why_tests_cant": "each of 1.1 million code points has its own bytes, through three 256-entry tables that must agree", "anchors": ["include/fast_io_core_impl/codecvt/utf_ebcdic.h: get_utf_ebcdic_code_units, get_utf_ebcdic_invalid_code_units, bm_i8_to_ebcdic, bm_ebcdic_to_i8, utfebcdic_shadow_flags", "include/fast_io_core_impl/codecvt/general.h: general_code_cvt"]}
{"id": "C117", "title": "Decoding any bytes as UTF-EBCDIC", "statement": "Decoding any byte string as UTF-EBCDIC reads only inside the string, gives code points below 2^21 that fit in the announced space and keeps at most six bytes back; bytes that form no character become U+FFFD; the result does not depend on how the text is cut into chunks. (Overlong forms, surrogates and codes above U+10FFFF are accepted; when a broken sequence is cut after the break, the converter goes on reading before the chunk.)", "quantifier": "all byte strings, all ways to cut them", "why_tests_cant": "all byte strings and cut positions; the read before the chunk needs a broken character at a cut", "anchors": ["include/fast_io_core_impl/codecvt/utf_ebcdic.h: utf_ebcdic_advance", "include/fast_io_core_impl/codecvt/general.h: general_code_cvt (stateful)"]}
{"id": "C118", "title": "A locale-formatted time fits in its announced size", "statement": "Printing a timestamp with the locale's date and time formats (d_t_fmt, d_fmt, t_fmt, t_fmt_ampm, date_fmt and the era versions) writes no more characters than the size computed beforehand, for every timestamp and every locale whose formats do not contain %u or %N and whose formats do not refer to themselves. (With %u or %N measuring stops early, and more is written than was announced; a format that refers to itself never ends.)", "quantifier": "all timestamps, all formats, names, eras and alternative digits of a locale", "why_tests_cant": "the announced size is computed by a second, separately written interpreter of the format language, and formats are data", "anchors": ["include/fast_io_i18n/lc_numbers/lc_time.h: lc_print_reserve_size_time_format_common_impl, lc_print_reserve_define_time_fmt_common_impl, print_reserve_size, print_reserve_define"]}
{"id": "C119", "title": "Day and week numbers in a locale-formatted time", "statement": "%j prints the day of the year and %U the number of Sundays so far, for every date from year 1 on; %W the number of Mondays so far in years not beginning on a Monday; %V, %G and %v the ISO week and its year, except for some days around New Year. (Wrong otherwise: %W in years beginning on Monday, %V on 1 January 2011, 1 January 2005 and 31 December 2012, %G on 31 December 2012, %v on 2 January 2010.)", "quantifier": "all dates of the calendar from year 1 on", "why_tests_cant": "week numbers go wrong only in years of certain shapes", "anchors": ["include/fast_io_i18n/lc_numbers/lc_time.h: day_of_the_year, day_diff, lc_print_reserve_define_time_fmt_common_impl (j, U, W, V, G, g, v)"]}
{"id": "C120", "title": "What a locale's time format prints", "statement": "Every format made of ordinary characters, the directives of strftime that name a field (%a %A %b %B %C %d %e %F %H %I %m %M %n %p %P %R %S %t %T %u %w %Y %z %% and the %O and %E forms) and directives that stand for another format of the locale prints exactly the text it stands for. (%y and %D print the year in full, %l and %k pad with a zero, a final %- loses its percent sign.)", "quantifier": "all formats, nested to any depth, all times from year 1 on, all locales with plain eras", "why_tests_cant": "formats nest and combine without bound, and come from locale data", "anchors": ["include/fast_io_i18n/lc_numbers/lc_time.h: lc_print_reserve_define_time_fmt_common_impl, lc_format_alt_digits_print, lc_time_ox_common_impl, lc_print_month_fmt_common"]}
{"id": "C121", "title": "The era of a locale-formatted time", "statement": "%EC, %Ey and %EY print the name, the year within and the format of the first era in the locale's list that covers the date, and nothing if none does, when every era is a range of dates or goes on for ever in the direction of time. (An era without end in the past is never found, and eras after it are not looked at.)", "quantifier": "all lists of eras, all dates from year 1 on", "why_tests_cant": "eras are data of the locale, in either direction and open-ended", "anchors": ["include/fast_io_i18n/lc_numbers/lc_time.h: lc_time_find_era_impl, test_era_started"]}
{"id": "C122", "title": "A printed file status says what the status says, within its announced size", "statement": "Printing permissions gives the nine characters of ls for every value, printing a kind its name, and printing a file status one labelled line per field with exactly the field's value, in order; never more characters than announced.", "quantifier": "all permissions, all kinds, all statuses with fields of 64 bits and times in range", "why_tests_cant": "statuses have nine hundred bits; the announced size is a sum of constants", "anchors": ["include/fast_io_core_impl/perms.h: print_status_impl, print_perm_per_check", "include/fast_io_core_impl/mode.h: file_type, print_file_status_impl", "include/fast_io_hosted/posix_status.h: print_file_status_impl, print_reserve_size"]}
{"id": "C123", "title": "The status of a file on POSIX systems reports what stat reported", "statement": "The kind is decided by the file type bits of the mode alone, as in the standard; the status carries every field of stat unchanged. The listing of a directory names the same kind as stat when the kind has a name. (The permissions keep the file type bits: they are the mode, not its low twelve bits. Times before 1970 with a fraction come out as another moment.)", "quantifier": "all modes, all answers of stat, all directory entries", "why_tests_cant": "modes and times are 32 and 64 bit values of the kernel", "anchors": ["include/fast_io_hosted/platforms/posix.h: st_mode_to_perms, st_mode_to_file_type, struct_stat_to_posix_file_status", "include/fast_io_hosted/filesystem/posix.h: type(posix_directory_entry)"]}
{"id": "C124", "title": "The status of a file on Windows reports what the system reported", "statement": "Kind, permissions, identity, links, size and times are those of the answer of the system; pipes and character devices get a fixed status; failures are thrown. (The number of blocks is rounded down: a file of 100 bytes has none. The listing of a directory calls an offline file remote.)", "quantifier": "all handles, answers and error codes", "why_tests_cant": "answers of the operating system", "anchors": ["include/fast_io_hosted/platforms/win32.h: file_type_impl, win32_status_impl", "include/fast_io_hosted/filesystem/nt.h: set_nt_dirent"]}
{"id": "C125", "title": "An error caught is the error thrown (POSIX)", "statement": "An error thrown with a number compares equal to exactly that number and to no number of another kind, gives the number back, and errors of different kinds are never equal, with uintptr_t of 16, 32 or 64 bits.", "quantifier": "all error numbers, both kinds of error, three widths", "why_tests_cant": "errors are pairs of integers with narrowing conversions", "anchors": ["include/fast_io_core_impl/error.h: error, operator==", "include/fast_io_hosted/posix_error.h: throw_posix_error, to_posix_code_impl, posix_code_equivalent_impl", "include/fast_io_core_impl/parse_code.h: throw_parse_code, parse_code_equivalent_impl"]}
{"id": "C126", "title": "Each errno prints its own text", "statement": "Every errno the headers define, with any values, prints the text of its name, different errors print different texts, and unknown ones print Unknown.", "quantifier": "all values the C library may give to the errno names", "why_tests_cant": "which cases are compiled depends on the platform's headers", "anchors": ["include/fast_io_hosted/posix_error_scatter/generic.h: get_posix_errno_scatter", "include/fast_io_hosted/posix_error.h: throw_posix_error, to_posix_code_impl, posix_code_equivalent_impl"]}
{"id": "C127", "title": "Windows, NT and errno conditions are equal exactly when they stand for the same error", "statement": "On Windows an error of one kind equals a code of another kind exactly when one stands for the other by the published tables, and equality is symmetric. (In a build for Windows 9x an NT status equals its Windows error in one direction only.)", "quantifier": "all Windows errors, NT statuses and errno numbers, all headers with distinct numbers", "why_tests_cant": "three numbering systems joined by tables and a system call", "anchors": ["include/fast_io_hosted/platforms/win32_error.h: nt_code_equivalent_impl, win32_code_equivalent_impl, posix_code_equivalent_impl, to_win32_code_impl, to_posix_code_impl", "include/fast_io_hosted/platforms/win32_code_to_errno.h: the table", "include/fast_io_hosted/platforms/errno_to_win32_code.h: the table"]}
{"id": "C128", "title": "Converting errors between errno and Windows codes loses nothing that has a counterpart", "statement": "Every errno with a Windows error comes back from it; converting to one's own kind changes nothing. (On Windows the errno of an error of the C library is looked up as if it were a Windows error: EACCES becomes EINVAL. An errno without a counterpart becomes EINVAL.)", "quantifier": "all errors, all headers", "why_tests_cant": "two tables that have to be inverse to each other", "anchors": ["include/fast_io_hosted/platforms/win32_error.h: nt_code_equivalent_impl, win32_code_equivalent_impl, posix_code_equivalent_impl, to_win32_code_impl, to_posix_code_impl", "include/fast_io_hosted/platforms/win32_code_to_errno.h: the table", "include/fast_io_hosted/platforms/errno_to_win32_code.h: the table"]}
{"id": "C129", "title": "A failing Linux system call throws its error number and nothing else does", "statement": "A result of a system call is thrown as an error exactly when it is one of -4095 to -1, with its negation as the errno. (-4096 is thrown as well.)", "quantifier": "all results of 16, 32 or 64 bits", "why_tests_cant": "the result is an unsigned register value", "anchors": ["include/fast_io_hosted/platforms/linux/system_call.h: linux_system_call_fails, system_call_throw_error"]}
{"id": "C130", "title": "The path a POSIX system receives is the name that was given", "statement": "A name given as a literal, array, string, C string or view of 8, 16 or 32 bit characters reaches the system as its UTF-8 encoding, terminated, and different names reach it as different paths, when it contains no NUL. (A name with a NUL is cut there and names another file; in an array of another width, what lies behind the NUL may damage the name.)", "quantifier": "all names, all kinds of objects holding them", "why_tests_cant": "file names are arbitrary text in three encodings and five kinds of objects", "anchors": ["include/fast_io_hosted/api_encoding_converter/posix.h: basic_posix_api_encoding_converter, posix_api_common", "include/fast_io_hosted/api_encoding_converter/std_filesystem_pseudo.h: api_common_copy_append0_strvw_case_impl"]}
{"id": "C131", "title": "Converting a name never writes outside its buffer", "statement": "For every name, well-formed or not, the converted name with its terminating NUL lies inside the memory allocated for it.", "quantifier": "all sequences of units in the three encodings", "why_tests_cant": "ill-formed text takes every branch of the converters", "anchors": ["include/fast_io_hosted/api_encoding_converter/posix.h: basic_posix_api_encoding_converter, posix_api_common", "include/fast_io_hosted/api_encoding_converter/nt.h: basic_nt_api_encoding_converter"]}
{"id": "C132", "title": "The name Windows is asked to open is the name that was given", "statement": "Opening asks for exactly the UTF-16 encoding of the name, by translation or below a directory; a name longer than a counted string can hold is refused, never cut. (An array larger than its text works in one way and not in the other: the NULs behind it become part of the name.)", "quantifier": "all names, all directories, both kinds of opening", "why_tests_cant": "lengths around the limit of 16 bits, three encodings", "anchors": ["include/fast_io_hosted/api_encoding_converter/win32.h: nt_api_common", "include/fast_io_hosted/api_encoding_converter/nt.h: basic_nt_api_encoding_converter", "include/fast_io_hosted/platforms/nt/nt_path.h: nt_filename_bytes, nt_call_callback, nt_call_kernel_callback"]}
{"id": "C133", "title": "Names in a directory listing on Windows", "statement": "Every name the system reports fits the buffers of the directory entry, and a name that is text is listed as its UTF-8 encoding. (A name ending in an unpaired high surrogate is listed with bytes of the entry before it; two names that are not text may be listed the same.)", "quantifier": "all names of the file system, all previous entries", "why_tests_cant": "names on NTFS are arbitrary sequences of units", "anchors": ["include/fast_io_hosted/filesystem/nt.h: nt_dirent, set_nt_dirent"]}
{"id": "C134", "title": "A unix timestamp scanned from a stream does not depend on how the stream is cut", "statement": "Scanning a timestamp of any epoch from input arriving in non-empty chunks, with at most nineteen digits after a point, gives the second, the fraction and the rest of the input exactly when the input is white space, a text of that time and that rest, wherever it is cut and whatever the object held; nothing undefined happens unless the second cannot be counted from the epoch. (A longer fraction depends on the cutting.)", "quantifier": "every cutting of every input text into chunks, all epochs, all character widths", "why_tests_cant": "cuttings and texts are unbounded", "anchors": ["include/fast_io_core_impl/iso/iso8601.h scn_ctx_define_unix_timestamp_impl, scn_ctx_eof_define_unix_timestamp_impl, scn_ctx_decimal_fraction_part_never_overflow_impl, scan_context_define, scan_context_eof_define", "include/fast_io_core_impl/integers/sto/sto_contiguous.h scan_context_define_parse_impl, sc_int_ctx_zero_phase, sc_int_ctx_digit_phase"]}
{"id": "C135", "title": "A printed unix timestamp is read back from a stream", "statement": "What print writes for a timestamp is read back by scan from a stream, however it arrives, as it is from memory. (False for whole seconds, which are never read from a stream, and for seconds down from -10^18.)", "quantifier": "all timestamps, all cuttings, all following texts", "why_tests_cant": "the range of timestamps and the cuttings are unbounded", "anchors": ["include/fast_io_core_impl/iso/iso8601.h scn_ctx_define_unix_timestamp_impl, scn_ctx_eof_define_unix_timestamp_impl, scn_ctx_decimal_fraction_part_never_overflow_impl, scan_context_define, scan_context_eof_define", "include/fast_io_core_impl/integers/sto/sto_contiguous.h scan_context_define_parse_impl, sc_int_ctx_zero_phase, sc_int_ctx_digit_phase"]}
{"id": "C136", "title": "A number printed with a locale is the number printed without it", "statement": "Printing a float or double with a locale, in any of the four formats, writes the sign and the digits of the same number (same digits, same exponent, same form) as without a locale; only the decimal point of the locale stands for the point, and the digits before it, if there is no exponent, are grouped as the locale says with its separator. Zeros, infinities and NaNs are written as without a locale, and the C locale changes nothing. No character outside the text is touched.", "quantifier": "all floats and doubles, all formats and flags, all locales (points and separators of any length, any grouping)", "why_tests_cant": "2^64 numbers times unboundedly many locales", "anchors": ["include/fast_io_unit/floating/lc_roundtrip.h lc_print_rsvflt_define_impl, lc_print_rsv_fp_decision_impl, lc_print_rsv_fp_fixed_decision_impl, lc_grouping_fixed_case1_integer_and_point, grouping_handle_buffer, lc_grouping_single_sep_ch_impl"]}
{"id": "C137", "title": "The space announced for a number printed with a locale is enough", "statement": "What the library reserves before it prints a float or double with a locale is at least what it writes. (False in general and decimal format for a grouping of single digits.)", "quantifier": "all floats and doubles, formats and locales", "why_tests_cant": "the longest text depends on the number and the locale together", "anchors": ["include/fast_io_unit/floating/lc_impl.h lc_print_rsv_iec559_size, print_reserve_size, print_reserve_define", "include/fast_io_unit/floating/lc_roundtrip.h lc_print_rsvflt_define_impl, lc_print_rsv_fp_decision_impl, lc_print_rsv_fp_fixed_decision_impl, lc_grouping_fixed_case1_integer_and_point, grouping_handle_buffer, lc_grouping_single_sep_ch_impl"]}
{"id": "C138", "title": "A hexadecimal number printed with a locale is exact", "statement": "The hexadecimal text of a finite number with a locale is the exact value, digit for digit the text without a locale with the decimal point replaced, and fits in the announced space; zeros, infinities and NaNs are written as without a locale.", "quantifier": "all floats and doubles, all flags, all decimal points", "why_tests_cant": "2^64 numbers and unboundedly many points", "anchors": ["include/fast_io_unit/floating/lc_hexfloat.h lc_print_rsvhexfloat_define_impl", "include/fast_io_unit/floating/lc_impl.h lc_print_rsv_iec559_size, print_reserve_size, print_reserve_define"]}
{"id": "C139", "title": "A granted file lock excludes the other processes", "statement": "When lock() of a POSIX file returns, the process holds exactly the bytes its request names, in the way it names; as long as it does not call the lock again nobody else holds a lock on them that is against it, whatever the other processes do and wherever it moves in the file. A request the kernel cannot take throws and changes nothing.", "quantifier": "all processes, requests, widths of integers and off_t, positions, and interleavings of any length", "why_tests_cant": "mutual exclusion is about every interleaving of processes", "anchors": ["include/fast_io_hosted/platforms/posix_file_lock.h posix_file_lock, posix_file_lock_lock_impl, posix_file_lock_try_lock_impl, posix_file_lock_unlock_impl, flock_type_to_native", "include/fast_io_core_impl/enums/flock.h basic_flock_request, file_lock_guard"]}
{"id": "C140", "title": "The end of a file_lock_guard releases the lock", "statement": "After a file_lock_guard of a POSIX file is destroyed, the process no longer holds what the guard locked, and the destructor does not wait. (False: the guard hands unlock() a request for a lock, which takes the lock once more.)", "quantifier": "all requests, positions before and after, other processes", "why_tests_cant": "a leaked lock only shows with a second process at the right moment", "anchors": ["include/fast_io_hosted/platforms/posix_file_lock.h posix_file_lock, posix_file_lock_lock_impl, posix_file_lock_try_lock_impl, posix_file_lock_unlock_impl, flock_type_to_native", "include/fast_io_core_impl/enums/flock.h basic_flock_request, file_lock_guard"]}
{"id": "C141", "title": "try_lock of a file does not wait", "statement": "try_lock() returns at once and tells whether the lock was taken. (False of POSIX files: it waits like lock().)", "quantifier": "all requests and states of the locks", "why_tests_cant": "needs another process holding a lock", "anchors": ["include/fast_io_hosted/platforms/posix_file_lock.h posix_file_lock, posix_file_lock_lock_impl, posix_file_lock_try_lock_impl, posix_file_lock_unlock_impl, flock_type_to_native"]}
{"id": "C142", "title": "Locks of Windows files are taken and released exactly", "statement": "lock() and try_lock() of an NT file lock exactly the range asked for, counted from the position at that time; the end of a guard releases exactly this lock, wherever the position is then and whatever the other handles did; try_lock() never waits and changes nothing if it says false.", "quantifier": "all requests, positions and sizes, sequences of locks of other handles", "why_tests_cant": "depends on the position at both ends and on the other processes", "anchors": ["include/fast_io_hosted/platforms/nt.h nt_family_file_lock_common_impl, nt_family_file_unlock_common_impl, nt_family_file_try_lock_impl, nt_get_file_position_impl", "include/fast_io_core_impl/enums/flock.h basic_flock_request, file_lock_guard"]}
{"id": "C143", "title": "What is printed to a buffered file under its lock is written under the lock", "statement": "What was in the buffer is written before the lock is taken; all that is printed while the lock is held is written, in order, before it is released. (False if the flush before the release fails: the error is swallowed and the text written later, without the lock.)", "quantifier": "all texts, all ways the buffer is drained, all failures of the flush", "why_tests_cant": "all splits of the text between buffer and file", "anchors": ["include/fast_io_freestanding_impl/io_buffer/output.h basic_io_buffer_file_lock"]}
{"id": "C144", "title": "The count of the leading lanes of a mask", "statement": "vector_mask_countr_zero and vector_mask_countr_one give the number of first lanes of a mask that are zero, that are ones, whatever the size of the lanes, and the same when the compiler evaluates them as when the processor does. (False where char is unsigned: half of it; false with NEON at run time: always 0.)", "quantifier": "all masks of any size, lanes of 1, 2, 4, 8 bytes, all routes a build can take", "why_tests_cant": "no test machine has every instruction set; 2^lanes masks", "anchors": ["include/fast_io_core_impl/simd/mask_countr.h vector_mask_countr_recursive_impl, vector_mask_countr_common_no_intrinsics_impl, vector_mask_countr_common_intrinsics_impl, vector_mask_countr_zero, vector_mask_countr_one"]}
{"id": "C145", "title": "is_all_zeros says whether a vector is zero", "statement": "is_all_zeros(v) is true exactly if every byte of v is zero. (False with AVX-512BW: the opposite; false of vectors that are no masks with SSE2 or WebAssembly only: only the top bits are looked at.)", "quantifier": "all vectors of any size, all routes a build can take", "why_tests_cant": "256^size vectors, instruction sets the test machine lacks", "anchors": ["include/fast_io_core_impl/simd/is_all_zeros.h is_all_zeros, is_all_zeros_impl, is_all_zeros_recursive_impl"]}
{"id": "C146", "title": "Reading a stream with a decorator gives the converted file", "statement": "Whatever is read from a buffered stream with a decorator, in pieces of whatever sizes, by read and by scanning, and however the device delivers the file, it is the conversion of the file from the beginning, nothing left out and nothing twice, and no buffer is overrun; a short read means that all of the file has been read. (The last part is false of a decorator that converts a full buffer to nothing: it is taken for the end of the file.)", "quantifier": "all decorators whose conversion does not depend on the pieces, all files, deliveries, sizes of buffer and sequences of reads and scans", "why_tests_cant": "all splits of the file on both sides", "anchors": ["include/fast_io_freestanding_impl/io_buffer/input_deco.h ibuffer_underflow_rl_impl_deco, iobuf_read_unhappy_decay_impl_deco", "include/fast_io_freestanding_impl/io_buffer/input.h read, iobuf_read_unhappy_impl, ibuffer_underflow"]}
{"id": "C147", "title": "What is printed to a stream with a decorator is converted once and in order", "statement": "After any prints and the end of the stream the device has received exactly the conversion of the text printed; before that, of all of it but at most one buffer; no buffer is overrun. Read back through the decorator that undoes it, it is the text.", "quantifier": "all decorators whose conversion does not depend on the pieces, all texts and sizes of the writes and of the buffer, with and without a buffer", "why_tests_cant": "all splits of the text at the bounds of the buffer", "anchors": ["include/fast_io_freestanding_impl/io_buffer/output_deco.h iobuf_write_unhappy_decay_impl_deco, iobuf_write_unhappy_decay_no_alloc_impl_deco, iobuf_overflow_impl_deco", "include/fast_io_freestanding_impl/io_buffer/main.h write_with_deco, basic_io_buffer", "include/fast_io_freestanding_impl/io_buffer/output.h write"]}
{"id": "C148", "title": "A failed write to a stream with a decorator loses nothing that was printed before", "statement": "If a write fails because the device does, the end of the stream writes what was printed before, converted as if nothing had happened. (False of a decorator with a state: it has already seen the text.)", "quantifier": "all decorators, texts, sizes and points of failure", "why_tests_cant": "needs a device that fails at the right moment", "anchors": ["include/fast_io_freestanding_impl/io_buffer/output_deco.h iobuf_write_unhappy_decay_impl_deco, iobuf_write_unhappy_decay_no_alloc_impl_deco, iobuf_overflow_impl_deco", "include/fast_io_freestanding_impl/io_buffer/main.h write_with_deco, basic_io_buffer"]}
{"id": "C149", "title": "What is written to a memory map stream is in the mapping", "statement": "What is written to an omemory_map is in the mapping, in order, from the offset given, the rest as it was, and written_bytes() says how much; a piece that does not fit ends the program with nothing of it written; memory outside of the mapping is never touched. (The end is wrong with an offset: the buffer reaches as far behind the mapping as the offset says.)", "quantifier": "all mappings, offsets, sizes of characters, sequences of writes", "why_tests_cant": "writing a few bytes behind a mapping seldom shows, the page is mapped to its end", "anchors": ["include/fast_io_hosted/platforms/omap.h basic_omemory_map, omemory_map_write_impl"]}
{"id": "C150", "title": "Reading a memory map stream gives the mapping", "statement": "Reads of any sizes from an imemory_map give the mapping from the offset on, in order, as many characters as asked for, fewer only at the end; memory outside of the mapping is never read. (False at the end with an offset.)", "quantifier": "all mappings, offsets, sizes of characters, sequences of reads", "why_tests_cant": "the same, zeros at the end of the page", "anchors": ["include/fast_io_hosted/platforms/omap.h basic_imemory_map, read"]}
{"id": "C151", "title": "A loop over a generator runs its body with exactly the values yielded", "statement": "for (auto x : g) runs its body once with each value the coroutine yields, in order, each run between what the coroutine does before yielding the value and what it does after; it ends when the coroutine returns and throws what the coroutine throws. Nothing of the coroutine runs before the loop starts or after it is left; a loop started again goes on with the next value.", "quantifier": "all coroutines, also those that never end, and all points where the body leaves the loop", "why_tests_cant": "coroutines of any length, never ending ones too", "anchors": ["include/fast_io_freestanding_impl/generator.h generator, begin, end, details::generator_iterator, details::generator_promise"]}
{"id": "C152", "title": "A loop over a generator that has ended does nothing", "statement": "After a loop has reached the end of a generator, or the generator has thrown, another loop over it runs no iterations. (False: begin() resumes a coroutine that has ended, which is undefined.)", "quantifier": "all coroutines that end", "why_tests_cant": "undefined behaviour often looks like nothing", "anchors": ["include/fast_io_freestanding_impl/generator.h generator, begin, end, details::generator_iterator, details::generator_promise"]}
{"id": "C153", "title": "The text of a complex number", "statement": "A complex number prints as an opening parenthesis, the text of the real part, a separator, the text of the imaginary part and a closing parenthesis. The texts of the parts are those of the numbers printed alone with the same manipulator; the separator is the comma, or the full stop when the comma is the decimal point.", "quantifier": "all complex numbers of floats and of doubles, zeros, subnormals, infinities and NaNs too; the general, scientific, decimal and fixed formats; all flags", "why_tests_cant": "2^128 numbers times formats and flags", "anchors": ["include/fast_io_unit/complex.h print_reserve_complex_impl, print_reserve_define, print_reserve_size for std::complex"]}
{"id": "C154", "title": "The text of a complex number determines the texts of its parts", "statement": "Neither part's text contains the separator or a parenthesis, so two complex numbers printed alike have parts printed alike.", "quantifier": "all pairs of complex numbers of floats and of doubles, all formats and flags", "why_tests_cant": "2^256 pairs", "anchors": ["include/fast_io_unit/complex.h print_reserve_complex_impl, print_reserve_define, print_reserve_size for std::complex"]}
{"id": "C155", "title": "The reserved space is enough for the text of a complex number", "statement": "print_reserve_size is at least the length of the text. (False of complex floats in general format: the text may be two characters longer.)", "quantifier": "all complex numbers of floats and of doubles, all formats and flags", "why_tests_cant": "2^128 numbers times formats and flags", "anchors": ["include/fast_io_unit/complex.h print_reserve_complex_impl, print_reserve_define, print_reserve_size for std::complex"]}
{"id": "C156", "title": "os_c_str prints the characters before the first NUL", "statement": "print(os_c_str(p)) prints the characters before the first NUL and reads nothing after it; os_c_str(p, n) prints at most n characters and reads nothing after them either; a range or an array is read no further than its end.", "quantifier": "all memory contents before and after the NUL, all limits", "why_tests_cant": "any memory; a read too far shows only at the end of a page", "anchors": ["include/fast_io_core_impl/integers/pointer.h os_c_str, os_c_str_carr, small_scatter, chvw, print_alias_define of arrays, small_scatter_t, chvw_t", "include/fast_io_core_impl/freestanding/cstr_len.h cstr_len, cstr_nlen"]}
{"id": "C157", "title": "A string literal prints as its text", "statement": "Printing a literal, also with small_scatter, prints all its characters, NULs among them too, whatever its length.", "quantifier": "all literals of the stream's character type", "why_tests_cant": "all texts", "anchors": ["include/fast_io_core_impl/integers/pointer.h os_c_str, os_c_str_carr, small_scatter, chvw, print_alias_define of arrays, small_scatter_t, chvw_t"]}
{"id": "C158", "title": "An array of constant characters prints as its characters", "statement": "Printing an array of constant characters prints the characters before its end or before the NUL at its end. (False of arrays that do not end with a NUL: the last character is lost.)", "quantifier": "all arrays of the stream's character type", "why_tests_cant": "all arrays", "anchors": ["include/fast_io_core_impl/integers/pointer.h os_c_str, os_c_str_carr, small_scatter, chvw, print_alias_define of arrays, small_scatter_t, chvw_t"]}
{"id": "C159", "title": "A literal of another character type prints its characters or is rejected", "statement": "A literal of another character type than the stream's is rejected when the program is compiled, or prints its characters. (False of one character that the stream's type cannot represent: it is cut.)", "quantifier": "all literals of all character types, all streams", "why_tests_cant": "all texts", "anchors": ["include/fast_io_core_impl/integers/pointer.h os_c_str, os_c_str_carr, small_scatter, chvw, print_alias_define of arrays, small_scatter_t, chvw_t"]}
{"id": "C160", "title": "A bitset prints as its bits, the highest first", "statement": "Printing a std::bitset gives one character 0 or 1 for each bit, the highest bit first, as to_string() does; exactly as many as are reserved. Nothing outside the bitset is read, storage bits beyond its size make no difference, and bitsets of the same size printed alike are equal.", "quantifier": "all bitsets of all sizes, all widths of the storage words", "why_tests_cant": "2^n bitsets of every size n", "anchors": ["include/fast_io_unit/bitset.h print_alias_define, print_reserve_define, print_reserve_size of std::bitset"]}
{"id": "C161", "title": "A loop over igenerator(in) gives its body the characters of the stream", "statement": "for (auto c : igenerator(in)) runs its body once with each character that can be read from the buffered stream until the end of the file, in order, whatever the pieces are in which the stream is filled, and then ends. When the body leaves the loop the character with which it did is the next that will be read.", "quantifier": "all buffered and contiguous input streams, all contents, all ways the fills cut them, all bodies and points where they leave", "why_tests_cant": "contents and cuts of any length", "anchors": ["include/fast_io_core_impl/igenerator.h igenerator, basic_input_buffer_iterator, basic_input_buffer_generator"]}
{"id": "C162", "title": "A loop over igenerator(in) consumes the characters it gives to its body", "statement": "A body that leaves the loop has consumed the characters it was given: the next loop starts with the one after. (False: the last one is given again.)", "quantifier": "all streams and bodies as above", "why_tests_cant": "contents and cuts of any length", "anchors": ["include/fast_io_core_impl/igenerator.h igenerator, basic_input_buffer_iterator, basic_input_buffer_generator"]}
{"id": "C163", "title": "A single_character_input_buffer gives the characters of its stream in order and takes at most one ahead", "statement": "Whatever mixture of scans, looks at the next character and reads it is used with, a single_character_input_buffer gives the characters of its unbuffered stream in order, each once; a read gives no more than was asked for; at most one character is taken from the stream and not yet given, and none unless it was looked at.", "quantifier": "all texts, all histories of operations, all lengths that the reads of the unbuffered stream return", "why_tests_cant": "histories of any length, reads cut anywhere", "anchors": ["include/fast_io_core_impl/unit_character_input_buffer.h single_character_input_buffer, read, ibuffer_curr, ibuffer_set_curr, ibuffer_underflow"]}
{"id": "C164", "title": "An operation on a single_character_input_buffer that throws loses no character", "statement": "When the unbuffered stream throws, every character of it that was not given is still to be read. (False of a read after a look at the next character: that character is lost.)", "quantifier": "all histories as above and all points where the unbuffered stream throws", "why_tests_cant": "histories of any length", "anchors": ["include/fast_io_core_impl/unit_character_input_buffer.h single_character_input_buffer, read, ibuffer_curr, ibuffer_set_curr, ibuffer_underflow"]}
