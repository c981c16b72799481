{
 "C01": {
  "note": "Proved for all 8..64-bit widths and all bases; for 128 bits only bases 10,2,4 and lowercase 16 hold: the code's 128-bit path loses uppercase and splits other bases by powers of ten (refuted theorems)."
 },
 "C02": {
  "note": "All widths, kernel-checked error bound of the fixed point reciprocals."
 },
 "C03": {
  "note": "Holds in base 10 and whenever |t| is representable; refuted for INT_MIN in a base whose power equals |INT_MIN| (e.g. binary)."
 },
 "C04": {
  "note": "All flags, all widths (128-bit: the bases of C01)."
 },
 "C40": {
  "note": "Integer size accounting: refuted for negative decimals and for full; proved otherwise."
 },
 "C05": {
  "note": "Round trip proved for all bases, widths and texts that follow, contiguous and chunked; with prefixes for bases 2,3,8,16. The bracketed prefixes 0[b] and uppercase 0T do not scan back (refuted). Excluded: a following code unit that makes the digit table lookup read out of bounds (C06_table_overread_refuted)."
 },
 "C06": {
  "note": "Value/overflow exact for digit runs of every length, all bases, widths and code unit sizes, including the SSE4.1 path. The position clause fails only for overflowing runs longer than 15/31 digits on the SSE path (refuted); one code unit per configuration reads past the lookup table (refuted)."
 },
 "C07": {
  "note": "Invalid/end_of_file proved whenever some non-digit character is met; refuted for a lone minus, a lone prefix and an empty text, which scan ok as 0."
 },
 "C08": {
  "note": "Any cutting equals the contiguous scan for values whose digits fit the scanner buffer; refuted for the text 0 at a chunk end, for overflow across chunks and for a lone minus."
 },
 "C09": {
  "note": "Code and value agree on every byte text; position agrees unless overflow. Position on long overflow and zero-skipping case refuted."
 },
 "C10": {
  "note": "All widths 8..128, signed and unsigned, 8/16/32-bit code units, any following units, contiguous and at every cutting into buffers."
 },
 "C11": {
  "note": "Well-formed, denotes the value, minimal among all well-formed strings of any length, within print_reserve_size."
 },
 "C12": {
  "note": "Every text: ok implies the consumed units are a well-formed encoding of the stored in-range value; out of range (or over-padded) encodings are overflow."
 },
 "C13": {
  "note": "Every split of every text agrees with every other split; agrees with the contiguous decoder except that an unfinished text is end_of_file (stream) vs invalid (contiguous), which is stated exactly."
 },
 "C14": {
  "note": "All sizes, widths, hosts and code units; byte_swap proved from its mask formula for 1..16 bytes. Refuted: negative integers are not sign extended into a wider encoding; a narrower signed destination accepts out of range integers; one byte integers in wide code units leave the unit's upper bytes unwritten."
 },
 "C15": {
  "note": "Every scalar sequence, every ordered pair of UTF-8/16/32, SSE on/off, native byte order. Byte swapped schemes do not round trip (refuted)."
 },
 "C16": {
  "note": "UTF-8 output well-formed for every UTF-16 source before the tail and every UTF-32 source without surrogate code points; refuted: surrogates in UTF-32, verbatim UTF-8 copy, truncated tail in one-shot conversion. UTF-16 output proved for every byte string."
 },
 "C17": {
  "note": "Automaton tables proved equal to Unicode table 3-7 for every byte string (completeness, soundness, unfinished prefix). The no-swallow clause is refuted (C3 41)."
 },
 "C18": {
  "note": "UTF-8 source: every chunking of every byte string, output and pending bytes. UTF-16: when every high surrogate is followed by a low one; refuted otherwise."
 },
 "C19": {
  "note": "Output length and 16-unit vector stores, all encodings, one-shot and stateful."
 },
 "C20": {
  "note": "For any block function; any two chunkings."
 },
 "C21": {
  "note": "Both counter representations."
 },
 "C22": {
  "note": "Portable, 16-byte SIMD and constexpr block functions of SHA-256 and SHA-512; x86 SHA extensions, AVX2 and ARM intrinsics are not modelled."
 },
 "C23": {
  "note": "Against the bit-serial definition and against long division of polynomials over GF(2)."
 },
 "C41": {
  "note": "Intrinsics-based block functions (x86 SHA, AVX2) not modelled."
 },
 "C42": {
  "note": "SHA-1: the portable function (the x86 SHA routine is not modelled)."
 },
 "C43": {
  "note": "Refuted on little endian hosts: the byte-swapped word is computed and dropped; MD5 shifts a std::byte by 24. True parts proved."
 },
 "C24": {
  "note": "utc() proved for every second for which it does not terminate. The way back is wrong in February of leap years, in negative years and when the offset exceeds the time since the start of the month (exact error proved, witnesses in the refuted theorems); negative timestamps with subseconds are converted with the wrong direction."
 },
 "C25": {
  "note": "Comparison and equality exact. Addition exact except that same-sign subseconds adding past 2^64 lose 2^64-10^19 units, and that results strictly between -1 s and 0 have no representation (the sign is lost). Division rounds half to even for even divisors only; in builds without __int128 it agrees only for quotients below 1.84 s (4 s / 2 is 3 s, refuted)."
 },
 "C26": {
  "note": "Round trip for every valid field combination, any 64-bit year but the smallest, offsets of whole minutes below 24 h. Offsets with seconds, of a day or more and the smallest year are refuted. The chunked (context) scanner is C98."
 },
 "C44": {
  "note": "All field values below 100 in the two-digit fields, all years, offsets and subseconds below one second."
 },
 "C45": {
  "note": "Years 1..2^63-1; refuted for January/February of year 0 (division rounds toward zero)."
 },
 "C46": {
  "note": "win32 and year-0 epochs right, C# epoch off by 32 hours (refuted)."
 },
 "C47": {
  "note": "Holds at the end of the text and, with a fraction, before any non digit. Refuted: whole seconds followed by anything; -0.5; rounding up to a whole second; timestamps with another epoch."
 },
 "C48": {
  "note": "Only way out proved: text ending in [+-]dd:d, where the length check is one short (refuted by a witness)."
 },
 "C27": {
  "note": "Round trip with any continuation, in-bounds and soundness proved; refuted: a missing last part (\"10.2.33.\") or port is accepted as 0. The chunked (context) scanner is C75."
 },
 "C28": {
  "note": "Printed text, RFC 4291 meaning and uniqueness, RFC 5952 choice of run, reserve size: all flags, both byte orders."
 },
 "C29": {
  "note": "Exact characterisation of what is read; refuted for groups >= 0x100, for the padded form and for the shortened form (never returns ok, loops for ever); reads past a truncated text. ipv6/ip/ip_address scans are empty stubs in the code."
 },
 "C30": {
  "note": "Proved for every history over a device that takes what it is offered. Over a device with short writes the library makes one write call and ignores its result: data is lost silently (refuted), but never duplicated or reordered (_partial). Over a device that throws: a failed operation leaves no trace when the handle has scatter write (_partial); without it pending bytes are sent twice (refuted), and print terminates the program (refuted)."
 },
 "C31": {
  "note": "Proved for every history of reads, refills, direct buffer consumption and output over every short-read schedule of a device that does not throw; single reads also over throwing devices (_partial). Refuted: a throwing first read leaves the buffer pointers torn; flush and print on an in+out stream discard unread input."
 },
 "C32": {
  "note": "Proved for buffered and unbuffered streams and every schedule. The reflective read_all (rwreflect, not yet included by the library) loops for ever at end of file (refuted)."
 },
 "C33": {
  "note": "Proved for every partial-write schedule and every kind of stream except two: with an output buffer write_all writes the data twice when it fits, and with only scatter_write_some_bytes the rest of a half-written scatter is dropped (refuted). rwreflect is not yet included by the library's own headers."
 },
 "C49": {
  "note": "Buffered streams of any size and fill level, the raw device with and without scatter write (through temporary_buffer); texts within the bounds their types announce."
 },
 "C50": {
  "note": "Every state of a tied stream over a device that takes what it is offered."
 },
 "C51": {
  "note": "Every schedule."
 },
 "C34": {
  "note": "Proved for every history of the operations that are right; refuted (with witnesses): erase of one element never shrinks the vector, push_back of an own element on a full vector reads freed storage, insert of an own element after the position inserts the wrong value, erase(it,it) of a non-relocatable type destroys live elements. Missing from the model: assignment (move assignment and swap do not compile), constant evaluation, throwing constructors."
 },
 "C35": {
  "note": "Proved for operator[], front, back, pop_back, insert_index and the bounds checks of erase_index; refuted: erase_index(first, size()) terminates although the range is valid."
 },
 "C52": {
  "note": "Proved for relocatable types and, for others, for histories that insert only at the end; refuted: insert in the middle of a non-relocatable type overwrites moved-from objects without destroying them."
 },
 "C53": {
  "note": "Every reachable state, any sane allocator."
 },
 "C36": {
  "note": "Buffered streams: proved for every chunking (C36_lines, C36_chunking), in builds where line feeds are found (C54). Contiguous streams lose a last line without line feed (refuted with witness); proved for texts that end in a line feed.",
  "status": "partial"
 },
 "C38": {
  "note": "All classifications proved for every code unit of 8, 16 and 32 bits; is_c_fullwidth/is_c_halfwidth proved for 32-bit types only and refuted for narrower ones.",
  "status": "partial"
 },
 "C54": {
  "note": "Proved for builds other than GCC AVX512BW and big-endian without vectors, which are refuted; find_none_c_space in vector builds is refuted in general and proved for plain texts.",
  "status": "partial"
 },
 "C55": {
  "note": "Lines, noskipws and whole texts proved for every chunking; words under the plain-text condition of C54 (refuted otherwise with witness).",
  "status": "partial"
 },
 "C56": {
  "note": "Proved for strings with a buffer; other string types overrun the 2048-byte context buffer for larger n (proved as refutation for every such n and text).",
  "status": "partial"
 },
 "C37": {
  "note": "Proved at run time for everything held by value (all integers, strings, small objects): exact padding, no write outside of the reserved size. Refuted: objects held by reference (left(x,n,ch) fills with NUL, internal ignores the sign) and constant evaluation (overlapping forward copy). Integers under the conditions of C03.",
  "status": "partial"
 },
 "C39": {
  "note": "Carries, widening products, fast_io::intrinsics::udivmod (all widths, all divisors), checked sums and sizes exact for all operands. Refuted: 32-bit MSVC subc; details::intrinsics::udivmod above half the word range / two-word divisors / without __builtin_ctzll (proved below half the range); mul_or_overflow_die without builtins adds, and divides by zero on MSVC.",
  "status": "partial"
 },
 "C57": {
  "note": "Proved for every finite nonzero double except powers of two above the least normal number; for those the exact set of 255 that do not read back is proved (m2==0 is tested after the hidden bit is set, so the asymmetric interval is dead code). 32-bit size_t builds can leave one trailing zero.",
  "status": "partial"
 },
 "C58": {
  "note": "The near-tie parity test of float omits the xor with half of the small divisor, so values close to a tie are rounded to the wrong neighbour and some do not read back (witness proved). Proved for all floats away from ties, round trip for ulp >= 1.2*10^t, and the exact set of powers of two that do not read back.",
  "status": "partial"
 },
 "C59": {
  "note": "The text denotes the chosen decimal, in its form: proved for every double and float, format and flags. Reading back: exactly characterised; refuted for the powers of two listed in lost_double_powers (C57), true for every other double. Destination as a list of cells; char only.",
  "status": "partial"
 },
 "C60": {
  "note": "All finite nonzero doubles and floats.",
  "status": "proved"
 },
 "C61": {
  "note": "Holds for every value and format of double and for float except general; refuted for float in general format: -100000395000000 needs 16 characters, 15 are reserved. Hexfloat: proved.",
  "status": "partial"
 },
 "C62": {
  "note": "Texts proved; refuted: the exponent mark of zero in scientific format ignores uppercase_e (uses uppercase).",
  "status": "partial"
 },
 "C63": {
  "note": "All values.",
  "status": "proved"
 },
 "C64": {
  "note": "proved for in-memory, buffered and unbuffered sources and sinks and for POSIX descriptors copied with the kernel call loop; refuted for a device that takes part of a write (transmit ignores the position write returns): C64_short_write_refuted",
  "status": "partial"
 },
 "C65": {
  "note": "limit counts of transmit64; the rest stays readable",
  "status": "proved"
 },
 "C66": {
  "note": "buffered sources: everything is delivered or still readable, and the counts agree; unbuffered sources lose what was read into the local buffer when the sink throws: C66_unbuffered_refuted",
  "status": "partial"
 },
 "C67": {
  "note": "linearizability for every schedule, number of threads, calls, devices; the effect of each call alone is that of the sequential models (BufModel, PrintModel, TransmitModel)",
  "status": "proved"
 },
 "C68": {
  "note": "holds without transmit calls and whenever transmits respect some order of the streams; every run ends. Refuted in general: opposite transmits deadlock (input locked first, then output), and transmit of a stream to itself",
  "status": "partial"
 },
 "C69": {
  "note": "Full claim: for every history the objects refer to the files of the specification. Proved when no copy is assigned to an empty object; that case is refuted (C69_copy_to_empty_refuted: dup2 onto -1 always throws).",
  "status": "partial"
 },
 "C70": {
  "note": "Proved for all histories, including failing kernel calls; the kernel is a descriptor table with arbitrary fresh descriptors."
 },
 "C71": {
  "note": "Proved (model run equals specification run) for histories in which empty objects are waited for, assigned to or destroyed only when no child exists. Otherwise refuted: an empty object holds pid -1 and waitpid(-1) collects any child (moved-from, detached).",
  "status": "partial"
 },
 "C72": {
  "note": "Child side proved when 0,1,2 are open, no crossings between 0,1,2, and in does not share a pipe with out/err (out and err may share one); the crossing and closed-stdin cases are refuted. Parent side proved.",
  "status": "partial"
 },
 "C73": {
  "note": "Proved for all string types and argument lists whose sizes are right, and for lists of integers. A single signed decimal integer that needs the precise path (concat(-5LL)) gives wrong digits: C73_negative_refuted.",
  "status": "partial"
 },
 "C74": {
  "note": "Texts up to 2^60 characters in total; allocation does not fail. String types with push_back/append (std::basic_string)."
 },
 "C75": {
  "note": "Round trip for all cuttings except directly after a single digit 0 (C75_cut_after_zero_refuted), and soundness of every accepted text except that at the end of the input a missing or overlong last number is accepted (C75_overflow_accepted_refuted).",
  "status": "partial"
 },
 "C76": {
  "note": "All argument lists over the eight kinds of argument, all cuttings except those shown to fail: inside a literal, inside or directly after an address, directly after an integer 0 (C76_cut_refuted); white space before an address is skipped only when the buffer is empty (C76_space_refuted).",
  "status": "partial"
 },
 "C77": {
  "note": "Proved for arguments whose text may be cut anywhere (C77_raw_partial, C77_end_partial, C77_nothing_lost_partial); refuted for literals of two or more characters, addresses and the integer 0 (C77_raw_refuted), and the separator after an integer is lost on streams without try_unget.",
  "status": "partial"
 },
 "C78": {
  "note": "Full for complete texts (C78_view); end of input proved except for LEB128 and addresses, where it is an exception \"invalid\" instead of end of file (C78_end_refuted).",
  "status": "partial"
 },
 "C79": {
  "note": "Every mode of the table except in|out|trunc; that one does not create a missing file and, even with excl, empties an existing one (C79_update_trunc_refuted). Attributes: full.",
  "status": "partial"
 },
 "C80": {
  "note": "All modes; the rights of stream and descriptor agree for every mode of the table.",
  "status": "proved"
 },
 "C81": {
  "note": "All values.",
  "status": "proved"
 },
 "C82": {
  "note": "All schedules of reads, throw safety, extra bytes. Refuted: a loader made from a descriptor whose offset is not 0 throws where the mapping loader gives the whole file; an empty file with 0 extra bytes may throw.",
  "status": "partial"
 },
 "C83": {
  "note": "All histories, both loader classes (and the map class without default construction).",
  "status": "proved"
 },
 "C84": {
  "note": "All histories without default construction; refuted: close() on a default-constructed map terminates the program; execute_read_write is not writable, write_copy and execute_write_copy are shared and not readable.",
  "status": "partial"
 },
 "C85": {
  "note": "Headers whose every CR ends a line: all cuttings, all capacities; soundness for all inputs whatsoever. Refuted: a bare CR is refused in one piece and accepted when the input is cut there; reading into a used object appends to the old header.",
  "status": "partial"
 },
 "C86": {
  "note": "All headers with a three-part first line and key/value fields, all cuttings. Refuted: a first line of only two parts makes the code run into the next line.",
  "status": "partial"
 },
 "C87": {
  "note": "Value for every numeral in every number of arguments (a single 0 must not be followed by another argument); overflow; soundness of every value returned; conversion between all integer types complete. Refuted: (\"0\",\" \") is undefined, (\"0\",\"5x\") is 0, (\"-\") is 0, long overflowing numerals followed by another argument are 'invalid'.",
  "status": "partial"
 },
 "C88": {
  "note": "Words complete. Lines, characters, literals when something follows in the same argument; LEB128 and addresses in one argument. Refuted otherwise: the scanner's answer is ignored when it used up the argument, so to of exactly the literal, of one character or of a line with its line feed fails or reads on. Also seen: u16inplace_to and u32inplace_to are declared to return a value and have no return statement (not modelled).",
  "status": "partial"
 },
 "C89": {
  "note": "Complete unless arguments of static and of dynamic size are mixed; then refuted: the buffer ignores the static sizes.",
  "status": "partial"
 },
 "C90": {
  "note": "Complete, with injectivity, the announced size and the termination when the size does not fit size_t.",
  "status": "proved"
 },
 "C91": {
  "note": "Complete for the ten contexts of fast_io_crypto/hash with run time evaluation; constant evaluation of write reaches the same digest function. Not modelled: contexts with runtime_digest_size. Also seen: a context whose digest_to_byte_ptr returns a pointer would not compile with raw_bytes and one-byte characters (crypto_hash.h 452 returns std::byte* as char_type*).",
  "status": "proved"
 },
 "C92": {
  "note": "hash_compress (lower case) complete. hash_compress_upper and hash_compress_raw_bytes multiply by the size of the range object instead of the element (crypto_hash.h 303, 317): proved right only for std::byte elements, equal sizes or empty ranges; refuted otherwise (reads past the end for every std::string, vector or span of smaller elements).",
  "status": "partial"
 },
 "C93": {
  "note": "Proved: every path prints join sep elems and the announced size is enough when the product fits size_t. Refuted: (R+|sep|)*n is not checked, so it wraps and the buffer is too small; the dynamic-reserve formula is one short (precedence), though rgvw never selects it.",
  "status": "partial"
 },
 "C94": {
  "note": "Proved in full for the portable routine. The vector routine shuffles the diagonals in the wrong direction: refuted with RFC 8439's own test state; what it computes is characterised exactly (C94_simd_partial).",
  "status": "partial"
 },
 "C95": {
  "note": "The values computed for 16 and 24 byte keys are FIPS 197's for every key. Refuted: the array is one round key short (store outside the object for every 16 and 24 byte key), the 32 byte schedule differs from the fourth round key on (its first three are proved right), and operator() has an empty body.",
  "status": "partial"
 },
 "C96": {
  "note": "Zero padding proved; PKCS #7 proved for a non-empty incomplete block up to 255 bytes and for a complete block with 0 remaining. Refuted: an empty block (the padding block a complete message needs) stores outside of the array for every block size.",
  "status": "partial"
 },
 "C97": {
  "note": "Text proved for all types (also 128 bits in every base, where the plain printer fails), groupings and separators. Size proved under C03's condition; refuted for the least value of a type in a base whose power it is (e.g. int8 -128 in binary). The std::byte overload does not compile and is not modelled.",
  "status": "partial"
 },
 "C98": {
  "note": "Exact acceptance, definedness and independence of the cutting proved for every input whose runs of digits have at most 19 digits; years of at most 19 characters. Refuted beyond: a fraction of more than 19 digits cut in two chunks loses the digits of the first chunk, a continuation of 256 digits is lost (8-bit length), negative years of 19 digits are refused though the contiguous scanner reads them. Comma variants and EBCDIC not modelled.",
  "status": "partial"
 },
 "C99": {
  "note": "All ranges and types. The equality is a parameter that decides equality of values.",
  "status": "proved"
 },
 "C100": {
  "note": "All ranges. remove requires an integral value as in the code.",
  "status": "proved"
 },
 "C101": {
  "note": "Refuted: copy() lacks the branch `*result = *first`, so my_copy of non-trivially-copyable or non-contiguous elements and non_overlapped_copy in constant expressions copy nothing (C101_my_copy_nothing, _refuted); my_copy_n in a constant expression is wrong when the destination starts inside of the source; my_compare_iter_n compares n bytes instead of n elements (right for one-byte elements and in constant expressions).",
  "status": "partial"
 },
 "C102": {
  "note": "All types, lengths and throwing elements. uninitialized_move_n, documented as undefined if a move throws, is not modelled.",
  "status": "proved"
 },
 "C103": {
  "note": "All blocks, states, messages. Trusted: the transcription of the Intel pseudo code of SHA256RNDS2/MSG1/MSG2, PSHUFD, PALIGNR, PBLENDW, PSHUFB; swap_endian of the simd vector is the byte swap of each lane. sha512_simd32.h is included nowhere and not modelled.",
  "status": "proved"
 },
 "C104": {
  "note": "All histories. That a text which fits is never refused is false when its type announces more than its text (refuted; exact for other texts: C104_terminates_exactly). For arguments with a run-time bound the code needs a four-argument print_reserve_define, which no type has; if a type had it the store would precede the check (refuted).",
  "status": "proved"
 },
 "C105": {
  "note": "False in general (C105_read_refuted, C105_read_overruns for every view whose unread text is longer than the range); proved when the unread text fits.",
  "status": "partial"
 },
 "C106": {
  "note": "False in general (refuted: a write that finds room loses the text, put on a fresh buffer stores outside the buffer, oreserve never grows); proved for histories that avoid these.",
  "status": "partial"
 },
 "C107": {
  "note": "Text and alignment proved for all texts (termination by overflow excluded below 2 GiB). The size bound is false for a text that ends with a tab (C107_size_refuted: a heap overflow in print), proved for every other text.",
  "status": "partial"
 },
 "C108": {
  "note": "All kinds of arguments. print_define of an alternative is modelled as one write of its text.",
  "status": "proved"
 },
 "C109": {
  "note": "Exact from 1970 on and for whole seconds; round trip, legality and requests proved for all times. Before 1970 with nanoseconds the value and the order are wrong (C109_before_1970_refuted, C109_write_before_1970_refuted, C109_order_before_1970_refuted).",
  "status": "partial"
 },
 "C110": {
  "note": "Monotonic clock, resolution, processor time proved for all counters. False parts: C110_file_time_before_1970_refuted, C110_set_time_wraps_refuted; the other theorems are for 1970 on.",
  "status": "partial"
 },
 "C111": {
  "note": "The instant is right for every zone; the offset only when summer time is as on 1970-01-01 (C111_summer_time_refuted); BSD/macOS January wrong (C111_january_refuted), exactly 31 days early (C111_tm_partial).",
  "status": "partial"
 },
 "C112": {
  "note": "Atomicity for all schedules. The unix value is a day late in leap Februaries (C112_leap_february_refuted); posix_clock_settime always throws (C112_set_refuted, C112_set_weekday_refuted).",
  "status": "partial"
 },
 "C113": {
  "note": "All but distinctness for every input; distinctness for texts without U+E7C7, and the collision with U+1E3F is the only one (C113_collision_refuted, C113_only_collision).",
  "status": "partial"
 },
 "C114": {
  "note": "Exact: the text comes back if and only if none of its characters is on the list (C114_round_trip_partial). False in general: C114_umlaut_refuted, C114_other_character_refuted.",
  "status": "partial"
 },
 "C115": {
  "note": "All but the last clause for every input. False: C115_ill_formed_refuted (0x3A-0x3F taken for digits), C115_swallow_refuted.",
  "status": "partial"
 },
 "C116": {
  "note": "Round trip and space for every text and source. The replacement clause is false from UTF-16 and UTF-32: C116_replacement_refuted, C116_surrogate_refuted.",
  "status": "partial"
 },
 "C117": {
  "note": "Reading, bounds and space for every byte string; chunks: any result obtained is that of the whole (C117_chunks_partial), and encoded texts can be cut anywhere (C117_chunks_of_text). False in general: C117_chunks_refuted (reads before the chunk), C117_ill_formed_refuted.",
  "status": "partial"
 },
 "C118": {
  "note": "Proved for formats without %u and %N that end: C118_size_partial. False otherwise: C118_weekday_refuted, C118_era_name_refuted (writes past the reserved space), C118_endless_refuted.",
  "status": "partial"
 },
 "C119": {
  "note": "%j and %U in full; %W, %V, %G and %v where the code is right. The exceptions are real: C119_monday_week_refuted, C119_iso_week_refuted, C119_week_year_refuted, C119_locale_week_refuted.",
  "status": "partial"
 },
 "C120": {
  "note": "C120_meaning holds for all formats built from the listed directives; differences from strftime: C120_strftime_refuted.",
  "status": "partial"
 },
 "C121": {
  "note": "Proved for plain eras; an era reaching back for ever is not found: C121_past_era_refuted.",
  "status": "partial"
 },
 "C122": {
  "note": "Proved in full.",
  "status": "proved"
 },
 "C123": {
  "note": "Permissions keep the type bits: C123_permissions_refuted; an unnamed kind is unknown to stat and not_found in a listing: C123_listing_refuted; times before 1970: C123_time_before_1970_refuted.",
  "status": "partial"
 },
 "C124": {
  "note": "Proved apart from the blocks and the kinds of offline files, which are wrong: C124_blocks_refuted, C124_listing_refuted.",
  "status": "partial"
 },
 "C125": {
  "note": "Proved in full.",
  "status": "proved"
 },
 "C126": {
  "note": "Proved in full.",
  "status": "proved"
 },
 "C127": {
  "note": "Proved in full for builds for NT; false for builds for Windows 9x: C127_windows_9x_refuted.",
  "status": "partial"
 },
 "C128": {
  "note": "False for errors of the C library on Windows (C128_own_code_refuted) and for errnos without counterpart (C128_unlisted_refuted).",
  "status": "partial"
 },
 "C129": {
  "note": "Proved for all results but -4096, which is thrown: C129_boundary_refuted.",
  "status": "partial"
 },
 "C130": {
  "note": "C130_path for all names without NUL, in literals, strings, C strings and views, and arrays with text behind the NUL. False for names with a NUL (C130_embedded_nul_refuted) and for arrays of another width with anything behind the NUL (C130_behind_nul_refuted).",
  "status": "partial"
 },
 "C131": {
  "note": "Proved in full.",
  "status": "proved"
 },
 "C132": {
  "note": "Proved for all names but arrays larger than their text opened below a directory: C132_array_refuted.",
  "status": "partial"
 },
 "C133": {
  "note": "Proved for names that are text; false for others: C133_stale_refuted, C133_same_refuted.",
  "status": "partial"
 },
 "C134": {
  "note": "Proved for inputs with at most nineteen digits after any point; longer fractions depend on the cutting: C134_long_fraction_refuted; an empty chunk in the middle is not neutral: C134_empty_chunk_refuted.",
  "status": "partial"
 },
 "C135": {
  "note": "C135_round_trip_partial for times with a fraction and seconds after -10^18; false for the rest: C135_whole_seconds_refuted (for every cutting), C135_negative_refuted.",
  "status": "partial"
 },
 "C136": {
  "note": "Proved for every locale whose grouping entries are not negative, both formats of numbers; the plain text is that of C59.",
  "status": "proved"
 },
 "C137": {
  "note": "Proved for fixed and scientific format with every locale and for general and decimal if no group is a single digit: C137_reserved_space_partial. Otherwise false: C137_reserved_space_refuted (67 characters reserved, 68 written).",
  "status": "partial"
 },
 "C138": {
  "note": "Exactness, equality with the plain text up to the point, and size.",
  "status": "proved"
 },
 "C139": {
  "note": "For the variant with the Linux system call; the other one passes the address of a pointer to fcntl.",
  "status": "proved"
 },
 "C140": {
  "note": "False for every guard of a POSIX file: C140_guard_releases_refuted (for all requests), C140_unlock_waits_refuted. With a request of type unlock, unlock() is right: C140_unlock_partial.",
  "status": "partial"
 },
 "C141": {
  "note": "False: C141_try_lock_refuted; the routine written for it and never called is right: C141_try_lock_partial.",
  "status": "partial"
 },
 "C142": {
  "note": "Windows files, 64 bit requests (the only ones that compile).",
  "status": "proved"
 },
 "C143": {
  "note": "C143_under_the_lock_partial if the flush succeeds; C143_under_the_lock_refuted otherwise.",
  "status": "partial"
 },
 "C144": {
  "note": "C144_count_partial where char is signed or for lanes of one byte with a mask instruction; C144_half_refuted, C144_neon_refuted, C144_consteval_refuted otherwise.",
  "status": "partial"
 },
 "C145": {
  "note": "C145_all_zeros_partial (ptest, NEON, no instructions), C145_masks_partial (SSE2, WebAssembly on masks); C145_movemask_refuted, C145_avx512_refuted.",
  "status": "partial"
 },
 "C146": {
  "note": "The text is right for all decorators (C146_text); the end is for those that convert a full buffer to something (C146_end_partial), as the code conversions do; C146_end_refuted otherwise, for every size of buffer.",
  "status": "partial"
 },
 "C147": {
  "note": "flush() of a decorated stream does not compile and is not modelled.",
  "status": "proved"
 },
 "C148": {
  "note": "C148_failed_write_partial for decorators without a state; C148_failed_write_refuted.",
  "status": "partial"
 },
 "C149": {
  "note": "Without an offset all of it (C149_text, C149_full); with one C149_offset_partial up to the end of the mapping, C149_offset_refuted beyond.",
  "status": "partial"
 },
 "C150": {
  "note": "Without an offset C150_text; with one C150_offset_partial, C150_offset_refuted.",
  "status": "partial"
 },
 "C151": {
  "note": "Values are integers in the model; the type of the values plays no part.",
  "status": "proved"
 },
 "C152": {
  "note": "C152_end_partial: the iterator of the loop stays at the end; C152_again_refuted for all coroutines that end.",
  "status": "partial"
 },
 "C153": {
  "note": "Floats and doubles, on machines of 32 and 64 bits; long double and __float128 are not modelled.",
  "status": "proved"
 },
 "C154": {
  "note": "C154_parts_are_separable, about the texts that the parts have alone (C153).",
  "status": "proved"
 },
 "C155": {
  "note": "C155_reserved_space_partial: all doubles, and floats except in general format; C155_reserved_space_refuted: two cells too few for a complex of floats in general format.",
  "status": "partial"
 },
 "C156": {
  "note": "strlen and strnlen are taken to compute what the library's own loops compute.",
  "status": "proved"
 },
 "C157": {
  "note": "The character types have the same width and signedness here as the stream's; whether the compiler takes the print is a case of the model.",
  "status": "proved"
 },
 "C158": {
  "note": "C158_array_partial: all characters but the last, whatever it is; C158_array_refuted.",
  "status": "partial"
 },
 "C159": {
  "note": "C159_other_type_partial: rejected unless it has one character, printed when that fits; C159_other_type_refuted. Fitting is about code units: nothing is transcoded.",
  "status": "partial"
 },
 "C160": {
  "note": "The storage of std::bitset is taken to be words with bit i in word i / W at i mod W, as the file does.",
  "status": "proved"
 },
 "C161": {
  "note": "The fills are those of the buffered streams (underflow false when nothing is read); fills that throw are not modelled.",
  "status": "proved"
 },
 "C162": {
  "note": "C162_consumed_partial: all but the last character given; C162_consumed_refuted for every loop that is left.",
  "status": "partial"
 },
 "C163": {
  "note": "A scan's step is fill when empty, look, and take; the reads of the unbuffered stream return at least one character unless it is at its end.",
  "status": "proved"
 },
 "C164": {
  "note": "C164_throw_partial: looks, scans, and reads without a character looked at; C164_throw_refuted: in every other case the character is lost.",
  "status": "partial"
 }
}