{
 "claims": [
  {
   "property": "C01",
   "status": "partial",
   "theorems": [
    "C01_unsigned_prints_numeral",
    "C01_unsigned128_prints_numeral_partial",
    "C01_uppercase_hex_128_refuted",
    "C01_octal_128_refuted"
   ],
   "note": "Proved for all 8..64-bit widths and all bases; for 128 bits only bases 10,2,4 and lowercase 16 hold: the code's 128-bit path loses uppercase and splits other bases by powers of ten (refuted theorems)."
  },
  {
   "property": "C02",
   "status": "proved",
   "theorems": [
    "C02_fast_decimal_is_numeral",
    "C02_fast_decimal_equals_division"
   ],
   "note": "All widths, kernel-checked error bound of the fixed point reciprocals."
  },
  {
   "property": "C03",
   "status": "partial",
   "theorems": [
    "C03_reserve_enough_partial",
    "C03_reserve_enough_decimal",
    "C03_reserve_refuted"
   ],
   "note": "Holds in base 10 and whenever |t| is representable; refuted for INT_MIN in a base whose power equals |INT_MIN| (e.g. binary)."
  },
  {
   "property": "C04",
   "status": "proved",
   "theorems": [
    "C04_sign_prefix_magnitude",
    "C04_full_pads"
   ],
   "note": "All flags, all widths (128-bit: the bases of C01)."
  },
  {
   "property": "C05",
   "status": "partial",
   "theorems": [
    "C05_print_injective",
    "C05_print_scan_roundtrip",
    "C05_print_scan_chunked",
    "C05_prefix_roundtrip_partial",
    "C05_bracket_prefix_refuted"
   ],
   "note": "Round trip proved for all bases, widths and texts that follow, contiguous and chunked; with prefixes for bases 2,3,8,16. The bracketed prefixes 0[b] and uppercase 0T do not scan back (refuted). Excluded: a following code unit that makes the digit table lookup read out of bounds (C06_table_overread_refuted)."
  },
  {
   "property": "C06",
   "status": "partial",
   "theorems": [
    "C06_scan_exact_partial",
    "C06_scan_exact_scalar",
    "C06_position_past_end_refuted",
    "C06_table_overread_refuted"
   ],
   "note": "Value/overflow exact for digit runs of every length, all bases, widths and code unit sizes, including the SSE4.1 path. The position clause fails only for overflowing runs longer than 15/31 digits on the SSE path (refuted); one code unit per configuration reads past the lookup table (refuted)."
  },
  {
   "property": "C07",
   "status": "partial",
   "theorems": [
    "C07_malformed_invalid_partial",
    "C07_leading_zero_invalid",
    "C07_blank_end_of_file",
    "C07_ok_only_for_integers",
    "C07_no_digit_accepted_refuted",
    "C07_bracket_overread_refuted"
   ],
   "note": "Invalid/end_of_file proved whenever some non-digit character is met; refuted for a lone minus, a lone prefix and an empty text, which scan ok as 0."
  },
  {
   "property": "C08",
   "status": "partial",
   "theorems": [
    "C08_chunked_equals_contiguous_partial",
    "C08_zero_at_chunk_end_refuted",
    "C08_overflow_across_chunks_refuted",
    "C08_lone_minus_refuted"
   ],
   "note": "Any cutting equals the contiguous scan for values whose digits fit the scanner buffer; refuted for the text 0 at a chunk end, for overflow across chunks and for a lone minus."
  },
  {
   "property": "C09",
   "status": "partial",
   "theorems": [
    "C09_vector_equals_scalar_partial",
    "C09_position_refuted",
    "C09_skipzero_refuted"
   ],
   "note": "Code and value agree on every byte text; position agrees unless overflow. Position on long overflow and zero-skipping case refuted."
  },
  {
   "property": "C10",
   "status": "proved",
   "theorems": [
    "C10_round_trip",
    "C10_round_trip_chunked"
   ],
   "note": "All widths 8..128, signed and unsigned, 8/16/32-bit code units, any following units, contiguous and at every cutting into buffers."
  },
  {
   "property": "C11",
   "status": "proved",
   "theorems": [
    "C11_encoding_wf_and_fits",
    "C11_encoding_shortest"
   ],
   "note": "Well-formed, denotes the value, minimal among all well-formed strings of any length, within print_reserve_size."
  },
  {
   "property": "C12",
   "status": "proved",
   "theorems": [
    "C12_decode_exact",
    "C12_ok_is_sound"
   ],
   "note": "Every text: ok implies the consumed units are a well-formed encoding of the stored in-range value; out of range (or over-padded) encodings are overflow."
  },
  {
   "property": "C13",
   "status": "proved",
   "theorems": [
    "C13_chunk_independent",
    "C13_unfinished",
    "C13_two_splits_agree"
   ],
   "note": "Every split of every text agrees with every other split; agrees with the contiguous decoder except that an unfinished text is end_of_file (stream) vs invalid (contiguous), which is stated exactly."
  },
  {
   "property": "C14",
   "status": "partial",
   "theorems": [
    "C14_reject",
    "C14_put_bytes_partial",
    "C14_round_trip",
    "C14_widening_refuted",
    "C14_narrow_signed_get_refuted",
    "C14_wide_unit_refuted"
   ],
   "note": "All sizes, widths, hosts and code units; byte_swap proved from its mask formula for 1..16 bytes. Refuted: negative integers are not sign extended into a wider encoding; a narrower signed destination accepts out of range integers; one byte integers in wide code units leave the unit's upper bytes unwritten."
  },
  {
   "property": "C15",
   "status": "partial",
   "theorems": [
    "C15_round_trip",
    "C15_utf32_round_trip",
    "C15_injective",
    "C15_swapped_utf32_refuted",
    "C15_swap_only_refuted",
    "C15_swapped_pair_refuted",
    "C15_swapped_sse_refuted"
   ],
   "note": "Every scalar sequence, every ordered pair of UTF-8/16/32, SSE on/off, native byte order. Byte swapped schemes do not round trip (refuted)."
  },
  {
   "property": "C16",
   "status": "partial",
   "theorems": [
    "C16_from_utf16",
    "C16_from_utf16_full_partial",
    "C16_from_utf32_partial",
    "C16_from_utf32_surrogate_refuted",
    "C16_from_utf8_refuted",
    "C16_truncated_refuted",
    "C16_utf16_output",
    "C16_utf16_output_from_utf32_refuted"
   ],
   "note": "UTF-8 output well-formed for every UTF-16 source before the tail and every UTF-32 source without surrogate code points; refuted: surrogates in UTF-32, verbatim UTF-8 copy, truncated tail in one-shot conversion. UTF-16 output proved for every byte string."
  },
  {
   "property": "C17",
   "status": "partial",
   "theorems": [
    "C17_well_formed",
    "C17_well_formed_texts",
    "C17_every_input_partial",
    "C17_no_false_character",
    "C17_unfinished_exactly",
    "C17_swallow_refuted"
   ],
   "note": "Automaton tables proved equal to Unicode table 3-7 for every byte string (completeness, soundness, unfinished prefix). The no-swallow clause is refuted (C3 41)."
  },
  {
   "property": "C18",
   "status": "partial",
   "theorems": [
    "C18_utf8_chunks",
    "C18_utf16_chunks_partial",
    "C18_utf16_refuted",
    "C18_utf32_chunks"
   ],
   "note": "UTF-8 source: every chunking of every byte string, output and pending bytes. UTF-16: when every high surrogate is followed by a low one; refuted otherwise."
  },
  {
   "property": "C19",
   "status": "proved",
   "theorems": [
    "C19_full_size",
    "C19_state_size_utf8",
    "C19_state_size_utf16",
    "C19_vector_stores"
   ],
   "note": "Output length and 16-unit vector stores, all encodings, one-shot and stateful."
  },
  {
   "property": "C20",
   "status": "proved",
   "theorems": [
    "C20_chunking_irrelevant",
    "C20_single_update"
   ],
   "note": "For any block function; any two chunkings."
  },
  {
   "property": "C21",
   "status": "proved",
   "theorems": [
    "C21_padding",
    "C21_pad_is_standard",
    "C21_two_halves_counter"
   ],
   "note": "Both counter representations."
  },
  {
   "property": "C22",
   "status": "proved",
   "theorems": [
    "C22_sha256_blocks",
    "C22_sha512_blocks"
   ],
   "note": "Portable, 16-byte SIMD and constexpr block functions of SHA-256 and SHA-512; x86 SHA extensions, AVX2 and ARM intrinsics are not modelled."
  },
  {
   "property": "C23",
   "status": "proved",
   "theorems": [
    "C23_crc32",
    "C23_crc32c",
    "C23_polynomial_division",
    "C23_digest_bytes"
   ],
   "note": "Against the bit-serial definition and against long division of polynomials over GF(2)."
  },
  {
   "property": "C24",
   "status": "partial",
   "theorems": [
    "C24_utc_is_civil_time",
    "C24_utc_out_of_range",
    "C24_to_timestamp_partial",
    "C24_there_and_back_partial",
    "C24_leap_february_refuted",
    "C24_negative_year_refuted",
    "C24_offset_refuted",
    "C24_last_second_refuted",
    "C24_exact_value_partial",
    "C24_negative_subseconds_refuted"
   ],
   "note": "utc() proved for every second for which it does not terminate. The way back is wrong in February of leap years, in negative years and when the offset exceeds the time since the start of the month (exact error proved, witnesses in the refuted theorems); negative timestamps with subseconds are converted with the wrong direction."
  },
  {
   "property": "C25",
   "status": "partial",
   "theorems": [
    "C25_divide_no_int128_partial",
    "C25_divide_no_int128_refuted",
    "C25_compare",
    "C25_equal",
    "C25_add_partial",
    "C25_add_loss_partial",
    "C25_sub_partial",
    "C25_negate_partial",
    "C25_add_refuted",
    "C25_small_negative_refuted",
    "C25_divide_even",
    "C25_divide_partial",
    "C25_divide_zero",
    "C25_divide_odd_refuted"
   ],
   "note": "Comparison and equality exact. Addition exact except that same-sign subseconds adding past 2^64 lose 2^64-10^19 units, and that results strictly between -1 s and 0 have no representation (the sign is lost). Division rounds half to even for even divisors only; in builds without __int128 it agrees only for quotients below 1.84 s (4 s / 2 is 3 s, refuted)."
  },
  {
   "property": "C26",
   "status": "partial",
   "theorems": [
    "C26_iso_round_trip_partial",
    "C26_iso_scan",
    "C26_offset_seconds_refuted",
    "C26_long_offset_refuted",
    "C26_smallest_year_refuted"
   ],
   "note": "Round trip for every valid field combination, any 64-bit year but the smallest, offsets of whole minutes below 24 h. Offsets with seconds, of a day or more and the smallest year are refuted. The chunked (context) scanner is C98."
  },
  {
   "property": "C27",
   "status": "partial",
   "theorems": [
    "C27_print",
    "C27_round_trip",
    "C27_scan_in_bounds",
    "C27_accepts_only_partial",
    "C27_missing_part_refuted"
   ],
   "note": "Round trip with any continuation, in-bounds and soundness proved; refuted: a missing last part (\"10.2.33.\") or port is accepted as 0. The chunked (context) scanner is C75."
  },
  {
   "property": "C28",
   "status": "proved",
   "theorems": [
    "C28_print",
    "C28_denotes"
   ],
   "note": "Printed text, RFC 4291 meaning and uniqueness, RFC 5952 choice of run, reserve size: all flags, both byte orders."
  },
  {
   "property": "C29",
   "status": "partial",
   "theorems": [
    "C29_what_is_read",
    "C29_round_trip_partial",
    "C29_accepts_only",
    "C29_wrong_groups_refuted",
    "C29_shortened_scan_refuted",
    "C29_overread_refuted"
   ],
   "note": "Exact characterisation of what is read; refuted for groups >= 0x100, for the padded form and for the shortened form (never returns ok, loops for ever); reads past a truncated text. ipv6/ip/ip_address scans are empty stubs in the code."
  },
  {
   "property": "C30",
   "status": "partial",
   "theorems": [
    "C30_nothing_lost",
    "C30_flush_delivers",
    "C30_close_delivers",
    "C30_destructor_delivers",
    "C30_no_duplication_partial",
    "C30_failed_write_partial",
    "C30_short_write_refuted",
    "C30_exception_duplicates_refuted",
    "C30_print_terminates_refuted"
   ],
   "note": "Proved for every history over a device that takes what it is offered. Over a device with short writes the library makes one write call and ignores its result: data is lost silently (refuted), but never duplicated or reordered (_partial). Over a device that throws: a failed operation leaves no trace when the handle has scatter write (_partial); without it pending bytes are sent twice (refuted), and print terminates the program (refuted)."
  },
  {
   "property": "C31",
   "status": "partial",
   "theorems": [
    "C31_nothing_lost",
    "C31_refill_answer",
    "C31_throwing_read_partial",
    "C31_torn_refuted",
    "C31_flush_discards_refuted",
    "C31_print_discards_refuted"
   ],
   "note": "Proved for every history of reads, refills, direct buffer consumption and output over every short-read schedule of a device that does not throw; single reads also over throwing devices (_partial). Refuted: a throwing first read leaves the buffer pointers torn; flush and print on an in+out stream discard unread input."
  },
  {
   "property": "C32",
   "status": "partial",
   "theorems": [
    "C32_fills_or_eof",
    "C32_unbuffered",
    "C32_any_schedule",
    "C32_throwing",
    "C32_reflective_hangs_refuted",
    "C32_reflective_partial"
   ],
   "note": "Proved for buffered and unbuffered streams and every schedule. The reflective read_all (rwreflect, not yet included by the library) loops for ever at end of file (refuted)."
  },
  {
   "property": "C33",
   "status": "partial",
   "theorems": [
    "C33_write_all",
    "C33_write_all_ends",
    "C33_scatter_write_all",
    "C33_scatter_write_all_ends",
    "C33_twice_refuted",
    "C33_dropped_refuted"
   ],
   "note": "Proved for every partial-write schedule and every kind of stream except two: with an output buffer write_all writes the data twice when it fits, and with only scatter_write_some_bytes the rest of a half-written scatter is dropped (refuted). rwreflect is not yet included by the library's own headers."
  },
  {
   "property": "C34",
   "status": "partial",
   "theorems": [
    "C34_history_partial",
    "C34_enough_memory_partial",
    "C34_own_element_partial",
    "C34_erase_refuted",
    "C34_erase_dead_element_refuted",
    "C34_push_own_element_refuted",
    "C34_insert_own_element_refuted",
    "C34_erase_nothing_refuted",
    "C34_constructors",
    "C34_equality"
   ],
   "note": "Proved for every history of the operations that are right; refuted (with witnesses): erase of one element never shrinks the vector, push_back of an own element on a full vector reads freed storage, insert of an own element after the position inserts the wrong value, erase(it,it) of a non-relocatable type destroys live elements. Missing from the model: assignment (move assignment and swap do not compile), constant evaluation, throwing constructors."
  },
  {
   "property": "C35",
   "status": "partial",
   "theorems": [
    "C35_index",
    "C35_front_back",
    "C35_pop_back",
    "C35_insert_index",
    "C35_erase_index_partial",
    "C35_erase_index_to_end_refuted"
   ],
   "note": "Proved for operator[], front, back, pop_back, insert_index and the bounds checks of erase_index; refuted: erase_index(first, size()) terminates although the range is valid."
  },
  {
   "property": "C36",
   "status": "partial",
   "theorems": [
    "C36_lines",
    "C36_chunking",
    "C36_contiguous_partial",
    "C36_contiguous_refuted"
   ],
   "note": "Buffered streams: proved for every chunking (C36_lines, C36_chunking), in builds where line feeds are found (C54). Contiguous streams lose a last line without line feed (refuted with witness); proved for texts that end in a line feed."
  },
  {
   "property": "C37",
   "status": "partial",
   "theorems": [
    "C37_width_partial",
    "C37_integer_partial",
    "C37_byref_refuted",
    "C37_constant_evaluation_refuted"
   ],
   "note": "Proved at run time for everything held by value (all integers, strings, small objects): exact padding, no write outside of the reserved size. Refuted: objects held by reference (left(x,n,ch) fills with NUL, internal ignores the sign) and constant evaluation (overlapping forward copy). Integers under the conditions of C03."
  },
  {
   "property": "C38",
   "status": "partial",
   "theorems": [
    "C38_digit",
    "C38_upper",
    "C38_lower",
    "C38_alpha",
    "C38_alnum",
    "C38_xdigit",
    "C38_print",
    "C38_graph",
    "C38_punct",
    "C38_space",
    "C38_html_whitespace",
    "C38_to_lower",
    "C38_to_upper",
    "C38_width_partial",
    "C38_width_refuted"
   ],
   "note": "All classifications proved for every code unit of 8, 16 and 32 bits; is_c_fullwidth/is_c_halfwidth proved for 32-bit types only and refuted for narrower ones."
  },
  {
   "property": "C39",
   "status": "partial",
   "theorems": [
    "C39_addc",
    "C39_subc",
    "C39_addc_msvc32",
    "C39_subc_msvc32_refuted",
    "C39_umul",
    "C39_umul32",
    "C39_pack",
    "C39_udivmod",
    "C39_udivmod_small",
    "C39_details_udivmod_partial",
    "C39_details_udivmod_refuted",
    "C39_checked_sum",
    "C39_checked_product_partial",
    "C39_checked_product_refuted",
    "C39_checked_product_chain_partial",
    "C39_allocation_size",
    "C39_sub_underflow"
   ],
   "note": "Carries, widening products, fast_io::intrinsics::udivmod (all widths, all divisors), checked sums and sizes exact for all operands. Refuted: 32-bit MSVC subc; details::intrinsics::udivmod above half the word range / two-word divisors / without __builtin_ctzll (proved below half the range); mul_or_overflow_die without builtins adds, and divides by zero on MSVC."
  },
  {
   "property": "C40",
   "status": "partial",
   "theorems": [
    "C40_integer_precise_size_partial",
    "C40_integer_precise_text_partial",
    "C40_negative_decimal_refuted",
    "C40_full_refuted"
   ],
   "note": "Integer size accounting: refuted for negative decimals and for full; proved otherwise."
  },
  {
   "property": "C41",
   "status": "proved",
   "theorems": [
    "C41_sha256",
    "C41_sha224",
    "C41_sha512",
    "C41_sha384",
    "C41_sha512_224",
    "C41_sha512_256"
   ],
   "note": "Intrinsics-based block functions (x86 SHA, AVX2) not modelled."
  },
  {
   "property": "C42",
   "status": "proved",
   "theorems": [
    "C42_sha1",
    "C42_md5"
   ],
   "note": "SHA-1: the portable function (the x86 SHA routine is not modelled)."
  },
  {
   "property": "C43",
   "status": "partial",
   "theorems": [
    "C43_consteval_sha256_refuted",
    "C43_consteval_md5_refuted",
    "C43_consteval_big_endian_partial",
    "C43_consteval_words_partial"
   ],
   "note": "Refuted on little endian hosts: the byte-swapped word is computed and dropped; MD5 shifts a std::byte by 24. True parts proved."
  },
  {
   "property": "C44",
   "status": "proved",
   "theorems": [
    "C44_iso_form",
    "C44_unix_form"
   ],
   "note": "All field values below 100 in the two-digit fields, all years, offsets and subseconds below one second."
  },
  {
   "property": "C45",
   "status": "partial",
   "theorems": [
    "C45_c_weekday_partial",
    "C45_weekday_partial",
    "C45_year_zero_refuted"
   ],
   "note": "Years 1..2^63-1; refuted for January/February of year 0 (division rounds toward zero)."
  },
  {
   "property": "C46",
   "status": "partial",
   "theorems": [
    "C46_win32_epoch",
    "C46_year0_epoch",
    "C46_csharp_epoch_refuted",
    "C46_epoch_change",
    "C46_filetime"
   ],
   "note": "win32 and year-0 epochs right, C# epoch off by 32 hours (refuted)."
  },
  {
   "property": "C47",
   "status": "partial",
   "theorems": [
    "C47_unix_round_trip_partial",
    "C47_whole_seconds_followed_refuted",
    "C47_minus_zero_refuted",
    "C47_rounding_refuted",
    "C47_other_epoch_refuted"
   ],
   "note": "Holds at the end of the text and, with a fraction, before any non digit. Refuted: whole seconds followed by anything; -0.5; rounding up to a whole second; timestamps with another epoch."
  },
  {
   "property": "C48",
   "status": "partial",
   "theorems": [
    "C48_scan_overread_refuted",
    "C48_scan_in_bounds_partial"
   ],
   "note": "Only way out proved: text ending in [+-]dd:d, where the length check is one short (refuted by a witness)."
  },
  {
   "property": "C49",
   "status": "proved",
   "theorems": [
    "C49_buffered",
    "C49_unbuffered"
   ],
   "note": "Buffered streams of any size and fill level, the raw device with and without scatter write (through temporary_buffer); texts within the bounds their types announce."
  },
  {
   "property": "C50",
   "status": "proved",
   "theorems": [
    "C50_prompt_before_input",
    "C50_prompt_before_refill"
   ],
   "note": "Every state of a tied stream over a device that takes what it is offered."
  },
  {
   "property": "C51",
   "status": "proved",
   "theorems": [
    "C51_write_some",
    "C51_write_some_wide",
    "C51_scatter_write_some"
   ],
   "note": "Every schedule."
  },
  {
   "property": "C52",
   "status": "partial",
   "theorems": [
    "C52_all_destroyed_partial",
    "C52_insert_refuted"
   ],
   "note": "Proved for relocatable types and, for others, for histories that insert only at the end; refuted: insert in the middle of a non-relocatable type overwrites moved-from objects without destroying them."
  },
  {
   "property": "C53",
   "status": "proved",
   "theorems": [
    "C53_reserve",
    "C53_same_block",
    "C53_geometric",
    "C53_shrink"
   ],
   "note": "Every reachable state, any sane allocator."
  },
  {
   "property": "C54",
   "status": "partial",
   "theorems": [
    "C54_find_char",
    "C54_find_lf_memchr",
    "C54_find_space",
    "C54_find_none_space_partial",
    "C54_find_none_space_refuted",
    "C54_avx512bw_refuted",
    "C54_big_endian_refuted",
    "C54_leading_zeros"
   ],
   "note": "Proved for builds other than GCC AVX512BW and big-endian without vectors, which are refuted; find_none_c_space in vector builds is refuted in general and proved for plain texts."
  },
  {
   "property": "C55",
   "status": "partial",
   "theorems": [
    "C55_word_partial",
    "C55_word_refuted",
    "C55_line",
    "C55_noskipws",
    "C55_whole",
    "C55_strlike_partial",
    "C55_contiguous",
    "C55_empty_refill"
   ],
   "note": "Lines, noskipws and whole texts proved for every chunking; words under the plain-text condition of C54 (refuted otherwise with witness)."
  },
  {
   "property": "C56",
   "status": "partial",
   "theorems": [
    "C56_get_all",
    "C56_get_all_strlike_partial",
    "C56_get_all_strlike_refuted"
   ],
   "note": "Proved for strings with a buffer; other string types overrun the 2048-byte context buffer for larger n (proved as refutation for every such n and text)."
  },
  {
   "property": "C57",
   "status": "partial",
   "theorems": [
    "C57_double_partial",
    "C57_double_powers_of_two_refuted",
    "C57_double_32bit_partial",
    "C57_double_32bit_refuted"
   ],
   "note": "Proved for every finite nonzero double except powers of two above the least normal number; for those the exact set of 255 that do not read back is proved (m2==0 is tested after the hidden bit is set, so the asymmetric interval is dead code). 32-bit size_t builds can leave one trailing zero."
  },
  {
   "property": "C58",
   "status": "partial",
   "theorems": [
    "C58_float_partial",
    "C58_float_roundtrip_partial",
    "C58_float_refuted",
    "C58_float_powers_of_two_refuted"
   ],
   "note": "The near-tie parity test of float omits the xor with half of the small divisor, so values close to a tie are rounded to the wrong neighbour and some do not read back (witness proved). Proved for all floats away from ties, round trip for ulp >= 1.2*10^t, and the exact set of powers of two that do not read back."
  },
  {
   "property": "C59",
   "status": "partial",
   "theorems": [
    "C59_decimal_text",
    "C59_double_reads_back_refuted"
   ],
   "note": "The text denotes the chosen decimal, in its form: proved for every double and float, format and flags. Reading back: exactly characterised; refuted for the powers of two listed in lost_double_powers (C57), true for every other double. Destination as a list of cells; char only."
  },
  {
   "property": "C60",
   "status": "proved",
   "theorems": [
    "C60_hexfloat_exact"
   ],
   "note": "All finite nonzero doubles and floats."
  },
  {
   "property": "C61",
   "status": "partial",
   "theorems": [
    "C61_reserved_space_partial",
    "C61_general_float_refuted",
    "C61_general_float_16_partial",
    "C61_reserved_space_hex"
   ],
   "note": "Holds for every value and format of double and for float except general; refuted for float in general format: -100000395000000 needs 16 characters, 15 are reserved. Hexfloat: proved."
  },
  {
   "property": "C62",
   "status": "partial",
   "theorems": [
    "C62_special_texts",
    "C62_zero_mark_refuted"
   ],
   "note": "Texts proved; refuted: the exponent mark of zero in scientific format ignores uppercase_e (uses uppercase)."
  },
  {
   "property": "C63",
   "status": "proved",
   "theorems": [
    "C63_decimal_shortest"
   ],
   "note": "All values."
  },
  {
   "property": "C64",
   "status": "partial",
   "theorems": [
    "C64_copies_memory",
    "C64_copies_buffered",
    "C64_copies_unbuffered",
    "C64_copies_descriptors",
    "C64_copies_buffered_descriptors",
    "C64_short_write_refuted"
   ],
   "note": "proved for in-memory, buffered and unbuffered sources and sinks and for POSIX descriptors copied with the kernel call loop; refuted for a device that takes part of a write (transmit ignores the position write returns): C64_short_write_refuted"
  },
  {
   "property": "C65",
   "status": "proved",
   "theorems": [
    "C65_limited_memory",
    "C65_limited_buffered",
    "C65_limited_unbuffered",
    "C65_limited_descriptors",
    "C65_limited_buffered_descriptors"
   ],
   "note": "limit counts of transmit64; the rest stays readable"
  },
  {
   "property": "C66",
   "status": "partial",
   "theorems": [
    "C66_interrupted_buffered",
    "C66_interrupted_limited",
    "C66_counts_buffered",
    "C66_interrupted_unbuffered_partial",
    "C66_unbuffered_refuted"
   ],
   "note": "buffered sources: everything is delivered or still readable, and the counts agree; unbuffered sources lose what was read into the local buffer when the sink throws: C66_unbuffered_refuted"
  },
  {
   "property": "C67",
   "status": "proved",
   "theorems": [
    "C67_one_at_a_time",
    "C67_alone_print",
    "C67_alone_write",
    "C67_alone_flush",
    "C67_alone_read",
    "C67_alone_transmit",
    "C67_prints_do_not_mix",
    "C67_all_prints_arrive"
   ],
   "note": "linearizability for every schedule, number of threads, calls, devices; the effect of each call alone is that of the sequential models (BufModel, PrintModel, TransmitModel)"
  },
  {
   "property": "C68",
   "status": "partial",
   "theorems": [
    "C68_never_stuck_partial",
    "C68_runs_end",
    "C68_runs_complete_partial",
    "C68_no_transmit",
    "C68_opposite_transmits_refuted",
    "C68_self_transmit_refuted"
   ],
   "note": "holds without transmit calls and whenever transmits respect some order of the streams; every run ends. Refuted in general: opposite transmits deadlock (input locked first, then output), and transmit of a stream to itself"
  },
  {
   "property": "C69",
   "status": "partial",
   "theorems": [
    "C69_objects_refer_partial",
    "C69_copy_to_empty_refuted"
   ],
   "note": "Full claim: for every history the objects refer to the files of the specification. Proved when no copy is assigned to an empty object; that case is refuted (C69_copy_to_empty_refuted: dup2 onto -1 always throws)."
  },
  {
   "property": "C70",
   "status": "proved",
   "theorems": [
    "C70_ownership",
    "C70_no_leak"
   ],
   "note": "Proved for all histories, including failing kernel calls; the kernel is a descriptor table with arbitrary fresh descriptors."
  },
  {
   "property": "C71",
   "status": "partial",
   "theorems": [
    "C71_own_child_partial",
    "C71_moved_from_refuted",
    "C71_empty_collects_refuted",
    "C71_detach_refuted"
   ],
   "note": "Proved (model run equals specification run) for histories in which empty objects are waited for, assigned to or destroyed only when no child exists. Otherwise refuted: an empty object holds pid -1 and waitpid(-1) collects any child (moved-from, detached)."
  },
  {
   "property": "C72",
   "status": "partial",
   "theorems": [
    "C72_streams_partial",
    "C72_parent",
    "C72_swap_refuted",
    "C72_null_stdin_refuted"
   ],
   "note": "Child side proved when 0,1,2 are open, no crossings between 0,1,2, and in does not share a pipe with out/err (out and err may share one); the crossing and closed-stdin cases are refuted. Parent side proved."
  },
  {
   "property": "C73",
   "status": "partial",
   "theorems": [
    "C73_concat",
    "C73_integers",
    "C73_one_integer_partial",
    "C73_negative_refuted"
   ],
   "note": "Proved for all string types and argument lists whose sizes are right, and for lists of integers. A single signed decimal integer that needs the precise path (concat(-5LL)) gives wrong digits: C73_negative_refuted."
  },
  {
   "property": "C74",
   "status": "proved",
   "theorems": [
    "C74_append"
   ],
   "note": "Texts up to 2^60 characters in total; allocation does not fail. String types with push_back/append (std::basic_string)."
  },
  {
   "property": "C75",
   "status": "partial",
   "theorems": [
    "C75_chunks_partial",
    "C75_ok_is_sound_partial",
    "C75_cut_after_zero_refuted",
    "C75_overflow_accepted_refuted"
   ],
   "note": "Round trip for all cuttings except directly after a single digit 0 (C75_cut_after_zero_refuted), and soundness of every accepted text except that at the end of the input a missing or overlong last number is accepted (C75_overflow_accepted_refuted)."
  },
  {
   "property": "C76",
   "status": "partial",
   "theorems": [
    "C76_scan_partial",
    "C76_end_partial",
    "C76_cut_refuted",
    "C76_space_refuted"
   ],
   "note": "All argument lists over the eight kinds of argument, all cuttings except those shown to fail: inside a literal, inside or directly after an address, directly after an integer 0 (C76_cut_refuted); white space before an address is skipped only when the buffer is empty (C76_space_refuted)."
  },
  {
   "property": "C77",
   "status": "partial",
   "theorems": [
    "C77_raw_partial",
    "C77_end_partial",
    "C77_nothing_lost_partial",
    "C77_raw_refuted"
   ],
   "note": "Proved for arguments whose text may be cut anywhere (C77_raw_partial, C77_end_partial, C77_nothing_lost_partial); refuted for literals of two or more characters, addresses and the integer 0 (C77_raw_refuted), and the separator after an integer is lost on streams without try_unget."
  },
  {
   "property": "C78",
   "status": "partial",
   "theorems": [
    "C78_view",
    "C78_end_partial",
    "C78_end_refuted"
   ],
   "note": "Full for complete texts (C78_view); end of input proved except for LEB128 and addresses, where it is an exception \"invalid\" instead of end of file (C78_end_refuted)."
  },
  {
   "property": "C79",
   "status": "partial",
   "theorems": [
    "C79_posix_partial",
    "C79_update_trunc_refuted",
    "C79_attributes"
   ],
   "note": "Every mode of the table except in|out|trunc; that one does not create a missing file and, even with excl, empties an existing one (C79_update_trunc_refuted). Attributes: full."
  },
  {
   "property": "C80",
   "status": "proved",
   "theorems": [
    "C80_c_mode",
    "C80_rights_agree"
   ],
   "note": "All modes; the rights of stream and descriptor agree for every mode of the table."
  },
  {
   "property": "C81",
   "status": "proved",
   "theorems": [
    "C81_perms"
   ],
   "note": "All values."
  },
  {
   "property": "C82",
   "status": "partial",
   "theorems": [
    "C82_allocation",
    "C82_all_or_nothing",
    "C82_extra_bytes",
    "C82_descriptor_offset_refuted",
    "C82_empty_extra_refuted"
   ],
   "note": "All schedules of reads, throw safety, extra bytes. Refuted: a loader made from a descriptor whose offset is not 0 throws where the mapping loader gives the whole file; an empty file with 0 extra bytes may throw."
  },
  {
   "property": "C83",
   "status": "proved",
   "theorems": [
    "C83_loaders"
   ],
   "note": "All histories, both loader classes (and the map class without default construction)."
  },
  {
   "property": "C84",
   "status": "partial",
   "theorems": [
    "C84_maps_partial",
    "C84_close_default_refuted",
    "C84_attribute_partial",
    "C84_attribute_refuted"
   ],
   "note": "All histories without default construction; refuted: close() on a default-constructed map terminates the program; execute_read_write is not writable, write_copy and execute_write_copy are shared and not readable."
  },
  {
   "property": "C85",
   "status": "partial",
   "theorems": [
    "C85_chunks_partial",
    "C85_sound",
    "C85_bare_cr_refuted",
    "C85_reuse_refuted"
   ],
   "note": "Headers whose every CR ends a line: all cuttings, all capacities; soundness for all inputs whatsoever. Refuted: a bare CR is refused in one piece and accepted when the input is cut there; reading into a used object appends to the old header."
  },
  {
   "property": "C86",
   "status": "partial",
   "theorems": [
    "C86_header",
    "C86_no_reason_refuted"
   ],
   "note": "All headers with a three-part first line and key/value fields, all cuttings. Refuted: a first line of only two parts makes the code run into the next line."
  },
  {
   "property": "C87",
   "status": "partial",
   "theorems": [
    "C87_value_partial",
    "C87_overflow_partial",
    "C87_sound_partial",
    "C87_convert",
    "C87_refuted"
   ],
   "note": "Value for every numeral in every number of arguments (a single 0 must not be followed by another argument); overflow; soundness of every value returned; conversion between all integer types complete. Refuted: (\"0\",\" \") is undefined, (\"0\",\"5x\") is 0, (\"-\") is 0, long overflowing numerals followed by another argument are 'invalid'."
  },
  {
   "property": "C88",
   "status": "partial",
   "theorems": [
    "C88_word",
    "C88_line_partial",
    "C88_followed_partial",
    "C88_one_partial",
    "C88_refuted"
   ],
   "note": "Words complete. Lines, characters, literals when something follows in the same argument; LEB128 and addresses in one argument. Refuted otherwise: the scanner's answer is ignored when it used up the argument, so to of exactly the literal, of one character or of a line with its line feed fails or reads on. Also seen: u16inplace_to and u32inplace_to are declared to return a value and have no return statement (not modelled)."
  },
  {
   "property": "C89",
   "status": "partial",
   "theorems": [
    "C89_texts_partial",
    "C89_refuted"
   ],
   "note": "Complete unless arguments of static and of dynamic size are mixed; then refuted: the buffer ignores the static sizes."
  },
  {
   "property": "C90",
   "status": "proved",
   "theorems": [
    "C90_hex",
    "C90_too_long",
    "C90_injective",
    "C90_uuid"
   ],
   "note": "Complete, with injectivity, the announced size and the termination when the size does not fit size_t."
  },
  {
   "property": "C91",
   "status": "proved",
   "theorems": [
    "C91_digest",
    "C91_consteval_write"
   ],
   "note": "Complete for the ten contexts of fast_io_crypto/hash with run time evaluation; constant evaluation of write reaches the same digest function. Not modelled: contexts with runtime_digest_size. Also seen: a context whose digest_to_byte_ptr returns a pointer would not compile with raw_bytes and one-byte characters (crypto_hash.h 452 returns std::byte* as char_type*)."
  },
  {
   "property": "C92",
   "status": "partial",
   "theorems": [
    "C92_lower",
    "C92_other_forms_partial",
    "C92_overread_refuted",
    "C92_ignored_refuted"
   ],
   "note": "hash_compress (lower case) complete. hash_compress_upper and hash_compress_raw_bytes multiply by the size of the range object instead of the element (crypto_hash.h 303, 317): proved right only for std::byte elements, equal sizes or empty ranges; refuted otherwise (reads past the end for every std::string, vector or span of smaller elements)."
  },
  {
   "property": "C93",
   "status": "partial",
   "theorems": [
    "C93_sized_fits",
    "C93_print_partial",
    "C93_size_wraps_refuted",
    "C93_dynamic_short_refuted"
   ],
   "note": "Proved: every path prints join sep elems and the announced size is enough when the product fits size_t. Refuted: (R+|sep|)*n is not checked, so it wraps and the buffer is too small; the dynamic-reserve formula is one short (precedence), though rgvw never selects it."
  },
  {
   "property": "C94",
   "status": "partial",
   "theorems": [
    "C94_scalar",
    "C94_simd_partial",
    "C94_simd_refuted",
    "C94_simd_symmetric"
   ],
   "note": "Proved in full for the portable routine. The vector routine shuffles the diagonals in the wrong direction: refuted with RFC 8439's own test state; what it computes is characterised exactly (C94_simd_partial)."
  },
  {
   "property": "C95",
   "status": "partial",
   "theorems": [
    "C95_values_partial",
    "C95_array_refuted",
    "C95_256_refuted",
    "C95_256_partial",
    "C95_apply_refuted"
   ],
   "note": "The values computed for 16 and 24 byte keys are FIPS 197's for every key. Refuted: the array is one round key short (store outside the object for every 16 and 24 byte key), the 32 byte schedule differs from the fourth round key on (its first three are proved right), and operator() has an empty body."
  },
  {
   "property": "C96",
   "status": "partial",
   "theorems": [
    "C96_zero",
    "C96_pkcs7_partial",
    "C96_full",
    "C96_empty_refuted"
   ],
   "note": "Zero padding proved; PKCS #7 proved for a non-empty incomplete block up to 255 bytes and for a complete block with 0 remaining. Refuted: an empty block (the padding block a complete message needs) stores outside of the array for every block size."
  },
  {
   "property": "C97",
   "status": "partial",
   "theorems": [
    "C97_grouped",
    "C97_ungrouped",
    "C97_digits_kept",
    "C97_size_partial",
    "C97_size_refuted",
    "C97_stamp"
   ],
   "note": "Text proved for all types (also 128 bits in every base, where the plain printer fails), groupings and separators. Size proved under C03's condition; refuted for the least value of a type in a base whose power it is (e.g. int8 -128 in binary). The std::byte overload does not compile and is not modelled."
  },
  {
   "property": "C98",
   "status": "partial",
   "theorems": [
    "C98_accepted",
    "C98_defined",
    "C98_cuts",
    "C98_round_trip_partial",
    "C98_long_fraction_refuted",
    "C98_fragment_refuted",
    "C98_negative_year_refuted"
   ],
   "note": "Exact acceptance, definedness and independence of the cutting proved for every input whose runs of digits have at most 19 digits; years of at most 19 characters. Refuted beyond: a fraction of more than 19 digits cut in two chunks loses the digits of the first chunk, a continuation of 256 digits is lost (8-bit length), negative years of 19 digits are refused though the contiguous scanner reads them. Comma variants and EBCDIC not modelled."
  },
  {
   "property": "C99",
   "status": "proved",
   "theorems": [
    "C99_find_if",
    "C99_find",
    "C99_find_not",
    "C99_find_last",
    "C99_find_last_not",
    "C99_find_first_not_of",
    "C99_find_last_of",
    "C99_find_last_not_of"
   ],
   "note": "All ranges and types. The equality is a parameter that decides equality of values."
  },
  {
   "property": "C100",
   "status": "proved",
   "theorems": [
    "C100_mismatch",
    "C100_equal",
    "C100_lexicographical_compare",
    "C100_lower_bound",
    "C100_lower_bound_safe",
    "C100_remove",
    "C100_rotate"
   ],
   "note": "All ranges. remove requires an integral value as in the code."
  },
  {
   "property": "C101",
   "status": "partial",
   "theorems": [
    "C101_fill",
    "C101_copy_n_bitwise",
    "C101_copy_n",
    "C101_non_overlapped_copy_n",
    "C101_copy_backward",
    "C101_my_copy_partial",
    "C101_my_copy_nothing",
    "C101_non_overlapped_copy_partial",
    "C101_non_overlapped_copy_nothing",
    "C101_my_copy_refuted",
    "C101_non_overlapped_copy_refuted",
    "C101_constant_evaluation_refuted",
    "C101_compare_constant",
    "C101_compare_bytes_partial",
    "C101_compare_equal",
    "C101_compare_refuted"
   ],
   "note": "Refuted: copy() lacks the branch `*result = *first`, so my_copy of non-trivially-copyable or non-contiguous elements and non_overlapped_copy in constant expressions copy nothing (C101_my_copy_nothing, _refuted); my_copy_n in a constant expression is wrong when the destination starts inside of the source; my_compare_iter_n compares n bytes instead of n elements (right for one-byte elements and in constant expressions)."
  },
  {
   "property": "C102",
   "status": "proved",
   "theorems": [
    "C102_built",
    "C102_threw"
   ],
   "note": "All types, lengths and throwing elements. uninitialized_move_n, documented as undefined if a move throws, is not modelled."
  },
  {
   "property": "C103",
   "status": "proved",
   "theorems": [
    "C103_sha256_instructions",
    "C103_same_as_portable",
    "C103_sha256_digest",
    "C103_sha224_digest",
    "C103_sha512_avx2",
    "C103_sha512_digest",
    "C103_sha384_digest",
    "C103_sha512_224_digest",
    "C103_sha512_256_digest"
   ],
   "note": "All blocks, states, messages. Trusted: the transcription of the Intel pseudo code of SHA256RNDS2/MSG1/MSG2, PSHUFD, PALIGNR, PBLENDW, PSHUFB; swap_endian of the simd vector is the byte swap of each lane. sha512_simd32.h is included nowhere and not modelled."
  },
  {
   "property": "C104",
   "status": "proved",
   "theorems": [
    "C104_never_outside",
    "C104_shows",
    "C104_returns_only_if_it_fits",
    "C104_returns_if_announced_fits",
    "C104_terminates_exactly",
    "C104_refuses_fitting_text_refuted",
    "C104_dynamic_argument_refuted"
   ],
   "note": "All histories. That a text which fits is never refused is false when its type announces more than its text (refuted; exact for other texts: C104_terminates_exactly). For arguments with a run-time bound the code needs a four-argument print_reserve_define, which no type has; if a type had it the store would precede the check (refuted)."
  },
  {
   "property": "C105",
   "status": "partial",
   "theorems": [
    "C105_read_partial",
    "C105_read_overruns",
    "C105_read_refuted"
   ],
   "note": "False in general (C105_read_refuted, C105_read_overruns for every view whose unread text is longer than the range); proved when the unread text fits."
  },
  {
   "property": "C106",
   "status": "partial",
   "theorems": [
    "C106_holds_partial",
    "C106_write_loses",
    "C106_holds_refuted",
    "C106_put_first_refuted",
    "C106_reserve_never_grows",
    "C106_reserve_refuted"
   ],
   "note": "False in general (refuted: a write that finds room loses the text, put on a fresh buffer stores outside the buffer, oreserve never grows); proved for histories that avoid these."
  },
  {
   "property": "C107",
   "status": "partial",
   "theorems": [
    "C107_prints_aligned",
    "C107_prints",
    "C107_tabs_line_up",
    "C107_size_partial",
    "C107_size_refuted"
   ],
   "note": "Text and alignment proved for all texts (termination by overflow excluded below 2 GiB). The size bound is false for a text that ends with a tab (C107_size_refuted: a heap overflow in print), proved for every other text."
  },
  {
   "property": "C108",
   "status": "proved",
   "theorems": [
    "C108_prints_chosen",
    "C108_within_size"
   ],
   "note": "All kinds of arguments. print_define of an alternative is modelled as one write of its text."
  },
  {
   "property": "C109",
   "status": "partial",
   "theorems": [
    "C109_read_partial",
    "C109_before_1970_refuted",
    "C109_write_partial",
    "C109_write_before_1970_refuted",
    "C109_there_and_back",
    "C109_order_partial",
    "C109_order_before_1970_refuted",
    "C109_file_times",
    "C109_creation_time"
   ],
   "note": "Exact from 1970 on and for whole seconds; round trip, legality and requests proved for all times. Before 1970 with nanoseconds the value and the order are wrong (C109_before_1970_refuted, C109_write_before_1970_refuted, C109_order_before_1970_refuted)."
  },
  {
   "property": "C110",
   "status": "partial",
   "theorems": [
    "C110_monotonic_clock",
    "C110_monotonic_order",
    "C110_resolution",
    "C110_invalid_counter",
    "C110_processor_time",
    "C110_file_time_partial",
    "C110_file_time_before_1970_refuted",
    "C110_system_time_partial",
    "C110_set_time_partial",
    "C110_set_time_old",
    "C110_set_time_wraps_refuted"
   ],
   "note": "Monotonic clock, resolution, processor time proved for all counters. False parts: C110_file_time_before_1970_refuted, C110_set_time_wraps_refuted; the other theorems are for 1970 on."
  },
  {
   "property": "C111",
   "status": "partial",
   "theorems": [
    "C111_instant",
    "C111_offset_partial",
    "C111_summer_time_refuted",
    "C111_other_epochs",
    "C111_tm_partial",
    "C111_january_refuted"
   ],
   "note": "The instant is right for every zone; the offset only when summer time is as on 1970-01-01 (C111_summer_time_refuted); BSD/macOS January wrong (C111_january_refuted), exactly 31 days early (C111_tm_partial)."
  },
  {
   "property": "C112",
   "status": "partial",
   "theorems": [
    "C112_read_is_atomic",
    "C112_read_fails_only",
    "C112_unix_partial",
    "C112_leap_february_refuted",
    "C112_set_refuted",
    "C112_set_weekday_refuted"
   ],
   "note": "Atomicity for all schedules. The unix value is a day late in leap Februaries (C112_leap_february_refuted); posix_clock_settime always throws (C112_set_refuted, C112_set_weekday_refuted)."
  },
  {
   "property": "C113",
   "status": "partial",
   "theorems": [
    "C113_output_well_formed",
    "C113_characters",
    "C113_injective_partial",
    "C113_collision_refuted",
    "C113_only_collision"
   ],
   "note": "All but distinctness for every input; distinctness for texts without U+E7C7, and the collision with U+1E3F is the only one (C113_collision_refuted, C113_only_collision)."
  },
  {
   "property": "C114",
   "status": "partial",
   "theorems": [
    "C114_round_trip_partial",
    "C114_kept",
    "C114_latin",
    "C114_umlaut_refuted",
    "C114_other_character_refuted"
   ],
   "note": "Exact: the text comes back if and only if none of its characters is on the list (C114_round_trip_partial). False in general: C114_umlaut_refuted, C114_other_character_refuted."
  },
  {
   "property": "C115",
   "status": "partial",
   "theorems": [
    "C115_every_input",
    "C115_chunks",
    "C115_space",
    "C115_ill_formed_refuted",
    "C115_swallow_refuted"
   ],
   "note": "All but the last clause for every input. False: C115_ill_formed_refuted (0x3A-0x3F taken for digits), C115_swallow_refuted."
  },
  {
   "property": "C116",
   "status": "partial",
   "theorems": [
    "C116_page",
    "C116_round_trip",
    "C116_every_source",
    "C116_utf8_source",
    "C116_replacement_refuted",
    "C116_surrogate_refuted"
   ],
   "note": "Round trip and space for every text and source. The replacement clause is false from UTF-16 and UTF-32: C116_replacement_refuted, C116_surrogate_refuted."
  },
  {
   "property": "C117",
   "status": "partial",
   "theorems": [
    "C117_every_input",
    "C117_chunks_partial",
    "C117_chunks_of_text",
    "C117_chunks_refuted",
    "C117_ill_formed_refuted"
   ],
   "note": "Reading, bounds and space for every byte string; chunks: any result obtained is that of the whole (C117_chunks_partial), and encoded texts can be cut anywhere (C117_chunks_of_text). False in general: C117_chunks_refuted (reads before the chunk), C117_ill_formed_refuted."
  },
  {
   "property": "C118",
   "status": "partial",
   "theorems": [
    "C118_size_partial",
    "C118_weekday_refuted",
    "C118_era_name_refuted",
    "C118_endless_refuted"
   ],
   "note": "Proved for formats without %u and %N that end: C118_size_partial. False otherwise: C118_weekday_refuted, C118_era_name_refuted (writes past the reserved space), C118_endless_refuted."
  },
  {
   "property": "C119",
   "status": "partial",
   "theorems": [
    "C119_day_of_year",
    "C119_sunday_week",
    "C119_monday_week_partial",
    "C119_monday_week_refuted",
    "C119_iso_week_partial",
    "C119_iso_week_refuted",
    "C119_week_year_partial",
    "C119_week_year_refuted",
    "C119_locale_week_partial",
    "C119_locale_week_refuted"
   ],
   "note": "%j and %U in full; %W, %V, %G and %v where the code is right. The exceptions are real: C119_monday_week_refuted, C119_iso_week_refuted, C119_week_year_refuted, C119_locale_week_refuted."
  },
  {
   "property": "C120",
   "status": "partial",
   "theorems": [
    "C120_meaning",
    "C120_one_text",
    "C120_strftime_refuted"
   ],
   "note": "C120_meaning holds for all formats built from the listed directives; differences from strftime: C120_strftime_refuted."
  },
  {
   "property": "C121",
   "status": "partial",
   "theorems": [
    "C121_era_partial",
    "C121_era_year_partial",
    "C121_era_format_partial",
    "C121_past_era_refuted"
   ],
   "note": "Proved for plain eras; an era reaching back for ever is not found: C121_past_era_refuted."
  },
  {
   "property": "C122",
   "status": "proved",
   "theorems": [
    "C122_permissions",
    "C122_kind",
    "C122_status"
   ],
   "note": "Proved in full."
  },
  {
   "property": "C123",
   "status": "partial",
   "theorems": [
    "C123_kind",
    "C123_listing_partial",
    "C123_listing_refuted",
    "C123_permissions_partial",
    "C123_permissions_refuted",
    "C123_stat_partial",
    "C123_time_before_1970_refuted"
   ],
   "note": "Permissions keep the type bits: C123_permissions_refuted; an unnamed kind is unknown to stat and not_found in a listing: C123_listing_refuted; times before 1970: C123_time_before_1970_refuted."
  },
  {
   "property": "C124",
   "status": "partial",
   "theorems": [
    "C124_status",
    "C124_other_kinds",
    "C124_blocks_refuted",
    "C124_listing_partial",
    "C124_listing_refuted"
   ],
   "note": "Proved apart from the blocks and the kinds of offline files, which are wrong: C124_blocks_refuted, C124_listing_refuted."
  },
  {
   "property": "C125",
   "status": "proved",
   "theorems": [
    "C125_posix",
    "C125_parse",
    "C125_domains",
    "C125_same_error",
    "C125_code",
    "C125_foreign"
   ],
   "note": "Proved in full."
  },
  {
   "property": "C126",
   "status": "proved",
   "theorems": [
    "C126_text",
    "C126_different",
    "C126_printed"
   ],
   "note": "Proved in full."
  },
  {
   "property": "C127",
   "status": "partial",
   "theorems": [
    "C127_same",
    "C127_symmetric",
    "C127_windows_9x_refuted"
   ],
   "note": "Proved in full for builds for NT; false for builds for Windows 9x: C127_windows_9x_refuted."
  },
  {
   "property": "C128",
   "status": "partial",
   "theorems": [
    "C128_round_trip",
    "C128_success",
    "C128_codes",
    "C128_own_code_partial",
    "C128_own_code_refuted",
    "C128_unlisted_refuted"
   ],
   "note": "False for errors of the C library on Windows (C128_own_code_refuted) and for errnos without counterpart (C128_unlisted_refuted)."
  },
  {
   "property": "C129",
   "status": "partial",
   "theorems": [
    "C129_system_call_partial",
    "C129_boundary_refuted"
   ],
   "note": "Proved for all results but -4096, which is thrown: C129_boundary_refuted."
  },
  {
   "property": "C130",
   "status": "partial",
   "theorems": [
    "C130_path",
    "C130_different",
    "C130_embedded_nul_refuted",
    "C130_behind_nul_refuted"
   ],
   "note": "C130_path for all names without NUL, in literals, strings, C strings and views, and arrays with text behind the NUL. False for names with a NUL (C130_embedded_nul_refuted) and for arrays of another width with anything behind the NUL (C130_behind_nul_refuted)."
  },
  {
   "property": "C131",
   "status": "proved",
   "theorems": [
    "C131_buffer"
   ],
   "note": "Proved in full."
  },
  {
   "property": "C132",
   "status": "partial",
   "theorems": [
    "C132_open",
    "C132_open_at",
    "C132_open_kernel",
    "C132_array_refuted"
   ],
   "note": "Proved for all names but arrays larger than their text opened below a directory: C132_array_refuted."
  },
  {
   "property": "C133",
   "status": "partial",
   "theorems": [
    "C133_room",
    "C133_name",
    "C133_stale_refuted",
    "C133_same_refuted"
   ],
   "note": "Proved for names that are text; false for others: C133_stale_refuted, C133_same_refuted."
  },
  {
   "property": "C134",
   "status": "partial",
   "theorems": [
    "C134_accepted",
    "C134_defined",
    "C134_cuts",
    "C134_long_fraction_refuted",
    "C134_empty_chunk_refuted"
   ],
   "note": "Proved for inputs with at most nineteen digits after any point; longer fractions depend on the cutting: C134_long_fraction_refuted; an empty chunk in the middle is not neutral: C134_empty_chunk_refuted."
  },
  {
   "property": "C135",
   "status": "partial",
   "theorems": [
    "C135_round_trip_partial",
    "C135_whole_seconds_refuted",
    "C135_negative_refuted",
    "C135_leading_zeros_refuted"
   ],
   "note": "C135_round_trip_partial for times with a fraction and seconds after -10^18; false for the rest: C135_whole_seconds_refuted (for every cutting), C135_negative_refuted."
  },
  {
   "property": "C136",
   "status": "proved",
   "theorems": [
    "C136_same_number",
    "C136_special",
    "C136_c_locale"
   ],
   "note": "Proved for every locale whose grouping entries are not negative, both formats of numbers; the plain text is that of C59."
  },
  {
   "property": "C137",
   "status": "partial",
   "theorems": [
    "C137_reserved_space_partial",
    "C137_reserved_space_refuted"
   ],
   "note": "Proved for fixed and scientific format with every locale and for general and decimal if no group is a single digit: C137_reserved_space_partial. Otherwise false: C137_reserved_space_refuted (67 characters reserved, 68 written)."
  },
  {
   "property": "C138",
   "status": "proved",
   "theorems": [
    "C138_hexfloat_exact",
    "C138_special"
   ],
   "note": "Exactness, equality with the plain text up to the point, and size."
  },
  {
   "property": "C139",
   "status": "proved",
   "theorems": [
    "C139_exclusive",
    "C139_critical_section",
    "C139_refused"
   ],
   "note": "For the variant with the Linux system call; the other one passes the address of a pointer to fcntl."
  },
  {
   "property": "C140",
   "status": "partial",
   "theorems": [
    "C140_guard_releases_refuted",
    "C140_unlock_waits_refuted",
    "C140_unlock_partial"
   ],
   "note": "False for every guard of a POSIX file: C140_guard_releases_refuted (for all requests), C140_unlock_waits_refuted. With a request of type unlock, unlock() is right: C140_unlock_partial."
  },
  {
   "property": "C141",
   "status": "partial",
   "theorems": [
    "C141_try_lock_refuted",
    "C141_try_lock_partial"
   ],
   "note": "False: C141_try_lock_refuted; the routine written for it and never called is right: C141_try_lock_partial."
  },
  {
   "property": "C142",
   "status": "proved",
   "theorems": [
    "C142_guard_releases",
    "C142_unlock_same_request",
    "C142_lock_holds",
    "C142_try_lock"
   ],
   "note": "Windows files, 64 bit requests (the only ones that compile)."
  },
  {
   "property": "C143",
   "status": "partial",
   "theorems": [
    "C143_under_the_lock_partial",
    "C143_under_the_lock_refuted"
   ],
   "note": "C143_under_the_lock_partial if the flush succeeds; C143_under_the_lock_refuted otherwise."
  },
  {
   "property": "C144",
   "status": "partial",
   "theorems": [
    "C144_count_partial",
    "C144_half_refuted",
    "C144_neon_refuted",
    "C144_consteval_refuted"
   ],
   "note": "C144_count_partial where char is signed or for lanes of one byte with a mask instruction; C144_half_refuted, C144_neon_refuted, C144_consteval_refuted otherwise."
  },
  {
   "property": "C145",
   "status": "partial",
   "theorems": [
    "C145_all_zeros_partial",
    "C145_masks_partial",
    "C145_movemask_refuted",
    "C145_avx512_refuted"
   ],
   "note": "C145_all_zeros_partial (ptest, NEON, no instructions), C145_masks_partial (SSE2, WebAssembly on masks); C145_movemask_refuted, C145_avx512_refuted."
  },
  {
   "property": "C146",
   "status": "partial",
   "theorems": [
    "C146_text",
    "C146_end_partial",
    "C146_end_refuted"
   ],
   "note": "The text is right for all decorators (C146_text); the end is for those that convert a full buffer to something (C146_end_partial), as the code conversions do; C146_end_refuted otherwise, for every size of buffer."
  },
  {
   "property": "C147",
   "status": "proved",
   "theorems": [
    "C147_file",
    "C147_before",
    "C147_round_trip"
   ],
   "note": "flush() of a decorated stream does not compile and is not modelled."
  },
  {
   "property": "C148",
   "status": "partial",
   "theorems": [
    "C148_failed_write_partial",
    "C148_failed_write_refuted"
   ],
   "note": "C148_failed_write_partial for decorators without a state; C148_failed_write_refuted."
  },
  {
   "property": "C149",
   "status": "partial",
   "theorems": [
    "C149_text",
    "C149_full",
    "C149_offset_partial",
    "C149_offset_refuted"
   ],
   "note": "Without an offset all of it (C149_text, C149_full); with one C149_offset_partial up to the end of the mapping, C149_offset_refuted beyond."
  },
  {
   "property": "C150",
   "status": "partial",
   "theorems": [
    "C150_text",
    "C150_offset_partial",
    "C150_offset_refuted"
   ],
   "note": "Without an offset C150_text; with one C150_offset_partial, C150_offset_refuted."
  },
  {
   "property": "C151",
   "status": "proved",
   "theorems": [
    "C151_returns",
    "C151_throws",
    "C151_left",
    "C151_lazy"
   ],
   "note": "Values are integers in the model; the type of the values plays no part."
  },
  {
   "property": "C152",
   "status": "partial",
   "theorems": [
    "C152_end_partial",
    "C152_again_refuted"
   ],
   "note": "C152_end_partial: the iterator of the loop stays at the end; C152_again_refuted for all coroutines that end."
  },
  {
   "property": "C153",
   "status": "proved",
   "theorems": [
    "C153_complex_text"
   ],
   "note": "Floats and doubles, on machines of 32 and 64 bits; long double and __float128 are not modelled."
  },
  {
   "property": "C154",
   "status": "proved",
   "theorems": [
    "C154_parts_are_separable"
   ],
   "note": "C154_parts_are_separable, about the texts that the parts have alone (C153)."
  },
  {
   "property": "C155",
   "status": "partial",
   "theorems": [
    "C155_reserved_space_partial",
    "C155_reserved_space_refuted"
   ],
   "note": "C155_reserved_space_partial: all doubles, and floats except in general format; C155_reserved_space_refuted: two cells too few for a complex of floats in general format."
  },
  {
   "property": "C156",
   "status": "proved",
   "theorems": [
    "C156_os_c_str"
   ],
   "note": "strlen and strnlen are taken to compute what the library's own loops compute."
  },
  {
   "property": "C157",
   "status": "proved",
   "theorems": [
    "C157_literal"
   ],
   "note": "The character types have the same width and signedness here as the stream's; whether the compiler takes the print is a case of the model."
  },
  {
   "property": "C158",
   "status": "partial",
   "theorems": [
    "C158_array_partial",
    "C158_array_refuted"
   ],
   "note": "C158_array_partial: all characters but the last, whatever it is; C158_array_refuted."
  },
  {
   "property": "C159",
   "status": "partial",
   "theorems": [
    "C159_other_type_partial",
    "C159_other_type_refuted"
   ],
   "note": "C159_other_type_partial: rejected unless it has one character, printed when that fits; C159_other_type_refuted. Fitting is about code units: nothing is transcoded."
  },
  {
   "property": "C160",
   "status": "proved",
   "theorems": [
    "C160_bitset",
    "C160_injective"
   ],
   "note": "The storage of std::bitset is taken to be words with bit i in word i / W at i mod W, as the file does."
  },
  {
   "property": "C161",
   "status": "proved",
   "theorems": [
    "C161_igenerator",
    "C161_all_characters"
   ],
   "note": "The fills are those of the buffered streams (underflow false when nothing is read); fills that throw are not modelled."
  },
  {
   "property": "C162",
   "status": "partial",
   "theorems": [
    "C162_consumed_partial",
    "C162_consumed_refuted"
   ],
   "note": "C162_consumed_partial: all but the last character given; C162_consumed_refuted for every loop that is left."
  },
  {
   "property": "C163",
   "status": "proved",
   "theorems": [
    "C163_in_order",
    "C163_read_length"
   ],
   "note": "A scan's step is fill when empty, look, and take; the reads of the unbuffered stream return at least one character unless it is at its end."
  },
  {
   "property": "C164",
   "status": "partial",
   "theorems": [
    "C164_throw_partial",
    "C164_throw_refuted"
   ],
   "note": "C164_throw_partial: looks, scans, and reads without a character looked at; C164_throw_refuted: in every other case the character is lost."
  }
 ]
}