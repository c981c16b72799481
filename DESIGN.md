# Formal model of fast_io in Rocq (Coq 8.16.1)

Everything lives in `rocq/theories` (logical name `Verif`).  For each subsystem X:

* `XModel.v`  – executable Gallina transcription of the C++ functions; each definition cites the `/repo` file and lines it models
  and says where it simplifies;
* `XSpec.v`   – independent specification, written without the model's helpers;
* `X…Proofs.v` – lemmas;
* `PropsX.v`  – the property theorems `Cnn_…`, each followed by `Print Assumptions` and by a non-vacuity `Example`.

`MANIFEST.json` (generated by `tools/manifest.py` from `Props*.v` and `tools/notes.json`) lists the theorems per property.

## Conventions

* Integers are `Z`; C++ wrap-around is written explicitly (`mod 2^w`, `wrap`), signed overflow is an outcome (`signed_result`).
* Characters and bytes are `Z` code units, texts are `list Z`.  A pointer pair `[first,last)` is a list, or a list and a
  position when going past the end must be expressible; a returned iterator is the remaining suffix or a count.
* Undefined behaviour (out-of-bounds access, shift out of range, signed overflow), termination of the program and exceptions
  are distinct outcomes (`None`, `Undefined`/`Terminated`, `Smashed`/`Died`/`Raised`), never silently excluded.
* Environment nondeterminism (short reads/writes, exceptions of a device, schedulers, fresh descriptors, growth policies,
  cuttings of an input into buffers) is an explicit parameter, over which theorems quantify.
* Loops are structural recursions or use fuel; where fuel is used a theorem shows that it suffices (or that the loop does not
  end, when that is the finding).
* Where the code violates the property as stated in English the theorem is named `…_refuted` and exhibits a concrete witness;
  the strongest true statement found is proved beside it (`…_partial` if it does not cover the English property).

## Plan and method per property

| id | model file | what is modelled | proof |
|----|-----------|------------------|-------|
| C01, C03, C04, C40 | IntPrintModel | digit count, two-digit loop, sign/prefix, reserve and precise sizes, all bases and widths | loop invariant: remaining value = value / base^k; sizes by length of numerals |
| C02 | IntPrintModel | jeaiii tree with its real constants | error bound of the fixed-point reciprocal per digit count (linear arithmetic over Z, no enumeration) |
| C05–C09 | IntScanModel | contiguous scanner, SSE4.1 path on bytes, context (chunked) scanner | induction over digits; refinement of the state machine to the contiguous scan |
| C10–C13 | Leb128Model | encoder, contiguous and context decoder | induction over 7-bit groups |
| C14 | LebeModel | lebe_put/get, byte_swap, host byte order a parameter | byte list arithmetic |
| C15–C19 | UtfModel, UtfTables | encoders, DFA decoder with the real tables, stateful conversion, SSE stores | table sweep lifted by lemmas, induction over input |
| C20–C23, C41–C43 | HashModel, HashTables | Merkle–Damgård context, SHA-1/2, MD5, CRC-32/32C | buffer invariant, bitwise identities, polynomial division over GF(2) |
| C24–C26, C44–C48 | TimeModel, TimeTextModel | timestamps, calendar, arithmetic, ISO 8601 print and scan, epochs | days-from-civil specification, cycle arguments, text grammars |
| C27–C29 | IpModel | IPv4/IPv6/ports, print and contiguous scan | via the integer lemmas; RFC 4291/5952 as specification |
| C30–C33, C49–C51 | BufModel, PrintModel, WriteAllModel | io_buffer in/out/tied, temporary_buffer, print paths, read_all, write_all | invariant relating buffer+device to a byte stream, over all histories and device answers |
| C34, C35, C52, C53 | VectorModel | cells (raw/live/moved-from), capacity, all modifiers | refinement to `list`, ownership invariant |
| C36, C54–C56 | FindModel, LineModel | scalar/SIMD/musl searches, line, word and whole-text scanners | first-match specification; independence of chunking |
| C37 | WidthModel | padding manipulators | cell-array reasoning |
| C38 | CharModel | classification | exhaustive over the finite domain by lemma, all widths |
| C39 | IntrinModel | carries, widening multiply, udivmod, checked arithmetic | Knuth D style bounds over arbitrary word width |
| C57–C63 | FloatModel, FloatTextModel, FloatTables | Dragonbox for double/float with the real tables, decimal/hex text | rational error bounds; table rows checked by a certificate; interval argument |
| C64–C66 | TransmitModel | transmit/transmit64, kernel copy loop | stream accounting invariant |
| C67, C68 | LockModel, SharedModel | interleaving of threads over mutex-protected streams | linearisation; deadlock freedom by ordering, all schedules |
| C69, C70 | HandleModel | descriptor owning objects | refinement to an object/file map over histories |
| C71, C72 | ProcModel | process objects, child's standard streams | refinement / dup2 sequence semantics |
| C73, C74 | ConcatModel | concat/concatln, string reference streams | generic print lemma instantiated for strings |
| C75 | IpCtxModel | chunked IPv4 scanner (addrscn.h 98-668) | phase invariant on the text consumed so far, induction on chunks |
| C76, C77, C78 | ScanDrvModel | scan_freestanding.h driver over the integer, string, character, literal, LEB128, fixed-size and IPv4 scanners; unget_temp_buffer | per-argument lemma for every cutting, induction on the argument list; unbuffered = buffers of one character |
| C79, C80, C81 | OpenModel | posix.h calculate_posix_open_mode, mode.h to_c_mode, perms.h | every flag bit as a boolean function of the mode's bits, against open(2), fopen and the table of modes (OpenSpec) |
| C82, C83, C84 | LoadModel | posix_file_loader.h (all of it, Linux), posix_mapping.h | heap of live blocks; read loop for every schedule of read results; ownership invariant over arbitrary operation histories; refinement to byte sequences (LoadSpec) |
| C85, C86 | HttpModel | http_header.h (all of it) | scanner shown equal to a one-character machine, induction over the buffers; machine against the first CR LF CR LF; line generator by induction on the fields (HttpSpec) |
| C87, C88, C89 | ToModel | to.h 8-455 (not print_define arguments) | context scanner's state characterised by the text seen so far, induction over the arguments; reuse of C06-C08, C55, C76 |
| C90, C91, C92 | HexModel | crypto_hash.h 8-630 (not contexts with a run time digest size), boost/uuid.h | induction over the bytes against a decoder; digests by C23, C41, C42 |
| C93–C96 | RangeSpec/RangeModel/PropsRange: range_view.h's three printing paths and sizes; CipherSpec (RFC 8439, FIPS 197 5.2, RFC 5652 6.3), CipherModel: chacha scalar.h and simd16.h, aes.h, padding | join by induction over the range, sizes modulo 2^w; chacha: each round equals the RFC's, the SIMD rows by a lane mirror; AES: one line of the constructor is one expansion step; padding loop by induction | AES and ChaCha SIMD, PKCS #7 of an empty block and the size product are refuted |
| C97 | LcSpec (cutting digits into groups, join), LcModel: the three printing paths of lc_numbers/integers.h with array bounds, table reads and reserve sizes | loop lemmas on the number of digits to come, grouped's step rules, strong induction on the numeral's length; sizes from grouped_length and C03 | the reserve size of the least value is refuted as in C03 |
| C98 | TimeCtxModel: the phases of scn_ctx_define_iso8601_impl, state = buffer, phase, integer phase, value; TimeCtxSpec: the accepted texts | TimeCtxOne: feeding a chunk = feeding its characters one by one (agreement up to a dead buffer), so any cutting = one chunk; TimeCtxGrammar/Whole: one chunk accepts exactly the grammar | inputs with a run of more than 19 digits are refuted: a long fraction cut in two loses digits |
| C163-C164 | SinglecModel: unit_character_input_buffer.h over an unbuffered stream whose reads are short or throw at will | PropsSinglec: induction on the history |

| C161-C162 | IgenModel: igenerator.h; a stream as its buffer and the fills to come; fills that throw are not modelled | PropsIgen: induction on the unread text |

| C160 | BitsetModel: bitset.h; the bitset's storage as the list of the words that may be read | PropsBitset: induction on the bits of a word and on the words |

| C156-C159 | LiteralModel: pointer.h and cstr_len.h; a pointer is the list of the cells that may be read from it on | PropsLiteral: induction on the text before the NUL |

| C153-C155 | ComplexModel: complex.h 365-394 over FloatTextModel; base 10 only (nothing else of complex.h has a print function) | PropsComplex: the text from FloatPrintProofs, the separator's absence from the text's grammar (FloatTextSpec.text_of) |

| C151-C152 | GeneratorModel: generator.h; coroutines as possibly infinite processes (a co-inductive type) with effects, the language's resume as their step | PropsGenerator: what a loop does, in terms of a list of steps and any continuation |

| C149-C150 | OmapModel: omap.h over the bytes of a mapping; an access outside of it is an outcome of its own | PropsOmap: the position after any sequence of writes and reads |

| C146-C148 | DecoSpec: what is asked of a decorator; DecoModel: input_deco.h, output_deco.h, write_with_deco, the end of a stream, read and write of a buffered stream with a decorator over any device; the state of the decorator is part of the stream; flush is not modelled (it does not compile with a decorator) | DecoProofs: the invariants of both sides; PropsDeco |

| C144-C145 | MaskModel: mask_countr.h, is_all_zeros.h over the bytes of a vector, the instruction each build uses as a parameter, signedness of char too | MaskProofs: masks and the bits of their masks; PropsMask |

| C139-C143 | FlockSpec: byte range locks as fcntl(2) and NtLockFile define them (the environment, as relations: calls may fail or block); FlockModel: posix_file_lock.h, the locks of nt.h and of io_buffer/output.h as the system call each member makes; processes that lock, move and wait in any interleaving | FlockProofs: exclusion is an invariant, other processes do not change one's locks; PropsFlock |

| C136-C138 | LcFloatModel: lc_roundtrip.h, lc_hexfloat.h and the sizes of lc_impl.h, with the plain texts of FloatTextModel; a local array is a list of cells of its own, reads and writes outside are Undefined; LcFloatSpec: a text of a number with grouped digits and a point of any length | LcFloatProofs: every printer is one emit of a text; LcFloatMeaning: the plain text and this one are texts of one number; LcFloatReach: a float c*10^5 is below 10^13, so the 13 cells of the decimal format are enough; LcFloatHex; PropsLcFloat |

| C134-C135 | UnixCtxModel: the phases of scn_ctx_define_unix_timestamp_impl and the integer phases they call; UnixCtxSpec: the accepted texts | UnixCtxProofs: every state has a meaning, a function from the text to come to the answer; a chunk keeps the meaning (invariant over the chunks); PropsUnixCtx: the meaning of the initial state is the grammar. The ',' variant and EBCDIC are not modelled |
| C130-C133 | OsNameModel (the two converters, posix_api_common and nt_api_common, counted strings, directory entries), OsNameSpec (what spells a name, what a system reads) | conversion by the theorems of C15 and C19, NUL-freedom of encoded text, cases over the kinds of names; three bytes per unit by induction. What the Rtl functions and system calls do with the name is not modelled |
| C122-C124 | StModel (permissions, kinds, status, stat and Windows answers, ASCII code units), StSpec | case analysis on the bits; the status by the number and time theorems of C01 and C100; sizes added up |
| C125-C129 | ErrModel, ErrTables (the two tables and the errno texts, generated from the headers), ErrSpec (what stands for what) | domains distinct by computation; the tables are searched in order, which is shown equal to the relation of the specification for every header whose numbers are distinct. errno numbers are a parameter; RtlNtStatusToDosError is a parameter |
| C118-C121 | LtModel (both interpreters of the time format, week numbers, eras, alternative digits, the eight manipulators; ASCII code units), LtSpec (meaning of a format, ISO weeks, eras) | size: induction on the fuel of the printer with the same fuel for the measure; meaning: induction on the meaning of the format, each directive against the calendar of C45; weeks by arithmetic on day numbers. The fuel only bounds the nesting of formats. EBCDIC code units and wrap-around of sizes are not modelled |
| C116-C117 | EbModel (the three tables, encoder, decoder, conversion loops, stateful conversion), EbSpec (UTF-8-Mod, the byte page, reading of arbitrary bytes) | table facts by computation over the 256 bytes, the forms by arithmetic, texts by induction on the reading; in chunks by adding readings. Big- and little-endian swapped destinations are not modelled |
| C113-C115 | GbModel (encoder, checked and unchecked decoder, conversion loops, stateful conversion), GbTables (the three tables, copied from the headers by tools/gb_tables.py), GbSpec (form of GB 18030 characters, four-byte numbering, reading of arbitrary bytes, the list of lost characters) | the code points are cut into 25 pieces, arithmetic or table; table facts by computation over a trie (GbCheck), the rest by arithmetic; texts by induction on the bytes left. Destinations with swapped bytes are not modelled |
| C109-C112 | ClockModel (the conversions around clock_gettime, utimensat, QueryPerformanceCounter, FILETIME, NtSetSystemTime; local() on Linux and on BSD; the DOS read loop), ClockSpec (the meaning of struct timespec, of utimensat's reserved values, of a zone, of struct tm, of the DOS calls) | integer arithmetic on top of TimeSpec's exact values; the calendar theorem C24 for local time; day numbers are monotone and dates injective for the atomic read |
| C107-C108 | IndentModel (the width pass and the print pass of auto_indent; cond as a function of the kinds of its alternatives), IndentSpec (table, widths, alignment without the passes) | one induction over the text joins both passes: widths only grow, every printed cell was measured, a budget per line bounds the length; case analysis for cond |
| C104-C106 | ViewModel (memory as one array, views as three indices so that stray stores are visible; print_control and print_controls_line_multi_impl on a contiguous stream; dynamic_io_buffer as text and capacity) | one relation 'text appended behind the cursor, everything else unchanged' composed over all operations and induction over histories; witnesses for the defects and universal descriptions of them |
| C103 | HashNiModel (the three routines as straight line programs over lanes, the two SHA-NI ones extracted from the text; instructions after the Intel manual) | a checker assigns each register the message words it holds (W, partial sums) and each program point the number of rounds done; soundness of the checker by one lemma per instruction, then the kernel evaluates the checker on the programs; AVX2 reduces to the 16 byte routine's lemma |
| C99-C102 | AlgoModel (freestanding/algorithm.h, bytes.h: memory as a list of cells, iterators as positions, out-of-range access undefined), AlgoSpec | induction over the length; rotate by an invariant (the part still to be rotated is a rotation of the first part); lower_bound by halving; refutations by witnesses |

## Trusted base

* Coq 8.16.1's kernel (and `coqchk`, which re-checks all compiled files).  `vm_compute` is used in some proofs.
* `Print Assumptions` of all property theorems (it follows each of them in `Props*.v`): "Closed under the global context" for
  every one; no axiom of the standard library is used by a property theorem.  `coqchk` also lists the axioms of
  `Coq.ssr.ssrunder` (`Under_rel` …), which belong to modules that the standard library loads; no theorem depends on them.
* No axioms, no `Admitted`, no functors or module types, no plugins; the only external library used is Coq's standard library.
* The fidelity of the hand transcription of the cited C++ lines, including the meaning given to templates, overload resolution,
  compiler builtins and SIMD intrinsics.
* The environment models: a device answers with any schedule of counts/exceptions; the kernel is a descriptor table; the
  allocator returns fresh storage and does not fail; the mutex is a default pthread mutex; sequential consistency.

## What is not modelled

* The compiler, constant evaluation (except where said: C37, C43), EBCDIC, gb18030 and UTF-EBCDIC schemes, 32-bit targets
  (except where said), address sanitizer builds, Windows/NT/win9x/WASI/DOS platforms, MSVC branches (except intrinsics).
* x86 SHA extensions, AVX2 and ARM hash routines; AES, ChaCha20 and the other ciphers.
* C06, C36, C55 assume a build whose character searches are right (C54: not GCC AVX512BW, not big endian without vectors).
* `include/fast_io_core_impl/rwreflect/*` and `intrinsics/{carry,udivmod}.h` are modelled (C32, C33, C39) although the library's own
  headers do not include them yet.
* C26/C27: see the tables; precision-limited floating point output (`precision.h`), `long double`, float16/bfloat16.
* Locales, `i18n`, Qt/MFC/C++ stream adapters, sockets, TLS, JSON, DLLs, directory iteration, time zones, random devices.
* vector: assignment operators and swap (they do not compile), throwing constructors.

## How the theorems were tested

`tools/mutate.py` applies realistic bugs to a scratch copy of the model and rebuilds; `seeded/LOG.jsonl` has one line per attempt
with the edit, the broken claim, the theorems that failed and those tightened afterwards.  An attempt with no failed theorem is
either an edit that keeps the English claim true (said so in its `claim`/`edit`) or led to a tightened theorem.

## Status and findings (generated by tools/design.py)

"refuted" theorems exhibit an input or history on which the code of the pinned commit breaks the English property.

* **C01 Printing an unsigned integer yields its canonical numeral** (partial). Proved for all 8..64-bit widths and all bases; for 128 bits only bases 10,2,4 and lowercase 16 hold: the code's 128-bit path loses uppercase and splits other bases by powers of ten (refuted theorems).  Refuted: `C01_uppercase_hex_128_refuted`, `C01_octal_128_refuted`.
* **C02 Decimal fast path equals the division algorithm** (proved). All widths, kernel-checked error bound of the fixed point reciprocals.
* **C03 Integer output never exceeds its declared reserve size** (partial). Holds in base 10 and whenever |t| is representable; refuted for INT_MIN in a base whose power equals |INT_MIN| (e.g. binary).  Refuted: `C03_reserve_refuted`.
* **C04 Signed printing is sign followed by the magnitude** (proved). All flags, all widths (128-bit: the bases of C01).
* **C05 Distinct integers print distinct texts and parse back** (partial). Round trip proved for all bases, widths and texts that follow, contiguous and chunked; with prefixes for bases 2,3,8,16. The bracketed prefixes 0[b] and uppercase 0T do not scan back (refuted). Excluded: a following code unit that makes the digit table lookup read out of bounds (C06_table_overread_refuted).  Refuted: `C05_bracket_prefix_refuted`.
* **C06 Integer scan is exact: accepts a numeral with its value or reports overflow** (partial). Value/overflow exact for digit runs of every length, all bases, widths and code unit sizes, including the SSE4.1 path. The position clause fails only for overflowing runs longer than 15/31 digits on the SSE path (refuted); one code unit per configuration reads past the lookup table (refuted).  Refuted: `C06_position_past_end_refuted`, `C06_table_overread_refuted`.
* **C07 Integer scan rejects malformed input** (partial). Invalid/end_of_file proved whenever some non-digit character is met; refuted for a lone minus, a lone prefix and an empty text, which scan ok as 0.  Refuted: `C07_no_digit_accepted_refuted`, `C07_bracket_overread_refuted`.
* **C08 Chunked integer scan equals contiguous scan** (partial). Any cutting equals the contiguous scan for values whose digits fit the scanner buffer; refuted for the text 0 at a chunk end, for overflow across chunks and for a lone minus.  Refuted: `C08_zero_at_chunk_end_refuted`, `C08_overflow_across_chunks_refuted`, `C08_lone_minus_refuted`.
* **C09 Vectorised decimal scan agrees with the scalar scan** (partial). Code and value agree on every byte text; position agrees unless overflow. Position on long overflow and zero-skipping case refuted.  Refuted: `C09_position_refuted`, `C09_skipzero_refuted`.
* **C10 LEB128 round trip** (proved). All widths 8..128, signed and unsigned, 8/16/32-bit code units, any following units, contiguous and at every cutting into buffers.
* **C11 LEB128 encoding is shortest and fits the reserve** (proved). Well-formed, denotes the value, minimal among all well-formed strings of any length, within print_reserve_size.
* **C12 LEB128 decoding never accepts an out-of-range value** (proved). Every text: ok implies the consumed units are a well-formed encoding of the stored in-range value; out of range (or over-padded) encodings are overflow.
* **C13 LEB128 streaming decode is independent of chunking** (proved). Every split of every text agrees with every other split; agrees with the contiguous decoder except that an unfinished text is end_of_file (stream) vs invalid (contiguous), which is stated exactly.
* **C14 Fixed-width little/big endian put/get round trip** (partial). All sizes, widths, hosts and code units; byte_swap proved from its mask formula for 1..16 bytes. Refuted: negative integers are not sign extended into a wider encoding; a narrower signed destination accepts out of range integers; one byte integers in wide code units leave the unit's upper bytes unwritten.  Refuted: `C14_widening_refuted`, `C14_narrow_signed_get_refuted`, `C14_wide_unit_refuted`.
* **C15 Unicode encode/decode round trip on all scalar values** (partial). Every scalar sequence, every ordered pair of UTF-8/16/32, SSE on/off, native byte order. Byte swapped schemes do not round trip (refuted).  Refuted: `C15_swapped_utf32_refuted`, `C15_swap_only_refuted`, `C15_swapped_pair_refuted`, `C15_swapped_sse_refuted`.
* **C16 UTF-8 output is well-formed** (partial). UTF-8 output well-formed for every UTF-16 source before the tail and every UTF-32 source without surrogate code points; refuted: surrogates in UTF-32, verbatim UTF-8 copy, truncated tail in one-shot conversion. UTF-16 output proved for every byte string.  Refuted: `C16_from_utf32_surrogate_refuted`, `C16_from_utf8_refuted`, `C16_truncated_refuted`, `C16_utf16_output_from_utf32_refuted`.
* **C17 UTF-8 decoding agrees with the standard** (partial). Automaton tables proved equal to Unicode table 3-7 for every byte string (completeness, soundness, unfinished prefix). The no-swallow clause is refuted (C3 41).  Refuted: `C17_swallow_refuted`.
* **C18 Streaming code conversion is independent of chunking** (partial). UTF-8 source: every chunking of every byte string, output and pending bytes. UTF-16: when every high surrogate is followed by a low one; refuted otherwise.  Refuted: `C18_utf16_refuted`.
* **C19 Code conversion never overruns the declared output size** (proved). Output length and 16-unit vector stores, all encodings, one-shot and stateful.
* **C20 Hash updates are independent of chunking** (proved). For any block function; any two chunkings.
* **C21 Hash padding follows the standard** (proved). Both counter representations.
* **C22 SHA-256 runtime compression equals the specification** (proved). Portable, 16-byte SIMD and constexpr block functions of SHA-256 and SHA-512; x86 SHA extensions, AVX2 and ARM intrinsics are not modelled.
* **C23 CRC32/CRC32C equal polynomial division** (proved). Against the bit-serial definition and against long division of polynomials over GF(2).
* **C24 Unix timestamp to calendar conversion is correct** (partial). utc() proved for every second for which it does not terminate. The way back is wrong in February of leap years, in negative years and when the offset exceeds the time since the start of the month (exact error proved, witnesses in the refuted theorems); negative timestamps with subseconds are converted with the wrong direction.  Refuted: `C24_leap_february_refuted`, `C24_negative_year_refuted`, `C24_offset_refuted`, `C24_last_second_refuted`, `C24_negative_subseconds_refuted`.
* **C25 Timestamp arithmetic is exact** (partial). Comparison and equality exact. Addition exact except that same-sign subseconds adding past 2^64 lose 2^64-10^19 units, and that results strictly between -1 s and 0 have no representation (the sign is lost). Division rounds half to even for even divisors only; in builds without __int128 it agrees only for quotients below 1.84 s (4 s / 2 is 3 s, refuted).  Refuted: `C25_divide_no_int128_refuted`, `C25_add_refuted`, `C25_small_negative_refuted`, `C25_divide_odd_refuted`.
* **C26 ISO 8601 print/scan round trip** (partial). Round trip for every valid field combination, any 64-bit year but the smallest, offsets of whole minutes below 24 h. Offsets with seconds, of a day or more and the smallest year are refuted. The chunked (context) scanner is C98.  Refuted: `C26_offset_seconds_refuted`, `C26_long_offset_refuted`, `C26_smallest_year_refuted`.
* **C27 IPv4 print/scan round trip** (partial). Round trip with any continuation, in-bounds and soundness proved; refuted: a missing last part ("10.2.33.") or port is accepted as 0. The chunked (context) scanner is C75.  Refuted: `C27_missing_part_refuted`.
* **C28 IPv6 text is unambiguous and canonical** (proved). Printed text, RFC 4291 meaning and uniqueness, RFC 5952 choice of run, reserve size: all flags, both byte orders.
* **C29 IPv6 scan inverts print** (partial). Exact characterisation of what is read; refuted for groups >= 0x100, for the padded form and for the shortened form (never returns ok, loops for ever); reads past a truncated text. ipv6/ip/ip_address scans are empty stubs in the code.  Refuted: `C29_wrong_groups_refuted`, `C29_shortened_scan_refuted`, `C29_overread_refuted`.
* **C30 Buffered output preserves the byte stream** (partial). Proved for every history over a device that takes what it is offered. Over a device with short writes the library makes one write call and ignores its result: data is lost silently (refuted), but never duplicated or reordered (_partial). Over a device that throws: a failed operation leaves no trace when the handle has scatter write (_partial); without it pending bytes are sent twice (refuted), and print terminates the program (refuted).  Refuted: `C30_short_write_refuted`, `C30_exception_duplicates_refuted`, `C30_print_terminates_refuted`.
* **C31 Buffered input preserves the byte stream** (partial). Proved for every history of reads, refills, direct buffer consumption and output over every short-read schedule of a device that does not throw; single reads also over throwing devices (_partial). Refuted: a throwing first read leaves the buffer pointers torn; flush and print on an in+out stream discard unread input.  Refuted: `C31_torn_refuted`, `C31_flush_discards_refuted`, `C31_print_discards_refuted`.
* **C32 read_all fills the range or reports end of file** (partial). Proved for buffered and unbuffered streams and every schedule. The reflective read_all (rwreflect, not yet included by the library) loops for ever at end of file (refuted).  Refuted: `C32_reflective_hangs_refuted`.
* **C33 write_all / scatter write delivers every byte under partial writes** (partial). Proved for every partial-write schedule and every kind of stream except two: with an output buffer write_all writes the data twice when it fits, and with only scatter_write_some_bytes the rest of a half-written scatter is dropped (refuted). rwreflect is not yet included by the library's own headers.  Refuted: `C33_twice_refuted`, `C33_dropped_refuted`.
* **C34 vector refines a mathematical sequence** (partial). Proved for every history of the operations that are right; refuted (with witnesses): erase of one element never shrinks the vector, push_back of an own element on a full vector reads freed storage, insert of an own element after the position inserts the wrong value, erase(it,it) of a non-relocatable type destroys live elements. Missing from the model: assignment (move assignment and swap do not compile), constant evaluation, throwing constructors.  Refuted: `C34_erase_refuted`, `C34_erase_dead_element_refuted`, `C34_push_own_element_refuted`, `C34_insert_own_element_refuted`, `C34_erase_nothing_refuted`.
* **C35 vector bounds are enforced** (partial). Proved for operator[], front, back, pop_back, insert_index and the bounds checks of erase_index; refuted: erase_index(first, size()) terminates although the range is valid.  Refuted: `C35_erase_index_to_end_refuted`.
* **C36 Line scanner splits input into lines independent of buffering** (partial). Buffered streams: proved for every chunking (C36_lines, C36_chunking), in builds where line feeds are found (C54). Contiguous streams lose a last line without line feed (refuted with witness); proved for texts that end in a line feed.  Refuted: `C36_contiguous_refuted`.
* **C37 Width manipulator pads exactly** (partial). Proved at run time for everything held by value (all integers, strings, small objects): exact padding, no write outside of the reserved size. Refuted: objects held by reference (left(x,n,ch) fills with NUL, internal ignores the sign) and constant evaluation (overlapping forward copy). Integers under the conditions of C03.  Refuted: `C37_byref_refuted`, `C37_constant_evaluation_refuted`.
* **C38 Character classification matches the C locale** (partial). All classifications proved for every code unit of 8, 16 and 32 bits; is_c_fullwidth/is_c_halfwidth proved for 32-bit types only and refuted for narrower ones.  Refuted: `C38_width_refuted`.
* **C39 Double-word division and multiplication intrinsics are exact** (partial). Carries, widening products, fast_io::intrinsics::udivmod (all widths, all divisors), checked sums and sizes exact for all operands. Refuted: 32-bit MSVC subc; details::intrinsics::udivmod above half the word range / two-word divisors / without __builtin_ctzll (proved below half the range); mul_or_overflow_die without builtins adds, and divides by zero on MSVC.  Refuted: `C39_subc_msvc32_refuted`, `C39_details_udivmod_refuted`, `C39_checked_product_refuted`.
* **C40 concat and print size accounting is exact** (partial). Integer size accounting: refuted for negative decimals and for full; proved otherwise.  Refuted: `C40_negative_decimal_refuted`, `C40_full_refuted`.
* **C41 SHA-2 family digests equal FIPS 180-4** (proved). Intrinsics-based block functions (x86 SHA, AVX2) not modelled.
* **C42 SHA-1 and MD5 digests equal FIPS 180-4 / RFC 1321** (proved). SHA-1: the portable function (the x86 SHA routine is not modelled).
* **C43 Hashing in constant evaluation equals hashing at run time** (partial). Refuted on little endian hosts: the byte-swapped word is computed and dropped; MD5 shifts a std::byte by 24. True parts proved.  Refuted: `C43_consteval_sha256_refuted`, `C43_consteval_md5_refuted`.
* **C44 Printed timestamps have the documented form and fit the declared size** (proved). All field values below 100 in the two-digit fields, all years, offsets and subseconds below one second.
* **C45 Day of the week** (partial). Years 1..2^63-1; refuted for January/February of year 0 (division rounds toward zero).  Refuted: `C45_year_zero_refuted`.
* **C46 Epochs** (partial). win32 and year-0 epochs right, C# epoch off by 32 hours (refuted).  Refuted: `C46_csharp_epoch_refuted`.
* **C47 Timestamp text round trip** (partial). Holds at the end of the text and, with a fraction, before any non digit. Refuted: whole seconds followed by anything; -0.5; rounding up to a whole second; timestamps with another epoch.  Refuted: `C47_whole_seconds_followed_refuted`, `C47_minus_zero_refuted`, `C47_rounding_refuted`, `C47_other_epoch_refuted`.
* **C48 The ISO 8601 scanner reads only its text** (partial). Only way out proved: text ending in [+-]dd:d, where the length check is one short (refuted by a witness).  Refuted: `C48_scan_overread_refuted`.
* **C49 print and println output exactly their arguments** (proved). Buffered streams of any size and fill level, the raw device with and without scatter write (through temporary_buffer); texts within the bounds their types announce.
* **C50 A tied stream delivers its output before it asks for input** (proved). Every state of a tied stream over a device that takes what it is offered.
* **C51 Partial writes report exactly what was taken** (proved). Every schedule.
* **C52 vector destroys every element exactly once** (partial). Proved for relocatable types and, for others, for histories that insert only at the end; refuted: insert in the middle of a non-relocatable type overwrites moved-from objects without destroying them.  Refuted: `C52_insert_refuted`.
* **C53 vector capacity guarantees** (proved). Every reachable state, any sane allocator.
* **C54 Character searches return the first match** (partial). Proved for builds other than GCC AVX512BW and big-endian without vectors, which are refuted; find_none_c_space in vector builds is refuted in general and proved for plain texts.  Refuted: `C54_find_none_space_refuted`, `C54_avx512bw_refuted`, `C54_big_endian_refuted`.
* **C55 Reading a string takes exactly the word, the line or the rest** (partial). Lines, noskipws and whole texts proved for every chunking; words under the plain-text condition of C54 (refuted otherwise with witness).  Refuted: `C55_word_refuted`.
* **C56 str_get_all reads exactly n characters** (partial). Proved for strings with a buffer; other string types overrun the 2048-byte context buffer for larger n (proved as refutation for every such n and text).  Refuted: `C56_get_all_strlike_refuted`.
* **C57 A double prints as the shortest decimal that reads back as the same double** (partial). Proved for every finite nonzero double except powers of two above the least normal number; for those the exact set of 255 that do not read back is proved (m2==0 is tested after the hidden bit is set, so the asymmetric interval is dead code). 32-bit size_t builds can leave one trailing zero.  Refuted: `C57_double_powers_of_two_refuted`, `C57_double_32bit_refuted`.
* **C58 A float prints as the shortest decimal that reads back as the same float** (partial). The near-tie parity test of float omits the xor with half of the small divisor, so values close to a tie are rounded to the wrong neighbour and some do not read back (witness proved). Proved for all floats away from ties, round trip for ulp >= 1.2*10^t, and the exact set of powers of two that do not read back.  Refuted: `C58_float_refuted`, `C58_float_powers_of_two_refuted`.
* **C59 The decimal text of a finite number denotes the decimal that was chosen and reads back** (partial). The text denotes the chosen decimal, in its form: proved for every double and float, format and flags. Reading back: exactly characterised; refuted for the powers of two listed in lost_double_powers (C57), true for every other double. Destination as a list of cells; char only.  Refuted: `C59_double_reads_back_refuted`.
* **C60 The hexadecimal text of a finite number is its exact value** (proved). All finite nonzero doubles and floats.
* **C61 Printing a floating point number never writes outside of the space reserved for it** (partial). Holds for every value and format of double and for float except general; refuted for float in general format: -100000395000000 needs 16 characters, 15 are reserved. Hexfloat: proved.  Refuted: `C61_general_float_refuted`.
* **C62 NaN, infinity and zero have their fixed texts** (partial). Texts proved; refuted: the exponent mark of zero in scientific format ignores uppercase_e (uses uppercase).  Refuted: `C62_zero_mark_refuted`.
* **C63 The decimal format takes the shorter of fixed and scientific** (proved). All values.
* **C64 transmit copies everything the source has to the sink, in order, and returns the number of characters** (partial). proved for in-memory, buffered and unbuffered sources and sinks and for POSIX descriptors copied with the kernel call loop; refuted for a device that takes part of a write (transmit ignores the position write returns): C64_short_write_refuted  Refuted: `C64_short_write_refuted`.
* **C65 transmit64 copies at most the requested number of characters and leaves the rest readable** (proved). limit counts of transmit64; the rest stays readable
* **C66 An interrupted transmit loses no characters** (partial). buffered sources: everything is delivered or still readable, and the counts agree; unbuffered sources lose what was read into the local buffer when the sink throws: C66_unbuffered_refuted  Refuted: `C66_unbuffered_refuted`.
* **C67 Calls on a stream shared through iomutex take effect one at a time** (proved). linearizability for every schedule, number of threads, calls, devices; the effect of each call alone is that of the sequential models (BufModel, PrintModel, TransmitModel)
* **C68 Threads sharing streams never block each other for good** (partial). holds without transmit calls and whenever transmits respect some order of the streams; every run ends. Refuted in general: opposite transmits deadlock (input locked first, then output), and transmit of a stream to itself  Refuted: `C68_opposite_transmits_refuted`, `C68_self_transmit_refuted`.
* **C69 File objects refer to their own files through copies, moves, release and reset** (partial). Full claim: for every history the objects refer to the files of the specification. Proved when no copy is assigned to an empty object; that case is refuted (C69_copy_to_empty_refuted: dup2 onto -1 always throws).  Refuted: `C69_copy_to_empty_refuted`.
* **C70 Descriptors are neither leaked nor closed twice** (proved). Proved for all histories, including failing kernel calls; the kernel is a descriptor table with arbitrary fresh descriptors.
* **C71 A process object waits for its own child only** (partial). Proved (model run equals specification run) for histories in which empty objects are waited for, assigned to or destroyed only when no child exists. Otherwise refuted: an empty object holds pid -1 and waitpid(-1) collects any child (moved-from, detached).  Refuted: `C71_moved_from_refuted`, `C71_empty_collects_refuted`, `C71_detach_refuted`.
* **C72 A child gets the standard streams it was given** (partial). Child side proved when 0,1,2 are open, no crossings between 0,1,2, and in does not share a pipe with out/err (out and err may share one); the crossing and closed-stdin cases are refuted. Parent side proved.  Refuted: `C72_swap_refuted`, `C72_null_stdin_refuted`.
* **C73 concat gives what print writes** (partial). Proved for all string types and argument lists whose sizes are right, and for lists of integers. A single signed decimal integer that needs the precise path (concat(-5LL)) gives wrong digits: C73_negative_refuted.  Refuted: `C73_negative_refuted`.
* **C74 Printing to a string appends to it** (proved). Texts up to 2^60 characters in total; allocation does not fail. String types with push_back/append (std::basic_string).
* **C75 Reading an IPv4 address from a stream does not depend on how the input is cut into buffers** (partial). Round trip for all cuttings except directly after a single digit 0 (C75_cut_after_zero_refuted), and soundness of every accepted text except that at the end of the input a missing or overlong last number is accepted (C75_overflow_accepted_refuted).  Refuted: `C75_cut_after_zero_refuted`, `C75_overflow_accepted_refuted`.
* **C76 scan reads its arguments in order from a buffered stream, wherever the buffers end** (partial). All argument lists over the eight kinds of argument, all cuttings except those shown to fail: inside a literal, inside or directly after an address, directly after an integer 0 (C76_cut_refuted); white space before an address is skipped only when the buffer is empty (C76_space_refuted).  Refuted: `C76_cut_refuted`, `C76_space_refuted`.
* **C77 scan on a stream without a buffer loses nothing it should not** (partial). Proved for arguments whose text may be cut anywhere (C77_raw_partial, C77_end_partial, C77_nothing_lost_partial); refuted for literals of two or more characters, addresses and the integer 0 (C77_raw_refuted), and the separator after an integer is lost on streams without try_unget.  Refuted: `C77_raw_refuted`.
* **C78 scan on text in memory** (partial). Full for complete texts (C78_view); end of input proved except for LEB128 and addresses, where it is an exception "invalid" instead of end of file (C78_end_refuted).  Refuted: `C78_end_refuted`.
* **C79 a POSIX file is opened as its open mode says** (partial). Every mode of the table except in|out|trunc; that one does not create a missing file and, even with excl, empties an existing one (C79_update_trunc_refuted). Attributes: full.  Refuted: `C79_update_trunc_refuted`.
* **C80 C streams are opened with the mode string of the table** (proved). All modes; the rights of stream and descriptor agree for every mode of the table.
* **C81 permissions print as rwxrwxrwx** (proved). All values.
* **C82 a file loader holds the file's bytes** (partial). All schedules of reads, throw safety, extra bytes. Refuted: a loader made from a descriptor whose offset is not 0 throws where the mapping loader gives the whole file; an empty file with 0 extra bytes may throw.  Refuted: `C82_descriptor_offset_refuted`, `C82_empty_extra_refuted`.
* **C83 loaders own their memory** (proved). All histories, both loader classes (and the map class without default construction).
* **C84 memory maps own their mapping and have the permissions asked for** (partial). All histories without default construction; refuted: close() on a default-constructed map terminates the program; execute_read_write is not writable, write_copy and execute_write_copy are shared and not readable.  Refuted: `C84_close_default_refuted`, `C84_attribute_refuted`.
* **C85 an HTTP header is read whole wherever the input is cut** (partial). Headers whose every CR ends a line: all cuttings, all capacities; soundness for all inputs whatsoever. Refuted: a bare CR is refused in one piece and accepted when the input is cut there; reading into a used object appends to the old header.  Refuted: `C85_bare_cr_refuted`, `C85_reuse_refuted`.
* **C86 the parts of an HTTP header are found** (partial). All headers with a three-part first line and key/value fields, all cuttings. Refuted: a first line of only two parts makes the code run into the next line.  Refuted: `C86_no_reason_refuted`.
* **C87 to<integer> is the value of the printed text** (partial). Value for every numeral in every number of arguments (a single 0 must not be followed by another argument); overflow; soundness of every value returned; conversion between all integer types complete. Refuted: ("0"," ") is undefined, ("0","5x") is 0, ("-") is 0, long overflowing numerals followed by another argument are 'invalid'.  Refuted: `C87_refuted`.
* **C88 to and inplace_to with other targets read the printed text** (partial). Words complete. Lines, characters, literals when something follows in the same argument; LEB128 and addresses in one argument. Refuted otherwise: the scanner's answer is ignored when it used up the argument, so to of exactly the literal, of one character or of a line with its line feed fails or reads on. Also seen: u16inplace_to and u32inplace_to are declared to return a value and have no return statement (not modelled).  Refuted: `C88_refuted`.
* **C89 to's buffer holds every argument** (partial). Complete unless arguments of static and of dynamic size are mixed; then refuted: the buffer ignores the static sizes.  Refuted: `C89_refuted`.
* **C90 hex_encode and UUID text decode back to the bytes** (proved). Complete, with injectivity, the announced size and the termination when the size does not fit size_t.
* **C91 a digest printed after writing to as_file is the standard hash of what was written** (proved). Complete for the ten contexts of fast_io_crypto/hash with run time evaluation; constant evaluation of write reaches the same digest function. Not modelled: contexts with runtime_digest_size. Also seen: a context whose digest_to_byte_ptr returns a pointer would not compile with raw_bytes and one-byte characters (crypto_hash.h 452 returns std::byte* as char_type*).
* **C92 hash_compress hashes exactly the bytes of the range** (partial). hash_compress (lower case) complete. hash_compress_upper and hash_compress_raw_bytes multiply by the size of the range object instead of the element (crypto_hash.h 303, 317): proved right only for std::byte elements, equal sizes or empty ranges; refuted otherwise (reads past the end for every std::string, vector or span of smaller elements).  Refuted: `C92_overread_refuted`, `C92_ignored_refuted`.
* **C93 printing a range prints the elements with the separator between them** (partial). Proved: every path prints join sep elems and the announced size is enough when the product fits size_t. Refuted: (R+|sep|)*n is not checked, so it wraps and the buffer is too small; the dynamic-reserve formula is one short (precedence), though rgvw never selects it.  Refuted: `C93_size_wraps_refuted`, `C93_dynamic_short_refuted`.
* **C94 the ChaCha20 block function is that of RFC 8439** (partial). Proved in full for the portable routine. The vector routine shuffles the diagonals in the wrong direction: refuted with RFC 8439's own test state; what it computes is characterised exactly (C94_simd_partial).  Refuted: `C94_simd_refuted`.
* **C95 the AES round keys are those of FIPS 197** (partial). The values computed for 16 and 24 byte keys are FIPS 197's for every key. Refuted: the array is one round key short (store outside the object for every 16 and 24 byte key), the 32 byte schedule differs from the fourth round key on (its first three are proved right), and operator() has an empty body.  Refuted: `C95_array_refuted`, `C95_256_refuted`, `C95_apply_refuted`.
* **C96 padding completes a block and touches nothing else** (partial). Zero padding proved; PKCS #7 proved for a non-empty incomplete block up to 255 bytes and for a complete block with 0 remaining. Refuted: an empty block (the padding block a complete message needs) stores outside of the array for every block size.  Refuted: `C96_empty_refuted`.
* **C97 a locale's grouping only inserts separators** (partial). Text proved for all types (also 128 bits in every base, where the plain printer fails), groupings and separators. Size proved under C03's condition; refuted for the least value of a type in a base whose power it is (e.g. int8 -128 in binary). The std::byte overload does not compile and is not modelled.  Refuted: `C97_size_refuted`.
* **C98 a timestamp scanned from a stream does not depend on how the stream is cut** (partial). Exact acceptance, definedness and independence of the cutting proved for every input whose runs of digits have at most 19 digits; years of at most 19 characters. Refuted beyond: a fraction of more than 19 digits cut in two chunks loses the digits of the first chunk, a continuation of 256 digits is lost (8-bit length), negative years of 19 digits are refused though the contiguous scanner reads them. Comma variants and EBCDIC not modelled.  Refuted: `C98_long_fraction_refuted`, `C98_fragment_refuted`, `C98_negative_year_refuted`.
* **C99 Searching a range returns the first or last match** (proved). All ranges and types. The equality is a parameter that decides equality of values.
* **C100 Comparing and reordering ranges** (proved). All ranges. remove requires an integral value as in the code.
* **C101 Copying, filling and comparing n elements** (partial). Refuted: copy() lacks the branch `*result = *first`, so my_copy of non-trivially-copyable or non-contiguous elements and non_overlapped_copy in constant expressions copy nothing (C101_my_copy_nothing, _refuted); my_copy_n in a constant expression is wrong when the destination starts inside of the source; my_compare_iter_n compares n bytes instead of n elements (right for one-byte elements and in constant expressions).  Refuted: `C101_my_copy_refuted`, `C101_non_overlapped_copy_refuted`, `C101_constant_evaluation_refuted`, `C101_compare_refuted`.
* **C102 Uninitialised copying cleans up after an exception** (proved). All types, lengths and throwing elements. uninitialized_move_n, documented as undefined if a move throws, is not modelled.
* **C103 The SHA routines for vector units compute the standard hash** (proved). All blocks, states, messages. Trusted: the transcription of the Intel pseudo code of SHA256RNDS2/MSG1/MSG2, PSHUFD, PALIGNR, PBLENDW, PSHUFB; swap_endian of the simd vector is the byte swap of each lane. sha512_simd32.h is included nowhere and not modelled.
* **C104 A view over a character array never stores outside it and shows what was output** (proved). All histories. That a text which fits is never refused is false when its type announces more than its text (refuted; exact for other texts: C104_terminates_exactly). For arguments with a run-time bound the code needs a four-argument print_reserve_define, which no type has; if a type had it the store would precede the check (refuted).  Refuted: `C104_refuses_fitting_text_refuted`, `C104_dynamic_argument_refuted`.
* **C105 read on an input view fills only the given range** (partial). False in general (C105_read_refuted, C105_read_overruns for every view whose unread text is longer than the range); proved when the unread text fits.  Refuted: `C105_read_refuted`.
* **C106 The growing buffer holds everything output to it** (partial). False in general (refuted: a write that finds room loses the text, put on a fresh buffer stores outside the buffer, oreserve never grows); proved for histories that avoid these.  Refuted: `C106_holds_refuted`, `C106_put_first_refuted`, `C106_reserve_refuted`.
* **C107 auto_indent lines up the tabs and stays within the size it announces** (partial). Text and alignment proved for all texts (termination by overflow excluded below 2 GiB). The size bound is false for a text that ends with a tab (C107_size_refuted: a heap overflow in print), proved for every other text.  Refuted: `C107_size_refuted`.
* **C108 cond prints the chosen alternative** (proved). All kinds of arguments. print_define of an alternative is modelled as one write of its text.
* **C109 Times of the system keep their value as timestamps** (partial). Exact from 1970 on and for whole seconds; round trip, legality and requests proved for all times. Before 1970 with nanoseconds the value and the order are wrong (C109_before_1970_refuted, C109_write_before_1970_refuted, C109_order_before_1970_refuted).  Refuted: `C109_before_1970_refuted`, `C109_write_before_1970_refuted`, `C109_order_before_1970_refuted`.
* **C110 The Windows clocks measure and set the time** (partial). Monotonic clock, resolution, processor time proved for all counters. False parts: C110_file_time_before_1970_refuted, C110_set_time_wraps_refuted; the other theorems are for 1970 on.  Refuted: `C110_file_time_before_1970_refuted`, `C110_set_time_wraps_refuted`.
* **C111 local() gives the local time of the instant** (partial). The instant is right for every zone; the offset only when summer time is as on 1970-01-01 (C111_summer_time_refuted); BSD/macOS January wrong (C111_january_refuted), exactly 31 days early (C111_tm_partial).  Refuted: `C111_summer_time_refuted`, `C111_january_refuted`.
* **C112 Reading the DOS clock is atomic** (partial). Atomicity for all schedules. The unix value is a day late in leap Februaries (C112_leap_february_refuted); posix_clock_settime always throws (C112_set_refuted, C112_set_weekday_refuted).  Refuted: `C112_leap_february_refuted`, `C112_set_refuted`, `C112_set_weekday_refuted`.
* **C113 Encoding in GB18030** (partial). All but distinctness for every input; distinctness for texts without U+E7C7, and the collision with U+1E3F is the only one (C113_collision_refuted, C113_only_collision).  Refuted: `C113_collision_refuted`.
* **C114 Text survives conversion to GB18030 and back** (partial). Exact: the text comes back if and only if none of its characters is on the list (C114_round_trip_partial). False in general: C114_umlaut_refuted, C114_other_character_refuted.  Refuted: `C114_umlaut_refuted`, `C114_other_character_refuted`.
* **C115 Decoding any bytes as GB18030** (partial). All but the last clause for every input. False: C115_ill_formed_refuted (0x3A-0x3F taken for digits), C115_swallow_refuted.  Refuted: `C115_ill_formed_refuted`, `C115_swallow_refuted`.
* **C116 Text survives conversion to UTF-EBCDIC and back** (partial). Round trip and space for every text and source. The replacement clause is false from UTF-16 and UTF-32: C116_replacement_refuted, C116_surrogate_refuted.  Refuted: `C116_replacement_refuted`, `C116_surrogate_refuted`.
* **C117 Decoding any bytes as UTF-EBCDIC** (partial). Reading, bounds and space for every byte string; chunks: any result obtained is that of the whole (C117_chunks_partial), and encoded texts can be cut anywhere (C117_chunks_of_text). False in general: C117_chunks_refuted (reads before the chunk), C117_ill_formed_refuted.  Refuted: `C117_chunks_refuted`, `C117_ill_formed_refuted`.
* **C118 A locale-formatted time fits in its announced size** (partial). Proved for formats without %u and %N that end: C118_size_partial. False otherwise: C118_weekday_refuted, C118_era_name_refuted (writes past the reserved space), C118_endless_refuted.  Refuted: `C118_weekday_refuted`, `C118_era_name_refuted`, `C118_endless_refuted`.
* **C119 Day and week numbers in a locale-formatted time** (partial). %j and %U in full; %W, %V, %G and %v where the code is right. The exceptions are real: C119_monday_week_refuted, C119_iso_week_refuted, C119_week_year_refuted, C119_locale_week_refuted.  Refuted: `C119_monday_week_refuted`, `C119_iso_week_refuted`, `C119_week_year_refuted`, `C119_locale_week_refuted`.
* **C120 What a locale's time format prints** (partial). C120_meaning holds for all formats built from the listed directives; differences from strftime: C120_strftime_refuted.  Refuted: `C120_strftime_refuted`.
* **C121 The era of a locale-formatted time** (partial). Proved for plain eras; an era reaching back for ever is not found: C121_past_era_refuted.  Refuted: `C121_past_era_refuted`.
* **C122 A printed file status says what the status says, within its announced size** (proved). Proved in full.
* **C123 The status of a file on POSIX systems reports what stat reported** (partial). Permissions keep the type bits: C123_permissions_refuted; an unnamed kind is unknown to stat and not_found in a listing: C123_listing_refuted; times before 1970: C123_time_before_1970_refuted.  Refuted: `C123_listing_refuted`, `C123_permissions_refuted`, `C123_time_before_1970_refuted`.
* **C124 The status of a file on Windows reports what the system reported** (partial). Proved apart from the blocks and the kinds of offline files, which are wrong: C124_blocks_refuted, C124_listing_refuted.  Refuted: `C124_blocks_refuted`, `C124_listing_refuted`.
* **C125 An error caught is the error thrown (POSIX)** (proved). Proved in full.
* **C126 Each errno prints its own text** (proved). Proved in full.
* **C127 Windows, NT and errno conditions are equal exactly when they stand for the same error** (partial). Proved in full for builds for NT; false for builds for Windows 9x: C127_windows_9x_refuted.  Refuted: `C127_windows_9x_refuted`.
* **C128 Converting errors between errno and Windows codes loses nothing that has a counterpart** (partial). False for errors of the C library on Windows (C128_own_code_refuted) and for errnos without counterpart (C128_unlisted_refuted).  Refuted: `C128_own_code_refuted`, `C128_unlisted_refuted`.
* **C129 A failing Linux system call throws its error number and nothing else does** (partial). Proved for all results but -4096, which is thrown: C129_boundary_refuted.  Refuted: `C129_boundary_refuted`.
* **C130 The path a POSIX system receives is the name that was given** (partial). C130_path for all names without NUL, in literals, strings, C strings and views, and arrays with text behind the NUL. False for names with a NUL (C130_embedded_nul_refuted) and for arrays of another width with anything behind the NUL (C130_behind_nul_refuted).  Refuted: `C130_embedded_nul_refuted`, `C130_behind_nul_refuted`.
* **C131 Converting a name never writes outside its buffer** (proved). Proved in full.
* **C132 The name Windows is asked to open is the name that was given** (partial). Proved for all names but arrays larger than their text opened below a directory: C132_array_refuted.  Refuted: `C132_array_refuted`.
* **C133 Names in a directory listing on Windows** (partial). Proved for names that are text; false for others: C133_stale_refuted, C133_same_refuted.  Refuted: `C133_stale_refuted`, `C133_same_refuted`.
* **C134 A unix timestamp scanned from a stream does not depend on how the stream is cut** (partial). Proved for inputs with at most nineteen digits after any point; longer fractions depend on the cutting: C134_long_fraction_refuted; an empty chunk in the middle is not neutral: C134_empty_chunk_refuted.  Refuted: `C134_long_fraction_refuted`, `C134_empty_chunk_refuted`.
* **C135 A printed unix timestamp is read back from a stream** (partial). C135_round_trip_partial for times with a fraction and seconds after -10^18; false for the rest: C135_whole_seconds_refuted (for every cutting), C135_negative_refuted.  Refuted: `C135_whole_seconds_refuted`, `C135_negative_refuted`, `C135_leading_zeros_refuted`.
* **C136 A number printed with a locale is the number printed without it** (proved). Proved for every locale whose grouping entries are not negative, both formats of numbers; the plain text is that of C59.
* **C137 The space announced for a number printed with a locale is enough** (partial). Proved for fixed and scientific format with every locale and for general and decimal if no group is a single digit: C137_reserved_space_partial. Otherwise false: C137_reserved_space_refuted (67 characters reserved, 68 written).  Refuted: `C137_reserved_space_refuted`.
* **C138 A hexadecimal number printed with a locale is exact** (proved). Exactness, equality with the plain text up to the point, and size.
* **C139 A granted file lock excludes the other processes** (proved). For the variant with the Linux system call; the other one passes the address of a pointer to fcntl.
* **C140 The end of a file_lock_guard releases the lock** (partial). False for every guard of a POSIX file: C140_guard_releases_refuted (for all requests), C140_unlock_waits_refuted. With a request of type unlock, unlock() is right: C140_unlock_partial.  Refuted: `C140_guard_releases_refuted`, `C140_unlock_waits_refuted`.
* **C141 try_lock of a file does not wait** (partial). False: C141_try_lock_refuted; the routine written for it and never called is right: C141_try_lock_partial.  Refuted: `C141_try_lock_refuted`.
* **C142 Locks of Windows files are taken and released exactly** (proved). Windows files, 64 bit requests (the only ones that compile).
* **C143 What is printed to a buffered file under its lock is written under the lock** (partial). C143_under_the_lock_partial if the flush succeeds; C143_under_the_lock_refuted otherwise.  Refuted: `C143_under_the_lock_refuted`.
* **C144 The count of the leading lanes of a mask** (partial). C144_count_partial where char is signed or for lanes of one byte with a mask instruction; C144_half_refuted, C144_neon_refuted, C144_consteval_refuted otherwise.  Refuted: `C144_half_refuted`, `C144_neon_refuted`, `C144_consteval_refuted`.
* **C145 is_all_zeros says whether a vector is zero** (partial). C145_all_zeros_partial (ptest, NEON, no instructions), C145_masks_partial (SSE2, WebAssembly on masks); C145_movemask_refuted, C145_avx512_refuted.  Refuted: `C145_movemask_refuted`, `C145_avx512_refuted`.
* **C146 Reading a stream with a decorator gives the converted file** (partial). The text is right for all decorators (C146_text); the end is for those that convert a full buffer to something (C146_end_partial), as the code conversions do; C146_end_refuted otherwise, for every size of buffer.  Refuted: `C146_end_refuted`.
* **C147 What is printed to a stream with a decorator is converted once and in order** (proved). flush() of a decorated stream does not compile and is not modelled.
* **C148 A failed write to a stream with a decorator loses nothing that was printed before** (partial). C148_failed_write_partial for decorators without a state; C148_failed_write_refuted.  Refuted: `C148_failed_write_refuted`.
* **C149 What is written to a memory map stream is in the mapping** (partial). Without an offset all of it (C149_text, C149_full); with one C149_offset_partial up to the end of the mapping, C149_offset_refuted beyond.  Refuted: `C149_offset_refuted`.
* **C150 Reading a memory map stream gives the mapping** (partial). Without an offset C150_text; with one C150_offset_partial, C150_offset_refuted.  Refuted: `C150_offset_refuted`.
* **C151 A loop over a generator runs its body with exactly the values yielded** (proved). Values are integers in the model; the type of the values plays no part.
* **C152 A loop over a generator that has ended does nothing** (partial). C152_end_partial: the iterator of the loop stays at the end; C152_again_refuted for all coroutines that end.  Refuted: `C152_again_refuted`.
* **C153 The text of a complex number** (proved). Floats and doubles, on machines of 32 and 64 bits; long double and __float128 are not modelled.
* **C154 The text of a complex number determines the texts of its parts** (proved). C154_parts_are_separable, about the texts that the parts have alone (C153).
* **C155 The reserved space is enough for the text of a complex number** (partial). C155_reserved_space_partial: all doubles, and floats except in general format; C155_reserved_space_refuted: two cells too few for a complex of floats in general format.  Refuted: `C155_reserved_space_refuted`.
* **C156 os_c_str prints the characters before the first NUL** (proved). strlen and strnlen are taken to compute what the library's own loops compute.
* **C157 A string literal prints as its text** (proved). The character types have the same width and signedness here as the stream's; whether the compiler takes the print is a case of the model.
* **C158 An array of constant characters prints as its characters** (partial). C158_array_partial: all characters but the last, whatever it is; C158_array_refuted.  Refuted: `C158_array_refuted`.
* **C159 A literal of another character type prints its characters or is rejected** (partial). C159_other_type_partial: rejected unless it has one character, printed when that fits; C159_other_type_refuted. Fitting is about code units: nothing is transcoded.  Refuted: `C159_other_type_refuted`.
* **C160 A bitset prints as its bits, the highest first** (proved). The storage of std::bitset is taken to be words with bit i in word i / W at i mod W, as the file does.
* **C161 A loop over igenerator(in) gives its body the characters of the stream** (proved). The fills are those of the buffered streams (underflow false when nothing is read); fills that throw are not modelled.
* **C162 A loop over igenerator(in) consumes the characters it gives to its body** (partial). C162_consumed_partial: all but the last character given; C162_consumed_refuted for every loop that is left.  Refuted: `C162_consumed_refuted`.
* **C163 A single_character_input_buffer gives the characters of its stream in order and takes at most one ahead** (proved). A scan's step is fill when empty, look, and take; the reads of the unbuffered stream return at least one character unless it is at its end.
* **C164 An operation on a single_character_input_buffer that throws loses no character** (partial). C164_throw_partial: looks, scans, and reads without a character looked at; C164_throw_refuted: in every other case the character is lost.  Refuted: `C164_throw_refuted`.
