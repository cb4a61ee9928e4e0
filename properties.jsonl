{"id": "C01", "title": "XXH32 one-shot equals the published specification", "statement": "XXH32(input, len, seed) returns, for every readable buffer of len bytes, exactly the value defined by the XXH32 section of doc/xxhash_spec.md, whatever the CPU endianness, memory-access method, alignment of the buffer and size/speed build options; it never performs undefined behaviour on such a call, and (NULL, 0) hashes as the empty message.", "quantifier": "every byte string of every length, every 32-bit seed, every buffer address, every build configuration", "why_tests_cant": "The input space is infinite, and most build configurations (big endian, byte-shift access, size-optimised) are never exercised on the test machine.", "anchors": ["xxhash.h:XXH32", "xxhash.h:XXH32_endian_align", "xxhash.h:XXH32_finalize", "doc/xxhash_spec.md"]}
{"id": "C02", "title": "XXH64 one-shot equals the published specification", "statement": "XXH64(input, len, seed) returns, for every readable buffer of len bytes, exactly the value defined by the XXH64 section of doc/xxhash_spec.md, in every build configuration, without undefined behaviour.", "quantifier": "every byte string of every length, every 64-bit seed, every buffer address, every build configuration", "why_tests_cant": "Infinite inputs; test vectors sample a handful of lengths on one platform.", "anchors": ["xxhash.h:XXH64", "xxhash.h:XXH64_endian_align", "xxhash.h:XXH64_finalize", "doc/xxhash_spec.md"]}
{"id": "C03", "title": "XXH3 64-bit one-shot functions equal the published specification", "statement": "XXH3_64bits, XXH3_64bits_withSeed, XXH3_64bits_withSecret and XXH3_64bits_withSecretandSeed return the value defined by the XXH3 sections of doc/xxhash_spec.md for their seed/secret arguments, for every length class (0, 1-3, 4-8, 9-16, 17-128, 129-240, >240), every secret of at least 136 bytes, and every build configuration, without undefined behaviour.", "quantifier": "every byte string, every seed, every secret of size >= 136 (any alignment, any size residue), every build configuration", "why_tests_cant": "Infinite inputs and secrets; the code has seven length-specialised paths, each with variants selected by the preprocessor.", "anchors": ["xxhash.h:XXH3_64bits", "xxhash.h:XXH3_64bits_withSeed", "xxhash.h:XXH3_64bits_withSecret", "xxhash.h:XXH3_64bits_withSecretandSeed", "doc/xxhash_spec.md"]}
{"id": "C04", "title": "XXH3 128-bit one-shot functions equal the published specification", "statement": "XXH3_128bits, XXH3_128bits_withSeed, XXH128, XXH3_128bits_withSecret and XXH3_128bits_withSecretandSeed return the 128-bit value defined by doc/xxhash_spec.md, for every length class, secret and build configuration, without undefined behaviour.", "quantifier": "every byte string, every seed, every secret of size >= 136, every build configuration", "why_tests_cant": "Infinite inputs and secrets; length-specialised paths with 32-bit and 64-bit variants.", "anchors": ["xxhash.h:XXH3_128bits", "xxhash.h:XXH3_128bits_withSeed", "xxhash.h:XXH128", "xxhash.h:XXH3_128bits_withSecret", "xxhash.h:XXH3_128bits_withSecretandSeed", "doc/xxhash_spec.md"]}
{"id": "C05", "title": "XXH32 streaming equals one-shot for every way of splitting the input", "statement": "After XXH32_reset(seed) and any sequence of XXH32_update calls (including zero-length and NULL/0 ones), XXH32_digest returns XXH32 of the concatenation of the pieces with that seed.", "quantifier": "every seed and every finite list of pieces of any lengths (total length unbounded)", "why_tests_cant": "The number of ways to split an input is exponential, and the 32-bit length counter and large-length flag only wrap after 4 GiB.", "anchors": ["xxhash.h:XXH32_reset", "xxhash.h:XXH32_update", "xxhash.h:XXH32_digest"]}
{"id": "C06", "title": "XXH64 streaming equals one-shot for every way of splitting the input", "statement": "After XXH64_reset(seed) and any sequence of XXH64_update calls whose total length is below 2^64, XXH64_digest returns XXH64 of the concatenation with that seed.", "quantifier": "every seed and every finite list of pieces with total length below 2^64", "why_tests_cant": "Exponentially many splits; the buffering logic depends on the running total modulo 32.", "anchors": ["xxhash.h:XXH64_reset", "xxhash.h:XXH64_update", "xxhash.h:XXH64_digest"]}
{"id": "C07", "title": "XXH3 64-bit streaming equals one-shot for every split and every reset mode", "statement": "After any of XXH3_64bits_reset, _reset_withSeed, _reset_withSecret, _reset_withSecretandSeed and any sequence of XXH3_64bits_update calls, XXH3_64bits_digest returns the value of the matching one-shot function on the concatenation.", "quantifier": "every reset mode, seed, secret of size >= 136, and every finite list of pieces with total length below 2^64", "why_tests_cant": "The internal buffer, block counter and catch-up copy interact with the split points and with the secret size; tests sample a few splits with two secret sizes.", "anchors": ["xxhash.h:XXH3_64bits_reset", "xxhash.h:XXH3_64bits_reset_withSeed", "xxhash.h:XXH3_64bits_reset_withSecret", "xxhash.h:XXH3_64bits_reset_withSecretandSeed", "xxhash.h:XXH3_64bits_update", "xxhash.h:XXH3_64bits_digest"]}
{"id": "C08", "title": "XXH3 128-bit streaming equals one-shot for every split and every reset mode", "statement": "The same for XXH3_128bits_reset*, XXH3_128bits_update and XXH3_128bits_digest against the 128-bit one-shot functions.", "quantifier": "every reset mode, seed, secret of size >= 136, and every finite list of pieces with total length below 2^64", "why_tests_cant": "As for the 64-bit streaming variant.", "anchors": ["xxhash.h:XXH3_128bits_reset", "xxhash.h:XXH3_128bits_reset_withSeed", "xxhash.h:XXH3_128bits_reset_withSecret", "xxhash.h:XXH3_128bits_reset_withSecretandSeed", "xxhash.h:XXH3_128bits_update", "xxhash.h:XXH3_128bits_digest"]}
{"id": "C09", "title": "Intermediate digests are exact and do not disturb the stream", "statement": "A digest taken at any point of a stream returns the hash of everything fed so far, and interleaving any number of digests (64-bit or 128-bit) between updates changes neither later digests nor the state; for XXH3 the same state may be digested with both widths.", "quantifier": "every history of update and digest calls", "why_tests_cant": "Histories are unbounded; a digest that wrote back into the accumulators would only show for particular update/digest interleavings.", "anchors": ["xxhash.h:XXH32_digest", "xxhash.h:XXH64_digest", "xxhash.h:XXH3_64bits_digest", "xxhash.h:XXH3_128bits_digest", "xxhash.h:XXH3_digest_long"]}
{"id": "C10", "title": "Any API history over any number of states behaves like a map from state to (parameters, bytes fed)", "statement": "For any sequence of reset / update / digest / copyState calls over any number of state objects, every digest returns the one-shot hash, with the parameters of the last reset that reached that object, of the bytes fed to it since (following copies); operations on one object never affect the digest of another.", "quantifier": "every finite sequence of API calls over any set of state objects", "why_tests_cant": "Unbounded histories and object graphs.", "anchors": ["xxhash.h:XXH3_copyState", "xxhash.h:XXH32_copyState", "xxhash.h:XXH64_copyState", "xxhash.h:XXH3_reset_internal"]}
{"id": "C11", "title": "A state can be reused after reset whatever was done with it before", "statement": "Starting from a state obtained by XXH3_createState (or XXH3_INITSTATE) and any history of calls, including failing resets, a reset followed by updates yields the same digests as a fresh state with that reset.", "quantifier": "every previous history of API calls on the object", "why_tests_cant": "XXH3_64bits_reset_withSeed skips regenerating the seeded secret when it believes it is already present; whether it is depends on the whole history of the object.", "anchors": ["xxhash.h:XXH3_createState", "xxhash.h:XXH3_INITSTATE", "xxhash.h:XXH3_64bits_reset_withSeed", "xxhash.h:XXH3_128bits_reset_withSeed"]}
{"id": "C12", "title": "Every vector implementation computes the same result as the portable one", "statement": "The SSE2, AVX2, AVX512, NEON (any split between vector and scalar lanes), VSX (both endiannesses) and SVE (any vector length) kernels update the accumulators, scramble them and derive the seeded secret exactly like the scalar code.", "quantifier": "every accumulator value, every 64-byte input stripe, every secret, every seed", "why_tests_cant": "2^512 accumulator states times 2^1024 inputs; and no machine runs all instruction sets.", "anchors": ["xxhash.h:XXH3_accumulate_512_sse2", "xxhash.h:XXH3_accumulate_512_avx2", "xxhash.h:XXH3_accumulate_512_avx512", "xxhash.h:XXH3_accumulate_512_neon", "xxhash.h:XXH3_accumulate_512_vsx", "xxhash.h:XXH3_accumulate_512_sve", "xxhash.h:XXH3_accumulate_512_scalar", "xxhash.h:XXH3_scrambleAcc_scalar", "xxhash.h:XXH3_initCustomSecret_scalar"]}
{"id": "C13", "title": "Runtime x86 dispatch never changes a hash", "statement": "Whatever CPUID/XGETBV report, the *_dispatch functions return the same hashes as the plain functions, and select only implementations the reported CPU and OS support.", "quantifier": "every CPUID/XGETBV outcome, every input, seed, secret and update sequence", "why_tests_cant": "A test machine reports one CPUID outcome.", "anchors": ["xxh_x86dispatch.c:XXH_featureTest", "xxh_x86dispatch.c:XXH_setDispatch", "xxh_x86dispatch.c:XXH3_64bits_dispatch", "xxh_x86dispatch.c:XXH3_128bits_update_dispatch"]}
{"id": "C14", "title": "The portable 64x64 to 128 bit multiplication is exact", "statement": "On platforms without a native 128-bit product, hashing uses a product assembled from four 32-bit products; its low and high halves are exactly those of the mathematical product.", "quantifier": "every pair of 64-bit operands", "why_tests_cant": "2^128 operand pairs; carry errors appear only on rare operands.", "anchors": ["xxhash.h:XXH_mult64to128", "xxhash.h:XXH3_mul128_fold64"]}
{"id": "C15", "title": "Endianness and memory access method are unobservable", "statement": "Multi-byte reads of input and secret yield the little-endian (or big-endian for canonical forms) value of the bytes for every CPU endianness and every XXH_FORCE_MEMORY_ACCESS method, aligned or not.", "quantifier": "every byte content, every endianness/access-method/alignment combination", "why_tests_cant": "Big-endian and byte-shift builds are not what the test machine runs.", "anchors": ["xxhash.h:XXH_readLE32", "xxhash.h:XXH_readBE32", "xxhash.h:XXH_readLE64", "xxhash.h:XXH_readBE64", "xxhash.h:XXH_swap32", "xxhash.h:XXH_swap64"]}
{"id": "C16", "title": "Canonical representation round-trips and is big endian", "statement": "For every 32, 64 and 128-bit hash value h, hashFromCanonical(canonicalFromHash(h)) = h, canonicalFromHash(hashFromCanonical(b)) = b for every canonical byte array b, and the bytes are the value written most significant byte first, on every CPU.", "quantifier": "every hash value and every canonical byte array, both endiannesses", "why_tests_cant": "2^128 values; both endiannesses.", "anchors": ["xxhash.h:XXH32_canonicalFromHash", "xxhash.h:XXH32_hashFromCanonical", "xxhash.h:XXH64_canonicalFromHash", "xxhash.h:XXH64_hashFromCanonical", "xxhash.h:XXH128_canonicalFromHash", "xxhash.h:XXH128_hashFromCanonical"]}
{"id": "C17", "title": "XXH128_cmp is a total order and XXH128_isEqual is equality", "statement": "XXH128_isEqual(a,b) is non-zero exactly when a and b are the same value; XXH128_cmp is negative, zero or positive exactly as the 128-bit numeric values compare, hence a strict total order usable by qsort, consistent with XXH128_isEqual and with memcmp order of canonical forms.", "quantifier": "every pair (and triple) of 128-bit hashes", "why_tests_cant": "2^256 pairs; transitivity ranges over triples.", "anchors": ["xxhash.h:XXH128_cmp", "xxhash.h:XXH128_isEqual"]}
{"id": "C18", "title": "No out-of-bounds access and no violated assumption on any valid call", "statement": "Given len readable bytes of input and a secret of secretSize >= 136 readable bytes, no one-shot or streaming call reads outside them, writes outside the state's buffers, violates an internal XXH_ASSERT (an optimiser assumption in release builds), or performs a misaligned typed access.", "quantifier": "every pointer offset, length, secret size >= 136, and every streaming history", "why_tests_cant": "An off-by-one read returns plausible bytes and goes unnoticed unless the length happens to hit it under a sanitizer.", "anchors": ["xxhash.h:XXH3_hashLong_internal_loop", "xxhash.h:XXH3_consumeStripes", "xxhash.h:XXH3_digest_long", "xxhash.h:XXH3_len_17to128_64b", "xxhash.h:XXH_ASSERT"]}
{"id": "C19", "title": "XXH3_generateSecret fills exactly the requested buffer deterministically", "statement": "XXH3_generateSecret(buf, size, seed, seedSize) with buf non-NULL, size >= 136 and (seed non-NULL or seedSize = 0) returns XXH_OK, overwrites exactly the size bytes of buf with values depending only on (size, seed bytes), reads only the seedSize seed bytes, and terminates; otherwise it returns XXH_ERROR with buf untouched.", "quantifier": "every buffer content and size, every custom seed of every size", "why_tests_cant": "Sizes and seeds are unbounded, with a repeat-copy loop and a tail segment overlapping the last full one.", "anchors": ["xxhash.h:XXH3_generateSecret", "xxhash.h:XXH3_combine16"]}
{"id": "C20", "title": "XXH3_generateSecret_fromSeed produces the secret used by the seeded variants", "statement": "XXH3_generateSecret_fromSeed(buf, seed) writes exactly the 192 bytes of deriveSecret(seed) of the specification; seed 0 gives the default secret.", "quantifier": "every seed, every alignment and build configuration", "why_tests_cant": "2^64 seeds.", "anchors": ["xxhash.h:XXH3_generateSecret_fromSeed", "xxhash.h:XXH3_initCustomSecret_scalar"]}
{"id": "C21", "title": "Seeded hashing equals withSecretandSeed over the pre-generated secret", "statement": "XXH3_{64,128}bits_withSecretandSeed(x, len, S, 192, seed) with S produced by XXH3_generateSecret_fromSeed(seed) equals XXH3_{64,128}bits_withSeed(x, len, seed) for every input, one-shot and streaming, as documented.", "quantifier": "every input and seed", "why_tests_cant": "Infinite inputs; long and short inputs use different mechanisms.", "anchors": ["xxhash.h:XXH3_64bits_withSecretandSeed", "xxhash.h:XXH3_generateSecret_fromSeed", "xxhash.h:XXH3_64bits_withSeed"]}
{"id": "C22", "title": "withSecretandSeed is exactly withSeed up to 240 bytes and exactly withSecret above", "statement": "For inputs of at most 240 bytes the secret argument does not influence the result of *_withSecretandSeed (it equals *_withSeed); for longer inputs the seed does not (it equals *_withSecret). The header documents the boundary as '< 240 seed, >= 240 secret' for the one-shot functions, which disagrees at 240.", "quantifier": "every input, seed and secret", "why_tests_cant": "Infinite inputs; only one length distinguishes the two documented boundaries.", "anchors": ["xxhash.h:XXH3_64bits_withSecretandSeed", "xxhash.h:XXH3_128bits_withSecretandSeed", "xxhash.h:XXH3_MIDSIZE_MAX"]}
{"id": "C23", "title": "Seed zero is the unseeded hash", "statement": "XXH3_64bits_withSeed(x,len,0) = XXH3_64bits(x,len), likewise for 128 bits, one-shot and streaming; XXH128(x,len,s) = XXH3_128bits_withSeed(x,len,s).", "quantifier": "every input and build configuration", "why_tests_cant": "Infinite inputs; the size-optimised build removes the seed==0 shortcut and relies on the derived secret being the default one.", "anchors": ["xxhash.h:XXH3_64bits_withSeed", "xxhash.h:XXH3_hashLong_64b_withSeed_internal", "xxhash.h:XXH3_64bits_reset_withSeed"]}
{"id": "C24", "title": "The 64-bit XXH3 hash is the low half of the 128-bit one where the specification says so", "statement": "For inputs of 1 to 3 bytes and of more than 240 bytes, XXH3_64bits* equals the low64 of XXH3_128bits* with the same seed/secret; for the other classes it need not.", "quantifier": "every input, seed and secret", "why_tests_cant": "Infinite inputs.", "anchors": ["xxhash.h:XXH3_64bits", "xxhash.h:XXH3_128bits", "doc/xxhash_spec.md"]}
{"id": "C25", "title": "XXH32 always detects corruption confined to one aligned 4-byte word", "statement": "Two inputs of equal length that differ only inside one 4-byte word at an offset multiple of 4 (in particular any single-bit or single-byte corruption) never have the same XXH32 with the same seed.", "quantifier": "every input of every length, every position, every seed", "why_tests_cant": "Collision freedom is a statement about all pairs of inputs.", "anchors": ["xxhash.h:XXH32", "xxhash.h:XXH32_round", "xxhash.h:XXH32_avalanche"]}
{"id": "C26", "title": "XXH64 never collides on short inputs differing in one word, nor on corruption in the last partial stripe", "statement": "Two inputs of equal length that differ only within one word of the part processed after the last full 32-byte stripe (8-byte words, then one 4-byte word, then single bytes) have different XXH64 hashes for every seed; in particular 8-byte keys (and 4-byte keys, single bytes) never collide with each other.", "quantifier": "every pair of such inputs, every seed", "why_tests_cant": "Collision freedom is a statement about all pairs of inputs.", "anchors": ["xxhash.h:XXH64", "xxhash.h:XXH64_finalize", "xxhash.h:XXH64_avalanche"]}
{"id": "C27", "title": "XXH3 64-bit never collides among equal-length inputs of 1 to 8 bytes", "statement": "For every seed and secret, two different inputs of the same length between 1 and 8 have different XXH3 64-bit hashes.", "quantifier": "every pair of such inputs, every seed, every secret of size >= 136", "why_tests_cant": "2^128 pairs per length.", "anchors": ["xxhash.h:XXH3_len_1to3_64b", "xxhash.h:XXH3_len_4to8_64b", "xxhash.h:XXH3_rrmxmx"]}
{"id": "C28", "title": "XXH3 128-bit never collides among equal-length inputs of 1 to 16 bytes", "statement": "For every seed and secret, two different inputs of the same length between 1 and 16 have different XXH3 128-bit hashes.", "quantifier": "every pair of such inputs, every seed, every secret of size >= 136", "why_tests_cant": "2^256 pairs per length.", "anchors": ["xxhash.h:XXH3_len_1to3_128b", "xxhash.h:XXH3_len_4to8_128b", "xxhash.h:XXH3_len_9to16_128b"]}
{"id": "C29", "title": "Different seeds give different hashes on short inputs", "statement": "For a fixed input shorter than 16 bytes (XXH32), shorter than 32 bytes (XXH64), or empty to 3 bytes and 4 to 8 bytes (XXH3 64-bit), two different seeds never give the same hash.", "quantifier": "every such input and every pair of seeds", "why_tests_cant": "2^128 seed pairs times all inputs.", "anchors": ["xxhash.h:XXH32", "xxhash.h:XXH64", "xxhash.h:XXH3_64bits_withSeed"]}
{"id": "C30", "title": "A too-short or NULL secret is reported as XXH_ERROR", "statement": "XXH3_{64,128}bits_reset_withSecret(state, secret, secretSize) returns XXH_ERROR (documented '@return XXH_ERROR on failure') when secret is NULL or secretSize < 136, without undefined behaviour.", "quantifier": "every state, secret and size below 136", "why_tests_cant": "The check comes after a call that assumes secretSize >= 136 (an optimiser assumption), so a test that observes XXH_ERROR with one compiler says nothing about another.", "anchors": ["xxhash.h:XXH3_64bits_reset_withSecret", "xxhash.h:XXH3_128bits_reset_withSecret", "xxhash.h:XXH3_reset_internal", "xxhash.h:XXH_ASSUME"]}
{"id": "C31", "title": "Failing resets report an error; failing withSecretandSeed resets leave the state intact", "statement": "XXH3_*_reset_withSecretandSeed with a NULL secret or a secret shorter than 136 bytes returns XXH_ERROR and leaves the stream untouched: later digests are as if the call had not been made; every reset with a NULL state returns XXH_ERROR.", "quantifier": "every state and every invalid argument", "why_tests_cant": "Observing 'untouched' needs all later histories.", "anchors": ["xxhash.h:XXH3_64bits_reset_withSecretandSeed", "xxhash.h:XXH3_128bits_reset_withSecretandSeed"]}
{"id": "C32", "title": "Updating with a NULL pointer or zero bytes changes nothing", "statement": "XXH{32,64}_update, XXH3_{64,128}bits_update with (NULL, 0) or (p, 0) return XXH_OK and do not change any later digest.", "quantifier": "every state reachable by API calls", "why_tests_cant": "Ranges over all histories before and after.", "anchors": ["xxhash.h:XXH32_update", "xxhash.h:XXH64_update", "xxhash.h:XXH3_update"]}
{"id": "C33", "title": "The aligned allocator returns aligned, in-bounds memory and frees the original block", "statement": "For every address malloc may return, XXH3_createState's allocation is 64-byte aligned, the state lies inside the allocated block, and XXH3_freeState passes to free() exactly the pointer malloc returned. XXH32_createState and XXH64_createState return NULL or a block of the size of their state, which their freeState gives back.", "quantifier": "every base address, every size and every power-of-two alignment from 8 to 128", "why_tests_cant": "The platform's malloc returns only some residues.", "anchors": ["xxhash.h:XXH_alignedMalloc", "xxhash.h:XXH_alignedFree", "xxhash.h:XXH3_createState", "xxhash.h:XXH3_freeState", "xxhash.h:XXH32_createState", "xxhash.h:XXH64_createState"]}
{"id": "C34", "title": "Streaming never forms a pointer outside its buffers", "statement": "Executing XXH32_update, XXH64_update or XXH3_update on any valid buffer only computes pointers into (or one past) an existing object, as C requires.", "quantifier": "every state and every valid buffer", "why_tests_cant": "Out-of-range pointer formation usually has no visible effect with today's compilers.", "anchors": ["xxhash.h:XXH32_update", "xxhash.h:XXH64_update", "xxhash.h:XXH3_update"]}
{"id": "C35", "title": "Pre-generated seeded secret with withSecret", "statement": "The header's HashFast example (withSecret over the XXH3_generateSecret_fromSeed secret) agrees with withSeed for 17 to 128 bytes and above 240 bytes, and may differ for the other lengths.", "quantifier": "every input and seed", "why_tests_cant": "Infinite inputs.", "anchors": ["xxhash.h:XXH3_generateSecret_fromSeed", "xxhash.h:XXH3_64bits_withSecret"]}
{"id": "C36", "title": "A change of one 8-byte word is detected by XXH3 64-bit", "statement": "Changing 8 bytes of an input of 17 bytes or more changes its XXH3 64-bit hash (users of checksums may expect it; the algorithm's disclaimer says keyed multiplication by zero can lose entropy). It does not: the change is lost exactly when the folded product of the one 16-byte window that reads the word is unchanged, and for every length from 17 to 240 bytes and every seed the other half of the window can be chosen so that it always is.", "quantifier": "every input and every changed word", "why_tests_cant": "A counterexample has probability about 2^-64 per random trial.", "anchors": ["xxhash.h:XXH3_mix16B", "xxhash.h:XXH3_mul128_fold64"]}
{"id": "C37", "title": "xxhsum output lines parse back to the same file name and hash", "statement": "For every file name without NUL and every hash value, the line printed by xxhsum (GNU or --tag style, big or little endian, any algorithm) is accepted by xxhsum -c with the matching endianness and yields the same algorithm, file name and hash.", "quantifier": "every NUL-free file name (including newlines, backslashes, parentheses, spaces), every hash value, all styles", "why_tests_cant": "Infinite file names; escaping interacts with the separators.", "anchors": ["cli/xxhsum.c:XSUM_printLine_GNU_internal", "cli/xxhsum.c:XSUM_printLine_BSD_internal", "cli/xxhsum.c:XSUM_parseLine", "cli/xxhsum.c:XSUM_filenameUnescape"]}
{"id": "C38", "title": "File name escaping is injective and unescaping rejects everything else", "statement": "Unescaping an escaped file name gives the name back; every string accepted by the unescaper is the escaping of the name it returns up to literal CR/LF; malformed escapes and NULs are rejected; the printed form contains no newline or carriage return.", "quantifier": "every byte string", "why_tests_cant": "Infinite strings.", "anchors": ["cli/xxhsum.c:XSUM_printFilename", "cli/xxhsum.c:XSUM_filenameUnescape", "cli/xxhsum.c:XSUM_filenameNeedsEscape"]}
{"id": "C39", "title": "xxhsum -c exit status is exactly the documented verdict", "statement": "For every checksum file and file system content, xxhsum -c succeeds iff at least one line is well formed, every well-formed line names a readable file whose hash matches (missing ones excepted under --ignore-missing, in which case at least one must match), no line is malformed under --strict, and the file was read to the end.", "quantifier": "every checksum file content and every file system", "why_tests_cant": "Infinite inputs; verdict logic depends on the combination of all lines.", "anchors": ["cli/xxhsum.c:XSUM_parseFile1", "cli/xxhsum.c:XSUM_checkFile", "cli/xxhsum.c:XSUM_checkFiles"]}
{"id": "C40", "title": "xxhsum hashes of a file do not depend on how the OS returns its bytes", "statement": "XSUM_hashStream returns the one-shot hash of the whole content however fread splits it.", "quantifier": "every content and every sequence of short reads", "why_tests_cant": "Read splitting is decided by the OS.", "anchors": ["cli/xxhsum.c:XSUM_hashStream"]}
{"id": "C41", "title": "Numeric command-line arguments are read exactly or rejected", "statement": "XSUM_readU32FromChar never wraps: it returns the decimal value with K/M suffix applied, or reports an overflow; every value it accepts fits in 32 bits, and it consumes exactly the digits and suffix.", "quantifier": "every argument string", "why_tests_cant": "Infinite strings.", "anchors": ["cli/xxhsum.c:XSUM_readU32FromCharChecked"]}
{"id": "C42", "title": "Reading a checksum file line by line loses nothing and never overflows the line buffer", "statement": "XSUM_getLine returns exactly the bytes up to the next newline (or end of file), growing its buffer up to 32 KiB and never writing past it; longer lines are reported, not truncated.", "quantifier": "every file content, every initial buffer size", "why_tests_cant": "Infinite contents; growth steps interact with line length.", "anchors": ["cli/xxhsum.c:XSUM_getLine"]}
{"id": "C43", "title": "xxhsum -c accepts only lines of its own formats", "statement": "A --tag line is accepted only if its algorithm name is one of those xxhsum prints (a line tagged with another algorithm is reported as improperly formatted).", "quantifier": "every line", "why_tests_cant": "Infinite lines.", "anchors": ["cli/xxhsum.c:XSUM_parseLine1"]}
{"id": "C44", "title": "xxhsum -c verifies the file that xxhsum hashed", "statement": "A line printed by xxhsum for a regular file makes xxhsum -c read that same file.", "quantifier": "every file name", "why_tests_cant": "Only special names (the name stdin) misbehave.", "anchors": ["cli/xxhsum.c:XSUM_parseFile1", "cli/xxhsum.c:XSUM_hashFile"]}
{"id": "C46", "title": "XXH64 detects corruption confined to one aligned 8-byte word of a full stripe", "statement": "Two inputs of equal length that differ only inside one aligned 8-byte word have different XXH64 hashes with the same seed, wherever the word lies (the analogue of what XXH32 guarantees for 4-byte words). Expected to be false inside full stripes, because XXH64_mergeRound feeds each accumulator twice.", "quantifier": "every input, every aligned word, every seed", "why_tests_cant": "A collision has probability about 2^-64 per random pair.", "anchors": ["xxhash.h:XXH64_mergeRound", "xxhash.h:XXH64_endian_align"]}
{"id": "C45", "title": "Any secret of at least 136 bytes is usable, however large", "statement": "XXH3_64bits_withSecret and XXH3_128bits_withSecret are defined for every secret size from 136 bytes up to what size_t can express. False: block_len = 64 * nbStripesPerBlock wraps in a size_t; for a secret of 2^29 + 64 bytes on a 32-bit target it is zero and the block count divides by it. Exactly: a long input is hashed as specified if the block length fits a size_t or the input fits the wrapped block; otherwise the call divides by zero or reads beyond the input's object.", "quantifier": "every secret from 136 bytes, every input longer than 240 bytes, every build", "why_tests_cant": "Needs a 512 MiB secret on a 32-bit target.", "anchors": ["xxhash.h:XXH3_hashLong_internal_loop"]}
{"id": "C47", "title": "The vector unit chosen by the preprocessor always returns the specified hash", "statement": "Whatever XXH_VECTOR the preprocessor selects for a target, XXH3 returns the same hash as the scalar build of that target. Expected to be false for SVE, selected without the byte-order test that NEON has, on a big-endian target.", "quantifier": "every target, both byte orders", "why_tests_cant": "No continuous-integration machine is big-endian with SVE.", "anchors": ["xxhash.h:XXH_VECTOR", "xxhash.h:XXH3_accumulate_512_sve"]}
{"id": "C50", "title": "xxhsum -c accepts what xxhsum printed", "statement": "Hash any files with xxhsum (any algorithm, style and byte order), store the output in a file, and check it with xxhsum -c: the check succeeds for every file system in which the named files still have the same digests, whatever the reporting options; with the names printed for every readable file.", "quantifier": "every list of NUL-free names other than stdin short enough for the line limit, every content, every way the system delivers the bytes, every reporting option", "why_tests_cant": "Infinite names, contents and read splits; the whole pipeline print, read back, parse, hash, compare is involved.", "anchors": ["cli/xxhsum.c:XSUM_hashFiles", "cli/xxhsum.c:XSUM_checkFile", "cli/xxhsum.c:XSUM_getLine"]}
{"id": "C51", "title": "--status prints nothing", "statement": "With --status a check writes nothing to standard output. Expected to be false together with --ignore-missing, whose message does not test the status flag.", "quantifier": "every checksum file and file system, every other option", "why_tests_cant": "Every path of the reporting code has to be silent.", "anchors": ["cli/xxhsum.c:XSUM_checkFile", "cli/xxhsum.c:XSUM_parseFile1"]}
{"id": "C53", "title": "Exit status of hashing tells whether every file was read", "statement": "xxhsum FILE... returns 0 iff every named file could be read, and 1 otherwise; one line is printed for each file that could be opened, in order, until a read error ends the program.", "quantifier": "every list of names, every file system", "why_tests_cant": "Infinite lists; the status accumulates over all files.", "anchors": ["cli/xxhsum.c:XSUM_hashFiles", "cli/xxhsum.c:XSUM_hashFile"]}
{"id": "C48", "title": "No command line writes outside the benchmark table", "statement": "Option processing never writes outside g_testIDs. Expected to be false: a variant of 2^31 or more becomes a negative int, passes the comparison, and is used unsigned as the index.", "quantifier": "every list of NUL-free argument strings", "why_tests_cant": "Infinite strings; the bad numbers are a thin set no ordinary test uses.", "anchors": ["cli/xxhsum.c:XSUM_main", "cli/xsum_bench.c:g_testIDs"]}
{"id": "C49", "title": "The options mean what the manual says", "statement": "For every command line the action taken (help, version, usage error, benchmark, check, hash), the algorithm, byte order, style, flags, numbers and file names are those of the documented option grammar; every documented option in any order and number has its documented effect, and everything behind -- or behind the first name is a file name.", "quantifier": "every program name and list of argument strings of total length below 2^31, console or not", "why_tests_cant": "Infinite strings; option letters cluster and interact.", "anchors": ["cli/xxhsum.c:XSUM_main", "cli/xxhsum.1.md"]}
{"id": "C52", "title": "The name - is standard input and the program names are shorthands", "statement": "When FILE is -, standard input is read even if it is the console; xxh32sum, xxh64sum, xxh128sum and xxh3sum are equivalent to xxhsum -H0, -H1, -H2 and -H3. Expected to be false of - among other names, and of the program names in check mode.", "quantifier": "every option list, file system and standard input", "why_tests_cant": "Infinite command lines and file systems.", "anchors": ["cli/xxhsum.c:XSUM_main", "cli/xxhsum.1.md"]}
{"id": "C54", "title": "Hashing then checking by the command line", "statement": "xxhsum OPTIONS FILES > LIST exits with 0 when the files can be read, and a later xxhsum OPTIONS -c LIST exits with 0 exactly if every file still has the hash it had.", "quantifier": "every two command lines, file systems and consoles; names other than stdin within the line limit", "why_tests_cant": "Infinite command lines, names and contents.", "anchors": ["cli/xxhsum.c:XSUM_main", "cli/xxhsum.c:XSUM_hashFiles", "cli/xxhsum.c:XSUM_checkFiles"]}
{"id": "C55", "title": "The self-test passes in every build and catches wrong vectors", "statement": "XSUM_sanityCheck runs to its end without undefined behaviour and never exits with 1, in every build configuration, whatever memory it starts from and whatever odd state its random generator is in: in particular its unbounded random cutting loop always ends. Each of its test functions returns when the table entry is the specified hash (or the specified secret bytes) and exits with 1 whenever it is not.", "quantifier": "every build configuration, stack and allocator content, odd generator state; every table entry, data up to 2^24 bytes and seed for the test functions", "why_tests_cant": "One run covers one build and one memory content; a test cannot show that no wrong vector is ever accepted.", "anchors": ["cli/xsum_sanity_check.c:XSUM_sanityCheck", "cli/xsum_sanity_check.c:XSUM_testXXH3", "cli/xsum_sanity_check.c:XSUM_XXH3_randomUpdate", "cli/xsum_sanity_check.c:XSUM_testSecretGenerator"]}
{"id": "C56", "title": "The benchmark stays inside its buffers and times the documented hashes", "statement": "XSUM_benchInternal and XSUM_benchFiles end without undefined behaviour: they exit with 11, 12 or 13 when a file cannot be opened, memory is missing or the file cannot be read, and otherwise every selected variant hashes exactly the sample (aligned, or from 3 bytes further on) with the hash its name promises, for the seeds 0, 1, 2, ...; a file is hashed up to the memory that was found, never more than the file.", "quantifier": "every build configuration, sample size, selection of variants, file content, allocator behaviour and clock", "why_tests_cant": "Sizes near SIZE_MAX, failing allocators and unlucky clocks are not reached by running the benchmark.", "anchors": ["cli/xsum_bench.c:XSUM_benchInternal", "cli/xsum_bench.c:XSUM_benchFiles", "cli/xsum_bench.c:XSUM_benchMem", "cli/xsum_bench.c:XSUM_benchHash", "cli/xsum_bench.c:g_hashesToBench"]}
{"id": "C57", "title": "The memory probe of the benchmark ends", "statement": "XSUM_findMaxMem returns, with an amount below 2 GB, whatever malloc answers.", "quantifier": "every file size and every sequence of answers of malloc", "why_tests_cant": "The loop has no exit of its own; only an allocator that keeps refusing shows it.", "anchors": ["cli/xsum_bench.c:XSUM_findMaxMem", "cli/xsum_bench.c:XSUM_selectBenchedSize"]}
{"id": "C58", "title": "The Cryptol definition and the C code compute the same XXH32 and XXH64", "statement": "For every input and seed, XXH32 and XXH64 return the number whose bits are the result of XXH32 and XXH64 of doc/xxhash.cry, evaluated with Cryptol's meaning of bit sequences; the two documents (doc/xxhash.cry and doc/xxhash_spec.md) define the same functions on every sequence of bytes.", "quantifier": "every build configuration, every input of every length, every seed", "why_tests_cant": "The equality of two programs over all lengths and contents is not a finite check, and a disagreement between the documents may need a particular tail length or carry.", "anchors": ["doc/xxhash.cry:XXH32", "doc/xxhash.cry:XXH64", "xxhash.h:XXH32", "xxhash.h:XXH64"]}
{"id": "C59", "title": "Threads racing to fill the x86 dispatch tables all get the right hashes", "statement": "When XXH_DISPATCH_MAYBE_NULL is set, several threads may find the tables empty at once and fill them concurrently. For every number of threads, every program of dispatched calls per thread (later calls may depend on earlier results) and every interleaving of their pointer-sized accesses, every completed call returns the specified hash (or, for an update, a state that represents the longer input); no thread ever calls a NULL pointer and none waits for another: eleven steps of its own complete any call.", "quantifier": "every number of threads, every program, every interleaving, every processor report, every order of the stores", "why_tests_cant": "The window between the NULL test and the stores is a few instructions wide and the number of interleavings is unbounded; a stress test that never hits the window proves nothing.", "anchors": ["xxh_x86dispatch.c:XXH_setDispatch", "xxh_x86dispatch.c:XXH3_hashLong_64b_defaultSecret_selection", "xxh_x86dispatch.c:XXH3_64bits_update_dispatch", "xxh_x86dispatch.c:XXH_g_dispatch"]}
{"id": "C60", "title": "The sparse sample generator never repeats a sample", "statement": "Once the collision tester's generator accepts a sample size and a number of hashes, sample n is the seeded first sample with the n-th set of bits flipped, where the sets run through exactly the sets of at most 14 bit positions, each once, smaller sets first; all bytes stay in bounds; no two of the samples 0..htotal are equal. It refuses a size only if size < 2 or fewer than htotal sets exist.", "quantifier": "every sample size, number of hashes, seed, build, content of uninitialised memory", "why_tests_cant": "The tester runs billions of samples; a repeated sample shows up as a false collision only if somebody recomputes the input, and the last level of the enumeration is reached only in runs of days.", "anchors": ["tests/collisions/main.c:update_sampleFactory", "tests/collisions/main.c:updateBit", "tests/collisions/main.c:enoughCombos", "tests/collisions/main.c:Cnm"]}
{"id": "C61", "title": "The slab5 sample generator never repeats a sample", "statement": "In the SLAB5 build, for every accepted size the samples 1..htotal are pairwise different and every update stays inside the buffer. Refuted side claim: the seed selects the samples (this build ignores it).", "quantifier": "every size, number of hashes below 2^64, build, content of uninitialised memory", "why_tests_cant": "A repetition needs more than 2^32 updates of one slab, which no test reaches.", "anchors": ["tests/collisions/main.c:update_sampleFactory", "tests/collisions/main.c:init_sampleFactory"]}
{"id": "C62", "title": "The candidate filter loses no collision", "statement": "For every sequence of insertions into a filter of 2^bflog bytes (7 <= bflog < 64): no access leaves the filter, inserting a hash that was inserted before reports it, and after Filter_reduce every hash inserted at least twice passes Filter_check.", "quantifier": "every sequence of hashes, every filter size", "why_tests_cant": "A filter that drops one candidate in a billion would silently hide collisions; tests compare totals on a few runs only.", "anchors": ["tests/collisions/main.c:Filter_insert", "tests/collisions/main.c:Filter_reduce", "tests/collisions/main.c:Filter_check"]}
{"id": "C63", "title": "The number of collisions the tester reports is right", "statement": "For all seven hash functions of the tool, with or without filter, with any number of threads: a number that is reported equals hashes minus distinct hashes over that many pairwise different samples; it depends only on hash, size, seed and number of hashes. A single-threaded run without filter that the generator accepts does report one. Refuted: such runs are free of undefined shifts (main.c:690 shifts by -1 without filter); the second pass never finds more candidates than the first announced (the assertion at main.c:758 can fail).", "quantifier": "every hash of the tool, option, build, sample size, sorting function that sorts, content of uninitialised memory", "why_tests_cant": "The tool is the test; nothing tests it. Its count is used to judge hash quality.", "anchors": ["tests/collisions/main.c:search_collisions", "tests/collisions/main.c:time_collisions", "tests/collisions/main.c:main", "tests/collisions/hashes.h", "tests/collisions/sort.cc"]}
{"id": "C64", "title": "The collision tester reads numbers exactly", "statement": "For every digit string and every suffix K, M, G, optionally followed by i and/or B, readU64FromChar returns exactly digits * 1024^k and stops at the next character, or ends the program, and the latter only if the value is at least 2^64 - 1024; it never wraps.", "quantifier": "every digit string, suffix, continuation", "why_tests_cant": "The boundary values of the overflow guards lie at twenty digits.", "anchors": ["tests/collisions/main.c:readU64FromChar"]}
{"id": "C65", "title": "The thread pool never does anything undefined", "statement": "In every execution of the pool (any number of workers and clients, any programs of POOL_add, POOL_tryAdd and POOL_resize, then POOL_free): no queue access leaves the array, no thread unlocks a mutex it does not hold, no thread that does not exist is joined; a thread inside a critical section is the holder of the mutex; the two stores POOL_create makes without the mutex are not read at that time; once the context is freed no thread takes a step.", "quantifier": "every number of threads, queue size, client program, interleaving, choice of the woken thread, spurious wake-up, failure of pthread_create or malloc in POOL_resize", "why_tests_cant": "Interleavings are unbounded; the harmful ones need a preemption at a particular instruction.", "anchors": ["tests/collisions/pool.c:POOL_thread", "tests/collisions/pool.c:POOL_create", "tests/collisions/pool.c:POOL_join", "tests/collisions/pool.c:POOL_free", "tests/collisions/pool.c:POOL_resize_internal", "tests/collisions/pool.c:POOL_add_internal"]}
{"id": "C66", "title": "The thread pool runs jobs in order, each once, within its limits", "statement": "In every reachable state the jobs taken out are a prefix of the jobs put in, at most max(1, queueSize) jobs wait, the jobs taken are exactly the finished ones and those a worker holds, and a job is only taken while fewer than threadLimit workers have one.", "quantifier": "every execution as in C65", "why_tests_cant": "A lost or duplicated job shows only under particular interleavings at the wrap-around of the ring buffer.", "anchors": ["tests/collisions/pool.c:POOL_thread", "tests/collisions/pool.c:POOL_add", "tests/collisions/pool.c:POOL_tryAdd", "tests/collisions/pool.c:isQueueFull", "tests/collisions/pool.c:POOL_add_internal"]}
{"id": "C67", "title": "The thread pool never deadlocks and finishes all its work", "statement": "Every reachable state is the final one or has a step (no lost wake-up); the number of steps of an execution is bounded by the calls alone plus 4 per spurious wake-up; in the final state all workers have exited, the queue is empty, and either POOL_create could not start all threads and nothing ran, or every client made all its calls and exactly the jobs given (all of POOL_add, those of POOL_tryAdd that returned 1) have run, each once.", "quantifier": "every execution as in C65", "why_tests_cant": "A lost wake-up needs a rare interleaving of several threads and shows as a hang that tests cannot tell from slowness.", "anchors": ["tests/collisions/pool.c:POOL_thread", "tests/collisions/pool.c:POOL_add", "tests/collisions/pool.c:POOL_join", "tests/collisions/pool.c:POOL_resize", "tests/collisions/pool.c:POOL_create"]}
{"id": "C68", "title": "A pool without a queue takes a job only if a worker is free", "statement": "For queueSize 0 a job is inserted only while no job waits and some worker is free, as the comment of isQueueFull says. Proved if the pool is not resized; refuted otherwise: after POOL_resize has shrunk the pool, more workers than threadLimit may be busy, isQueueFull compares with ==, and POOL_tryAdd takes a job though all workers are busy.", "quantifier": "every execution as in C65", "why_tests_cant": "Needs a shrink while all workers are busy.", "anchors": ["tests/collisions/pool.c:isQueueFull", "tests/collisions/pool.c:POOL_tryAdd", "tests/collisions/pool.c:POOL_resize_internal"]}
{"id": "C69", "title": "Every single flipped bit changes the XXH3 hash (refuted)", "statement": "The natural claim is that two inputs that differ in exactly one bit always have different XXH3 hashes, as is the case up to 8 bytes (64 bits) and 16 bytes (128 bits) by C27 and C28. It is false of both widths beyond: for every seed there are 8 bytes u such that, for any 8 bytes x, the 16-byte inputs u ++ x and u ++ x with its top bit flipped have the same 64-bit hash; and for any x and any 16 bytes z the 32-byte inputs x ++ u ++ z and x with its top bit flipped ++ u ++ z have the same 128-bit hash. Above 240 bytes, for every secret or seed and every tail of 225 bytes or more there are 4 bytes x and 8 bytes v such that the 64-bit hash of x ++ y ++ v ++ tail is the same for all 4-byte y.", "quantifier": "every seed, every build, every value of the free bytes", "why_tests_cant": "The colliding inputs are a 2^-64 fraction: random bit-flip tests (SMHasher's avalanche and sanity tests) do not meet one.", "anchors": ["xxhash.h:XXH3_len_9to16_64b", "xxhash.h:XXH3_len_17to128_128b", "xxhash.h:XXH128_mix32B", "xxhash.h:XXH3_mix16B", "xxhash.h:XXH3_mergeAccs"]}
{"id": "C70", "title": "XXH3 128-bit detects every change of one 8-byte word that touches its low 62 bits, from 17 to 240 bytes", "statement": "Let two inputs of the same length, 17 to 240 bytes, differ only inside one 8-byte word that is one half of exactly one of the 16-byte windows the function reads (every aligned word when the length is a multiple of 32 up to 128; beyond 128 bytes, a word after the first 128 bytes). If the two words differ in their low 62 bits, the 128-bit hashes differ, with the default secret, any seed, any custom secret, and both. The bound is tight in that the top bit can be lost (C69). The 64-bit hash has no such guarantee (C36).", "quantifier": "every length in the range, every position, every pair of words, every seed and secret, every pair of builds", "why_tests_cant": "There are 2^128 pairs of words per position and the failing pairs of the neighbouring claims (C36, C69) are too rare to be met by sampling.", "anchors": ["xxhash.h:XXH3_len_17to128_128b", "xxhash.h:XXH3_len_129to240_128b", "xxhash.h:XXH128_mix32B"]}
{"id": "C71", "title": "Two different inputs collide for only a few seeds (refuted for XXH64 and XXH32)", "statement": "The natural claim behind using the seed against chosen inputs is that a fixed pair of different inputs collides for a negligible part of the seeds. It is false: there is a pair of 64-byte prefixes, with 48 free bytes and any common suffix, that XXH64 does not tell apart for any seed below 2^63; and a pair of 32-byte prefixes, with 24 free bytes and any common suffix, that XXH32 does not tell apart for exactly the seeds below 2^31.", "quantifier": "every seed in the half range, every value of the free bytes, every suffix, every build", "why_tests_cant": "A test with random inputs finds such a pair with probability 2^-64.", "anchors": ["xxhash.h:XXH64_round", "xxhash.h:XXH64_endian_align", "xxhash.h:XXH32_round", "xxhash.h:XXH32_endian_align"]}
{"id": "C72", "title": "Any digest can be forged by choosing one word or the seed, in exactly one way", "statement": "For XXH32, any prefix whose length is a multiple of 4, any suffix, any seed and any target digest, there is exactly one 4-byte word that placed between them gives the target. For XXH64 the same holds for an 8-byte word after the last full stripe (so for every 8-byte input). XXH3 64-bit over 8-byte inputs and XXH3 128-bit over 16-byte inputs are permutations for every seed and every custom secret. For an input of fewer than 16 (XXH32), fewer than 32 (XXH64) or at most 8 (XXH3 64-bit) bytes every digest is reached by exactly one seed. In particular no digest value is unreachable and no digest value is privileged.", "quantifier": "every prefix, suffix, seed, secret and target digest; every build", "why_tests_cant": "Reaching a given 64-bit digest by search takes 2^64 trials; absence of unreachable digests cannot be sampled at all.", "anchors": ["xxhash.h:XXH32_endian_align", "xxhash.h:XXH64_finalize", "xxhash.h:XXH3_len_4to8_64b", "xxhash.h:XXH3_len_9to16_128b"]}
{"id": "C73", "title": "BMK_benchFunction runs every block in every pass and reports what happened", "statement": "For every function, blocks, clock, initialisation and error function, either every result of the first pass is accepted or there is a first one that is not. In the first case the function is called max(nbLoops,1) times over the blocks in their order, after erasing every destination and running initFn once, the results of the first pass are stored in blockResults and their sum modulo the range of size_t is returned, and the time is the difference of the two clock readings. In the second case nothing is called after the rejected block, its result is reported as the error, and blockResults holds the results up to it and is otherwise unchanged.", "quantifier": "every world, function, number of blocks below 2^32, number of passes, array of results", "why_tests_cant": "Benchmarked functions are arbitrary code with state; a test sees a handful of them and never the failing ones.", "anchors": ["tests/bench/benchfn.c:BMK_benchFunction", "tests/bench/benchfn.h:BMK_benchParams_t"]}
{"id": "C74", "title": "Errors and very many blocks in BMK_benchFunction: three comments are wrong", "statement": "benchfn.h says that errorFn checks each return value and that execution stops as soon as an error is detected; benchfn.c says that a session is completed after an error; blockCount may be any size_t. All three are false: the results of passes after the first are not checked, an error leaves the session incomplete so that the loop of the header goes on, and with 2^32 blocks or more the 32-bit counter never reaches the end.", "quantifier": "witnesses; for the last, every number of blocks from 2^32 on and every fuel", "why_tests_cant": "Needs a function that fails only later, or 2^32 blocks.", "anchors": ["tests/bench/benchfn.h:BMK_benchParams_t", "tests/bench/benchfn.c:BMK_isCompleted_TimedFn", "tests/bench/benchfn.c:BMK_benchFunction"]}
{"id": "C75", "title": "Time spans are exact", "statement": "For any two readings of the clock with valid nanoseconds and seconds whose difference fits a long, the span in nanoseconds is their difference and the span in microseconds is that difference divided by 1000 rounded down, both modulo 2^64; so exact whenever the clock did not go back, borrow between seconds and nanoseconds included. A clock set back gives a span near 2^64.", "quantifier": "every two readings", "why_tests_cant": "The borrow and the wrap depend on the instant of the run.", "anchors": ["tests/bench/timefn.c:UTIL_getSpanTime", "tests/bench/timefn.c:UTIL_getSpanTimeMicro", "tests/bench/timefn.c:UTIL_getSpanTimeNano"]}
{"id": "C76", "title": "A timed benchmark session always ends", "statement": "For every function whose calls take at least one nanosecond and at most D and are accepted, every total and run budget (run budget up to 4294 ms), the loop of the header ends within a number of steps bounded by the blocks and the ratio of the budgets; no assert fails (the multiplication of nbLoops by 10 never overflows), no conversion from double to unsigned is undefined, the session is completed with the whole budget spent, and the reported run lasted at least half of the run budget and has at least one pass.", "quantifier": "every world with a clock, every function with bounded durations, every budget", "why_tests_cant": "Termination for every schedule of durations; a test sees one machine.", "anchors": ["tests/bench/benchfn.c:BMK_benchTimedFn", "tests/bench/benchfn.c:BMK_resetTimedFnState", "tests/bench/benchHash.c:bench_hash_internal"]}
{"id": "C77", "title": "bench_hash does not report the best round", "statement": "benchHash.h says that if multiple rounds are run bench_hash reports the speed of the best round. It does not: fastestRun is never stored, and the speed reported is that of the last run of the last round.", "quantifier": "a witness of two rounds for every configuration and fuel; the positive part for every session", "why_tests_cant": "Needs control over the durations.", "anchors": ["tests/bench/benchHash.h:bench_hash", "tests/bench/benchfn.c:BMK_benchTimedFn"]}
{"id": "C78", "title": "Numbers on the command line of benchHash are read exactly or refused", "statement": "Any string of digits followed by nothing, K, M, KB, MB, Ki, Mi, KiB or MiB is read as the number times 1024 to the power of the suffix, or stops the program by assert, and only when that value is 2147482624 or more. On any string at all there is no signed overflow and the value is between 0 and 2147483629.", "quantifier": "every string", "why_tests_cant": "The guards are off from the exact limits by up to 1023; no test tries every length of number.", "anchors": ["tests/bench/main.c:readIntFromChar"]}
{"id": "C79", "title": "The program benchHash prints exactly the lines its command line asks for", "statement": "Every numeric option changes its own setting and no other; the name of a hash selects that hash alone; any other argument ends the program with code 1. Each function of the table runs once the hash of its name and returns that hash, cut to a size_t, and in a measure of latency each call reads where the result of the one before tells it. For every command line, whatever the durations of the calls, rand() and fresh memory, the program ends: by help, list, a bad argument or a refused number; with code 1 for a selection beyond the table; by the assert on a logarithm of 31 or more; or with code 0 and exactly the lines of the five tables, in order, for the hashes selected and all the sizes from the smallest to the largest, every cell a run of at least one pass and of positive duration over min(1000, 200000/size + 1) blocks. All reads of the buffer (with the latency margin), of the table and of the arrays are within bounds.", "quantifier": "every command line, every configuration, every world with calls of 1 ns up to 1 ms + 10 ns per byte", "why_tests_cant": "The outcome depends on the clock and on every combination of options.", "anchors": ["tests/bench/main.c:main", "tests/bench/main.c:hashID", "tests/bench/bhDisplay.c:bench_largeInput", "tests/bench/bhDisplay.c:bench_latency_smallInputs", "tests/bench/benchHash.c:bench_hash", "tests/bench/hashes.h:hashCandidates"]}
{"id": "C80", "title": "benchHash divides by zero for --mins=0", "statement": "No command line makes the program divide by zero or read out of bounds. False: --mins=0 is accepted and bench_hash divides by the size. It holds for every command line whose smallest size is at least 1 or above the largest.", "quantifier": "witness for every configuration, world and fuel; the positive part for every command line", "why_tests_cant": "An option value nobody tries.", "anchors": ["tests/bench/benchHash.c:bench_hash", "tests/bench/main.c:main"]}
{"id": "C81", "title": "Above 240 bytes XXH3 detects every change of two bits (refuted)", "statement": "The natural claim for the long hash is that two inputs of the same length that differ in two bits have different hashes. It is false of both widths, for every seed and nearly every secret: there are two 8-byte words u and v and a bit j below 32, that depend on the seed or secret only, such that flipping bit j of both words at the start of the input changes neither the 64-bit nor the 128-bit hash, whatever the rest of the input and its length, as the accumulators are equal. The condition on the secret is that its first two 8-byte words are not complements of each other in their low halves, which holds of the secret derived from any seed.", "quantifier": "every seed, every secret that meets the condition, every tail, every length above 240, every pair of builds", "why_tests_cant": "The pairs are a 2^-64 fraction of the inputs: random two-bit tests do not meet one.", "anchors": ["xxhash.h:XXH3_scalarRound", "xxhash.h:XXH3_hashLong_internal_loop", "xxhash.h:XXH3_initCustomSecret_scalar"]}
{"id": "C82", "title": "A change of one 8-byte word above 240 bytes always reaches the accumulators, and only one product can lose it", "statement": "Let two inputs of the same length above 240 bytes differ only in an 8-byte word that is lane i of exactly one of the 64-byte stripes the hash reads. Then after the main loop the accumulator next to lane i differs and all accumulators outside this pair are equal, whatever comes after in the input, however many scrambles it goes through, for any secret of 136 bytes or more. The 64-bit hashes are equal exactly when the folded 128-bit product of that pair is, and the 128-bit hashes exactly when both products of that pair are.", "quantifier": "every length, every position in one stripe, every pair of words, every secret and seed, every pair of builds", "why_tests_cant": "A lane that forgets a word in rare states, or a scramble that is not a bijection, loses only a tiny fraction of changes.", "anchors": ["xxhash.h:XXH3_hashLong_internal_loop", "xxhash.h:XXH3_scalarRound", "xxhash.h:XXH3_scalarScrambleRound", "xxhash.h:XXH3_mergeAccs"]}
{"id": "C83", "title": "The collision tester runs the search its command line asks for", "statement": "Each argument of the collision tester changes its own setting and no other, to the number written with its suffix (K, M, G, with i and B), and the last one wins; -h ends the program with status 0 and an unknown word with status 1, whatever follows. Without --nbh the number of hashes is 24 * 2^30, or 24 * 2^16 for the 32-bit hashes, however the floating-point estimate is rounded. The automatic size of the filter is the least power of two above the number of hashes. A number of collisions that the program prints is the number of hashes minus the number of distinct hashes, of the hash named, over that many different samples of the length asked; and without filter and threads it does print one once the generator accepts the length.", "quantifier": "every list of arguments, every number of digits, every build, every rounding within 2^-53, every content of fresh memory, any correct sort", "why_tests_cant": "The program runs for hours on hundreds of gigabytes; an option that silently changes another one, or a default off by a factor, only shows in the result.", "anchors": ["tests/collisions/main.c:main", "tests/collisions/main.c:longCommandWArg", "tests/collisions/main.c:select_nbh", "tests/collisions/main.c:highestBitSet", "tests/collisions/hashes.h:hashfnTable"]}
{"id": "C84", "title": "The statistics over the high bits count what they say", "statement": "For a sorted table of candidates, the number of neighbours that agree on their n highest bits is the number of hashes minus the number of different high parts, for every width n of the 32-bit and 64-bit hashes and up to 64 bits for the 128-bit hash. For the 128-bit hash and more than 64 bits the code fails an assertion as soon as there are two hashes.", "quantifier": "every table, every n, the three widths", "why_tests_cant": "It depends on the comparator of the sort and the shift being taken from the same half of the hash; a wrong count is only a wrong ratio on the screen.", "anchors": ["tests/collisions/main.c:isHighEqual", "tests/collisions/main.c:search_collisions"]}
{"id": "C85", "title": "Four expectations about the command line of the collision tester (refuted)", "statement": "--seed=N does not select the seed N: the option is --seedN, and the text from = on reads as no digits, so the seed is 0 whatever N is. A malformed number is not refused: what follows the digits is ignored. The number of threads is not the one asked or an error: the logarithm is cut to 32 bits, 2^32 means one thread. --filter does not work for every number of hashes: with its automatic size, a search of fewer than 32 hashes never reports a number, as Filter_insert shifts by a negative count, while the same search without --filter does.", "quantifier": "every text after --seed=, every setting; every hash function, length and number of threads for the filter", "why_tests_cant": "Each needs an argument nobody would try in a test of the search itself, and the program goes on without a word.", "anchors": ["tests/collisions/main.c:main", "tests/collisions/main.c:readU64FromChar", "tests/collisions/main.c:Filter_insert"]}
{"id": "C86", "title": "The regression test program accepts exactly the right tables of vectors", "statement": "tests/sanity_test.c ends with status 0 if and only if every entry of its seven tables of vectors is right: each hash is the one the specification gives for the test data of that length, seed and secret, and each sampled secret is the one derived from its seed. It ends with status 1 otherwise. It ends for every table and whatever its random stream draws, and never reaches undefined behaviour. The number of passed tests it prints is not the number of entries: the entries of the table of XXH3 with a secret are counted twice.", "quantifier": "every table (any number of entries, lengths up to the buffer), every content of the locals and fresh states, every build", "why_tests_cant": "The header has some 46000 entries; that a wrong one in any place is noticed, in each of the ways each entry is checked, cannot be tried by changing entries.", "anchors": ["tests/sanity_test.c:main", "tests/sanity_test.c:testXXH32", "tests/sanity_test.c:testXXH64", "tests/sanity_test.c:testXXH3", "tests/sanity_test.c:testXXH3_withSecret", "tests/sanity_test.c:testXXH128", "tests/sanity_test.c:testXXH128_withSecret", "tests/sanity_test.c:testSecretGenerator"]}
{"id": "C87", "title": "The generator of test vectors writes the right tables as a header a C compiler reads back", "statement": "tests/sanity_test_vectors_generator.c computes, for every buffer size from 692 bytes, the seven tables of specified hashes in the documented order of lengths and seeds; with a 32-bit size_t the 64-bit seed of the XXH3 table is cut to 32 bits. The text it writes, with white space and comments dropped, is the definition of seven arrays whose initializers, read by the grammar of C constants and braces, are exactly these tables.", "quantifier": "every buffer size up to 2^24, every build, every content of the fresh memory", "why_tests_cant": "A generator and a tester that are both wrong in the same way agree; and the text is only ever read by one compiler.", "anchors": ["tests/sanity_test_vectors_generator.c:main", "tests/sanity_test_vectors_generator.c:generate_sanity_test_vectors_xxh32", "tests/sanity_test_vectors_generator.c:generate_sanity_test_vectors_xxh128_withSecret", "tests/sanity_test_vectors_generator.c:fprintf_XSUM_testdata128_t"]}
{"id": "C88", "title": "Vectors generated on one platform are accepted by the test program of any other", "statement": "Whatever tables the generator produces in one build, the test program of any other build (byte order, vector unit, width of size_t, memory access) accepts them all, and prints the same number, 12 for each length plus 16.", "quantifier": "every pair of builds, every buffer size from 692 to 4161 bytes", "why_tests_cant": "The pairs of platforms are many and most have no hardware in a test farm.", "anchors": ["tests/sanity_test_vectors_generator.c:main", "tests/sanity_test.c:main"]}
{"id": "C89", "title": "The generated header is the same on every platform (refuted)", "statement": "The header does depend on the platform that generates it: the seed PRIME64 of the XXH3 table is copied into a size_t, so a 32-bit generator uses its low half. It depends on nothing else: two builds with the same width of size_t generate the same tables, whatever the byte order, the vector unit or the content of fresh memory.", "quantifier": "every pair of builds of the same width; a witness for two widths", "why_tests_cant": "Both headers pass the tests (C88), so that nobody notices that they differ.", "anchors": ["tests/sanity_test_vectors_generator.c:generate_sanity_test_vectors_xxh3"]}
{"id": "C90", "title": "On Windows the names the user gives are the names the system is asked for", "statement": "xxhsum on Windows gets its arguments in UTF-16, works on UTF-8 and asks the system in UTF-16. For well-formed arguments XSUM_main runs on exactly their UTF-8, its result is the program's, and a name opens (or is looked up as) the file whose UTF-16 name it was. It stops at well-formed names: a name with half a surrogate pair, which NTFS allows, is never the one asked for, whatever valid UTF-8 the system makes of it, so such a file cannot be hashed by its name.", "quantifier": "every list of arguments, every Unicode text, every system whose conversions are right on well-formed text", "why_tests_cant": "A test has a handful of names; the round trip concerns every one, of one to four bytes a character.", "anchors": ["cli/xsum_os_specific.c:XSUM_wmain", "cli/xsum_os_specific.c:XSUM_convertArgv", "cli/xsum_os_specific.c:XSUM_fopen", "cli/xsum_os_specific.c:XSUM_stat", "cli/xsum_os_specific.c:XSUM_widenString", "cli/xsum_os_specific.c:XSUM_narrowString"]}
{"id": "C91", "title": "The Windows layer of xxhsum gives back all it allocates, whichever calls fail", "statement": "For every pattern of failing malloc calls and conversions, XSUM_fopen, XSUM_isDirectory, XSUM_convertArgv with XSUM_freeArgv, and the whole wmain free each block they took exactly once and nothing else, read no byte outside a block, and return NULL (or abort) or what they return when nothing fails. The converted array is NULL-terminated and its strings are the conversions of the arguments in order.", "quantifier": "every pattern of failures, every heap before the call, every system, every number of arguments below 2^28", "why_tests_cant": "The clean-up loop runs only when a malloc in the middle of the arguments fails.", "anchors": ["cli/xsum_os_specific.c:XSUM_convertArgv", "cli/xsum_os_specific.c:XSUM_freeArgv", "cli/xsum_os_specific.c:XSUM_fopen", "cli/xsum_os_specific.c:XSUM_stat", "cli/xsum_os_specific.c:XSUM_wmain"]}
{"id": "C92", "title": "What the program prints on Windows reaches a console in UTF-16 and a file in UTF-8", "statement": "XSUM_vfprintf hands the formatted text to WriteConsoleW in UTF-16 when the stream is a console and to fwrite unchanged otherwise, returns how much was written or -1, and leaves nothing allocated whichever call fails. Two things it promises do not hold: it takes a copy of its va_list to be safe but then walks the original twice, which is undefined where a va_list is not passed by value; and it returns -1, as for an error, when an empty text goes to a file.", "quantifier": "every text, every stream, every pattern of failures, every system as in C90", "why_tests_cant": "Errors of malloc between the two passes and partial writes do not happen in tests; the va_list bug is invisible on the platforms it is compiled for.", "anchors": ["cli/xsum_os_specific.c:XSUM_vfprintf", "cli/xsum_os_specific.c:XSUM_vasprintf", "cli/xsum_os_specific.c:XSUM_widenString"]}
{"id": "C93", "title": "The Windows emulation of threads starts and joins each thread once", "statement": "For a client that joins the threads of an array before it grows or frees it: in every interleaving of ZSTD_pthread_create, ZSTD_pthread_join and the started threads nothing undefined happens, the client is never stuck once the start routines may return, there are at most 7 steps per call, a start routine runs at most once and with the arguments given, and a join of a started thread returns 0 only after the routine has run and the thread has ended. The value a join delivers should be what the routine returned; this is refuted: the record is passed by value, copied before the wait, so the routine's argument may be delivered instead.", "quantifier": "every client program of that kind, number of threads, interleaving, failure of _beginthreadex, start routine", "why_tests_cant": "Which value is delivered depends on who is faster; the pool ignores it.", "anchors": ["tests/collisions/threading.c:worker", "tests/collisions/threading.c:ZSTD_pthread_create", "tests/collisions/threading.c:ZSTD_pthread_join"]}
{"id": "C94", "title": "On Windows a thread pool can grow", "statement": "POOL_resize is meant to expand a pool while keeping its threads. With the Windows emulation this is refuted for every number of threads and every growth: each started thread keeps a pointer to its record in ctx->threads, POOL_resize_internal frees that array, and a thread started before stores its result there when it returns. No execution lets such a thread end without that store. A pool that does not grow is a careful client in the sense of C93.", "quantifier": "every number of threads, growth, content of uninitialised memory", "why_tests_cant": "The store into freed memory happens in the last instants of a thread and mostly goes unnoticed; the collision tester never grows its pool.", "anchors": ["tests/collisions/threading.c:worker", "tests/collisions/pool.c:POOL_resize_internal", "tests/collisions/pool.c:POOL_thread"]}
{"id": "C95", "title": "The pool without threads runs every job at once", "statement": "With POOL_MT = 0 every sequence of POOL_add, POOL_tryAdd and POOL_resize runs exactly the jobs given, each once and in order, and POOL_tryAdd returns 1. The two builds do not agree on POOL_resize to 0 threads, which pool.h forbids: with threads it is an error, without it succeeds.", "quantifier": "every sequence of calls", "why_tests_cant": "The build without threads is not the one the tests use.", "anchors": ["tests/collisions/pool.c:POOL_add", "tests/collisions/pool.c:POOL_tryAdd", "tests/collisions/pool.c:POOL_resize"]}
{"id": "C96", "title": "The preprocessor only selects builds that hash correctly", "statement": "Let the macros be those of a compiler that tells the truth about its target (byte order, vector unit, width of size_t), and let the settings XXH_* be used as the header documents them. Then whatever build of xxhash.h the preprocessor selects has the byte order of the target, one of the covered vector units and memory access methods, and so is one of those all theorems about hashing speak of; with nothing set it compiles and XXH32, XXH64, XXH3_64bits_withSeed and XXH3_128bits_withSeed compute the specified hashes. The kernels selected are ones the compiler announced, the widest of them, and locals have the alignment these kernels need. Two cases refute the general claim: a big-endian target with SVE (selected without a look at the byte order, other hashes), and a compiler without any way to request alignment (accumulators on 8-byte boundaries with 16-byte accesses).", "quantifier": "every set of predefined macros and command-line settings, every target", "why_tests_cant": "Each test run sees the macros of one compiler; big-endian ARM with SVE is not in the test matrix.", "anchors": ["xxhash.h:XXH_FORCE_MEMORY_ACCESS", "xxhash.h:XXH_CPU_LITTLE_ENDIAN", "xxhash.h:XXH_VECTOR", "xxhash.h:XXH_ACC_ALIGN", "xxhash.h:XXH_ALIGN", "xxhash.h:XXH3_NEON_LANES", "xxhash.h:XXH_VSX_BE"]}
{"id": "C97", "title": "The dispatcher's build switches fit the processors its binary is for", "statement": "For every set of truthful macros and documented settings with which xxh_x86dispatch.c compiles, and every processor that has what the build takes for granted (CPUID, but for GNU builds for i386; SSE2 reported where the compiler may use it), the switches selected meet the hypotheses of all theorems about the dispatcher: no NULL table entry is ever called and all hashes are right. With nothing set it compiles exactly for x86 compilers compatible with GCC or Visual C++ that do not enable AVX; both AVX levels are in from GCC 5 and Visual Studio 2017 on. That the processor must report SSE2, and not only have it, is needed: on one that reports no CPUID leaf the default x86-64 build calls a NULL pointer.", "quantifier": "every set of macros and settings, every processor report", "why_tests_cant": "Needs old compilers and virtual machines with odd CPUID settings.", "anchors": ["xxh_x86dispatch.c:XXH_DISPATCH_SCALAR", "xxh_x86dispatch.c:XXH_DISPATCH_AVX2", "xxh_x86dispatch.c:XXH_DISPATCH_AVX512", "xxh_x86dispatch.c:XXH_DISPATCH_MAYBE_NULL"]}
{"id": "C98", "title": "xxhsum --version names the vector code that was compiled", "statement": "For every compiler in an ordinary mode (one family of processors, each vector unit announced with the narrower ones, little-endian NEON, x86-64 with SSE2, no vector facility on s390x) and no XXH_* setting, the architecture string of the banner names the kind of kernels that xxhash.h selected from the same macros; the words have one meaning each; the byte order named is the one the hash functions were compiled for; the numbers of the compiler's version give back the macro they come from. The unconditional claim is false: on big-endian AArch64 the banner says NEON though the code is scalar, with -mno-sse2 or XXH_VECTOR=0 it says SSE2 though the code is scalar, and on s390x it names no unit though the code is vectorised.", "quantifier": "every set of predefined macros that an ordinary compiler defines; every target", "why_tests_cant": "A test sees the banner of the one build under test and has no independent knowledge of the kernels in it.", "anchors": ["cli/xsum_arch.h:XSUM_ARCH", "cli/xsum_arch.h:XSUM_CC_VERSION", "cli/xxhsum.c:FULL_WELCOME_MESSAGE", "cli/xxhsum.c:XSUM_isLittleEndian", "xxhash.h:XXH_VECTOR"]}
{"id": "C99", "title": "The Unicode test passes exactly when it should; the fuzzing target is total", "statement": "If the generator of the Unicode test reports success, both commands of its script exit with 0, whatever else is in the file system and in whatever pieces the files are read; the check it generates fails if the file is missing or has another XXH64. The generator returns 0 exactly if all its files could be opened. The fuzzing target computes XXH64 and XXH32 of every input without undefined behaviour and returns 0.", "quantifier": "every file system that holds the generated files, every way of reading them, every build; every fuzzer input", "why_tests_cant": "The test is run on one file system with one build; a fuzzer tries finitely many inputs.", "anchors": ["tests/generate_unicode_test.c:main", "tests/generate_unicode_test.c:FILENAME", "fuzz/fuzzer.c:LLVMFuzzerTestOneInput", "cli/xxhsum.c:XSUM_checkFile"]}
{"id": "C100", "title": "Time spans on the clocks of Windows, macOS and C90, and waiting for a tick", "statement": "On Windows, macOS and with the C90 clock, the span between two readings of a clock that did not go back is the exact number of nanoseconds or microseconds, rounded down, if and only if the number of ticks times the unit (or numerator) is below 2^64; the frequency is the one of the first call. UTIL_waitForNextTick returns at the first reading that differs, and never while none does. False in general: with Windows' usual 10 MHz, 1844.67 s are measured as 29 ns; a failing mach_timebase_info leads to a division by zero; and XSUM_clockSpan does not work 'even if overflow', as clock_t is signed.", "quantifier": "every pair of readings, every frequency, unit and width of clock_t; every sequence of readings of any length", "why_tests_cant": "A test runs for seconds on one system; the products wrap after half an hour and the failures of the system calls do not occur there.", "anchors": ["tests/bench/timefn.c:UTIL_getSpanTimeNano", "tests/bench/timefn.c:UTIL_getSpanTimeMicro", "tests/bench/timefn.c:UTIL_waitForNextTick", "tests/bench/timefn.c:UTIL_clockSpanNano", "cli/xsum_bench.c:XSUM_clockSpan"]}
{"id": "C101", "title": "Including the headers in any order, namespaces and inlining", "statement": "xxhash.h and xxh_x86dispatch.h can be included any number of times in any order, with XXH_STATIC_LINKING_ONLY, XXH_INLINE_ALL, XXH_PRIVATE_API set and cleared in between, under any namespace but XXH_INLINE_: no two declarations or macro definitions clash in C11 and C++ (in C90/C99 when the unit never inlines, or does from its first inclusion), and the unit exports nothing. After an inclusion with XXH_INLINE_ALL or XXH_PRIVATE_API every function of the interface, those for static linking included, stands for a static function defined in the unit. Without them it stands for its name with the namespace in front, or for the dispatcher's name, and is exported by xxhash.c or xxh_x86dispatch.c compiled with the same switches; xxhash.c exports exactly the interface, and two namespaces share no symbol. False in general: C99 units that include, then inline; the namespace XXH_INLINE_; XXH_IMPLEMENTATION before XXH_INLINE_ALL and xxh_x86dispatch.h after it leave functions without a body; the dispatcher's functions get no namespace.", "quantifier": "every sequence of #define, #undef and #include lines of any length; every namespace; every choice of XXH_NO_STREAM, XXH_NO_LONG_LONG, XXH_NO_XXH3", "why_tests_cant": "tests/multiInclude.c and the namespace test compile a handful of orders; the orders are infinitely many and a missing #undef shows only in some of them.", "anchors": ["xxhash.h:XXH_INLINE_ALL", "xxhash.h:XXH_NAMESPACE", "xxhash.h:XXH_IPREF", "xxhash.h:XXH_PUBLIC_API", "xxhash.h:XXHASH_H_5627135585666179", "xxhash.h:XXH_IMPLEM_13a8737387", "xxh_x86dispatch.h:XXH_DISPATCH_DISABLE_REPLACE", "xxhash.c:XXH_IMPLEMENTATION"]}
{"id": "C102", "title": "Lists may be joined, commented and mixed; the command line test scripts succeed", "statement": "A checksum file may be put together from the outputs of any number of runs of xxhsum, made at different times, over different states of the file system, with different algorithms, styles (GNU, --tag) and, in the --tag style, byte orders, with comment lines and, unless --strict is given, lines of no known format in between. xxhsum -c, with any options and under any of its names that accepts the algorithms, exits with 0 if and only if at least one file is listed, every listed file (with --ignore-missing: every one that still exists) has the hash it had when its line was printed, and, with --ignore-missing, one of them exists. Consequently tests/cli-comment-line.sh, tests/cli-ignore-missing.sh and tests/filename-escape.sh succeed, whatever Makefile contains.", "quantifier": "every number of runs, lines and files; every content and read chunking of the files before and after; every option set of the check", "why_tests_cant": "The scripts try one list with one comment and one entry each; a mistake in the counts or in the treatment of mixed lines shows only for particular combinations.", "anchors": ["cli/xxhsum.c:XSUM_checkFile", "cli/xxhsum.c:XSUM_parseFile1", "cli/xxhsum.c:XSUM_hashFiles", "tests/cli-comment-line.sh", "tests/cli-ignore-missing.sh", "tests/filename-escape.sh"]}
{"id": "C103", "title": "What xxhsum writes to stderr; no failure is silent", "statement": "xxhsum with its messages on stderr is the xxhsum of the other properties: leaving the messages out gives the same results and the same stdout. When hashing, stderr holds exactly one message for each name that is a directory or cannot be opened and one for a read error, in order. When checking, it holds exactly one message per line of no known format if --warn is given, with its line number, one for a line that is too long, one for a read error, and one if no line of the list has a known format, or if the list cannot be opened. Whatever the system does (malloc may fail at any call, there may be more lines than an unsigned long counts), an exit code other than 0 comes with a text on stderr or stdout unless --status is given; hashing writes to stderr exactly if its exit code is not 0; a check with exit code 0 and without --warn writes nothing to stderr. That --status silences everything is false: a list that cannot be opened is reported.", "quantifier": "every command line, environment, list and set of files", "why_tests_cant": "Messages on rare paths (allocation failure, overlong line, read error) are never triggered by the tests, and nothing checks that each failing path prints one.", "anchors": ["cli/xxhsum.c:XSUM_hashFile", "cli/xxhsum.c:XSUM_hashStream", "cli/xxhsum.c:XSUM_parseFile1", "cli/xxhsum.c:XSUM_checkFile", "cli/xxhsum.c:XSUM_badusage", "cli/xsum_output.c:XSUM_log"]}
{"id": "C104", "title": "xxhsum closes every file and frees every block exactly once", "statement": "On every command line that hashes or checks, whatever the system does (fopen, malloc or realloc may fail at any call): no file is read or closed that is not open, and no block is used, reallocated or freed that is not held, so nothing is closed or freed twice or used afterwards. There are never more than three files open (stdin, the list, one file) and two blocks held, however many files are hashed or checked. With the exit code 0 no block is held at the end and no file but stdin is open; stdin is open too unless it was the file to be hashed. Each function gives back what it took whatever it returns; only exit(1), after a read error or when memory runs out, leaves files open or blocks held.", "quantifier": "every command line, environment, list and set of files", "why_tests_cant": "A leak or a double free on an error path needs a failing malloc or realloc at the right call; tests do not inject such failures.", "anchors": ["cli/xxhsum.c:XSUM_hashFile", "cli/xxhsum.c:XSUM_getLine", "cli/xxhsum.c:XSUM_parseFile1", "cli/xxhsum.c:XSUM_checkFile", "cli/xxhsum.c:XSUM_hashFiles", "cli/xxhsum.c:XSUM_checkFiles"]}
{"id": "C105", "title": "The benchmark of xxhsum closes every file and frees every block exactly once, also when it gives up", "statement": "Whatever the system does (fopen, calloc, fread or the malloc of the probe may fail at any call), for any choice of tests and any number of files: no file is read or closed that is not open, and no block is used or freed that is not held. Besides stdin at most one file is open at a time and at most two blocks are held (the sample, and the name of an unaligned test or the block that probes the memory). When the benchmark returns, and also when it ends with exit(11), exit(12) or exit(13), every file it opened is closed and every block it took is freed.", "quantifier": "every configuration, choice of tests, sample size, list of files and behaviour of malloc, calloc, fopen and fread", "why_tests_cant": "The error paths need a failing fopen, calloc or fread; tests do not inject them, and each hash takes hundreds of megabytes, so that few runs are made.", "anchors": ["cli/xsum_bench.c:XSUM_findMaxMem", "cli/xsum_bench.c:XSUM_selectBenchedSize", "cli/xsum_bench.c:XSUM_benchMem", "cli/xsum_bench.c:XSUM_benchFiles", "cli/xsum_bench.c:XSUM_benchInternal"]}
{"id": "C106", "title": "The benchmark of xxhsum makes the rounds it was asked for and reports the fastest; its timing loop is defined and ends", "statement": "For every sequence of readings of a clock that does not go back: when a test of the benchmark ends, it has made exactly max(1, N) rounds of at least half a second (N: the number of -i; with -i0 one round of any length); its first round makes 10 MB / (size + 1) + 1 calls of the hash and every other one less than 2^32; the time reported is the shortest time per call in the rounds that count. No conversion or increment in the loop is undefined. If the times of a call differ by no more than a factor of 2 and are at least 1 / (8000 * 2^20) seconds, the loop ends after at most one round that does not count.", "quantifier": "every clock frequency, sequence of readings, -i and sample size", "why_tests_cant": "The loop depends on the clock of the machine: a test sees one clock and one speed, and cannot produce the readings for which the loop does not end or converts an infinity.", "anchors": ["cli/xsum_bench.c:XSUM_benchHash", "cli/xxhsum.c:XSUM_main"]}
{"id": "C107", "title": "The benchmark of xxhsum never gives up silently, and says when it hashes only a part of a file", "statement": "In benchmark mode, at every level of -q and whatever malloc and the files do, an exit code other than 0 is 11, 12 or 13, and the last thing written to stderr is the reason: that a file cannot be opened (11), that memory ran out (12) or that a file cannot be read (13), with the name of the file and the system's reason for 11 and 13. For each file of which only a part is hashed a notice gives the number of whole MB that are hashed. Besides these messages, in this order, nothing is written but what the tests themselves print.", "quantifier": "every configuration, choice of tests, list of files and behaviour of malloc, calloc, fopen and fread", "why_tests_cant": "The messages belong to failures of malloc, fopen and fread, and to files larger than memory; tests run the benchmark on small samples that succeed.", "anchors": ["cli/xsum_bench.c:XSUM_selectBenchedSize", "cli/xsum_bench.c:XSUM_benchFiles", "cli/xsum_bench.c:XSUM_benchInternal", "cli/xxhsum.c:XSUM_main"]}
{"id": "C108", "title": "Two seeds never give the same hash of one input, also beyond the lengths of C29 (refuted)", "statement": "C29 says that on short inputs different seeds give different hashes. The natural extension to longer inputs is false: XXH32 gives 16 zero bytes the same hash for two seeds; XXH3 64-bit has, for any two seeds whatever, an input of 32, one of 64, one of 96 and one of 128 bytes with the same hash for both, and for a quarter of all seeds an input of 16 bytes with the same hash for that seed and another; XXH3 128-bit has, for every seed, an input of 32 bytes with the same 128 bits for that seed and the one with its top bit flipped (for the default seed 0 and 2^63 among them). What does hold: from 17 to 240 bytes XXH3 128-bit gives different hashes for seeds that differ in one of their two lowest bits, such as consecutive seeds.", "quantifier": "every seed, every input of 17 to 240 bytes for the positive part, every configuration", "why_tests_cant": "A test compares a few seeds on a few inputs; the colliding inputs depend on the seed and are found by solving for the factors of the products, never by sampling.", "anchors": ["xxhash.h:XXH3_len_9to16_64b", "xxhash.h:XXH3_len_17to128_64b", "xxhash.h:XXH3_mix16B", "xxhash.h:XXH3_len_17to128_128b", "xxhash.h:XXH3_len_129to240_128b", "xxhash.h:XXH128_mix32B", "xxhash.h:XXH32_endian_align"]}
{"id": "C109", "title": "The 128-bit hash of XXH3 tells nothing of the length of an input of 17 to 240 bytes (refuted)", "statement": "There is a function of the digest alone, the same for all secrets, inputs and configurations, that gives the length minus the seed modulo 4 for XXH3_128bits_withSeed, and the length modulo 4 for XXH3_128bits_withSecret, for every input of 17 to 240 bytes. Hence two inputs of such lengths that differ modulo 4 never have the same 128-bit hash, for one seed or under any two secrets; and not every digest is reached: for each length, seed and low half some high half is the hash of no input.", "quantifier": "every input of 17 to 240 bytes, every seed, every secret of at least 136 bytes, every configuration; for the refuted part every length, seed and low half", "why_tests_cant": "The relation holds between bits of the digest after undoing two multiplications and an avalanche, for all inputs; statistical tests on the digest do not look for it and no sample shows that a digest is never reached.", "anchors": ["xxhash.h:XXH3_len_17to128_128b", "xxhash.h:XXH3_len_129to240_128b", "xxhash.h:XXH128_mix32B", "xxhash.h:XXH3_avalanche"]}
{"id": "C110", "title": "Every digest is the hash of equally many inputs of one length", "statement": "Among the 256^n inputs of n bytes, each 32-bit value is the XXH32 hash of exactly 256^(n-4) of them, for every n from 4 on, every seed; each 64-bit value is the XXH64 hash of exactly 256^(n-8) of them, for every n with at least 8 bytes after the last full stripe of 32 bytes. For XXH3 128-bit this is false at every length from 17 to 240 bytes and every seed: some digest is the hash of none of the inputs.", "quantifier": "every length (no upper bound other than size_t), every seed, every digest, every place of the inputs in memory, every configuration", "why_tests_cant": "The claim counts over 256^n inputs, which for 8 bytes is already out of reach of enumeration; a sample gives only approximate frequencies.", "anchors": ["xxhash.h:XXH32_endian_align", "xxhash.h:XXH32_finalize", "xxhash.h:XXH64_endian_align", "xxhash.h:XXH64_finalize", "xxhash.h:XXH3_len_17to128_128b", "xxhash.h:XXH3_len_129to240_128b"]}
{"id": "C111", "title": "It is hard to find an input of 24 to 240 bytes with a given XXH3 hash (refuted)", "statement": "For every 64-bit value, every seed (or every secret of at least 136 bytes) and every choice of the bytes from the 17th on, some first 16 bytes give an input with that XXH3_64bits hash; the length is 24 to 32 or 40 to 240. For 128 bits a digest is the hash of some input of length L (32, or 40 to 240) for a seed exactly if the function of C109 has the value (L - seed) mod 4 on it; all bytes but 32 may be chosen beforehand. Hence every input of 17 to 240 bytes has the same 128-bit hash as some input of each such length and seed that C109 does not exclude.", "quantifier": "every digest, every seed, every secret, every choice of the other bytes, every length in the range, every configuration", "why_tests_cant": "A test finds no preimage of a 64-bit or 128-bit value by search, and cannot show that each value has one for every seed and every choice of the other bytes.", "anchors": ["xxhash.h:XXH3_len_17to128_64b", "xxhash.h:XXH3_len_129to240_64b", "xxhash.h:XXH3_len_17to128_128b", "xxhash.h:XXH3_len_129to240_128b", "xxhash.h:XXH3_mix16B", "xxhash.h:XXH128_mix32B"]}
{"id": "C112", "title": "No bytes can be found that give long data a given 64-bit XXH3 hash (refuted)", "statement": "For every input of more than 240 bytes whose last 32 bytes lie after the last full stripe (that is, the number of bytes before them is at most 32 modulo 64), every 64-bit value is its hash for some choice of these 32 bytes, whatever the other bytes, the seed, or the secret of at least 136 bytes. The same bytes give the 128-bit hash that value as its low half. Hence any data can be followed by bytes that give it any chosen 64-bit hash; 63 bytes are enough after 209 bytes or more.", "quantifier": "every input without bound on its length, every digest, every seed, every secret, every configuration", "why_tests_cant": "A search for a preimage of a 64-bit value is out of reach of tests, and tests cannot cover every length and every preceding content.", "anchors": ["xxhash.h:XXH3_hashLong_internal_loop", "xxhash.h:XXH3_mergeAccs", "xxhash.h:XXH3_mix2Accs", "xxhash.h:XXH3_scalarRound", "xxhash.h:XXH3_hashLong_64b_withSeed", "xxhash.h:XXH3_hashLong_64b_withSecret"]}
{"id": "C113", "title": "XXH3 tells inputs of different lengths apart (refuted)", "statement": "For every seed, every input of any length has its 64-bit XXH3 hash in common with exactly one input of 8 bytes, and its 128-bit hash with exactly one input of 16 bytes. There is a seed for which 4, 5, 6, 7 and 8 zero bytes all have the 128-bit hash zero.", "quantifier": "every input of any length, every seed, every configuration; one seed for the second part", "why_tests_cant": "The 8 or 16 bytes with the same hash are found by no search, and their uniqueness is a claim about 2^64 or 2^128 inputs. The seed with the equal hashes is one of 2^64.", "anchors": ["xxhash.h:XXH3_len_4to8_64b", "xxhash.h:XXH3_len_4to8_128b", "xxhash.h:XXH3_len_9to16_128b"]}
