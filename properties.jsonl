{"id": "C01", "title": "One-shot functions compute the documented tree hash", "statement": "hash(input), keyed_hash(key,input) and derive_key(key,context) return the first 32 bytes of the root node of the chunk tree over the input: 2048-byte chunks chained 64 bytes at a time, parents over a tree whose left subtree is always the largest power-of-two number of chunks that leaves at least one byte on the right, keyed by the mode's key words and tagged by the mode's flag.", "quantifier": "every input byte string a Rust slice can hold, every 32-byte key, all three modes, every platform the CPU detection can select, x86 and non-x86 constants, debug and release builds", "why_tests_cant": "The recursion mixes SIMD batches, power-of-two splits and multi-level condensing; the tree shape differs for every chunk count, and tests reach only a few dozen lengths.", "anchors": ["src/lib.rs: hash, keyed_hash, derive_key, hash_internal, hash_recurse, condense_root, hash_one_chunk, hash_chunks_parallel, hash_parents_parallel"]}
{"id": "C02", "title": "One-shot functions never panic", "statement": "No call of hash/keyed_hash/derive_key or their _xof variants hits an out-of-bounds slice, an ArrayVec overflow, a failed debug assertion, or an integer overflow.", "quantifier": "every slice (length up to isize::MAX on 32- and 64-bit targets), every key, every platform, debug and release builds", "why_tests_cant": "The buffers are sized by hand (MAX_SIMD_DEGREE, _OR_2, /2); whether they always suffice depends on the chunk count and cannot be enumerated.", "anchors": ["src/lib.rs: hash_recurse, condense_root, hash_parents_parallel, hash_chunks_parallel, largest_power_of_two_leq, left_len"]}
{"id": "C03", "title": "Streaming equals one-shot for every split of the input", "statement": "Feeding an input to a Hasher through any sequence of update calls and finalizing gives the same hash and the same extended output as the one-shot function of the same mode on the concatenation.", "quantifier": "every finite list of byte strings (including empty ones) with total length below 2^64 bytes, every mode, key and platform", "why_tests_cant": "There are exponentially many ways of splitting an input, and the lazy-merge subtree stack takes different paths in each.", "anchors": ["src/lib.rs: Hasher::update, Hasher::finalize, Hasher::finalize_xof, ChunkState"]}
{"id": "C04", "title": "The streaming hasher never panics below 2^64 bytes", "statement": "For any sequence of updates totalling fewer than 2^64 bytes, no update or finalize panics; in particular the 53-entry subtree stack never overflows, and offsets never wrap.", "quantifier": "every history of update and finalize calls with total input below 2^64 bytes", "why_tests_cant": "The stack bound is only tight near 2^64 bytes, which no test can feed.", "anchors": ["src/lib.rs: MAX_DEPTH, Hasher::push_chunk_hash, Hasher::merge_parent, Hasher::needs_merge, Hasher::update"]}
{"id": "C05", "title": "finalize is pure and can be interleaved with more input", "statement": "finalize and finalize_xof do not change the hasher: repeating them gives the same answer, and after more updates the answer is that of all bytes absorbed so far.", "quantifier": "every interleaving of update, finalize and finalize_xof calls on a hasher", "why_tests_cant": "Must hold for every history; internal state differs between histories that absorbed the same bytes.", "anchors": ["src/lib.rs: Hasher::finalize, Hasher::finalize_xof"]}
{"id": "C06", "title": "Clones are independent", "statement": "In a program holding any number of hashers created by new/new_keyed/new_derive_key/clone, every finalize on a handle returns the hash, under that handle's mode, of exactly the bytes fed to that handle (and to the handle it was cloned from, before the clone).", "quantifier": "every sequence of create, clone, update, write, finalize operations over any number of handles", "why_tests_cant": "Histories are unbounded and branch.", "anchors": ["src/lib.rs: Hasher (derive Clone), Hasher::new, Hasher::new_keyed, Hasher::new_derive_key"]}
{"id": "C07", "title": "Results do not depend on the detected CPU features", "statement": "Portable, SSE4.1 and AVX2 execution give identical hashes and identical extended output, one-shot and streaming.", "quantifier": "every input, key, mode; every pair of platforms", "why_tests_cant": "The SIMD code is a hand-scheduled different program; equality on a few blocks does not imply equality on all 2^512 blocks.", "anchors": ["src/platform.rs: Platform::compress, compress_xof, hash_many, simd_degree", "src/sse41.rs", "src/avx2.rs"]}
{"id": "C08", "title": "Results do not depend on rayon or on the thread schedule", "statement": "With rayon enabled, whatever order the two halves of each join run or interleave in, the result equals the sequential one.", "quantifier": "every input and every interleaving of the steps of the concurrently running halves, at every level of the recursion", "why_tests_cant": "Schedules are nondeterministic and cannot be enumerated by tests.", "anchors": ["src/lib.rs: join, hash_recurse"]}
{"id": "C09", "title": "Extended output is one fixed stream, read block by block", "statement": "The k-th call of Output::read returns bytes 64k..64k+63 of a stream that depends only on mode, key and input; hash() is its first 32 bytes; reading from a clone continues at the same place and does not disturb the original.", "quantifier": "every input, mode, key, number of reads up to 2^58 - 1", "why_tests_cant": "The stream is 2^64 bytes long.", "anchors": ["src/lib.rs: Output::read, Output::to_hash, hash_xof, keyed_hash_xof, derive_key_xof, Hasher::finalize_xof"]}
{"id": "C10", "title": "to_hash after reads", "statement": "Output::to_hash on an output from which k blocks were read returns the first 32 bytes of block k (so it is the default hash exactly when nothing was read).", "quantifier": "every output and every number of reads", "why_tests_cant": "Depends on the whole read history.", "anchors": ["src/lib.rs: Output::to_hash, Output::read"]}
{"id": "C11", "title": "Extended output ends at 2^64 bytes", "statement": "The documentation says any number of bytes can be read. After 2^58 blocks the 64-bit offset overflows: a debug build panics on the last block, and a release build silently starts repeating the stream from its beginning.", "quantifier": "every output, read counts at and beyond 2^58", "why_tests_cant": "2^58 reads are out of reach of a test.", "anchors": ["src/lib.rs: Output::read"]}
{"id": "C12", "title": "Hex form is faithful", "statement": "Hash::to_hex yields exactly 64 lowercase hex digits that decode back to the hash bytes; different hashes have different hex.", "quantifier": "every 32-byte hash", "why_tests_cant": "2^256 hashes.", "anchors": ["src/lib.rs: Hash::to_hex"]}
{"id": "C13", "title": "Hash equality is byte equality", "statement": "Comparing a Hash with a Hash or with a byte array is true exactly when all 32 bytes agree, and conversion to and from [u8; 32] loses nothing.", "quantifier": "every pair of 32-byte values", "why_tests_cant": "2^512 pairs; a constant-time comparison that drops a byte still passes most tests.", "anchors": ["src/lib.rs: PartialEq for Hash, PartialEq<[u8; 32]> for Hash, From"]}
{"id": "C14", "title": "Modes are domain separated", "statement": "The sets of compression-function inputs that hash, keyed_hash and derive_key can ever evaluate are pairwise disjoint: every call made in a mode carries that mode's flag and no other mode's flag.", "quantifier": "every pair of inputs, keys and different modes, every call made", "why_tests_cant": "A universally quantified non-overlap claim.", "anchors": ["src/lib.rs: Flags, hash_xof, keyed_hash_xof, derive_key_xof"]}
{"id": "C15", "title": "Root finalization is separated from interior nodes", "statement": "For every input exactly the last compression carries the ROOT flag; chaining values of interior chunks and parents are never computed with it, so no interior chaining value is the published hash of some other input's root evaluation unless the compression function collides.", "quantifier": "every input, mode and key, every compression call made", "why_tests_cant": "Quantifies over all calls of all inputs.", "anchors": ["src/lib.rs: IsRoot, hash_one_chunk, condense_root, hash_one_parent, finalize_xof"]}
{"id": "C16", "title": "Collision resistance reduces to the compression function", "statement": "If two different inputs have the same hash under the same key and mode, then two different inputs to the compression function, both among the calls made while computing these two hashes, have the same 32-byte result.", "quantifier": "every pair of different inputs, every key and mode, every compression function", "why_tests_cant": "A security reduction over all pairs of inputs.", "anchors": ["src/lib.rs: hash, keyed_hash, derive_key"]}
{"id": "C17", "title": "The three functions are collectively collision resistant", "statement": "If two hashes computed in different modes, or under different keys, or on different inputs, agree, then either a compression collision occurred among the calls made, or mode, key and input are all the same.", "quantifier": "every pair of (mode, key, input)", "why_tests_cant": "Same as C16, across modes and keys.", "anchors": ["src/lib.rs: hash, keyed_hash, derive_key, words_from_key_bytes"]}
{"id": "C18", "title": "The reference implementation computes the same function", "statement": "reference_impl's Hasher, fed through any sequence of updates, fills an output buffer of any length with the first bytes of the same stream the library produces.", "quantifier": "every list of updates with total below 2^64 bytes, every mode and key, every output length up to 2^64 - 64 (a Rust slice is shorter than 2^63)", "why_tests_cant": "Two independently structured programs (eager vs lazy merging) must agree on all inputs and splits.", "anchors": ["reference_impl/reference_impl.rs"]}
{"id": "C19", "title": "The Python implementation computes the same function", "statement": "python/baokeshed.py hash, keyed_hash and derive_key return, for any out_len, the first out_len bytes of the same stream. Keys longer than 32 bytes are cut to their first 32 bytes; shorter ones raise an exception whenever out_len is at least 1.", "quantifier": "every input below 2^64 bytes, every key of any length, every mode and every output length up to 2^64", "why_tests_cant": "Agreement over all inputs.", "anchors": ["python/baokeshed.py"]}
{"id": "C20", "title": "The C hasher computes the same function", "statement": "c/baokeshed.c's hasher_init/update/finalize give the library's hash for every split of the input, for total input up to 2^63 bytes.", "quantifier": "every list of updates with total at most 2^63 bytes, every key and flags used by the modes, every backend", "why_tests_cant": "Agreement over all inputs and splits.", "anchors": ["c/baokeshed.c"]}
{"id": "C21", "title": "The C hasher aborts above 2^63 bytes", "statement": "The C hasher checks its stack depth before merging, so hashing 2^63 + 2048 bytes of whole chunks fails an assertion although the input is below the 2^64 limit that the 53-entry stack is sized for.", "quantifier": "the claim refuted: for every total below 2^64 the C hasher finishes", "why_tests_cant": "Needs 2^63 bytes of input.", "anchors": ["c/baokeshed.c: hasher_push_chunk_hash", "c/baokeshed_impl.h: MAX_DEPTH"]}
{"id": "C22", "title": "SSE4.1 compression equals portable compression", "statement": "sse41::compress and sse41::compress_xof return the same words and bytes as portable::compress and portable::compress_xof.", "quantifier": "every chaining value, block, block length, offset and flags byte", "why_tests_cant": "2^800 inputs; the message schedule is hand-permuted per round.", "anchors": ["src/sse41.rs: compress, compress_xof, compress_inner"]}
{"id": "C23", "title": "SIMD hash_many equals hashing the inputs one by one", "statement": "sse41::hash_many and avx2::hash_many write the same bytes as portable::hash_many, for any number of inputs of any equal whole number of blocks, with any offset, offset delta and flags; they write only the first 32 bytes per input and leave the rest of the buffer alone.", "quantifier": "every number of inputs, every content, every offset and delta for which no offset overflows", "why_tests_cant": "Lane transposition and batch tails depend on the input count; contents are unbounded.", "anchors": ["src/sse41.rs: hash4, hash_many", "src/avx2.rs: hash8, hash_many", "src/portable.rs: hash1, hash_many"]}
{"id": "C24", "title": "The C SIMD backends equal the portable one", "statement": "compress_sse41/compress_avx512 and hash_many_{sse41,avx2,avx512,neon} agree with the portable C code, which agrees with the Rust portable code.", "quantifier": "every input count, content, offset, flags", "why_tests_cant": "As C22, C23.", "anchors": ["c/baokeshed_portable.c", "c/baokeshed_sse41.c", "c/baokeshed_avx2.c", "c/baokeshed_avx512.c", "c/baokeshed_neon.c"]}
{"id": "C25", "title": "copy_wide transfers exactly the reader's bytes", "statement": "copy_wide delivers to the writer exactly the bytes the reader returned, in order, retries interrupted reads, stops at end of file returning the exact byte count, and on an error has written exactly the bytes read before it. It ends whenever the reader does and the writer never fails, and panics if a reader claims more bytes than the buffer holds. WIDE_BUF_LEN is 16384 on x86 and never above 65536, as documented.", "quantifier": "every reader behaviour (any sequence of short reads, interruptions, errors, end of file) and every writer result", "why_tests_cant": "Reader behaviours are unbounded sequences.", "anchors": ["src/copy.rs: copy_wide"]}
{"id": "C26", "title": "Hashing through copy_wide or io::Write equals hashing the bytes", "statement": "Copying any reader into a Hasher gives the hash of the reader's content however the reads are segmented; write reports the full length and flush succeeds.", "quantifier": "every reader segmentation with interruptions", "why_tests_cant": "Unbounded segmentations.", "anchors": ["src/copy.rs", "src/lib.rs: impl io::Write for Hasher"]}
{"id": "C27", "title": "The command line tool hashes file content independent of how it is read", "statement": "For a regular file, the memory-mapped path and the streaming path give the same output; standard input, '-' and special files are streamed and give the hash of their content.", "quantifier": "every file content, every read segmentation, every key mode", "why_tests_cant": "Unbounded contents and segmentations.", "anchors": ["baokeshed_bin/src/main.rs: hash_one, open_input, maybe_memmap_input"]}
{"id": "C28", "title": "--length prints exactly that many bytes", "statement": "For a requested length n below 2^63 the tool prints exactly the 2n lowercase hex digits of the first n bytes of the extended output.", "quantifier": "every n < 2^63 and every output", "why_tests_cant": "n is a 64-bit number.", "anchors": ["baokeshed_bin/src/main.rs: print_hex"]}
{"id": "C29", "title": "--length of 2^63 or more misbehaves", "statement": "Doubling the length overflows: a debug build panics and a release build prints (n mod 2^63) bytes instead of n; for n = 2^63 nothing. This holds for standard input and for every list of inputs; a debug build that can read none of its inputs does not panic.", "quantifier": "every n at least 2^63 that fits in 64 bits, every list of inputs and every pattern of failures", "why_tests_cant": "Would print exabytes.", "anchors": ["baokeshed_bin/src/main.rs: print_hex"]}
{"id": "C30", "title": "Keys given on the command line are validated", "statement": "A key is accepted exactly when it is 64 hex digits; anything else ends with an error before any input is read or any hash printed; the accepted key is the decoded bytes; --derive-key selects derivation, --key selects keyed hashing.", "quantifier": "every key string", "why_tests_cant": "All strings.", "anchors": ["baokeshed_bin/src/main.rs: hash"]}
{"id": "C31", "title": "One bad input does not spoil the others", "statement": "With several inputs, each readable input's line is its own hash and name, each unreadable one gives an error line, in argument order, and the exit status is 1 exactly when some input failed.", "quantifier": "every list of inputs and every pattern of failures", "why_tests_cant": "Unbounded lists and failure patterns.", "anchors": ["baokeshed_bin/src/main.rs: hash"]}
{"id": "C32", "title": "Tree split point", "statement": "For any length above one chunk, the left part is a power-of-two number of whole chunks, leaves at least one byte for the right, and is the largest such length; the computation does not overflow.", "quantifier": "every length above 2048 that a slice can have", "why_tests_cant": "All lengths up to 2^63.", "anchors": ["src/lib.rs: left_len, largest_power_of_two_leq"]}
{"id": "C33", "title": "Keys are used in full", "statement": "Different 32-byte keys give different key words, and the key words convert back to the key bytes.", "quantifier": "every pair of keys", "why_tests_cant": "2^512 pairs.", "anchors": ["src/lib.rs: words_from_key_bytes, bytes_from_state_words"]}
{"id": "C34", "title": "Debug output reveals nothing", "statement": "Formatting a Hasher or an Output with Debug gives the same text whatever they contain.", "quantifier": "every pair of hashers, every pair of outputs", "why_tests_cant": "All states.", "anchors": ["src/lib.rs: Debug for Output, Debug for Hasher"]}
{"id": "C35", "title": "Work is linear and fixed by the length", "statement": "Hashing n bytes performs exactly the number of compressions given by n alone: one per 64-byte block of each chunk (at least one) plus one per parent, i.e. chunks minus one.", "quantifier": "every input", "why_tests_cant": "All lengths.", "anchors": ["src/lib.rs: hash_recurse, Hasher::update"]}
{"id": "C36", "title": "The 64-bit variant's backends agree", "statement": "The 64-bit-word portable Rust code and the C portable and SIMD versions compute the same compression and the same hash_many.", "quantifier": "every chaining value, block, offset, flags; every number of inputs", "why_tests_cant": "2^1300 inputs.", "anchors": ["src/portable64.rs", "c64/baokeshed64_portable.c", "c64/baokeshed64_avx2.c", "c64/baokeshed64_sse41.c", "c64/baokeshed64_neon.c", "c64/baokeshed64_avx512.c"]}
{"id": "C37", "title": "The Rust wrapper's memory suffices for the C hasher", "statement": "c::Hasher in Rust reserves 1664 bytes where the C struct has 1696, so hashing through it stays inside the object and is correct below 2^63 bytes, and the claim that it also is at 2^63 bytes, which the C hasher accepts, is false: the 53rd hash is written outside the object.", "quantifier": "every key, flags, list of updates and backend; the claim refuted ranges over totals up to 2^63 bytes", "why_tests_cant": "Needs 2^63 bytes of input; a memory error need not be visible.", "anchors": ["src/c.rs: Hasher", "c/baokeshed.c: hasher", "c/baokeshed_impl.h: MAX_DEPTH"]}
{"id": "C38", "title": "No wrong hash at or beyond 2^64 bytes", "statement": "Whether a sequence of updates of a Hasher succeeds depends on the lengths of the updates only. If it succeeds, the hash and the output are those of the concatenation, even at exactly 2^64 bytes; otherwise the Hasher panics, in release builds too, and it always does beyond 2^64 bytes. The claim that every total of up to 2^64 bytes is accepted is false: 2^64 bytes are accepted only if some update begins strictly inside the last chunk.", "quantifier": "every list of updates of any total length, mode, platform, build and machine word size", "why_tests_cant": "Needs 2^64 bytes of input.", "anchors": ["src/lib.rs: Hasher::update, Hasher::push_chunk_hash, MAX_DEPTH", "src/portable.rs: hash_many", "src/sse41.rs: hash_many", "src/avx2.rs: hash_many"]}
{"id": "C39", "title": "Cost and memory of a streaming step are bounded", "statement": "The state of a Hasher never exceeds 53 hashes and one block. An update of n bytes makes at most n/64 + n/2048 + 56 calls of the compression function, and finalize at most 54, however much was hashed before.", "quantifier": "every sequence of updates below 2^64 bytes, mode, platform and build", "why_tests_cant": "The bounds are reached only near 2^64 bytes and must hold after every history.", "anchors": ["src/lib.rs: Hasher::update, Hasher::finalize_xof, Hasher::push_chunk_hash, Hasher::merge_parent"]}
{"id": "C40", "title": "Which input lengths the library, the reference and the Python code accept", "statement": "The reference implementation hashes every input of up to 2^64 bytes correctly, however it is cut, and panics beyond; the Python functions accept every length and take offsets modulo 2^64. That all three accept the same inputs is false at exactly 2^64 bytes: there the library's Hasher panics on inputs which the other two hash.", "quantifier": "every mode, every sequence of updates of any total length, every output length, debug and release builds", "why_tests_cant": "The limit is at 2^64 bytes of input, which no test can feed.", "anchors": ["reference_impl/reference_impl.rs: Hasher::update, push_chunk_chaining_value, pop_stack", "python/baokeshed.py: hash_recurse, compress", "src/lib.rs: Hasher::update"]}
{"id": "C41", "title": "Printed text is complete on success and a prefix of it otherwise", "statement": "Standard output may fail at any write after taking part of the text, or the process may be stopped at any moment. Whatever was delivered by then is a prefix of the correct text (every input's line, in order). If the tool exits normally, with status 0 or 1, the whole text was delivered. It panics only if a write failed, and with a bad key or an unreadable standard input it delivers nothing.", "quantifier": "every system, every behaviour of standard output and every point at which it fails, every list of inputs and every outcome of reading them", "why_tests_cant": "The failure can happen after any byte; tests print to a pipe that never fails.", "anchors": ["baokeshed_bin/src/main.rs: main, hash, print_hex"]}
{"id": "C42", "title": "Keys and contents do not influence the control flow", "statement": "Two uses of the library in the same mode, with different keys and different inputs of the same lengths, make the same compression calls in the same order, with the same block lengths, offsets and flags, and either both return or both panic. What an observer of the sequence of operations learns is only the mode, the platform and the lengths.", "quantifier": "every pair of keys, every two sequences of inputs with the same lengths (of any size), every output length, every platform, debug and release builds", "why_tests_cant": "It relates all pairs of secrets; a test compares a few runs.", "anchors": ["src/lib.rs: hash_internal, hash_recurse, Hasher::update, Hasher::finalize_xof, Output::read", "src/platform.rs: Platform::hash_many"]}
{"id": "C43", "title": "The C hasher makes the compression calls of the tree hash and no others", "statement": "For every input, however it is cut into updates, and for every choice of backends, initialising, updating and finalising the C hasher compresses every block of the input once and every parent once, with the chaining values, block lengths, offsets and flags of the tree hash, and nothing else. The calls are those of the Rust library. Only the last one has the root flag, and all of them have the flags of the mode.", "quantifier": "every mode and key, every sequence of updates of at most 2^63 bytes in total (below 2^64 without assertions), every backend selection, size_t of 32 or 64 bits, any contents of uninitialised memory", "why_tests_cant": "Test vectors compare hashes; a call made twice, or one whose result is thrown away, does not change the hash, and inputs and cuts are unbounded.", "anchors": ["c/baokeshed.c: hasher_update, hasher_finalize, chunk_state_update", "c/baokeshed.c: hash_many"]}
{"id": "C44", "title": "Keys and contents do not influence the control flow of the C hasher", "statement": "Two runs of the C hasher with the same flags, different keys, and updates of the same lengths but different contents make the same compression calls in the same order, with the same block lengths, offsets and flags, and either both return or both abort. What is left over in uninitialised memory does not matter either.", "quantifier": "every pair of keys, every two sequences of updates with the same lengths (of any size), any contents of uninitialised memory, every backend selection, with or without assertions, size_t of 32 or 64 bits", "why_tests_cant": "It relates all pairs of secrets; a test compares a few runs, and cannot choose what is in uninitialised memory.", "anchors": ["c/baokeshed.c: hasher_update, hasher_finalize, chunk_state_update, hash_many"]}
{"id": "C45", "title": "At any length the C hasher stops or gives the right hash", "statement": "Initialising, updating and finalising the C hasher with any number of bytes either stops (a failed assertion, or a write past the end of the array of subtree hashes) or gives the specified hash of the concatenation; it never returns another hash. With more than 2^64 bytes in total, and with a single update of 2^64 bytes, it always stops.", "quantifier": "every sequence of updates of any total length, every key and mode, any contents of uninitialised memory, every backend selection, with or without assertions, size_t of 32 or 64 bits, an array of at most 53 hashes", "why_tests_cant": "The behaviour at 2^63 and 2^64 bytes cannot be reached by running the code, and the claim is about every length.", "anchors": ["c/baokeshed.c: hasher_update, hasher_push_chunk_hash, hasher_merge_parent, hasher_finalize", "c/baokeshed_impl.h: MAX_DEPTH", "src/c.rs: Hasher"]}
{"id": "C46", "title": "Programs with any number of C hashers, copies and repeated finalisation", "statement": "In a program that creates any number of C hashers, initialises them again, copies and overwrites them, updates and finalises them in any order, every hasher_finalize gives the hash, under the key and flags of that hasher, of exactly the bytes fed to it since it was last initialised (for a copy: also those fed to the original before the copy). The same holds for the Rust wrapper's Hasher, which is Copy.", "quantifier": "every program over any number of hashers, every input, key and flags, any contents of uninitialised memory, every backend selection, up to 2^63 bytes per hasher (below 2^63 for the wrapper)", "why_tests_cant": "The claim is about every order of calls and every state left over in a hasher that is initialised again.", "anchors": ["c/baokeshed.c: hasher_init, hasher_update, hasher_finalize", "src/c.rs: Hasher"]}
{"id": "C47", "title": "The input can be read back from the compression calls and the hash", "statement": "Whoever computed a hash by making its compression calls knows the input: from any list of calls with results that contains the calls of a run, in any order and among any others, and from the 32-byte hash, a fixed procedure returns exactly the mode, key and input, unless two calls in the list collide. Whatever the procedure returns does hash to the given hash, and if it returns nothing then no input whose calls are all in the list has that hash. This is the structural half of the claim that the tree hash is as good as its compression function (no lengths, chunks or subtrees are ambiguous).", "quantifier": "every compression function with 16 words of output (and blake_compress for the code), every list of calls, mode, key, input, hash, platform and way of feeding the input, and the C hasher", "why_tests_cant": "The claim quantifies over all inputs and all lists of calls; tests compare hashes and never invert them.", "anchors": ["src/lib.rs: hash_internal, keyed_hash, derive_key, Hasher", "src/portable.rs: compress", "c/baokeshed.c: hasher_update, hasher_finalize"]}
{"id": "C48", "title": "No instruction is executed that the CPU does not have", "statement": "The platform the Rust library selects at run time only ever executes functions whose instruction set the CPU has, for all arguments, provided the CPU has SSE4.1 whenever it has AVX2; without that provision it is false, because detection looks only for AVX2 while the AVX2 platform also runs SSE4.1 code. The C hasher built by build.rs does so on every machine that has the instruction sets the user named and, with c_detect, those of the machine that built it; it has no detection at run time.", "quantifier": "every CPU (set of features), every target, every selection of Cargo features, every machine that builds and every machine that runs, all arguments of the operations", "why_tests_cant": "Tests run on the CPU at hand and skip what it does not support; the claim is about every CPU.", "anchors": ["src/platform.rs: Platform::detect", "src/sse41.rs: hash_many", "src/avx2.rs: hash_many", "build.rs: detect_x86_features", "c/baokeshed.c: compress, hash_many", "Cargo.toml: features"]}
{"id": "C49", "title": "Wide buffers occupy all SIMD lanes", "statement": "If every update is given a multiple of WIDE_BUF_LEN bytes, then on x86 every batch of chunks the hasher compresses side by side has as many chunks as there are lanes, there are total/WIDE_BUF_LEN batches, and nothing is buffered. In any update of any hasher at most one batch, the last, is smaller. copy_wide gives full batches except for at most one when the reader fills the buffer; the documentation's claim that copy_wide takes care of this is false for readers that return less than WIDE_BUF_LEN bytes at a time: then no batch is ever full.", "quantifier": "all inputs under 2^64 bytes, all splits into updates, all modes and platforms, all hasher states, all readers", "why_tests_cant": "The batches cannot be observed through the API, so a test could only measure time; and the claim is about every split of the input and every reader.", "anchors": ["src/lib.rs: Hasher::update", "src/copy.rs: WIDE_BUF_LEN, copy_wide"]}
{"id": "C50", "title": "Recursion is shallow, and parallel time grows with the logarithm", "statement": "With enough threads, hashing n bytes in one call takes the time of at most 265 + 8 log2(number of chunks) compressions, and never more than 689, while the work is at least n/64. The recursion of the one-shot functions, and that of the Python implementation, is never nested deeper than log2 of the number of chunks (53 for the largest input), so neither the stack nor Python's recursion limit is a limit on the input.", "quantifier": "every input below the address space (2^64 or 2^32 bytes), every mode, platform and build; for Python every input", "why_tests_cant": "The bounds must hold for inputs no test can allocate, and the longest chain of dependent compressions cannot be observed from outside.", "anchors": ["src/lib.rs: hash_recurse, join, hash_internal, condense_root", "python/baokeshed.py: hash_recurse"]}
{"id": "C51", "title": "Whole programs run the same way whatever their secrets are", "statement": "Two programs that make the same API calls on the same handles in the same order, in the same modes and with inputs of the same lengths, but with different keys and different input contents, run in the same way: the same compression calls in the same order with the same sizes, block lengths, offsets and flags, the same ending (return or panic), and answers of the same sizes. This holds for any number of hashers, outputs, clones, repeated finalizations and interleaved reads, and for programs that use the C hasher (also for different contents of uninitialised memory).", "quantifier": "all pairs of programs over the public API (any history of calls, also beyond 2^64 bytes or with handles that do not exist), every build, any sequence of detected platforms, every build of the C code", "why_tests_cant": "It relates two runs with arbitrary secrets and arbitrary interleavings of calls; timing tests sample a few.", "anchors": ["src/lib.rs: Hasher, Output, update, finalize, finalize_xof, read, to_hash", "c/baokeshed.c: hasher_init, hasher_update, hasher_finalize"]}
{"id": "C52", "title": "The C hasher never touches memory outside its objects, for any program and any input length", "statement": "Compiled with assertions, no program that creates, reinitialises, copies, updates and finalises C hashers with properly sized objects ever reads or writes outside an object, even with more than 2^64 bytes: it ends normally, or the assertion stops it, and never below 2^63 + 2048 bytes. Without assertions this holds below 2^64 bytes and is false for every input longer than 2^64 bytes. With the shorter object of the Rust wrapper it holds below 2^63 bytes; with 2^63 bytes in groups of 16 chunks the assertion does not prevent an access outside.", "quantifier": "all programs of calls on any number of C hashers, all input lengths, all keys, flags and contents of uninitialised memory, every build of the C code", "why_tests_cant": "Memory safety must hold for every call sequence and for inputs of exabytes; sanitizers see only the runs they are given.", "anchors": ["c/baokeshed.c: hasher_init, hasher_update, hasher_finalize, hasher_push_chunk_hash", "src/c.rs: Hasher"]}
{"id": "C53", "title": "The unsafe Rust code never reads outside the memory its pointers refer to", "statement": "Whatever a program does with the public API, in debug and release builds, on any platform and for inputs of any length, the unchecked reads of the SIMD code (vector loads through raw pointers, and the conversion of a slice of references to an array of pointers) stay within the objects they point into, also when the output buffer is too short or an offset overflows. The unsafe functions hash4 and hash8 need only pointers to the stated number of blocks.", "quantifier": "all programs over the public API, all builds and platforms; for hash_many all arguments of its types; all possible outcomes of a read outside an object", "why_tests_cant": "Undefined behaviour may go unnoticed by a test, and the bounds must hold for every number and size of inputs.", "anchors": ["src/sse41.rs: hash_many, hash4, transpose_msg_vecs, loadu", "src/avx2.rs: hash_many, hash8, transpose_msg_vecs, loadu", "src/platform.rs: hash_many", "src/lib.rs: hash_chunks_parallel, hash_parents_parallel, update"]}
{"id": "C54", "title": "Extended output never repeats a block", "statement": "Without any assumption on the strength of the hash: no 64-byte block comes twice in the output of hash_xof, keyed_hash_xof, derive_key_xof or Hasher::finalize_xof, for fewer than 2^58 blocks; a release build repeats with a period of exactly 2^58 blocks. Appending zeros that only replace the padding of the last block of an input of at most one chunk changes every block of output. For one key and an input of at most 64 bytes, the keyed and the key derivation modes have no block of output in common.", "quantifier": "all inputs, keys, modes, sequences of updates, builds and platforms, all numbers of blocks read", "why_tests_cant": "It compares every pair of the 2^58 blocks of output, for every input.", "anchors": ["src/lib.rs: Output, read, finalize_xof, hash_xof, keyed_hash_xof, derive_key_xof", "src/portable.rs: compress, g, round"]}
{"id": "C55", "title": "Byte order of the machine and the C hasher", "statement": "The C hasher gives the specified hash on machines of either byte order if it is built without NEON, and with NEON if every update has fewer than 2048 bytes. Built with NEON it does not do so on big-endian machines otherwise: hash_many writes the bytes of each word in reverse for fewer than four inputs, so an update with one whole chunk and a part of another gives another hash. That the hash is the same on machines of either byte order is refuted by a message of 2049 bytes, which is hashed correctly when given in two updates.", "quantifier": "all byte orders, builds, keys, flags, sequences of updates of at most 2^63 bytes in total, and whatever the vector code does on a big-endian machine", "why_tests_cant": "The tests run on little-endian machines; which inputs are affected depends on how they are cut.", "anchors": ["c/baokeshed_neon.c: hash_one_neon, hash_many_neon, loadu_128", "c/baokeshed.c: hasher_update, hash_many", "c/baokeshed_impl.h: load32, store32"]}
{"id": "C56", "title": "Cost of a single call of the C hasher", "statement": "Whatever was fed before, hasher_update makes at most n/64 + n/2048 + 56 calls of the compression function for n bytes of input, and hasher_finalize makes at most 54, so work put off by earlier calls never adds up to more than a constant. The hasher never holds more than 53 subtree hashes.", "quantifier": "all builds, keys, modes, earlier updates and inputs, up to 2^63 bytes in total (2^64 without assertions)", "why_tests_cant": "A worst case over all histories; long inputs take too long to run.", "anchors": ["c/baokeshed.c: hasher_update, hasher_finalize, hasher_push_chunk_hash, hasher_merge_parent"]}
{"id": "C57", "title": "The steps inside a portable compression do not depend on data", "statement": "The portable compression functions (Rust and C) access the same arrays at the same indices and do the same arithmetic operations with the same rotation counts in the same order, whatever the chaining value, block, block length, offset and flags. So hashing two inputs of the same length with any two keys makes the same steps. A compression does exactly 792 additions, exclusive ors and rotations (800 for an output block) and reads each byte of its block once, in order, which gives the exact amount of arithmetic of a hash from the length of its input.", "quantifier": "all arguments of the compression functions; all keys, modes, programs and inputs", "why_tests_cant": "A timing test compares a few keys; the claim is about every pair of inputs.", "anchors": ["src/portable.rs: g, round, compress_inner, compress, compress_xof", "c/baokeshed_portable.c: g, round_fn, compress_portable"]}
{"id": "C58", "title": "The vector operations and memory accesses do not depend on data", "statement": "On every platform of the Rust library (portable, SSE4.1, AVX2) two calls of compress make the same vector operations with the same constants and the same loads and stores in the same order, whatever their arguments; so do two calls of hash_many whose inputs have the same lengths, and two whole runs (one-shot or incremental, hash or extended output) in the same mode whose inputs have the same lengths, whatever the keys and the inputs. The number of vector operations is exact: 391 for a compression, 393 for an output block, 1048 per block and 16 more for four inputs at once, 1064 per block and 24 more for eight.", "quantifier": "all platforms, keys, modes, inputs, chaining values, blocks, flags and splits of the input", "why_tests_cant": "A timing test compares a few keys on one machine; the claim is about every pair of inputs of the same length.", "anchors": ["src/sse41.rs: compress_inner, compress, compress_xof, transpose_vecs, transpose_msg_vecs, hash4, hash1, hash_many", "src/avx2.rs: transpose_vecs, transpose_msg_vecs, hash8, hash_many", "src/platform.rs: compress, compress_xof, hash_many", "src/lib.rs: hash_internal, Hasher"]}
{"id": "C59", "title": "hash_many reads each input byte once, in order, and stays inside its arrays", "statement": "On every platform of the Rust library, hash_many reads every byte of every input exactly once and in order, reads no byte beyond an input, and writes exactly the 32 bytes of output of each input, each once and in order. No load or store of hash_many or of the compression functions is outside the arrays given to them, in any run, also in one that panics or whose output is too short.", "quantifier": "all platforms, numbers and lengths of inputs, keys, offsets, flags and output buffers", "why_tests_cant": "An access outside an array usually goes unnoticed in a test, and reading a byte twice always does.", "anchors": ["src/portable.rs: hash1, hash_many", "src/sse41.rs: transpose_msg_vecs, hash4, hash1, hash_many", "src/avx2.rs: transpose_msg_vecs, hash8, hash_many", "src/platform.rs: hash_many"]}
{"id": "C60", "title": "All implementations are one function with one set of sizes", "statement": "For a key of the length that any of the implementations declares and any input of at most 2^63 bytes, the one-shot functions, the streaming hasher, the reference hasher, the Python functions and the C hasher with any backends return the same hash, however the input is split, and its length is the one each of them declares. The block, chunk, key and output lengths and the stack depth that the source files declare separately agree; those of the 64-bit variant agree between Rust and C and are twice as long for blocks and chunks.", "quantifier": "all modes, keys, inputs up to 2^63 bytes, splits, platforms and backends", "why_tests_cant": "Test vectors compare a few lengths; the claim is about every input.", "anchors": ["src/lib.rs: KEY_LEN, OUT_LEN, hash, Hasher", "reference_impl/reference_impl.rs: KEY_LEN, Hasher", "python/baokeshed.py: hash, keyed_hash, derive_key", "c/baokeshed_impl.h: KEY_LEN, OUT_LEN", "c64/baokeshed64_impl.h: CHUNK_LEN", "src/portable64.rs: CHUNK_LEN"]}
{"id": "C61", "title": "The C backends take the same steps whatever the data, and access each byte once", "statement": "In the C library, with every backend (portable, SSE4.1, AVX2, AVX-512, NEON), two compressions with any arguments take the same steps: vector operations with their constants, and memory accesses with their positions. So do two calls of hash_many with as many blocks of as many inputs, whatever the inputs, keys, offsets, offset deltas and flags. hash_many reads every byte of the blocks of every input exactly once and in order, writes every byte of its output exactly once and in order, and accesses nothing outside its inputs, 32 bytes of output for each input, and as many offset deltas as its declaration asks for. The number of vector operations of a compression, and of 4, 8 or 16 inputs at once, is a given linear function of the number of blocks.", "quantifier": "all backends, states, blocks, inputs, keys, offsets, offset deltas and flags", "why_tests_cant": "Tests see results, not which memory is accessed or which instructions run; and the claim compares all pairs of runs.", "anchors": ["c/baokeshed_portable.c: compress_portable, hash_many_portable", "c/baokeshed_sse41.c: compress_sse41, hash4_sse41, hash_many_sse41", "c/baokeshed_avx2.c: hash8_avx2, hash_many_avx2", "c/baokeshed_avx512.c: compress_avx512, hash4_avx512, hash8_avx512, hash16_avx512, hash_many_avx512", "c/baokeshed_neon.c: hash4_neon, hash_many_neon", "c/baokeshed.c: compress, hash_many"]}
{"id": "C62", "title": "Programs with the C hasher take the same steps whatever the data, and an update reads each byte once", "statement": "Two programs that initialise, copy, assign, feed and finalize hashers of the C library in the same order, with the same flags and inputs of the same lengths, take the same steps: vector operations, accesses of the backends, and accesses of the hasher to its input, its buffer, its stack and its local array, with their positions. Keys, inputs and the contents of uninitialised memory may differ. hasher_update reads every byte of its input exactly once and no byte outside it; hasher_finalize reads no input. All accesses are inside the input, the buffer, the stack and the local arrays; an update changes no byte of buffer or stack that it does not store to, and hasher_finalize stores to neither.", "quantifier": "all builds, backends, programs, keys, inputs, lengths of inputs and states of the hasher", "why_tests_cant": "Tests see results, not which memory is accessed or how often; and the claim compares all pairs of runs.", "anchors": ["c/baokeshed.c: hasher_init, hasher_update, hasher_finalize, chunk_state_update, chunk_state_finalize, hasher_push_chunk_hash, hash_one_parent"]}
{"id": "C63", "title": "The one-shot functions and each update read every byte of their input exactly once", "statement": "hash, keyed_hash, derive_key and their _xof versions read every byte of their input exactly once and no byte outside it, on every platform. So does each update of a Hasher, whatever it was fed before. finalize, finalize_xof and reads of extended output read no input.", "quantifier": "all configurations and platforms, modes, keys, inputs of any length, histories of updates, numbers of reads of output", "why_tests_cant": "Tests see results, not how often a byte of memory is read; a second read would matter if another process can write the input between the two.", "anchors": ["src/lib.rs: hash_one_chunk, hash_chunks_parallel, hash_recurse, ChunkState::update, ChunkState::fill_buf, Hasher::update, Hasher::finalize_xof", "src/platform.rs: hash_many"]}
{"id": "C64", "title": "Every call ends, whatever state the hasher is in", "statement": "Each call of the one-shot functions, update, finalize, finalize_xof and read returns or panics; none runs for ever. This holds for a Hasher or Output in any state, for instance one left behind by a panic that was caught, with any key and any input that fits into memory. The same is true of the reference implementation in every state its types allow, and of the Python functions (which return or raise).", "quantifier": "all build configurations, platforms, modes and keys of any length, inputs, hasher and output states, programs of calls; output lengths", "why_tests_cant": "Tests run from a few well-formed states; that no state makes a loop run for ever is about all of them.", "anchors": ["src/lib.rs: hash_internal, hash_recurse, condense_root, Hasher::update, Hasher::merge_parent, Hasher::finalize_xof, Output::read", "reference_impl/reference_impl.rs: Hasher::update, Hasher::finalize", "python/baokeshed.py: hash_recurse, hash_internal"]}
{"id": "C65", "title": "The 64-bit variant in C reads and writes each byte once, inside its arrays, in an order that does not depend on the data", "statement": "In each of the five hash_many functions of the 64-bit C code (portable, SSE4.1, AVX2, AVX-512, NEON), two calls with as many inputs and blocks access the same memory in the same order, whatever the inputs, key, offset, offset deltas and flags. A call that returns has read every byte of the blocks of every input exactly once and written each of the 32 bytes of output per input exactly once. It never accesses anything outside the inputs, the output, the key and the number of offset deltas its declaration asks for. The compression functions read each byte of the block once and replace the chaining value.", "quantifier": "all backends, numbers and lengths of inputs, numbers of blocks, keys, offsets, tables of deltas, flags and output buffers", "why_tests_cant": "A read past the end usually goes unnoticed, and tests cannot compare the accesses of all pairs of inputs.", "anchors": ["c64/baokeshed64_portable.c: baokeshed64_compress_portable, baokeshed64_hash_many_portable", "c64/baokeshed64_sse41.c: baokeshed64_hash2_sse41, baokeshed64_hash_many_sse41", "c64/baokeshed64_avx2.c: baokeshed64_compress_avx2, baokeshed64_hash4_avx2, baokeshed64_hash_many_avx2", "c64/baokeshed64_avx512.c: baokeshed64_compress_avx512, baokeshed64_hash2_avx512, baokeshed64_hash4_avx512, baokeshed64_hash8_avx512, baokeshed64_hash_many_avx512", "c64/baokeshed64_neon.c: baokeshed64_hash2_neon, baokeshed64_hash_many_neon"]}
{"id": "C66", "title": "Byte order of the machine in the 64-bit variant's NEON code", "statement": "With an odd number of inputs, the 64-bit variant's hash_many for NEON hashes the last input without vectors and copies the words of the result as they lie in memory. So on a big-endian machine that hash has the bytes of each word in reverse, and differs from the portable function's; on a little-endian machine it is the specified hash. With an even number of inputs the result is right on either machine if the vector code is. The claim that the function agrees with the portable one on machines of either byte order is false.", "quantifier": "both byte orders, any behaviour of the vector code on big-endian machines, all inputs, numbers of inputs and blocks, keys, offsets, deltas, flags and output buffers", "why_tests_cant": "Tests run on the machine at hand, which is little-endian, and with the numbers of inputs tried; the source has a TODO about big-endian ARM.", "anchors": ["c64/baokeshed64_neon.c: hash_one_neon, baokeshed64_hash_many_neon", "c64/baokeshed64_portable.c: baokeshed64_hash_many_portable"]}
{"id": "C67", "title": "Help, version and hashing in one tool", "statement": "With --help the tool prints exactly the usage text, with --version exactly its version and a newline; both end with status 0 and open and read nothing, whatever the other arguments are. Without these flags it hashes as C41 says. If a write to standard output fails it panics, and what was delivered is a prefix of the text.", "quantifier": "every command line after parsing, every system, every behaviour of standard output and every point at which it fails", "why_tests_cant": "Tests try some argument combinations with an output that never fails; this is about all of them.", "anchors": ["baokeshed_bin/src/main.rs: main, USAGE, VERSION", "baokeshed_bin/Cargo.toml: version"]}
