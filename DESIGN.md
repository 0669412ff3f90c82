# Formal model of baokeshed in Rocq (Coq 8.16.1)

The claims are in `properties.jsonl`, the theorem names in `MANIFEST.json`, and the record of the tests against wrong
programs in `seeded/LOG.jsonl`. This file says how the model is built, what each property rests on, and what is not
modelled.

## Conventions

* Bytes, words, offsets and lengths are `N`. A `u8`/`u32`/`u64` value is an `N` below 2^8/2^32/2^64;
  theorems carry those ranges as hypotheses where the Rust or C type carries them (`bytes`, `words`, `mode_ok`).
* `[u8; n]`, slices and `ArrayVec`s are `list N` (or `list` of something); the length is explicit in the model
  wherever the code checks it.
* `&mut T` arguments become returned values. An output buffer is passed in and the new buffer is returned, so
  "the rest of the buffer is untouched" is a theorem, not an assumption.
* A panic, failed `debug_assert!`, failed C `assert`, out-of-bounds slice, or (in a debug build) arithmetic overflow
  is the explicit value `Panic`; a loop that runs out of fuel is the explicit value `NoFuel`. Theorems say `= Ok ...`,
  which excludes both.
* The build configuration is a parameter `cfg` (debug or release, x86 or not, 32- or 64-bit `usize`). In a release
  build overflow wraps and `debug_assert!` is skipped. Theorems quantify over `cfg`, and over every platform
  (`portable`, `sse41`, `avx2`) that CPU detection can return for it (`platform_ok`).
* Every definition of the model carries the file and lines it models. Model files contain no proofs, `*Facts.v` and
  `*Props.v` hold the proofs, and each `Prop_*.v` holds only theorem statements proved by `exact`, an example beside
  each that its hypotheses can be met, and `Print Assumptions`.

## Files (`rocq/theories/`)

| Layer | Specification (independent of the model) | Model of the code | Proofs | Theorems |
|---|---|---|---|---|
| arithmetic, slices | | `Base` | `BaseFacts` | |
| the function | `Spec`, `ManySpec`, `HexSpec` | | `TreeFacts`, `SpecFacts`, `SplitFacts` | `Prop_Spec` |
| src/portable.rs, sse41.rs, avx2.rs, platform.rs | `ManySpec`, `WrapSpec` | `Portable`, `Simd`, `SimdGen`, `SimdHash`, `Sse41`, `Avx2`, `Platform` | `CompressFacts`, `SimdFacts`, `RowFacts`, `RowCompress`, `ManyFacts`, `WrapFacts`, `SimdProps` | `Prop_Simd`, `Prop_Beyond` |
| src/lib.rs | `SessionSpec`, `WrapSpec` | `Lib`, `Session` | `ChunkFacts`, `LibFacts`, `HasherFacts`, `ApiFacts`, `HashFacts`, `OneShotFacts`, `StreamFacts`, `BeyondFacts` | `Prop_OneShot`, `Prop_Hasher`, `Prop_Output`, `Prop_Beyond` |
| rayon's `join` | | `Schedule` | `ScheduleFacts` | `Prop_Schedule` |
| calls of the compression function | `Calls`, `SecretSpec` | `LibCalls` (lib.rs again, with a log) | `SecurityFacts`, `TraceFacts`, `WeightFacts`, `StreamWeights`, `CallFacts`, `CostFacts`, `SecretFacts` | `Prop_Security`, `Prop_Calls`, `Prop_Cost`, `Prop_Secret` |
| src/copy.rs | `IoSpec` | `Io` | `IoFacts` | `Prop_Io` |
| baokeshed_bin | `CliSpec` | `Cli`, `CliOut`, `CliMain` | `CliFacts`, `CliBigFacts`, `CliOutFacts`, `CliMainFacts` | `Prop_Cli`, `Prop_CliOut`, `Prop_CliMain` |
| reference_impl | `WrapSpec` | `RefImpl` | `RefFacts`, `LimitFacts` | `Prop_Ref`, `Prop_Limits` |
| python | `WrapSpec` | `PyImpl` | `PyFacts`, `LimitFacts` | `Prop_Py`, `Prop_Limits` |
| c (compression, hash_many) | `ManySpec` | `CSimd` (and `SimdGen`) | `CSimdFacts`, `CSimdProps` | `Prop_CSimd` |
| c (hasher), src/c.rs | `CSpec` | `CImpl` | `CImplFacts`, `CImplProps` | `Prop_CHasher` |
| C hasher at any length | `CSpec` | (as above) | `CBeyondFacts` | `Prop_CBeyond` |
| programs using C hashers | `CSession` | `CSessionSpec` | `CSessionFacts` | `Prop_CSession` |
| reading an input off its hash | `Extract` | `LibCalls` | `ExtractFacts` | `Prop_Extract` |
| instruction sets | - | `Cpu` (platform.rs, sse41.rs, avx2.rs and the C backends again, with guards; build.rs) | `CpuFacts` | `Prop_Cpu` |
| SIMD lanes in use | - | `Widths` (lib.rs `update` again, noting the calls of hash_many) | `WidthFacts` | `Prop_Widths` |
| depth and parallel time | - | `Span` (lib.rs one-shot functions again, with the time of a join) | `SpanFacts` | `Prop_Span` |
| secrets in whole programs | - | `TSession` (programs with their compression calls), `NSession` (the same for C) | `TSessionFacts`, `NSessionFacts` | `Prop_TSession`, `Prop_NSession` |
| memory safety of the C hasher | - | `CSafe` (CImpl and CSession with failed assertions told from undefined behaviour) | `CSafeFacts` | `Prop_CSafe` |
| raw pointers in Rust | - | `Unsafe` (Sse41, Avx2, Platform, Lib, Session with the outcome of a wild read as an argument) | `UnsafeFacts` | `Prop_Unsafe` |
| certain differences | - | - | `PermFacts` (the rounds are injective) | `Prop_Perm` |
| byte order of the machine | c/baokeshed_neon.c:292-332 | `CByteOrder` | `CByteOrderFacts` | `Prop_ByteOrder` |
| cost of a call of the C hasher | c/baokeshed.c | `CCalls` | `CCostFacts` | `Prop_CCost` |
| steps inside a compression | src/portable.rs, c/baokeshed_portable.c | `Steps` (spec `StepsSpec`) | `StepsFacts` | `Prop_Steps` |
| steps of the vector code | src/sse41.rs, src/avx2.rs, src/platform.rs, src/lib.rs | `VOps`, `VSimdGen` (written by tools/gen_vsteps.py), `VSteps`, `LibSteps` (spec `VStepsSpec`) | `VStepsFacts`, `LibStepsFacts`, `VCountFacts` | `Prop_VSteps` |
| memory accesses of hash_many | src/portable.rs, src/sse41.rs, src/avx2.rs | `VSteps` (spec `VMemSpec`) | `VMemFacts` | `Prop_VMem` |
| all implementations together | all of the above (spec `AgreeSpec`) | | `AgreeFacts` | `Prop_Agree` |
| steps of the C backends | c/baokeshed_{portable,sse41,avx2,avx512,neon}.c, c/baokeshed.c dispatch (spec `VStepsSpec`, `VMemSpec`, `CVMemSpec`) | `VOps` `CVSteps` | `CVStepsFacts` `CVMemFacts` `CVCountFacts` | `Prop_CVSteps` |
| byte order of the machine, 64-bit variant | c64/baokeshed64_neon.c:279-321 | `C64Order` | `C64OrderFacts` | `Prop_C64Order` |
| memory accessed by the 64-bit variant in C | c64/baokeshed64_{portable,sse41,avx2,avx512,neon}.c (spec `C64MemSpec`) | `C64Mem` | `C64MemFacts` | `Prop_C64Mem` |
| termination in any state | src/lib.rs, reference_impl/reference_impl.rs, python/baokeshed.py (spec `EndSpec`) | `Lib`, `RefImpl`, `PyImpl` | `EndFacts` | `Prop_Ends` |
| reads of the input by the library | src/lib.rs: one-shot functions, Hasher (spec `CHStepsSpec`) | `LibSteps` | `LibReadFacts` | `Prop_LibReads` |
| steps of the C hasher | c/baokeshed.c: all functions (spec `VStepsSpec`, `CHStepsSpec`, `CHMemSpec`) | `CHSteps` on top of `CVSteps` | `CHStepsFacts` `CHMemFacts` `CHBoundFacts` | `Prop_CHSteps` |
| calls of the C hasher | `Calls`, `SecretSpec` | `CCalls` (the C hasher again, with a log) | `CTraceFacts`, `CWeights`, `CCallFacts`, `CSecretFacts` | `Prop_CCalls`, `Prop_CSecret` |
| src/portable64.rs, c64 | `Spec64` | `Portable64`, `C64`, `Simd64`, `Simd64Gen` | `Compress64Facts`, `Simd64Facts`, `Row64Facts`, `C64Facts`, `C64KeyFacts` | `Prop_C64` |

`Samples` holds the inputs of the examples. `SimdGen` and `Simd64Gen` are transcriptions of long straight-line SIMD
code; `tools/gen_simd.py`, `tools/gen_simd64.py` and `tools/gen_vsteps.py` produced them from the source text and they are committed.

## Per property

| Id | What is modelled | How it is proved |
|----|----------|-------|
| C01 | the one-shot path of lib.rs on top of `Platform` | level-by-level pairing = left-balanced tree; induction on the recursion fuel |
| C02 | same, with every check explicit | the same induction carries the buffer bounds |
| C03 | `Hasher`, `ChunkState` | invariant: the stack is the binary decomposition of the chunk list, merged lazily |
| C04 | same | stack length = popcount, plus at most 1, at most 53 below 2^64 bytes |
| C05, C06 | programs over any number of handles | simulation by an abstract machine (`SessionSpec`) |
| C07 | `Platform` dispatch and detection | C22, C23, C01, C03 |
| C08 | the recursion as threads that write single bytes of a shared buffer, fork and join | disjoint slices; every interleaving ends with the sequential result; no two threads touch the same byte |
| C09, C10 | `Output` | invariant on the block counter after k reads |
| C11 | same, at the end of the counter | the documented claim is refuted; what happens instead is proved for both builds |
| C12, C13, C33, C34 | `to_hex`, `PartialEq`, key words, `Debug` | computation on nibbles and bytes, induction |
| C14, C15, C35 | `Calls`: the compression calls of the specification; `LibCalls`: the calls lib.rs makes | the log of the code is a permutation of the specified calls, shown by adding up arbitrary weights |
| C16, C17 | same | a collision of the hash gives a collision of the compression function among the calls made |
| C18 | reference_impl.rs | stack invariant with eager merging |
| C19 | baokeshed.py | bit_length gives the largest power of two; induction |
| C20, C21, C37 | c/baokeshed.c with its array of bytes and uninitialised memory; the struct of src/c.rs | the C03 invariant on a byte array of given size; the assertion bound; two claims refuted |
| C22–C24 | intrinsics on lists of lanes, instruction lists for the vector rounds | symbolic evaluation of each round, lane homomorphism |
| C25, C26 | readers and writers as arbitrary state machines | induction over the calls |
| C27–C31 | the tool over an arbitrary operating system state machine | case analysis, induction over the arguments; C29's claim refuted |
| C32 | `left_len`, `largest_power_of_two_leq` | arithmetic |
| C36 | portable64.rs and all of c64 | as C22–C24 with 64-bit lanes |
| C38 | `Hasher` and `hash_many` without any bound on the length | the stack is full before chunk 2^53, so a batch that would pass 2^64 panics whatever it hashed; one claim refuted |
| C39 | the logged update and finalize of `LibCalls` | the calls made so far are 33 per chunk minus the stack size; differences |
| C40 | reference_impl.rs and baokeshed.py without any bound on the length | a full stack pops one entry too many; Python's offsets are masked; one claim refuted |
| C41 | main.rs with every `print!` a call to a line-buffered standard output that may fail | the printing functions emit in order the text of the pure model; a failure leaves a prefix |
| C42 | `LibCalls`: the ordered log of compression calls without the data in it, and how the run ends | two runs are related step by step: equal lengths, offsets and flags, contents free; hash_many panics by its offsets alone |
| C43 | `CCalls`: the log of compression calls of the C hasher | as C35: weights carried through the invariant of the C hasher; the log is a permutation of the specified calls |
| C44 | the same log without the data in it, and how the run ends | as C42, with the C state; contents of uninitialised memory are free too |
| C45 | the C hasher without a bound on the length; `Panic` is a failed assertion or a write past `subtree_hashes` | every step fails or keeps the invariant of C20; the push of chunk 2^53-1 finds 53 entries and fails |
| C46 | an arbitrary program over variables of type hasher: init, init again, copy, assign, update, finalize; a struct is a value | every variable keeps the invariant of C20 for the bytes fed to it; induction over the program |
| C47 | an executable procedure that is given a table of compression calls with their results and a hash, and no compression function | complete: without collisions each looked-up result leads back to its call, induction over blocks and over the tree, fuel from the offsets of the chunks; sound: it checks what it found against the table, which agrees with the compression function on the calls |
| C48 | each backend function guarded by the instruction sets it is compiled for, with an arbitrary outcome if one is missing; detection at run time (Rust) and in the build (C) | the guarded operations of the selected backend equal the unguarded ones, as functions; the counterexample for AVX2 without SSE4.1 |
| C49 | `update` with a log of the number of chunks given to each hash_many call, as a writer for `copy_wide` | induction over the batches, the inputs and the reads; the log does not change what is returned |
| C50 | the one-shot functions with times: the time of a join is the maximum (or the sum) of its halves; the recursion with a limit on its depth | induction over the recursion; with the sum the time is the number of calls noted in LibCalls |
| C51 | Session and CSession with the list of compression calls; two programs that differ in secrets only | a relation between the states of the two runs, kept by every call |
| C52 | hasher of CImpl with two ways to stop: a failed assertion, an access outside an object | every run is classified by the number of bytes fed, for any program of calls |
| C53 | unchecked reads of sse41.rs and avx2.rs with an arbitrary outcome outside the object | the outcome never matters: the code equals the model without such reads, for any arguments |
| C54 | `Spec` (the compression), `Lib` | G, a round and the seven rounds are injective for a fixed message; so the output determines offset, length and flags |
| C55 | `CByteOrder`: the hasher with the bytes of a word in either order, and any `hash4_neon` | small updates do not reach `hash_many`; otherwise the first chunk's hash is followed through update and finalize. One message is computed |
| C56 | `CCalls` | the calls made so far are counted by what the hasher holds, as for C39 |
| C57 | `Steps` | the compression functions again, noting array accesses and operations; two runs have the same steps by walking through the statements, and C42/C44 give the same calls |
| C58 | `VSteps`, `LibSteps` | the code of the platforms and of the library again, noting each intrinsic with its constants and each load and store; a relation between two runs (same steps, results of the same length) is kept by every statement |
| C59 | `VSteps` | the list of memory accesses; the pieces read of each input are followed through the loops; bounds for every run, also one that panics |
| C60 | the models of C01, C03, C18, C19 and C20 | their theorems put together, and the declared constants compared |
| C61 | `CVSteps` | as C58 and C59, for the C backends: values, then equal steps for any two calls, then the pieces read and written, bounds, and counts |
| C62 | `CHSteps` | values as in C61; same steps by relating two runs as in C43 and C51; bytes read by counting the steps that cover a position |
| C63 | `LibSteps`, which notes where in the input each load and each call of compress is | bytes read by counting the steps that cover a position, hash_many from C59 |
| C64 | `Lib`, `RefImpl`, `PyImpl`; a loop that runs out of fuel is a separate outcome of the model | a measure that falls in each iteration, without assuming anything of the state |
| C65 | `C64Mem`: the functions of `C64` with a list of the memory accesses | induction on the loops; the accesses of a loop follow from lengths alone |
| C66 | `C64Order`: `hash_many_neon` with the bytes of a word in either order, and any `hash2_neon` | induction on the pairs of inputs; one input's hash is computed for the refutation |
| C67 | `CliMain`: `main` with its two texts, over the hashing and the printing of C41 | cases on the two flags; the printing main emits the text of the pure one |

No property was left out and none is partial. Claims that turned out false are stated and refuted (`..._refuted`), next
to theorems saying what is true instead: C11, C21, C29, C37, C38, C40.

## Trusted base

* Coq's kernel. `coqchk` re-checks all compiled files (vcheck runs it).
* `Print Assumptions` for every theorem in every `Prop_*.v`: "Closed under the global context". No axioms are used, not
  even the standard library's. (`coqchk` lists seven names of `Coq.ssr.ssrunder.Under_rel`, a sealed module of the
  standard library that is loaded with it; no theorem here depends on them.)
* The fidelity of the model to the source text, which was transcribed by hand and, for the SIMD rounds, by the two
  scripts in `tools/`.
* The semantics of the vector intrinsics in `Simd.v` and `Simd64.v`, written from Intel's and Arm's descriptions.
* The behaviour of dependencies, written from their documentation: `arrayvec`, `constant_time_eq`, `hex`,
  `std::io::Read`/`Write`, line-buffered `std::io::Stdout`, `memmap`, rayon's `join` (both closures run, in any interleaving, and are finished when it
  returns).

## Not modelled

* Tests, benchmarks and build scripts: src/test.rs, benches/bench.rs, baokeshed_bin/tests, python/test_baokeshed.py,
  Makefiles. Of build.rs, only which backends it selects (C48).
* What `is_x86_feature_detected!` does to find out what the CPU has: theorems quantify over its answers. In C48 an
  instruction set is a property of whole functions (`target_feature`, or the flags a C file is compiled with).
* Timing, and memory safety beyond the bounds written into the model (a slice index or an array access outside its
  bounds is a `Panic` of the model; C52 tells it from a failed assertion of the C hasher, and
  C53 from a panic for the raw pointers of the Rust code; aliasing and alignment are
  not modelled).
* docopt's parsing of the command line, text on standard error, files that change while they
  are mapped (a mapped file is a list of bytes), rayon's and memmap's internals.
* Memory limits everywhere. (For Python's recursion limit, see C50.)
* Vectors in the memory of big-endian machines, which only concerns `hash4_neon` and the 64-bit variant's `hash2_neon`
  (C55 and C66 hold for anything they may do). The portable C code converts words byte by byte, as does its model, so
  the byte order does not matter there.
* In `LibCalls`, `Platform::hash_many` is logged as a whole: one call per block of each input, in order. That its result
  is that of these calls is C23. The same holds for `hash_many` in `CCalls`, with C24.
* In C08 each thread's `hash_many` and `compress` run in one step on its own data; the bytes they write are then
  written one by one.
* The 64-bit variant has compression functions and hash_many only in the repository, no hasher.
