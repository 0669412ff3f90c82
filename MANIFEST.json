{
 "claims": [
  {
   "property": "C01",
   "status": "proved",
   "theorems": [
    "C01_one_shot_is_tree_hash",
    "tree_chunk",
    "tree_split"
   ],
   "note": "For every build configuration and every platform detection can return. tree_chunk and tree_split restate the specified tree recursively."
  },
  {
   "property": "C02",
   "status": "proved",
   "theorems": [
    "C02_one_shot_never_panics"
   ],
   "note": "Every slice index, ArrayVec push, debug assertion and overflow check is explicit in the model."
  },
  {
   "property": "C03",
   "status": "proved",
   "theorems": [
    "C03_streaming_is_tree_hash",
    "C03_streaming_is_one_shot",
    "C03_split_does_not_matter"
   ],
   "note": ""
  },
  {
   "property": "C04",
   "status": "proved",
   "theorems": [
    "C04_hasher_never_panics"
   ],
   "note": "Includes the 53-entry stack check."
  },
  {
   "property": "C05",
   "status": "proved",
   "theorems": [
    "C05_finalize_is_pure"
   ],
   "note": ""
  },
  {
   "property": "C06",
   "status": "proved",
   "theorems": [
    "C06_handles_are_independent"
   ],
   "note": "Programs over any number of hasher and output handles."
  },
  {
   "property": "C07",
   "status": "proved",
   "theorems": [
    "C07_platform_independent",
    "C07_streaming_platform_independent",
    "C07_detect"
   ],
   "note": ""
  },
  {
   "property": "C08",
   "status": "proved",
   "theorems": [
    "C08_every_schedule_same_output",
    "C08_every_schedule_tree_hash",
    "C08_every_schedule_ends",
    "C08_no_deadlock",
    "C08_no_data_race"
   ],
   "note": "The recursion as threads over shared memory; every interleaving of byte writes, forks and joins."
  },
  {
   "property": "C09",
   "status": "proved",
   "theorems": [
    "C09_C10_output_stream",
    "C09_C10_hasher_output",
    "C09_prefix",
    "C09_hash_is_prefix"
   ],
   "note": "Up to 2^58 - 1 reads; C11 says what happens after."
  },
  {
   "property": "C10",
   "status": "proved",
   "theorems": [
    "C09_C10_output_stream",
    "C09_C10_hasher_output"
   ],
   "note": ""
  },
  {
   "property": "C11",
   "status": "proved",
   "theorems": [
    "C11_any_number_of_bytes_refuted",
    "C11_debug_panics",
    "C11_release_repeats"
   ],
   "note": "The documented claim is refuted."
  },
  {
   "property": "C12",
   "status": "proved",
   "theorems": [
    "C12_hex",
    "C12_hex_injective"
   ],
   "note": ""
  },
  {
   "property": "C13",
   "status": "proved",
   "theorems": [
    "C13_equality",
    "C13_conversions"
   ],
   "note": "constant_time_eq is modelled from its documentation."
  },
  {
   "property": "C14",
   "status": "proved",
   "theorems": [
    "C14_mode_bits",
    "C14_modes_disjoint",
    "calls_determine",
    "hash_is_last_call",
    "C14_code_mode_bits",
    "C14_code_modes_disjoint",
    "code_calls",
    "traced_code"
   ],
   "note": "For the calls of the specification and for the calls the Rust code makes. Platform::hash_many is noted as a whole, one call per block of each input."
  },
  {
   "property": "C15",
   "status": "proved",
   "theorems": [
    "C15_root_flag",
    "C15_root_separate",
    "C15_interior_hash_collides",
    "C15_code_root_flag",
    "code_calls"
   ],
   "note": "For the calls of the specification and for the calls the Rust code makes."
  },
  {
   "property": "C16",
   "status": "proved",
   "theorems": [
    "C16_collision_reduction",
    "C17_collision_reduction"
   ],
   "note": ""
  },
  {
   "property": "C17",
   "status": "proved",
   "theorems": [
    "C17_collision_reduction",
    "C17_code_collision_reduction"
   ],
   "note": ""
  },
  {
   "property": "C18",
   "status": "proved",
   "theorems": [
    "C18_reference_is_tree_hash",
    "C18_reference_is_library"
   ],
   "note": "Output lengths up to 2^64 - 64; a Rust slice is shorter than 2^63."
  },
  {
   "property": "C19",
   "status": "proved",
   "theorems": [
    "C19_python_is_tree_hash",
    "C19_python_is_library",
    "C19_python_long_key",
    "C19_python_short_key"
   ],
   "note": "Inputs below 2^64 bytes, outputs up to 2^64 bytes. Python's recursion limit is not modelled."
  },
  {
   "property": "C20",
   "status": "proved",
   "theorems": [
    "C20_c_hasher_is_tree_hash",
    "C20_c_hasher_any_key",
    "C20_c_hasher_is_library",
    "C20_c_hasher_without_assertions"
   ],
   "note": "Any backend, any contents of uninitialised memory; size_t of 32 or 64 bits. Little-endian machines; for the byte order see C55."
  },
  {
   "property": "C21",
   "status": "proved",
   "theorems": [
    "C21_every_length_refuted",
    "C21_long_update_aborts",
    "C21_long_updates_abort"
   ],
   "note": "The claim that every length below 2^64 works is refuted; with NDEBUG it holds (C20_c_hasher_without_assertions)."
  },
  {
   "property": "C22",
   "status": "proved",
   "theorems": [
    "C22_sse41_compress"
   ],
   "note": ""
  },
  {
   "property": "C23",
   "status": "proved",
   "theorems": [
    "C23_hash_many",
    "C23_backends_agree",
    "C23_every_offset"
   ],
   "note": "C23_every_offset also covers offsets that overflow 64 bits."
  },
  {
   "property": "C24",
   "status": "proved",
   "theorems": [
    "C24_compress",
    "C24_hash_many_wraps",
    "C24_hash_many",
    "C24_chunk_deltas",
    "C24_rust_hash_many",
    "C24_popcnt"
   ],
   "note": "The five C hash_many functions and three C compression functions; memcpy between words and bytes is modelled on a little-endian machine."
  },
  {
   "property": "C25",
   "status": "proved",
   "theorems": [
    "C25_copy_wide",
    "C25_copy_wide_to_vec",
    "C25_copy_wide_ends",
    "C25_buffer_sizes",
    "C25_documented_sizes"
   ],
   "note": "Readers and writers are arbitrary state machines."
  },
  {
   "property": "C26",
   "status": "proved",
   "theorems": [
    "C26_copy_into_hasher",
    "C26_write"
   ],
   "note": ""
  },
  {
   "property": "C27",
   "status": "proved",
   "theorems": [
    "C27_same_content_same_text",
    "C27_stdin",
    "C27_stdin_fails",
    "C27_dash"
   ],
   "note": "The operating system is an arbitrary state machine; docopt is not modelled."
  },
  {
   "property": "C28",
   "status": "proved",
   "theorems": [
    "C28_print_hex",
    "C28_text"
   ],
   "note": ""
  },
  {
   "property": "C29",
   "status": "proved",
   "theorems": [
    "C29_every_length_refuted",
    "C29_big_lengths",
    "C29_big_lengths_inputs"
   ],
   "note": "The claim that every u64 length works is refuted."
  },
  {
   "property": "C30",
   "status": "proved",
   "theorems": [
    "C30_bad_key",
    "C31_every_input"
   ],
   "note": "hex::decode is modelled from its documentation."
  },
  {
   "property": "C31",
   "status": "proved",
   "theorems": [
    "C31_every_input"
   ],
   "note": ""
  },
  {
   "property": "C32",
   "status": "proved",
   "theorems": [
    "C32_left_len"
   ],
   "note": ""
  },
  {
   "property": "C33",
   "status": "proved",
   "theorems": [
    "C33_keys_in_full"
   ],
   "note": ""
  },
  {
   "property": "C34",
   "status": "proved",
   "theorems": [
    "C34_debug_reveals_nothing",
    "C34_debug_hash"
   ],
   "note": "The text is a constant in the code."
  },
  {
   "property": "C35",
   "status": "proved",
   "theorems": [
    "C35_number_of_calls",
    "C35_spec_number_of_calls",
    "code_calls",
    "traced_code"
   ],
   "note": "One-shot and streaming, all platforms and builds. Platform::hash_many is noted as a whole: a vector instruction working on several inputs counts once for each."
  },
  {
   "property": "C36",
   "status": "proved",
   "theorems": [
    "C36_compress",
    "C36_hash_many",
    "C36_chunk_deltas",
    "C36_key_words",
    "C36_rust_hash_many",
    "C36_c_is_rust"
   ],
   "note": "Portable Rust code and all five C backends against one specification, at every offset, also where it wraps around."
  },
  {
   "property": "C37",
   "status": "proved",
   "theorems": [
    "C37_wrapper_below_limit",
    "C37_wrapper_memory_suffices_refuted",
    "C37_wrapper_written_outside"
   ],
   "note": "The claim is refuted at 2^63 bytes and proved below."
  },
  {
   "property": "C38",
   "status": "proved",
   "theorems": [
    "C38_any_length",
    "C38_no_wrong_hash",
    "C38_beyond_panics",
    "C38_split_matters_at_2_64",
    "C38_limit_refuted"
   ],
   "note": "The claim that every total of up to 2^64 bytes is accepted is refuted."
  },
  {
   "property": "C39",
   "status": "proved",
   "theorems": [
    "C39_update_cost",
    "C39_finalize_cost",
    "C39_state_size"
   ],
   "note": "Calls as logged in LibCalls.v."
  },
  {
   "property": "C40",
   "status": "proved",
   "theorems": [
    "C40_reference_limit",
    "C40_python_no_limit",
    "C40_same_limit_refuted"
   ],
   "note": "The claim that all implementations accept the same inputs is refuted at 2^64 bytes; the exact limit of each is proved (the library's is C38)."
  },
  {
   "property": "C41",
   "status": "proved",
   "theorems": [
    "C41_inputs",
    "C41_stdin",
    "C41_stdin_fails",
    "C41_bad_key"
   ],
   "note": "For lengths below 2^63 (C29 says what happens above)."
  },
  {
   "property": "C42",
   "status": "proved",
   "theorems": [
    "C42_secret_independence"
   ],
   "note": "The level of detail is one compression call. Each compression function is straight-line code without branches or table look-ups that depend on data; C57 states this for the portable code."
  },
  {
   "property": "C43",
   "status": "proved",
   "theorems": [
    "C43_traced_code",
    "C43_c_calls",
    "C43_same_calls_as_library",
    "C43_number_of_calls",
    "C43_root_flag",
    "C43_mode_bits"
   ],
   "note": "hash_many is logged as one call per block of each input in order; that the SIMD code computes these is C24."
  },
  {
   "property": "C44",
   "status": "proved",
   "theorems": [
    "C44_c_secret_independence"
   ],
   "note": "The level of detail is one compression call, as for C42; C57 goes below it."
  },
  {
   "property": "C45",
   "status": "proved",
   "theorems": [
    "C45_stops_or_tree_hash",
    "C45_runs_agree",
    "C45_too_long_stops",
    "C45_long_update_stops"
   ],
   "note": "In the compiled code a write past the array is undefined behaviour; the model stops there."
  },
  {
   "property": "C46",
   "status": "proved",
   "theorems": [
    "C46_c_programs",
    "C46_c_programs_without_assertions",
    "C46_wrapper_programs",
    "C46_modes"
   ],
   "note": "Copies of a hasher are copies of its value: the struct holds no pointer."
  },
  {
   "property": "C47",
   "status": "proved",
   "theorems": [
    "C47_extracts",
    "C47_extracted",
    "C47_nothing_extracted",
    "C47_code",
    "C47_code_extracted",
    "C47_c_code"
   ],
   "note": "Absence of collisions among the calls is a hypothesis of the completeness half, as it must be; soundness has none."
  },
  {
   "property": "C48",
   "status": "proved",
   "theorems": [
    "C48_detected_platform",
    "C48_avx2_alone_refuted",
    "C48_c_build",
    "C48_c_build_contents"
   ],
   "note": "Needs the architectural fact that AVX2 implies SSE4.1 (sane), which build.rs names; refuted without it."
  },
  {
   "property": "C49",
   "status": "proved",
   "theorems": [
    "widths_are_of_update",
    "C49_wide_buffers",
    "C49_every_update",
    "C49_small_buffers",
    "C49_copy_wide",
    "C49_copy_wide_refuted",
    "C49_short_reads"
   ],
   "note": "C49_copy_wide_refuted: copy_wide does not fill its buffer, so a pipe never occupies all lanes."
  },
  {
   "property": "C50",
   "status": "proved",
   "theorems": [
    "time_is_of_code",
    "sequential_time",
    "C50_parallel_time",
    "C50_parallel_time_bounded",
    "C50_depth",
    "C50_python_depth"
   ],
   "note": "Time is counted in calls of the compression function; scheduling overhead is not modelled."
  },
  {
   "property": "C51",
   "status": "proved",
   "theorems": [
    "session_is_traced",
    "session_calls_agree",
    "C51_secret_independence",
    "c_session_is_traced",
    "c_session_calls",
    "C51_c_secret_independence"
   ],
   "note": "What is observed is the list of compression calls without the contents of their operands (SecretSpec), the ending and the answers' sizes."
  },
  {
   "property": "C52",
   "status": "proved",
   "theorems": [
    "outcome_is_of_code",
    "C52_no_access_outside",
    "C52_without_assertions",
    "C52_without_assertions_refuted",
    "C52_assertion",
    "C52_wrapper",
    "C52_wrapper_refuted"
   ],
   "note": "The two refuted theorems give the inputs for which the claim fails. Accesses are those of the hasher's own arrays (stack, block buffer, out, input); the SIMD kernels' loads are in Cpu and CSimd."
  },
  {
   "property": "C53",
   "status": "proved",
   "theorems": [
    "C53_programs",
    "C53_api",
    "C53_hash_many",
    "C53_hash4_hash8"
   ],
   "note": "Raw loads and stores with constant offsets into arrays of fixed size (the state and the block of compress, out of hash4/hash8) are safe by their types and not part of the model of wild reads."
  },
  {
   "property": "C54",
   "status": "proved",
   "theorems": [
    "C54_compression",
    "C54_no_repetition",
    "C54_no_repetition_hasher",
    "C54_period",
    "C54_padding",
    "C54_modes"
   ],
   "note": "About whole 64-byte blocks; nothing of this kind holds for the 32-byte hash without assumptions."
  },
  {
   "property": "C55",
   "status": "proved",
   "theorems": [
    "C55_byte_order",
    "C55_neon_few_inputs",
    "C55_two_chunks",
    "C55_big_endian_wrong",
    "C55_any_byte_order_refuted"
   ],
   "note": "How vectors lie in the memory of a big-endian machine is not modelled: the theorems hold for any hash4_neon."
  },
  {
   "property": "C56",
   "status": "proved",
   "theorems": [
    "C56_update_cost",
    "C56_finalize_cost"
   ],
   "note": "Calls as logged in CCalls.v."
  },
  {
   "property": "C57",
   "status": "proved",
   "theorems": [
    "C57_steps_are_of_the_code",
    "C57_same_steps",
    "C57_whole_runs",
    "C57_c_whole_runs",
    "C57_work_of_a_call",
    "C57_work_of_a_hash"
   ],
   "note": "Portable code; the vector code of the Rust library is C58. Steps of the loops around the compression calls are C42 and C44."
  },
  {
   "property": "C58",
   "status": "proved",
   "theorems": [
    "C58_steps_are_of_the_code",
    "C58_compress_same_steps",
    "C58_hash_many_same_steps",
    "C58_whole_runs",
    "C58_work_of_compress",
    "C58_work_of_hash4",
    "C58_work_of_hash8"
   ],
   "note": "Rust library. Steps: intrinsics with constants, loads and stores, table lookups; not the scalar arithmetic on offsets and lengths."
  },
  {
   "property": "C59",
   "status": "proved",
   "theorems": [
    "C59_each_byte_once",
    "C59_inside",
    "C59_compress_inside"
   ],
   "note": "The inputs are arrays of the same length, which the Rust types ensure. C53 is about the addresses computed from raw pointers."
  },
  {
   "property": "C60",
   "status": "proved",
   "theorems": [
    "C60_one_function",
    "C60_declared_sizes",
    "C60_declared_tables"
   ],
   "note": "Inputs longer than 2^63 bytes are in C38, C40 and C45."
  },
  {
   "property": "C61",
   "status": "proved",
   "theorems": [
    "C61_steps_are_of_the_code",
    "C61_compress_same_steps",
    "C61_hash_many_same_steps",
    "C61_each_byte_once",
    "C61_inside",
    "C61_compress_inside",
    "C61_work_of_compress",
    "C61_work_of_batches"
   ],
   "note": "The code is compiled C: that the compiler keeps the sequence of intrinsics is not part of the model. For NEON the declaration asks for 17 deltas and the theorem shows that 5 are enough."
  },
  {
   "property": "C62",
   "status": "proved",
   "theorems": [
    "C62_steps_are_of_the_code",
    "C62_programs_same_steps",
    "C62_input_read_once",
    "C62_finalize_reads_no_input",
    "C62_inside",
    "C62_programs_inside",
    "C62_other_bytes_unchanged",
    "C62_finalize_stores_nothing"
   ],
   "note": "Reads are those of the calls of memcpy and of the backends, each noted with its position; fields of structs that are numbers are not noted. That the compiler keeps these accesses is not part of the model."
  },
  {
   "property": "C63",
   "status": "proved",
   "theorems": [
    "C63_steps_are_of_the_code",
    "C63_one_shot_reads_once",
    "C63_update_reads_once",
    "C63_output_reads_no_input"
   ],
   "note": "Stated for calls that do not panic; that they do not is C02 and C04. The left half of the recursion runs before the right half in this model. That the compiler keeps these accesses is not part of the model."
  },
  {
   "property": "C64",
   "status": "proved",
   "theorems": [
    "C64_library_calls_end",
    "C64_programs_end",
    "C64_reference_calls_end",
    "C64_reference_starts_typed",
    "C64_python_calls_end"
   ],
   "note": "The C hasher is not included: from a state that was not initialised it can access memory outside its arrays, and C says nothing about what follows; for initialised hashers C45 and C52 say what every call does. The recursion limit of Python is not modelled (it raises an exception)."
  },
  {
   "property": "C65",
   "status": "proved",
   "theorems": [
    "C65_steps_are_of_the_code",
    "C65_same_steps",
    "C65_each_byte_once",
    "C65_inside",
    "C65_compress"
   ],
   "note": "Noted are the accesses to the arguments, not the arithmetic, which is straight-line code, nor local arrays and constant tables. The accesses inside one compression are written down from the source; the claim about them checks that list."
  },
  {
   "property": "C66",
   "status": "proved",
   "theorems": [
    "C66_little_endian",
    "C66_odd_number",
    "C66_one_input",
    "C66_even_number",
    "C66_any_byte_order_refuted"
   ],
   "note": "The general claim is refuted; what holds is proved. How vectors lie in memory on a big-endian machine is not modelled: the theorems hold for anything hash2_neon may do there."
  },
  {
   "property": "C67",
   "status": "proved",
   "theorems": [
    "C67_help",
    "C67_version",
    "C67_inputs",
    "C67_stdin",
    "C67_stdin_fails",
    "C67_bad_key"
   ],
   "note": "About parsed arguments. docopt's parsing is not modelled; docopt may answer --help by itself before main goes on. Lengths are below 2^63, as in C41."
  }
 ]
}
