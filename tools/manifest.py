#!/usr/bin/env python3
"""Write MANIFEST.json from the table below."""
import json
P = "proved"
T = [
 ("C01", P, ["C01_one_shot_is_tree_hash", "tree_chunk", "tree_split"],
  "For every build configuration and every platform detection can return. tree_chunk and tree_split restate the specified tree recursively."),
 ("C02", P, ["C02_one_shot_never_panics"], "Every slice index, ArrayVec push, debug assertion and overflow check is explicit in the model."),
 ("C03", P, ["C03_streaming_is_tree_hash", "C03_streaming_is_one_shot", "C03_split_does_not_matter"], ""),
 ("C04", P, ["C04_hasher_never_panics"], "Includes the 53-entry stack check."),
 ("C05", P, ["C05_finalize_is_pure"], ""),
 ("C06", P, ["C06_handles_are_independent"], "Programs over any number of hasher and output handles."),
 ("C07", P, ["C07_platform_independent", "C07_streaming_platform_independent", "C07_detect"], ""),
 ("C08", P, ["C08_every_schedule_same_output", "C08_every_schedule_tree_hash", "C08_every_schedule_ends", "C08_no_deadlock", "C08_no_data_race"],
  "The recursion as threads over shared memory; every interleaving of byte writes, forks and joins."),
 ("C09", P, ["C09_C10_output_stream", "C09_C10_hasher_output", "C09_prefix", "C09_hash_is_prefix"], "Up to 2^58 - 1 reads; C11 says what happens after."),
 ("C10", P, ["C09_C10_output_stream", "C09_C10_hasher_output"], ""),
 ("C11", P, ["C11_any_number_of_bytes_refuted", "C11_debug_panics", "C11_release_repeats"], "The documented claim is refuted."),
 ("C12", P, ["C12_hex", "C12_hex_injective"], ""),
 ("C13", P, ["C13_equality", "C13_conversions"], "constant_time_eq is modelled from its documentation."),
 ("C14", P, ["C14_mode_bits", "C14_modes_disjoint", "calls_determine", "hash_is_last_call", "C14_code_mode_bits", "C14_code_modes_disjoint", "code_calls", "traced_code"], "For the calls of the specification and for the calls the Rust code makes. Platform::hash_many is noted as a whole, one call per block of each input."),
 ("C15", P, ["C15_root_flag", "C15_root_separate", "C15_interior_hash_collides", "C15_code_root_flag", "code_calls"], "For the calls of the specification and for the calls the Rust code makes."),
 ("C16", P, ["C16_collision_reduction", "C17_collision_reduction"], ""),
 ("C17", P, ["C17_collision_reduction", "C17_code_collision_reduction"], ""),
 ("C18", P, ["C18_reference_is_tree_hash", "C18_reference_is_library"], "Output lengths up to 2^64 - 64; a Rust slice is shorter than 2^63."),
 ("C19", P, ["C19_python_is_tree_hash", "C19_python_is_library", "C19_python_long_key", "C19_python_short_key"], "Inputs below 2^64 bytes, outputs up to 2^64 bytes. Python's recursion limit is not modelled."),
 ("C20", P, ["C20_c_hasher_is_tree_hash", "C20_c_hasher_any_key", "C20_c_hasher_is_library", "C20_c_hasher_without_assertions"], "Any backend, any contents of uninitialised memory; size_t of 32 or 64 bits. Little-endian machines; for the byte order see C55."),
 ("C21", P, ["C21_every_length_refuted", "C21_long_update_aborts", "C21_long_updates_abort"], "The claim that every length below 2^64 works is refuted; with NDEBUG it holds (C20_c_hasher_without_assertions)."),
 ("C22", P, ["C22_sse41_compress"], ""),
 ("C23", P, ["C23_hash_many", "C23_backends_agree", "C23_every_offset"], "C23_every_offset also covers offsets that overflow 64 bits."),
 ("C24", P, ["C24_compress", "C24_hash_many_wraps", "C24_hash_many", "C24_chunk_deltas", "C24_rust_hash_many", "C24_popcnt"], "The five C hash_many functions and three C compression functions; memcpy between words and bytes is modelled on a little-endian machine."),
 ("C25", P, ["C25_copy_wide", "C25_copy_wide_to_vec", "C25_copy_wide_ends", "C25_buffer_sizes", "C25_documented_sizes"], "Readers and writers are arbitrary state machines."),
 ("C26", P, ["C26_copy_into_hasher", "C26_write"], ""),
 ("C27", P, ["C27_same_content_same_text", "C27_stdin", "C27_stdin_fails", "C27_dash"], "The operating system is an arbitrary state machine; docopt is not modelled."),
 ("C28", P, ["C28_print_hex", "C28_text"], ""),
 ("C29", P, ["C29_every_length_refuted", "C29_big_lengths", "C29_big_lengths_inputs"], "The claim that every u64 length works is refuted."),
 ("C30", P, ["C30_bad_key", "C31_every_input"], "hex::decode is modelled from its documentation."),
 ("C31", P, ["C31_every_input"], ""),
 ("C32", P, ["C32_left_len"], ""),
 ("C33", P, ["C33_keys_in_full"], ""),
 ("C34", P, ["C34_debug_reveals_nothing", "C34_debug_hash"], "The text is a constant in the code."),
 ("C35", P, ["C35_number_of_calls", "C35_spec_number_of_calls", "code_calls", "traced_code"], "One-shot and streaming, all platforms and builds. Platform::hash_many is noted as a whole: a vector instruction working on several inputs counts once for each."),
 ("C36", P, ["C36_compress", "C36_hash_many", "C36_chunk_deltas", "C36_key_words", "C36_rust_hash_many", "C36_c_is_rust"], "Portable Rust code and all five C backends against one specification, at every offset, also where it wraps around."),
 ("C37", P, ["C37_wrapper_below_limit", "C37_wrapper_memory_suffices_refuted", "C37_wrapper_written_outside"], "The claim is refuted at 2^63 bytes and proved below."),
 ("C38", P, ["C38_any_length", "C38_no_wrong_hash", "C38_beyond_panics", "C38_split_matters_at_2_64", "C38_limit_refuted"], "The claim that every total of up to 2^64 bytes is accepted is refuted."),
 ("C39", P, ["C39_update_cost", "C39_finalize_cost", "C39_state_size"], "Calls as logged in LibCalls.v."),
 ("C40", P, ["C40_reference_limit", "C40_python_no_limit", "C40_same_limit_refuted"], "The claim that all implementations accept the same inputs is refuted at 2^64 bytes; the exact limit of each is proved (the library's is C38)."),
 ("C41", P, ["C41_inputs", "C41_stdin", "C41_stdin_fails", "C41_bad_key"], "For lengths below 2^63 (C29 says what happens above)."),
 ("C42", P, ["C42_secret_independence"], "The level of detail is one compression call. Each compression function is straight-line code without branches or table look-ups that depend on data; C57 states this for the portable code."),
 ("C43", P, ["C43_traced_code", "C43_c_calls", "C43_same_calls_as_library", "C43_number_of_calls", "C43_root_flag", "C43_mode_bits"], "hash_many is logged as one call per block of each input in order; that the SIMD code computes these is C24."),
 ("C44", P, ["C44_c_secret_independence"], "The level of detail is one compression call, as for C42; C57 goes below it."),
 ("C45", P, ["C45_stops_or_tree_hash", "C45_runs_agree", "C45_too_long_stops", "C45_long_update_stops"], "In the compiled code a write past the array is undefined behaviour; the model stops there."),
 ("C46", P, ["C46_c_programs", "C46_c_programs_without_assertions", "C46_wrapper_programs", "C46_modes"], "Copies of a hasher are copies of its value: the struct holds no pointer."),
 ("C47", P, ["C47_extracts", "C47_extracted", "C47_nothing_extracted", "C47_code", "C47_code_extracted", "C47_c_code"], "Absence of collisions among the calls is a hypothesis of the completeness half, as it must be; soundness has none."),
 ("C48", P, ["C48_detected_platform", "C48_avx2_alone_refuted", "C48_c_build", "C48_c_build_contents"], "Needs the architectural fact that AVX2 implies SSE4.1 (sane), which build.rs names; refuted without it."),
 ("C49", P, ["widths_are_of_update", "C49_wide_buffers", "C49_every_update", "C49_small_buffers", "C49_copy_wide", "C49_copy_wide_refuted", "C49_short_reads"], "C49_copy_wide_refuted: copy_wide does not fill its buffer, so a pipe never occupies all lanes."),
 ("C50", P, ["time_is_of_code", "sequential_time", "C50_parallel_time", "C50_parallel_time_bounded", "C50_depth", "C50_python_depth"], "Time is counted in calls of the compression function; scheduling overhead is not modelled."),
 ("C51", P, ["session_is_traced", "session_calls_agree", "C51_secret_independence", "c_session_is_traced", "c_session_calls", "C51_c_secret_independence"], "What is observed is the list of compression calls without the contents of their operands (SecretSpec), the ending and the answers' sizes."),
 ("C52", P, ["outcome_is_of_code", "C52_no_access_outside", "C52_without_assertions", "C52_without_assertions_refuted", "C52_assertion", "C52_wrapper", "C52_wrapper_refuted"], "The two refuted theorems give the inputs for which the claim fails. Accesses are those of the hasher's own arrays (stack, block buffer, out, input); the SIMD kernels' loads are in Cpu and CSimd."),
 ("C53", P, ["C53_programs", "C53_api", "C53_hash_many", "C53_hash4_hash8"], "Raw loads and stores with constant offsets into arrays of fixed size (the state and the block of compress, out of hash4/hash8) are safe by their types and not part of the model of wild reads."),
 ("C54", P, ["C54_compression", "C54_no_repetition", "C54_no_repetition_hasher", "C54_period", "C54_padding", "C54_modes"], "About whole 64-byte blocks; nothing of this kind holds for the 32-byte hash without assumptions."),
 ("C55", P, ["C55_byte_order", "C55_neon_few_inputs", "C55_two_chunks", "C55_big_endian_wrong", "C55_any_byte_order_refuted"], "How vectors lie in the memory of a big-endian machine is not modelled: the theorems hold for any hash4_neon."),
 ("C56", P, ["C56_update_cost", "C56_finalize_cost"], "Calls as logged in CCalls.v."),
 ("C57", P, ["C57_steps_are_of_the_code", "C57_same_steps", "C57_whole_runs", "C57_c_whole_runs", "C57_work_of_a_call", "C57_work_of_a_hash"], "Portable code; the vector code of the Rust library is C58. Steps of the loops around the compression calls are C42 and C44."),
 ("C58", P, ["C58_steps_are_of_the_code", "C58_compress_same_steps", "C58_hash_many_same_steps", "C58_whole_runs", "C58_work_of_compress", "C58_work_of_hash4", "C58_work_of_hash8"], "Rust library. Steps: intrinsics with constants, loads and stores, table lookups; not the scalar arithmetic on offsets and lengths."),
 ("C59", P, ["C59_each_byte_once", "C59_inside", "C59_compress_inside"], "The inputs are arrays of the same length, which the Rust types ensure. C53 is about the addresses computed from raw pointers."),
 ("C60", P, ["C60_one_function", "C60_declared_sizes", "C60_declared_tables"], "Inputs longer than 2^63 bytes are in C38, C40 and C45."),
 ("C61", P, ["C61_steps_are_of_the_code", "C61_compress_same_steps", "C61_hash_many_same_steps", "C61_each_byte_once", "C61_inside", "C61_compress_inside", "C61_work_of_compress", "C61_work_of_batches"], "The code is compiled C: that the compiler keeps the sequence of intrinsics is not part of the model. For NEON the declaration asks for 17 deltas and the theorem shows that 5 are enough."),
 ("C62", P, ["C62_steps_are_of_the_code", "C62_programs_same_steps", "C62_input_read_once", "C62_finalize_reads_no_input", "C62_inside", "C62_programs_inside", "C62_other_bytes_unchanged", "C62_finalize_stores_nothing"], "Reads are those of the calls of memcpy and of the backends, each noted with its position; fields of structs that are numbers are not noted. That the compiler keeps these accesses is not part of the model."),
 ("C63", P, ["C63_steps_are_of_the_code", "C63_one_shot_reads_once", "C63_update_reads_once", "C63_output_reads_no_input"], "Stated for calls that do not panic; that they do not is C02 and C04. The left half of the recursion runs before the right half in this model. That the compiler keeps these accesses is not part of the model."),
 ("C64", P, ["C64_library_calls_end", "C64_programs_end", "C64_reference_calls_end", "C64_reference_starts_typed", "C64_python_calls_end"], "The C hasher is not included: from a state that was not initialised it can access memory outside its arrays, and C says nothing about what follows; for initialised hashers C45 and C52 say what every call does. The recursion limit of Python is not modelled (it raises an exception)."),
 ("C65", P, ["C65_steps_are_of_the_code", "C65_same_steps", "C65_each_byte_once", "C65_inside", "C65_compress"], "Noted are the accesses to the arguments, not the arithmetic, which is straight-line code, nor local arrays and constant tables. The accesses inside one compression are written down from the source; the claim about them checks that list."),
 ("C66", P, ["C66_little_endian", "C66_odd_number", "C66_one_input", "C66_even_number", "C66_any_byte_order_refuted"], "The general claim is refuted; what holds is proved. How vectors lie in memory on a big-endian machine is not modelled: the theorems hold for anything hash2_neon may do there."),
 ("C67", P, ["C67_help", "C67_version", "C67_inputs", "C67_stdin", "C67_stdin_fails", "C67_bad_key"], "About parsed arguments. docopt's parsing is not modelled; docopt may answer --help by itself before main goes on. Lengths are below 2^63, as in C41."),
]
claims = [{"property": i, "status": s, "theorems": t, "note": n} for i, s, t, n in T]
json.dump({"claims": claims}, open("/verif/MANIFEST.json", "w"), indent=1)
open("/verif/MANIFEST.json", "a").write("\n")
