{"claims": [
 {"property": "C01", "status": "proved", "theorems": ["C01_bc1_lossless"], "note": ""},
 {"property": "C02", "status": "proved", "theorems": ["C02_bc2_lossless"], "note": "needs AVX512VL whenever AVX512BW is present; C10_bc2_avx512vl_refuted shows the code needs it"},
 {"property": "C03", "status": "proved", "theorems": ["C03_bc3_lossless"], "note": ""},
 {"property": "C04", "status": "proved", "theorems": ["C04_odd_number", "C04_color_bijection", "C04_slices_elementwise", "C04_slices_round_trip", "C04_pointers_elementwise", "C04_in_place_round_trip", "C04_split_round_trip", "C04_variant_functions", "C04_variant_split_functions", "C04_small_destination"], "note": ""},
 {"property": "C05", "status": "proved", "theorems": ["C05_simd_lane_is_scalar"], "note": ""},
 {"property": "C06", "status": "proved", "theorems": ["C06_bc1_cpu_independent", "C06_bc1_slice_cpu_independent"], "note": ""},
 {"property": "C07", "status": "proved", "theorems": ["C07_bc2_cpu_independent", "C07_bc2_slice_cpu_independent"], "note": "needs AVX512VL whenever AVX512BW is present"},
 {"property": "C08", "status": "proved", "theorems": ["C08_bc3_cpu_independent", "C08_bc3_slice_cpu_independent"], "note": ""},
 {"property": "C09", "status": "proved", "theorems": ["C09_bc1_transform_stays_inside", "C09_bc1_untransform_stays_inside", "C09_bc1_auto_inside"], "note": ""},
 {"property": "C10", "status": "proved", "theorems": ["C10_bc2_transform_stays_inside", "C10_bc2_untransform_stays_inside", "C10_bc2_avx512vl_refuted", "C10_bc2_auto_inside"], "note": "needs AVX512VL whenever AVX512BW is present; refuted without"},
 {"property": "C11", "status": "proved", "theorems": ["C11_bc3_transform_stays_inside", "C11_bc3_untransform_stays_inside", "C11_bc3_auto_inside"], "note": ""},
 {"property": "C12", "status": "proved", "theorems": ["C12_bc1_layout"], "note": ""},
 {"property": "C13", "status": "proved", "theorems": ["C13_bc2_layout"], "note": ""},
 {"property": "C14", "status": "proved", "theorems": ["C14_bc3_layout"], "note": ""},
 {"property": "C15", "status": "proved", "theorems": ["C15_bc1_auto_validation", "C15_bc2_auto_validation", "C15_bc3_auto_validation", "C15_bc1_transform_validation", "C15_bc1_untransform_validation", "C15_bc2_transform_validation", "C15_bc2_untransform_validation", "C15_bc3_transform_validation", "C15_bc3_untransform_validation"], "note": ""},
 {"property": "C16", "status": "proved", "theorems": ["C16_bc1_answers", "C16_c_core_choice", "C16_c_auto_choice", "C16_bc1_auto_optimal", "C16_bc1_auto_first"], "note": ""},
 {"property": "C17", "status": "proved", "theorems": ["C17_bc2_answers", "C17_bc2_auto_optimal", "C17_bc2_auto_first"], "note": "needs AVX512VL whenever AVX512BW is present"},
 {"property": "C18", "status": "proved", "theorems": ["C18_bc3_answers", "C18_bc3_auto_optimal", "C18_bc3_auto_first", "C18_bc3_overflow_refuted"], "note": "for estimators whose answers stay below usize::MAX/2; refuted beyond by C18_bc3_overflow_refuted"},
 {"property": "C19", "status": "proved", "theorems": ["C19_bc1_estimator_errors", "C19_bc2_estimator_errors", "C19_bc3_estimator_errors"], "note": ""},
 {"property": "C20", "status": "proved", "theorems": ["C20_bc1_ultra_never_worse", "C20_bc2_ultra_never_worse", "C20_bc3_ultra_never_worse"], "note": ""},
 {"property": "C21", "status": "proved", "theorems": ["C21_bc1_auto_lossless", "C21_bc2_auto_lossless", "C21_bc3_auto_lossless", "C21_c_auto_round_trip"], "note": ""},
 {"property": "C22", "status": "proved", "theorems": ["C22_bc1_onto", "C22_bc1_one_to_one", "C22_bc2_onto", "C22_bc2_one_to_one", "C22_bc3_onto", "C22_bc3_one_to_one", "C22_be_bc1_onto", "C22_be_bc1_one_to_one", "C22_be_bc2_onto", "C22_be_bc2_one_to_one", "C22_be_bc3_onto", "C22_be_bc3_one_to_one"], "note": ""},
 {"property": "C23", "status": "proved", "theorems": ["C23_header_round_trip", "C23_header_frame", "C23_header_injective", "C23_header_bytes"], "note": ""},
 {"property": "C24", "status": "proved", "theorems": ["C24_bc1_decode", "C24_bc2_decode", "C24_bc3_decode", "C24_bc7_decode", "C24_rgba8888_decode", "C24_bgra8888_decode", "C24_bgr888_decode", "C24_bc4_decode", "C24_bc5_decode"], "note": ""},
 {"property": "C25", "status": "proved", "theorems": ["C25_dispatch_round_trip"], "note": ""},
 {"property": "C26", "status": "proved", "theorems": ["C26_dds_round_trip"], "note": "debug builds need a non-empty texture; bytes after the texture need an output of exactly the file's size (C30)"},
 {"property": "C27", "status": "proved", "theorems": ["C27_dds_transform_output"], "note": ""},
 {"property": "C28", "status": "partial", "theorems": ["C28_parse_dds", "C28_debug_exactly_partial", "C28_debug_panic_refuted", "C28_parse_dds_c"], "note": "true in release builds; in debug builds a header with large dimensions panics (C28_debug_panic_refuted), exactly when a level does not fit into 32 bits (C28_debug_exactly_partial)"},
 {"property": "C29", "status": "proved", "theorems": ["C29_mip_chain", "C29_overflow_refuted", "C29_whole_blocks"], "note": "includes the counterexample for levels of more than 32 bits"},
 {"property": "C30", "status": "partial", "theorems": ["C30_dds_transform_partial", "C30_dds_larger_output_refuted", "C30_dds_transform_errors", "C30_longer_output_exactly_partial", "C30_short_addresses_exactly_partial"], "note": "refuted when bytes follow the texture and the output is larger than the file; proved otherwise; C30_longer_output_exactly_partial and C30_short_addresses_exactly_partial say exactly when"},
 {"property": "C31", "status": "proved", "theorems": ["C31_transformed_not_plain", "C31_plain_not_untransformed", "C31_can_handle", "C31_can_handle_untransform"], "note": ""},
 {"property": "C32", "status": "proved", "theorems": ["C32_first_handler", "C32_no_handler", "C32_short_output", "C32_others_not_called", "C32_others_not_called_back"], "note": "handlers are arbitrary functions over an arbitrary world"},
 {"property": "C33", "status": "proved", "theorems": ["C33_manual_null_pointers", "C33_auto_null_pointers", "C33_core_null_pointers", "C33_core_auto_null_pointers", "C33_manual_transform", "C33_manual_untransform", "C33_auto_transform", "C33_auto_null_data_keeps_handle_refuted", "C33_core_transform", "C33_core_untransform", "C33_core_auto", "C33_messages", "C33_c_round_trip"], "note": "BC1 and BC2, api and core crates; the comment that every error sets the handle variable to null is refuted by C33_auto_null_data_keeps_handle_refuted"},
 {"property": "C34", "status": "proved", "theorems": ["C34_last_setting_wins", "C34_auto_options", "C34_independent", "C34_independent_auto", "C34_rules_kept", "C34_fresh_handles", "C34_calls_succeed", "C34_null_handles", "C34_rust_builder", "C34_modes", "C34_rust_auto_builder"], "note": "C handles and Rust builders; histories include automatic transforms"},
 {"property": "C35", "status": "proved", "theorems": ["C35_last_builder_wins", "C35_manual_builder", "C35_auto_builder", "C35_default_all", "C35_builders_alone", "C35_no_builder", "C35_unsupported", "C35_small_output", "C35_dds_choice"], "note": ""},
 {"property": "C36", "status": "proved", "theorems": ["C36_decoders", "C36_first_block_only"], "note": "All three decoders equal an independent per-pixel definition of the formats, for every byte string."},
 {"property": "C37", "status": "proved", "theorems": ["C37_bc1_normalize", "C37_bc1_normalize_split", "C37_bc1_canonical"], "note": "All block sequences, all modes, separate or same buffers, debug and release; also for blocks stored in parts, plus canonical form and idempotence."},
 {"property": "C38", "status": "proved", "theorems": ["C38_bc2_bc3_normalize", "C38_bc2_normalize_split", "C38_bc3_normalize_split", "C38_bc2_canonical", "C38_bc3_canonical"], "note": "BC2 and BC3, all modes, separate or same buffers; also for blocks stored in parts, plus canonical form and idempotence."},
 {"property": "C39", "status": "partial", "theorems": ["C39_bc1_all_modes_partial", "C39_bc1_none_refuted", "C39_bc1_in_place_refuted", "C39_bc2_all_modes", "C39_bc3_all_modes", "C39_bc3_in_place_refuted"], "note": "Proved for BC2, for BC3 with outputs apart from the input, and for the rewriting modes of BC1 with its flag. Refuted for the mode-None buffer of BC1 (transparent blocks are rewritten; in place the picture can change) and for BC3 with the input as one of the outputs, which its documentation allows."},
 {"property": "C40", "status": "proved", "theorems": ["C40_expand_pack", "C40_pack_truncates", "C40_color8888_roundtrip", "C40_greater_than"], "note": ""},
 {"property": "C41", "status": "proved", "theorems": ["C41_extract_is_bit_field", "C41_insert_changes_only_field", "C41_extract_after_insert"], "note": ""},
 {"property": "C42", "status": "partial", "theorems": ["C42_split_pairs_partial", "C42_split_layout_partial", "C42_short_array_refuted", "C42_split_exactly_partial"], "note": "exact for every length on AVX512VBMI and portable builds and from 64 bytes up everywhere; below 64 bytes the SSE2 and AVX2 routines form an out-of-range pointer (C42_short_array_refuted), exactly when C42_split_exactly_partial says"},
 {"property": "C43", "status": "proved", "theorems": ["C43_other_files_untouched", "C43_file_round_trip", "C43_dds_undoes", "C43_dds_multiple_handlers_round_trip", "C43_same_size", "C43_dds_keeps_length", "C43_first_handler", "C43_first_handler_back", "C43_no_handler_no_file", "C43_file_to_slice_round_trip", "C43_from_memory", "C43_to_memory_first_handler", "C43_to_memory_no_handler", "C43_to_memory_short", "C43_no_input"], "note": "memory-mapped file operations are an oracle; the same path as input and output is undefined behaviour (aliasing mappings)"},
 {"property": "C44", "status": "partial", "theorems": ["C44_bc1_empty_release_partial", "C44_bc1_empty_exactly_partial", "C44_bc1_empty_debug_refuted", "C44_bc2_empty", "C44_bc3_empty_release_partial", "C44_bc3_empty_exactly_partial", "C44_bc3_empty_debug_refuted"], "note": "true in release builds; refuted in debug builds for BC1 and BC3 by a debug assertion; the *_exactly_partial theorems say for which machines and settings, for every build"},
 {"property": "C45", "status": "proved", "theorems": ["C45_ltu", "C45_order", "C45_c_wrapper", "C45_bc1_auto", "C45_bc2_auto", "C45_bc3_auto"], "note": "The match counter of the external crate is an arbitrary non-negative function. Also combined with the automatic searches (C16-C18): with this estimator they always succeed."},
 {"property": "C46", "status": "proved", "theorems": ["C46_bc1_permutation", "C46_bc1_only_colours_change", "C46_bc2_permutation", "C46_bc2_only_colours_change", "C46_bc3_permutation", "C46_bc3_only_colours_change", "C46_be_bc1_permutation", "C46_be_bc1_only_colours_change", "C46_be_bc2_permutation", "C46_be_bc2_only_colours_change", "C46_be_bc3_permutation", "C46_be_bc3_only_colours_change"], "note": ""},
 {"property": "C47", "status": "proved", "theorems": ["C47_bc1_transform_local", "C47_bc1_untransform_local", "C47_bc2_transform_local", "C47_bc2_untransform_local", "C47_bc3_transform_local", "C47_bc3_untransform_local", "C47_be_bc1_transform_local", "C47_be_bc1_untransform_local", "C47_be_bc2_transform_local", "C47_be_bc2_untransform_local", "C47_be_bc3_transform_local", "C47_be_bc3_untransform_local"], "note": ""},
 {"property": "C48", "status": "partial", "theorems": ["C48_bc1_untransform_total", "C48_bc2_untransform_total", "C48_bc3_untransform_total", "C48_dds_untransform_errors", "C48_dds_untransform_total_partial", "C48_dds_untransform_safe", "C48_dds_transform_safe", "C48_dds_32bit_refuted", "C48_longer_output_exactly_partial", "C48_short_addresses_exactly_partial"], "note": "codec level complete; DDS files: never undefined, total on 64-bit machines except for the panic of C30; a 32-bit machine panics on a crafted header; C48_longer_output_exactly_partial and C48_short_addresses_exactly_partial say exactly when"},
 {"property": "C49", "status": "proved", "theorems": ["C49_extract_blocks", "C49_extract_inside", "C49_transform_format", "C49_format_of_blocks"], "note": "64-bit machines; any returned slice is right on 32-bit machines too"},
 {"property": "C50", "status": "proved", "theorems": ["C50_bc1_estimator_calls", "C50_bc2_estimator_calls", "C50_bc3_estimator_calls"], "note": ""},
 {"property": "C51", "status": "partial", "theorems": ["C51_bc1_normalising_transform_partial", "C51_bc1_mode_none_partial", "C51_short_refuted", "C51_short_exactly_partial", "C51_odd_address_refuted", "C51_all_details"], "note": "Proved for all inputs without split endpoints, and with split endpoints for enough blocks; refuted for fewer than 16 blocks on SSE2/AVX2 (the endpoint splitter's defect, C42), exactly when C51_short_exactly_partial says, and for outputs at odd addresses with any decorrelation mode (C51_odd_address_refuted)."},
 {"property": "C52", "status": "partial", "theorems": ["C52_bc1_normalising_search_first_partial", "C52_bc1_normalising_search_partial", "C52_bc1_normalising_search_best_partial", "C52_bc1_nothing_to_normalise", "C52_none_estimate_refuted", "C52_odd_address_refuted"], "note": "Proved with the same restrictions on block count and output address. Optimality holds for the textures the search measures; for mode None it measures a texture with rewritten transparent blocks, which is not what is written (refuted)."},
 {"property": "C53", "status": "proved", "theorems": ["C53_bc1_smallest", "C53_bc2_smallest", "C53_bc3_smallest", "C53_levels", "C53_contexts", "C53_answers", "C53_bc1_search", "C53_bc2_search", "C53_bc3_search"], "note": "The library is a parameter; the searches assume that it keeps the bound it documents (keeps_promise), which the example library does."},
 {"property": "C54", "status": "proved", "theorems": ["C54_nothing_else_written", "C54_every_task_explained", "C54_no_undefined_behaviour", "C54_no_panic", "C54_same_directory_refuted", "C54_nested_directory_refuted"], "note": "For directories of which neither contains the other (needed: C54_same_directory_refuted, C54_nested_directory_refuted). Debug builds additionally need non-empty textures and sizes that fit, as for C28 and C44."},
 {"property": "C55", "status": "proved", "theorems": ["C55_directory_round_trip"], "note": "Both runs arbitrary; the estimator's state is arbitrary in every step."},
 {"property": "C56", "status": "proved", "theorems": ["C56_found", "C56_found_once", "C56_bounded", "C56_can_finish", "C56_sequential", "C56_extension"], "note": "The directory tree is finite, without links."},
 {"property": "C57", "status": "proved", "theorems": ["C57_names", "C57_low", "C57_medium", "C57_optimal", "C57_max", "C57_presets_without_bc2", "C57_bc2_refused", "C57_left_behind_refuted"], "note": "Optimal and max assume that the library keeps its bound and memory suffices. C57_left_behind_refuted records that a refused file's output stays behind."},
 {"property": "C58", "status": "proved", "theorems": ["C58_all_or_nothing", "C58_failure_leaks_nothing", "C58_new_and_drop", "C58_pointers"], "note": "The allocator is an arbitrary record of functions over an arbitrary state; leak-freedom assumes that it hands out only memory that is not in use."},
 {"property": "C59", "status": "partial", "theorems": ["C59_filter_names", "C59_filter_meaning", "C59_unreadable", "C59_first_handler_decides", "C59_no_handler", "C59_errors_told_refuted", "C59_printed"], "note": "Proved except for the last sentence, which is refuted: a debug command's own error is replaced by 'no supported handler' and nothing is printed (C59_errors_told_refuted)."},
 {"property": "C60", "status": "proved", "theorems": ["C60_textures_pass", "C60_test_decides", "C60_all_settings", "C60_files_pass", "C60_others_fail", "C60_command_result", "C60_command_passes", "C60_mixed_directory_refuted"], "note": "Files below 4 GiB, enough memory; debug builds need a non-empty texture (C44). C60_mixed_directory_refuted records that any other file in the directory makes the command fail."},
 {"property": "C61", "status": "proved", "theorems": ["C61_answers", "C61_remembered", "C61_bincode", "C61_steps", "C61_bc1_search", "C61_bc2_search", "C61_bc3_search", "C61_bc1_normalizing_search", "C61_calc_size", "C61_ltu_steady", "C61_load"], "note": "The serialisation crate is any function that reads back what it wrote and fails on a part of it; C61_bincode proves this for the documented format. Inside a search, other threads do not change the cache (the interleaving theorem is about the single look-ups)."},
 {"property": "C62", "status": "proved", "theorems": ["C62_names", "C62_round_trip", "C62_used", "C62_contexts", "C62_cut_refuted", "C62_size_remembered", "C62_unreadable"], "note": "The compression library is outside the repository; Spec/Compressed.v says what is assumed of it. C62_cut_refuted records that a write that stops in the middle leaves a file that is later returned as if it were complete."},
 {"property": "C63", "status": "proved", "theorems": ["C63_bc1_recommended", "C63_bc2_recommended", "C63_bc3_recommended", "C63_bc1_normalizing_recommended", "C63_bc1_errors", "C63_bc2_errors", "C63_bc3_errors", "C63_bc1_report", "C63_bc2_report", "C63_bc3_report", "C63_totals", "C63_totals_sums"], "note": "Sizes are those of the cache (C61 says when these are the measured ones); the command is one file after another. Printing is not modelled."},
 {"property": "C64", "status": "proved", "theorems": ["C64_scenarios", "C64_determine_best", "C64_determine_best_zero_refuted", "C64_bc1_restores", "C64_bc2_restores", "C64_bc3_restores", "C64_no_iterations", "C64_zero_panics_refuted", "C64_cut_file_refuted"], "note": "Times are not modelled; the result of a scenario stands for the content of its last buffer. C64_zero_panics_refuted and C64_cut_file_refuted record the panics."},
 {"property": "C65", "status": "proved", "theorems": ["C65_load", "C65_store", "C65_bc1_lossless", "C65_bc1_layout", "C65_bc1_untransform", "C65_bc2_lossless", "C65_bc2_layout", "C65_bc2_untransform", "C65_bc3_lossless", "C65_bc3_layout", "C65_bc3_untransform", "C65_split_layout"], "note": "The kernels are generated from the same sources for a big-endian target that is not an x86 (tools/rs2v.py --big); C65_load and C65_store state what such a machine does."},
 {"property": "C66", "status": "partial", "theorems": ["C66_bc1_no_decorrelation_partial", "C66_bc1_portable_iff_partial", "C66_bc1_decorrelated_refuted", "C66_bc2_no_decorrelation_partial", "C66_bc2_portable_iff_partial", "C66_bc2_decorrelated_refuted", "C66_bc3_no_decorrelation_partial", "C66_bc3_portable_iff_partial", "C66_bc3_decorrelated_refuted"], "note": "Proved without decorrelation, together with an exact description of the textures that survive (C66_*_portable_iff_partial). Refuted for every decorrelation mode (C66_*_decorrelated_refuted): colours are read as native numbers, so the conversion works on swapped bytes."},
 {"property": "C67", "status": "proved", "theorems": ["C67_files_sound", "C67_files_exact", "C67_short_reads_refuted", "C67_directories_sound", "C67_directories_complete", "C67_passed", "C67_passes", "C67_failed", "C67_flags", "C67_settings", "C67_lossless_refuted", "C67_tested_refuted", "C67_every_setting_refuted"], "note": "The two machines are parameters (running the tool with cross is not modelled). Short reads make equal files compare unequal (C67_short_reads_refuted). What a success does not say: C67_lossless_refuted, C67_tested_refuted, C67_every_setting_refuted."},
 {"property": "C68", "status": "proved", "theorems": ["C68_names", "C68_levels", "C68_check", "C68_zstd_estimator", "C68_ltu_estimator", "C68_measured"], "note": "C68_check: the check made before a command starts refuses exactly the algorithm whose measuring would reach a todo!(). Parsing of the rest of the command line is the crate argh's and not modelled."},
 {"property": "C69", "status": "proved", "theorems": ["C69_report", "C69_any_handlers", "C69_lines_complete", "C69_formats", "C69_no_directory", "C69_large_sizes", "C69_any_sizes_refuted"], "note": "C69_report is about the DDS handler that the tool is built with, C69_any_handlers about any. C69_any_sizes_refuted: sizes of 2^64 or more in total wrap or panic."},
 {"property": "C70", "status": "proved", "theorems": ["C70_bc1_targets", "C70_bc2_targets", "C70_bc3_targets", "C70_bc1_decode", "C70_bc2_decode", "C70_bc3_decode", "C70_skipped"], "note": "All 13 targets are modelled (Model/Fuzz.v); the decoders of rgbcx and bcdec_rs are parameters."},
 {"property": "C71", "status": "proved", "theorems": ["C71_complete", "C71_finished", "C71_earlier_uses", "C71_all_present", "C71_never_stuck", "C71_ends", "C71_one_call", "C71_bc1_benchmark", "C71_bc2_benchmark", "C71_bc3_benchmark", "C71_reading_meanwhile_refuted", "C71_failed_write_refuted"], "note": "System calls of the tasks interleave in any order (Model/CacheThreads.v); hash collisions are excluded. C71_reading_meanwhile_refuted and C71_failed_write_refuted show what does not hold."},
 {"property": "C72", "status": "partial", "theorems": ["C72_bc1_transforms", "C72_bc2_transforms", "C72_bc3_transforms", "C72_bc1_untransforms", "C72_bc2_untransforms", "C72_bc3_untransforms", "C72_bc1_separate_pointers", "C72_bc1_components", "C72_bc3_split_alpha_transforms", "C72_bc3_split_alpha_untransforms", "C72_splitters_partial", "C72_short_arrays_refuted", "C72_shift_unroll_4_partial", "C72_shift_unroll_8_partial", "C72_shift_unroll_refuted", "C72_shift_pack"], "note": "Proved for every function of the bench modules, except that endpoint splitters are undefined on arrays shorter than one turn of their loop (C72_short_arrays_refuted) and shift_unroll_4/8 on most exactly sized inputs (C72_shift_unroll_refuted; the exact condition is in C72_shift_unroll_4_partial). Sections of the functions with one pointer per section follow one another."},
 {"property": "C73", "status": "partial", "theorems": ["C73_directory_to_be_iff_partial", "C73_directory_to_le_iff_partial", "C73_directory_refuted", "C73_be_round_trip", "C73_be_transform_output", "C73_be_transform_total", "C73_be_untransform_total", "C73_be_safe", "C73_be_plain_not_untransformed", "C73_same_transform_partial", "C73_same_untransform_partial", "C73_plain_to_be_partial", "C73_plain_to_le_partial", "C73_to_be_iff_partial", "C73_to_le_iff_partial", "C73_decorrelated_refuted", "C73_be_longer_output_exactly_partial", "C73_be_short_addresses_exactly_partial"], "note": "Proved among big-endian machines, and between byte orders for settings without decorrelation; with a decorrelation mode (the default) files cannot be moved between byte orders (C73_decorrelated_refuted), exactly which ones survive is C73_to_be_iff_partial and C73_to_le_iff_partial."},
 {"property": "C74", "status": "proved", "theorems": ["C74_bc1_auto_optimal", "C74_bc1_auto_first", "C74_bc1_ultra_never_worse", "C74_bc1_estimator_errors", "C74_bc1_estimator_calls", "C74_bc1_auto_validation", "C74_bc1_auto_lossless", "C74_bc2_auto_optimal", "C74_bc2_auto_first", "C74_bc2_ultra_never_worse", "C74_bc2_estimator_errors", "C74_bc2_estimator_calls", "C74_bc2_auto_validation", "C74_bc2_auto_lossless", "C74_bc3_auto_optimal", "C74_bc3_auto_first", "C74_bc3_ultra_never_worse", "C74_bc3_estimator_errors", "C74_bc3_estimator_calls", "C74_bc3_auto_validation", "C74_bc3_auto_lossless", "C74_manual_builder", "C74_auto_builder", "C74_builder_errors", "C74_bc1_answers", "C74_bc2_answers", "C74_bc3_answers", "C74_bc1_ltu", "C74_bc2_ltu", "C74_bc3_ltu", "C74_bc1_zstd", "C74_bc2_zstd", "C74_bc3_zstd", "C74_bc1_zstd_smallest", "C74_bc2_zstd_smallest", "C74_bc3_zstd_smallest"], "note": ""},
 {"property": "C75", "status": "proved", "theorems": ["C75_passes", "C75_written", "C75_test_files", "C75_portable_refuted", "C75_verdict", "C75_nothing_made", "C75_directory_restored"], "note": "the random names of temporary directories are fixed names; cross and qemu are a given machine"},
 {"property": "C76", "status": "partial", "theorems": ["C76_be_writes", "C76_be_untransform_writes", "C76_be_stopped", "C76_be_stopped_in_order", "C76_be_failed", "C76_be_blank_refuted", "C76_writes", "C76_untransform_writes", "C76_stopped", "C76_stopped_in_order", "C76_failed", "C76_blank_refuted", "C76_untransform_stopped_refuted", "C76_rerun"], "note": "Proved except for outputs whose first byte is still the initial one: a file of zeros (nothing written yet) is accepted by untransform and gives a wrong file (C76_blank_refuted). For untransform the claim is false: the magic is written first (C76_untransform_stopped_refuted). A machine that loses power is not modelled."},
 {"property": "C77", "status": "partial", "theorems": ["C77_be_outputs", "C77_be_restored", "C77_outputs", "C77_restored", "C77_zeros_refuted"], "note": "proved with the exceptions the statement names; that a file still all zeros is taken for a transformed one, and reported as restored, is C77_zeros_refuted. Assumed: new files are zeros, copies run from the front, the four-byte header is one store; kills of the process, not of the machine (no lost pages)"},
 {"property": "C78", "status": "proved", "theorems": ["C78_be_bc1_damage", "C78_be_bc2_damage", "C78_be_bc3_damage", "C78_be_dds_damage", "C78_be_noticed", "C78_be_cut", "C78_be_cut_behind", "C78_bc1_damage", "C78_bc2_damage", "C78_bc3_damage", "C78_dds_damage", "C78_noticed", "C78_cut", "C78_cut_behind"], "note": ""},
 {"property": "C79", "status": "proved", "theorems": ["C79_found", "C79_paths_once", "C79_no_links", "C79_files_once_refuted"], "note": ""},
 {"property": "C80", "status": "proved", "theorems": ["C80_manual_null_pointers", "C80_auto_null_pointers", "C80_core_null_pointers", "C80_core_auto_null_pointers", "C80_manual_transform", "C80_manual_untransform", "C80_auto_transform", "C80_core_transform", "C80_core_untransform", "C80_core_auto", "C80_round_trip", "C80_auto_round_trip", "C80_last_setting_wins", "C80_auto_options", "C80_rules_kept", "C80_same_bytes"], "note": ""},
 {"property": "C81", "status": "proved", "theorems": ["C81_no_undefined_behaviour", "C81_no_panic", "C81_directory_round_trip", "C81_low", "C81_medium", "C81_optimal", "C81_max", "C81_bc2_refused"], "note": ""},
 {"property": "C82", "status": "proved", "theorems": ["C82_nothing_else_written", "C82_every_task_explained", "C82_plain_output", "C82_without_links", "C82_no_undefined_behaviour", "C82_no_panic", "C82_directory_round_trip", "C82_link_to_input_refuted", "C82_shared_output_refuted"], "note": ""},
 {"property": "C83", "status": "proved", "theorems": ["C83_bc1_when", "C83_bc1_refused", "C83_bc1_x86", "C83_bc1_no_memory_refuted", "C83_be_bc1_when", "C83_dds_any", "C83_dds_when", "C83_be_dds_any", "C83_be_dds_when"], "note": ""},
 {"property": "C84", "status": "proved", "theorems": ["C84_bc1", "C84_bc2", "C84_bc3", "C84_auto", "C84_parse", "C84_dds", "C84_files", "C84_big_endian_textures", "C84_big_endian_auto", "C84_big_endian_files", "C84_c_calls", "C84_core_c_functions", "C84_c_histories", "C84_big_endian_c_calls", "C84_big_endian_c_histories", "C84_tool", "C84_tool_threads", "C84_big_endian_tool"], "note": ""},
 {"property": "C85", "status": "partial", "theorems": ["C85_be_normalising_transform_partial", "C85_be_mode_none_partial", "C85_be_same_as_little_endian_partial", "C85_be_odd_address_refuted", "C85_be_normalising_search_partial", "C85_be_normalising_search_best_partial", "C85_be_nothing_to_normalise", "C85_be_normalising_search_first_partial"], "note": "Proved for every block count (unlike C51 on x86), except that a debug build refuses an empty texture with split endpoints. Refuted for outputs at odd addresses with any decorrelation mode (C85_be_odd_address_refuted); optimality holds for the textures the search measures, as in C52."},
 {"property": "C86", "status": "proved", "theorems": ["C86_builders", "C86_estimator", "C86_builder_outlives_estimator", "C86_rules_kept", "C86_free_exactly", "C86_auto_exactly", "C86_new_estimator", "C86_null_handles", "C86_no_leak"], "note": "One codec at a time (BC1 or BC2 builders). The allocator never fails; a program keeping the rules is not required to keep the estimators of the builders it uses, although the documentation of the builders says so."},
 {"property": "C87", "status": "proved", "theorems": ["C87_be_bc1_no_estimation", "C87_be_bc2_no_estimation", "C87_be_bc3_no_estimation", "C87_bc1_no_estimation", "C87_bc2_no_estimation", "C87_bc3_no_estimation"], "note": ""},
 {"property": "C88", "status": "partial", "theorems": ["C88_be_commands_end", "C88_be_round_trip", "C88_paths_keep_everything", "C88_paths_exist", "C88_path_refused", "C88_path_again", "C88_search", "C88_only_output", "C88_exit_status", "C88_error_status", "C88_presets_can_be_made", "C88_nothing_to_do", "C88_commands_end", "C88_round_trip", "C88_success_refuted"], "note": "Success does not mean that every file was done: errors of single files are only printed (C88_success_refuted), and a mistyped input or a file as input ends in success (C88_nothing_to_do). The meaning of each exit status is proved exactly (C88_exit_status, C88_error_status); everything else holds as stated."},
 {"property": "C89", "status": "proved", "theorems": ["C89_be_restore_meanwhile", "C89_be_pipeline_refuted", "C89_two_commands", "C89_apart", "C89_restore_meanwhile", "C89_pipeline_refuted"], "note": ""},
 {"property": "C90", "status": "proved", "theorems": ["C90_always_succeeds", "C90_taken_back", "C90_never_merged", "C90_same_anywhere"], "note": "Histories of the six slice functions on both byte orders; empty textures are C01-C03 and C30's subject and are left out here."},
 {"property": "C91", "status": "proved", "theorems": ["C91_any_file", "C91_header_damage", "C91_reserved_bits", "C91_recovered", "C91_bit_flips", "C91_noticed_refuted", "C91_be_any_file", "C91_be_header_damage", "C91_be_reserved_bits", "C91_be_recovered"], "note": "C91_noticed_refuted shows that a damaged header word need not be noticed; the property states exactly what happens instead."},
 {"property": "C92", "status": "proved", "theorems": ["C92_never_lost", "C92_takes_turns", "C92_given_back", "C92_never_merged", "C92_mixed_refuted"], "note": "C92_mixed_refuted shows that \"of one byte order\" is needed; the property states so."},
 {"property": "C93", "status": "proved", "theorems": ["C93_be_auto", "C93_be_dds", "C93_be_files", "C93_be_c_programs", "C93_be_tool", "C93_auto", "C93_dds", "C93_address_width", "C93_address_width_refuted", "C93_files", "C93_c_programs", "C93_tool"], "note": "C93_address_width_refuted shows why the estimator's answers must fit; the property states so."},
 {"property": "C94", "status": "proved", "theorems": ["C94_one_mode", "C94_all_modes", "C94_release_refuted"], "note": "C94_release_refuted shows what happens without debug assertions; the property states so."},
 {"property": "C95", "status": "proved", "theorems": ["C95_transform", "C95_search", "C95_be_transform", "C95_be_search", "C95_normalize"], "note": "Under the conditions of C51 and C52, which the property states."},
 {"property": "C96", "status": "proved", "theorems": ["C96_bc1", "C96_bc2", "C96_bc3", "C96_bc1_parts", "C96_bc2_parts", "C96_bc3_parts"], "note": ""},
 {"property": "C97", "status": "proved", "theorems": ["C97_be_bc1", "C97_be_bc2", "C97_be_bc3_multiples", "C97_be_bc3_deterministic", "C97_bc1", "C97_bc2", "C97_bc3_multiples", "C97_bc3_deterministic", "C97_bc3_any_refuted", "C97_builders", "C97_dds", "C97_be_builders", "C97_be_dds", "C97_normalizing", "C97_be_normalizing"], "note": ""},
 {"property": "C98", "status": "proved", "theorems": ["C98_be_bc1_auto", "C98_be_bc2_auto", "C98_be_bc3_auto", "C98_be_dds_transform", "C98_be_dds_restore", "C98_be_dispatch", "C98_be_builders", "C98_be_c_auto", "C98_be_c_manual", "C98_be_c_core", "C98_be_c_core_auto", "C98_bc1_auto", "C98_bc2_auto", "C98_bc3_auto", "C98_dds_transform", "C98_dds_restore", "C98_dispatch", "C98_builders", "C98_after_error_refuted", "C98_c_auto", "C98_c_manual", "C98_c_core", "C98_c_core_auto", "C98_normalizing", "C98_normalizing_search", "C98_be_normalizing", "C98_be_normalizing_search"], "note": ""}
]}
