{
 "C04": [
  "proved",
  ""
 ],
 "C02": [
  "proved",
  "needs AVX512VL whenever AVX512BW is present; C10_bc2_avx512vl_refuted shows the code needs it"
 ],
 "C07": [
  "proved",
  "needs AVX512VL whenever AVX512BW is present"
 ],
 "C10": [
  "proved",
  "needs AVX512VL whenever AVX512BW is present; refuted without"
 ],
 "C44": [
  "partial",
  "true in release builds; refuted in debug builds for BC1 and BC3 by a debug assertion; the *_exactly_partial theorems say for which machines and settings, for every build"
 ],
 "C48": [
  "partial",
  "codec level complete; DDS files: never undefined, total on 64-bit machines except for the panic of C30; a 32-bit machine panics on a crafted header; C48_longer_output_exactly_partial and C48_short_addresses_exactly_partial say exactly when"
 ],
 "C17": [
  "proved",
  "needs AVX512VL whenever AVX512BW is present"
 ],
 "C18": [
  "proved",
  "for estimators whose answers stay below usize::MAX/2; refuted beyond by C18_bc3_overflow_refuted"
 ],
 "C26": [
  "proved",
  "debug builds need a non-empty texture; bytes after the texture need an output of exactly the file's size (C30)"
 ],
 "C27": [
  "proved",
  ""
 ],
 "C28": [
  "partial",
  "true in release builds; in debug builds a header with large dimensions panics (C28_debug_panic_refuted), exactly when a level does not fit into 32 bits (C28_debug_exactly_partial)"
 ],
 "C29": [
  "proved",
  "includes the counterexample for levels of more than 32 bits"
 ],
 "C30": [
  "partial",
  "refuted when bytes follow the texture and the output is larger than the file; proved otherwise; C30_longer_output_exactly_partial and C30_short_addresses_exactly_partial say exactly when"
 ],
 "C31": [
  "proved",
  ""
 ],
 "C49": [
  "proved",
  "64-bit machines; any returned slice is right on 32-bit machines too"
 ],
 "C32": [
  "proved",
  "handlers are arbitrary functions over an arbitrary world"
 ],
 "C43": [
  "proved",
  "memory-mapped file operations are an oracle; the same path as input and output is undefined behaviour (aliasing mappings)"
 ],
 "C33": [
  "proved",
  "BC1 and BC2, api and core crates; the comment that every error sets the handle variable to null is refuted by C33_auto_null_data_keeps_handle_refuted"
 ],
 "C34": [
  "proved",
  "C handles and Rust builders; histories include automatic transforms"
 ],
 "C42": [
  "partial",
  "exact for every length on AVX512VBMI and portable builds and from 64 bytes up everywhere; below 64 bytes the SSE2 and AVX2 routines form an out-of-range pointer (C42_short_array_refuted), exactly when C42_split_exactly_partial says"
 ],
 "C45": [
  "proved",
  "The match counter of the external crate is an arbitrary non-negative function. Also combined with the automatic searches (C16-C18): with this estimator they always succeed."
 ],
 "C36": [
  "proved",
  "All three decoders equal an independent per-pixel definition of the formats, for every byte string."
 ],
 "C37": [
  "proved",
  "All block sequences, all modes, separate or same buffers, debug and release; also for blocks stored in parts, plus canonical form and idempotence."
 ],
 "C38": [
  "proved",
  "BC2 and BC3, all modes, separate or same buffers; also for blocks stored in parts, plus canonical form and idempotence."
 ],
 "C39": [
  "partial",
  "Proved for BC2, for BC3 with outputs apart from the input, and for the rewriting modes of BC1 with its flag. Refuted for the mode-None buffer of BC1 (transparent blocks are rewritten; in place the picture can change) and for BC3 with the input as one of the outputs, which its documentation allows."
 ],
 "C51": [
  "partial",
  "Proved for all inputs without split endpoints, and with split endpoints for enough blocks; refuted for fewer than 16 blocks on SSE2/AVX2 (the endpoint splitter's defect, C42), exactly when C51_short_exactly_partial says, and for outputs at odd addresses with any decorrelation mode (C51_odd_address_refuted)."
 ],
 "C52": [
  "partial",
  "Proved with the same restrictions on block count and output address. Optimality holds for the textures the search measures; for mode None it measures a texture with rewritten transparent blocks, which is not what is written (refuted)."
 ],
 "C53": [
  "proved",
  "The library is a parameter; the searches assume that it keeps the bound it documents (keeps_promise), which the example library does."
 ],
 "C54": [
  "proved",
  "For directories of which neither contains the other (needed: C54_same_directory_refuted, C54_nested_directory_refuted). Debug builds additionally need non-empty textures and sizes that fit, as for C28 and C44."
 ],
 "C55": [
  "proved",
  "Both runs arbitrary; the estimator's state is arbitrary in every step."
 ],
 "C56": [
  "proved",
  "The directory tree is finite, without links."
 ],
 "C57": [
  "proved",
  "Optimal and max assume that the library keeps its bound and memory suffices. C57_left_behind_refuted records that a refused file's output stays behind."
 ],
 "C58": [
  "proved",
  "The allocator is an arbitrary record of functions over an arbitrary state; leak-freedom assumes that it hands out only memory that is not in use."
 ],
 "C59": [
  "partial",
  "Proved except for the last sentence, which is refuted: a debug command's own error is replaced by 'no supported handler' and nothing is printed (C59_errors_told_refuted)."
 ],
 "C60": [
  "proved",
  "Files below 4 GiB, enough memory; debug builds need a non-empty texture (C44). C60_mixed_directory_refuted records that any other file in the directory makes the command fail."
 ],
 "C61": [
  "proved",
  "The serialisation crate is any function that reads back what it wrote and fails on a part of it; C61_bincode proves this for the documented format. Inside a search, other threads do not change the cache (the interleaving theorem is about the single look-ups)."
 ],
 "C62": [
  "proved",
  "The compression library is outside the repository; Spec/Compressed.v says what is assumed of it. C62_cut_refuted records that a write that stops in the middle leaves a file that is later returned as if it were complete."
 ],
 "C63": [
  "proved",
  "Sizes are those of the cache (C61 says when these are the measured ones); the command is one file after another. Printing is not modelled."
 ],
 "C64": [
  "proved",
  "Times are not modelled; the result of a scenario stands for the content of its last buffer. C64_zero_panics_refuted and C64_cut_file_refuted record the panics."
 ],
 "C65": [
  "proved",
  "The kernels are generated from the same sources for a big-endian target that is not an x86 (tools/rs2v.py --big); C65_load and C65_store state what such a machine does."
 ],
 "C66": [
  "partial",
  "Proved without decorrelation, together with an exact description of the textures that survive (C66_*_portable_iff_partial). Refuted for every decorrelation mode (C66_*_decorrelated_refuted): colours are read as native numbers, so the conversion works on swapped bytes."
 ],
 "C67": [
  "proved",
  "The two machines are parameters (running the tool with cross is not modelled). Short reads make equal files compare unequal (C67_short_reads_refuted). What a success does not say: C67_lossless_refuted, C67_tested_refuted, C67_every_setting_refuted."
 ],
 "C68": [
  "proved",
  "C68_check: the check made before a command starts refuses exactly the algorithm whose measuring would reach a todo!(). Parsing of the rest of the command line is the crate argh's and not modelled."
 ],
 "C69": [
  "proved",
  "C69_report is about the DDS handler that the tool is built with, C69_any_handlers about any. C69_any_sizes_refuted: sizes of 2^64 or more in total wrap or panic."
 ],
 "C70": [
  "proved",
  "All 13 targets are modelled (Model/Fuzz.v); the decoders of rgbcx and bcdec_rs are parameters."
 ],
 "C71": [
  "proved",
  "System calls of the tasks interleave in any order (Model/CacheThreads.v); hash collisions are excluded. C71_reading_meanwhile_refuted and C71_failed_write_refuted show what does not hold."
 ],
 "C72": [
  "partial",
  "Proved for every function of the bench modules, except that endpoint splitters are undefined on arrays shorter than one turn of their loop (C72_short_arrays_refuted) and shift_unroll_4/8 on most exactly sized inputs (C72_shift_unroll_refuted; the exact condition is in C72_shift_unroll_4_partial). Sections of the functions with one pointer per section follow one another."
 ],
 "C73": [
  "partial",
  "Proved among big-endian machines, and between byte orders for settings without decorrelation; with a decorrelation mode (the default) files cannot be moved between byte orders (C73_decorrelated_refuted), exactly which ones survive is C73_to_be_iff_partial and C73_to_le_iff_partial."
 ],
 "C74": [
  "proved",
  ""
 ],
 "C75": [
  "proved",
  "the random names of temporary directories are fixed names; cross and qemu are a given machine"
 ],
 "C76": [
  "partial",
  "Proved except for outputs whose first byte is still the initial one: a file of zeros (nothing written yet) is accepted by untransform and gives a wrong file (C76_blank_refuted). For untransform the claim is false: the magic is written first (C76_untransform_stopped_refuted). A machine that loses power is not modelled."
 ],
 "C77": [
  "partial",
  "proved with the exceptions the statement names; that a file still all zeros is taken for a transformed one, and reported as restored, is C77_zeros_refuted. Assumed: new files are zeros, copies run from the front, the four-byte header is one store; kills of the process, not of the machine (no lost pages)"
 ],
 "C84": [
  "proved",
  ""
 ],
 "C85": [
  "partial",
  "Proved for every block count (unlike C51 on x86), except that a debug build refuses an empty texture with split endpoints. Refuted for outputs at odd addresses with any decorrelation mode (C85_be_odd_address_refuted); optimality holds for the textures the search measures, as in C52."
 ],
 "C86": [
  "proved",
  "One codec at a time (BC1 or BC2 builders). The allocator never fails; a program keeping the rules is not required to keep the estimators of the builders it uses, although the documentation of the builders says so."
 ],
 "C87": [
  "proved",
  ""
 ],
 "C88": [
  "partial",
  "Success does not mean that every file was done: errors of single files are only printed (C88_success_refuted), and a mistyped input or a file as input ends in success (C88_nothing_to_do). The meaning of each exit status is proved exactly (C88_exit_status, C88_error_status); everything else holds as stated."
 ],
 "C89": [
  "proved",
  ""
 ],
 "C90": [
  "proved",
  "Histories of the six slice functions on both byte orders; empty textures are C01-C03 and C30's subject and are left out here."
 ],
 "C91": [
  "proved",
  "C91_noticed_refuted shows that a damaged header word need not be noticed; the property states exactly what happens instead."
 ],
 "C92": [
  "proved",
  "C92_mixed_refuted shows that \"of one byte order\" is needed; the property states so."
 ],
 "C93": [
  "proved",
  "C93_address_width_refuted shows why the estimator's answers must fit; the property states so."
 ],
 "C94": [
  "proved",
  "C94_release_refuted shows what happens without debug assertions; the property states so."
 ],
 "C95": [
  "proved",
  "Under the conditions of C51 and C52, which the property states."
 ]
}