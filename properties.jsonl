{"id": "C01", "title": "BC1 transform is lossless", "statement": "For every byte string whose length is a multiple of 8 and every settings value, calling transform_bc1_with_settings_safe into a large enough buffer and then untransform_bc1_with_settings_safe with the same settings on the transformed bytes succeeds and restores the original bytes exactly.", "quantifier": "all byte strings of length a multiple of 8, all settings, all initial output-buffer contents and sizes >= input, all (possibly different) CPU feature sets on the two machines", "why_tests_cant": "The input space (every byte string of every length, every setting, every CPU feature set) is unbounded; tests sample a few block counts on the one CPU they run on.", "anchors": ["src/core/dxt-lossless-transform-bc1/src/transform/safe/transform_with_settings.rs:transform_bc1_with_settings", "src/core/dxt-lossless-transform-bc1/src/transform/safe/transform_with_settings.rs:untransform_bc1_with_settings", "src/core/dxt-lossless-transform-bc1/src/transform/transform_with_settings.rs"]}
{"id": "C02", "title": "BC2 transform is lossless", "statement": "For every byte string whose length is a multiple of 16 and every settings value, calling transform_bc2_with_settings_safe into a large enough buffer and then untransform_bc2_with_settings_safe with the same settings on the transformed bytes succeeds and restores the original bytes exactly.", "quantifier": "all byte strings of length a multiple of 16, all settings, all initial output-buffer contents and sizes >= input, all (possibly different) CPU feature sets on the two machines", "why_tests_cant": "The input space (every byte string of every length, every setting, every CPU feature set) is unbounded; tests sample a few block counts on the one CPU they run on.", "anchors": ["src/core/dxt-lossless-transform-bc2/src/transform/safe/transform_with_settings.rs:transform_bc2_with_settings", "src/core/dxt-lossless-transform-bc2/src/transform/safe/transform_with_settings.rs:untransform_bc2_with_settings", "src/core/dxt-lossless-transform-bc2/src/transform/transform_with_settings.rs"]}
{"id": "C03", "title": "BC3 transform is lossless", "statement": "For every byte string whose length is a multiple of 16 and every settings value, calling transform_bc3_with_settings_safe into a large enough buffer and then untransform_bc3_with_settings_safe with the same settings on the transformed bytes succeeds and restores the original bytes exactly.", "quantifier": "all byte strings of length a multiple of 16, all settings, all initial output-buffer contents and sizes >= input, all (possibly different) CPU feature sets on the two machines", "why_tests_cant": "The input space (every byte string of every length, every setting, every CPU feature set) is unbounded; tests sample a few block counts on the one CPU they run on.", "anchors": ["src/core/dxt-lossless-transform-bc3/src/transform/safe/transform_with_settings.rs:transform_bc3_with_settings", "src/core/dxt-lossless-transform-bc3/src/transform/safe/transform_with_settings.rs:untransform_bc3_with_settings", "src/core/dxt-lossless-transform-bc3/src/transform/transform_with_settings.rs"]}
{"id": "C04", "title": "YCoCg-R colour decorrelation is a bijection", "statement": "For every 16-bit colour and every variant (None, 1, 2, 3) recorrelate(decorrelate(c)) = c and decorrelate(recorrelate(c)) = c; the same holds element-wise for the slice/pointer batch functions on arrays of any length.", "quantifier": "all 2^16 colours, 4 variants, all array lengths", "why_tests_cant": "Array length is unbounded and the existing tests use a handful of colours.", "anchors": ["src/core/dxt-lossless-transform-common/src/color_565/decorrelate.rs:decorrelate_ycocg_r_var1", "src/core/dxt-lossless-transform-common/src/color_565/decorrelate.rs:recorrelate_ycocg_r_var1", "src/core/dxt-lossless-transform-common/src/color_565/decorrelate_batch_ptr.rs:decorrelate_ycocg_r_ptr"]}
{"id": "C05", "title": "SIMD decorrelation equals the scalar definition in every lane", "statement": "The SSE2, AVX2 and AVX-512BW decorrelation and recorrelation routines compute, in every 16-bit lane, exactly what the portable Color565 method computes.", "quantifier": "all lane values, all vectors, 3 instruction sets x 3 variants x 2 directions", "why_tests_cant": "Tests run only the instruction sets of the host and only a few vectors.", "anchors": ["src/core/dxt-lossless-transform-common/src/intrinsics/color_565/decorrelate/sse2.rs", "src/core/dxt-lossless-transform-common/src/intrinsics/color_565/decorrelate/avx2.rs", "src/core/dxt-lossless-transform-common/src/intrinsics/color_565/decorrelate/avx512bw.rs", "src/core/dxt-lossless-transform-common/src/intrinsics/color_565/recorrelate/sse2.rs"]}
{"id": "C06", "title": "BC1 results do not depend on the CPU", "statement": "For the same input and settings, transform_bc1_with_settings and untransform_bc1_with_settings produce the same output bytes whatever architecture and CPU features are detected at run time, so data transformed on one machine can be restored on any other.", "quantifier": "all pairs of CPU feature sets/architectures, all inputs, all settings", "why_tests_cant": "A test executes on one CPU; the code paths for other feature sets never run, and block counts that are not a multiple of the vector width exercise different tails.", "anchors": ["src/core/dxt-lossless-transform-bc1/src/transform/transform_with_settings.rs", "src/core/dxt-lossless-transform-bc1/src/transform/standard/transform/mod.rs", "src/core/dxt-lossless-transform-bc1/src/transform/standard/untransform/mod.rs"]}
{"id": "C07", "title": "BC2 results do not depend on the CPU", "statement": "For the same input and settings, transform_bc2_with_settings and untransform_bc2_with_settings produce the same output bytes whatever architecture and CPU features are detected at run time, so data transformed on one machine can be restored on any other.", "quantifier": "all pairs of CPU feature sets/architectures, all inputs, all settings", "why_tests_cant": "A test executes on one CPU; the code paths for other feature sets never run, and block counts that are not a multiple of the vector width exercise different tails.", "anchors": ["src/core/dxt-lossless-transform-bc2/src/transform/transform_with_settings.rs", "src/core/dxt-lossless-transform-bc2/src/transform/standard/transform/mod.rs", "src/core/dxt-lossless-transform-bc2/src/transform/standard/untransform/mod.rs"]}
{"id": "C08", "title": "BC3 results do not depend on the CPU", "statement": "For the same input and settings, transform_bc3_with_settings and untransform_bc3_with_settings produce the same output bytes whatever architecture and CPU features are detected at run time, so data transformed on one machine can be restored on any other.", "quantifier": "all pairs of CPU feature sets/architectures, all inputs, all settings", "why_tests_cant": "A test executes on one CPU; the code paths for other feature sets never run, and block counts that are not a multiple of the vector width exercise different tails.", "anchors": ["src/core/dxt-lossless-transform-bc3/src/transform/transform_with_settings.rs", "src/core/dxt-lossless-transform-bc3/src/transform/standard/transform/mod.rs", "src/core/dxt-lossless-transform-bc3/src/transform/standard/untransform/mod.rs"]}
{"id": "C09", "title": "BC1 transforms stay inside their buffers", "statement": "Given valid lengths, the BC1 transform and untransform never read outside the input buffer and never write outside the first len bytes of the output buffer; output bytes past len are left untouched.", "quantifier": "all lengths, settings, CPU feature sets, buffer contents", "why_tests_cant": "Out-of-bounds accesses of vector kernels depend on the block count modulo the vector width and on the CPU; tests cannot cover every combination.", "anchors": ["src/core/dxt-lossless-transform-bc1/src/transform/transform_with_settings.rs", "src/core/dxt-lossless-transform-bc1/src/transform/standard/transform/mod.rs", "src/core/dxt-lossless-transform-bc1/src/transform/standard/untransform/mod.rs"]}
{"id": "C10", "title": "BC2 transforms stay inside their buffers", "statement": "Given valid lengths, the BC2 transform and untransform never read outside the input buffer and never write outside the first len bytes of the output buffer; output bytes past len are left untouched.", "quantifier": "all lengths, settings, CPU feature sets, buffer contents", "why_tests_cant": "Out-of-bounds accesses of vector kernels depend on the block count modulo the vector width and on the CPU; tests cannot cover every combination.", "anchors": ["src/core/dxt-lossless-transform-bc2/src/transform/transform_with_settings.rs", "src/core/dxt-lossless-transform-bc2/src/transform/standard/transform/mod.rs", "src/core/dxt-lossless-transform-bc2/src/transform/standard/untransform/mod.rs"]}
{"id": "C11", "title": "BC3 transforms stay inside their buffers", "statement": "Given valid lengths, the BC3 transform and untransform never read outside the input buffer and never write outside the first len bytes of the output buffer; output bytes past len are left untouched.", "quantifier": "all lengths, settings, CPU feature sets, buffer contents", "why_tests_cant": "Out-of-bounds accesses of vector kernels depend on the block count modulo the vector width and on the CPU; tests cannot cover every combination.", "anchors": ["src/core/dxt-lossless-transform-bc3/src/transform/transform_with_settings.rs", "src/core/dxt-lossless-transform-bc3/src/transform/standard/transform/mod.rs", "src/core/dxt-lossless-transform-bc3/src/transform/standard/untransform/mod.rs"]}
{"id": "C12", "title": "BC1 output layout", "statement": "transform_bc1_with_settings writes exactly the documented layout: all colour endpoints (decorrelated per setting) first, split into all color0 then all color1 when split_colour_endpoints is set, then all 4-byte index words, each section in block order.", "quantifier": "all inputs, settings, CPU feature sets", "why_tests_cant": "The layout is an on-disk format; it must hold for every length, not just tested ones.", "anchors": ["src/core/dxt-lossless-transform-bc1/src/transform/transform_with_settings.rs:transform_bc1_with_settings"]}
{"id": "C13", "title": "BC2 output layout", "statement": "transform_bc2_with_settings writes all 8-byte alpha words, then the colour endpoints (decorrelated / split per setting), then the index words, each in block order.", "quantifier": "all inputs, settings, CPU feature sets", "why_tests_cant": "As C12.", "anchors": ["src/core/dxt-lossless-transform-bc2/src/transform/transform_with_settings.rs:transform_bc2_with_settings"]}
{"id": "C14", "title": "BC3 output layout", "statement": "transform_bc3_with_settings writes alpha endpoints (split per setting), alpha indices, colour endpoints (decorrelated / split per setting) and colour indices as consecutive sections in block order.", "quantifier": "all inputs, settings, CPU feature sets", "why_tests_cant": "As C12.", "anchors": ["src/core/dxt-lossless-transform-bc3/src/transform/transform_with_settings.rs:transform_bc3_with_settings"]}
{"id": "C15", "title": "Safe API validation", "statement": "The safe transform/untransform functions return InvalidLength(len) exactly when len is not a multiple of the block size, otherwise OutputBufferTooSmall{needed,actual} exactly when the output is shorter than the input, otherwise Ok; on any error the output buffer is unchanged.", "quantifier": "all input/output lengths and contents, BC1/BC2/BC3", "why_tests_cant": "Must hold for every pair of lengths.", "anchors": ["src/core/dxt-lossless-transform-bc1/src/transform/safe/transform_with_settings.rs", "src/core/dxt-lossless-transform-bc2/src/transform/safe/transform_with_settings.rs", "src/core/dxt-lossless-transform-bc3/src/transform/safe/transform_with_settings.rs"]}
{"id": "C16", "title": "BC1 auto transform returns the best candidate and its bytes", "statement": "When transform_bc1_auto succeeds, the returned settings minimise the caller's size estimate over the documented candidate list (first in test order among ties) and the output buffer holds exactly what transform_bc1_with_settings with the returned settings writes; an estimator that answers the same question differently every time is asked about every candidate in that order, and the first candidate for which the answers given add up to the least is chosen.", "quantifier": "all inputs, all estimators (functions of the bytes shown to them, and any code with state), both candidate lists", "why_tests_cant": "The estimator is arbitrary user code, so optimality and the re-transform at the end must hold for every estimator, not a sample.", "anchors": ["src/core/dxt-lossless-transform-bc1/src/transform/transform_auto.rs:transform_bc1_auto", "src/core/dxt-lossless-transform-bc1/src/transform/settings.rs"]}
{"id": "C17", "title": "BC2 auto transform returns the best candidate and its bytes", "statement": "When transform_bc2_auto succeeds, the returned settings minimise the caller's size estimate over the documented candidate list (first in test order among ties) and the output buffer holds exactly what transform_bc2_with_settings with the returned settings writes; an estimator that answers the same question differently every time is asked about every candidate in that order, and the first candidate for which the answers given add up to the least is chosen.", "quantifier": "all inputs, all estimators (functions of the bytes shown to them, and any code with state), both candidate lists", "why_tests_cant": "The estimator is arbitrary user code, so optimality and the re-transform at the end must hold for every estimator, not a sample.", "anchors": ["src/core/dxt-lossless-transform-bc2/src/transform/transform_auto.rs:transform_bc2_auto", "src/core/dxt-lossless-transform-bc2/src/transform/settings.rs"]}
{"id": "C18", "title": "BC3 auto transform returns the best candidate and its bytes", "statement": "When transform_bc3_auto succeeds, the returned settings minimise the caller's size estimate over the documented candidate list (first in test order among ties) and the output buffer holds exactly what transform_bc3_with_settings with the returned settings writes; an estimator that answers the same question differently every time is asked about every candidate in that order, and the first candidate for which the answers given add up to the least is chosen.", "quantifier": "all inputs, all estimators (functions of the bytes shown to them, and any code with state), both candidate lists", "why_tests_cant": "The estimator is arbitrary user code, so optimality and the re-transform at the end must hold for every estimator, not a sample.", "anchors": ["src/core/dxt-lossless-transform-bc3/src/transform/transform_auto.rs:transform_bc3_auto", "src/core/dxt-lossless-transform-bc3/src/transform/settings.rs"]}
{"id": "C19", "title": "Estimator failures are reported, never swallowed", "statement": "If the size estimator (or its buffer-size query) returns an error, transform_bcN_auto returns that very error, and if it never errors the call succeeds (allocation permitting).", "quantifier": "all estimators, inputs, candidate lists, BC1/BC2/BC3", "why_tests_cant": "Which candidate fails first depends on arbitrary estimator code.", "anchors": ["src/core/dxt-lossless-transform-bc1/src/transform/transform_auto.rs:transform_bc1_auto", "src/core/dxt-lossless-transform-bc2/src/transform/transform_auto.rs:transform_bc2_auto", "src/core/dxt-lossless-transform-bc3/src/transform/transform_auto.rs:transform_bc3_auto"]}
{"id": "C20", "title": "Trying all decorrelation modes never yields a worse estimate", "statement": "For a deterministic estimator, the estimate of the settings chosen with use_all_decorrelation_modes = true is at most that of the settings chosen with false.", "quantifier": "all inputs and deterministic estimators, BC1/BC2/BC3", "why_tests_cant": "Quantifies over arbitrary estimators.", "anchors": ["src/core/dxt-lossless-transform-bc1/src/transform/settings.rs:COMPREHENSIVE_TEST_ORDER", "src/core/dxt-lossless-transform-bc1/src/transform/transform_auto.rs"]}
{"id": "C21", "title": "Auto transform is lossless", "statement": "For any estimator, untransforming the auto-transformed bytes with the settings auto returned restores the input.", "quantifier": "all inputs, estimators, candidate lists, CPU feature sets", "why_tests_cant": "As C01 plus arbitrary estimators.", "anchors": ["src/core/dxt-lossless-transform-bc1/src/transform/transform_auto.rs", "src/core/dxt-lossless-transform-bc1/src/transform/safe/transform_auto.rs", "src/core/dxt-lossless-transform-bc2/src/transform/safe/transform_auto.rs", "src/core/dxt-lossless-transform-bc3/src/transform/safe/transform_auto.rs"]}
{"id": "C22", "title": "Transforms are bijections on buffers of a given length", "statement": "For every settings value untransform is also a right inverse (transform(untransform(y)) = y), so distinct textures never share a transformed form and every byte string of valid length is the transform of exactly one texture.", "quantifier": "all byte strings, settings, BC1/BC2/BC3, machines of both byte orders", "why_tests_cant": "Infinite domain.", "anchors": ["src/core/dxt-lossless-transform-bc1/src/transform/transform_with_settings.rs", "src/core/dxt-lossless-transform-bc2/src/transform/transform_with_settings.rs", "src/core/dxt-lossless-transform-bc3/src/transform/transform_with_settings.rs"]}
{"id": "C23", "title": "Embedded transform header round-trips", "statement": "For every BC1/BC2 settings value (and for BC3, BC4, BC5, BC7, RGBA8888, BGRA8888, BGR888 details), writing the 4-byte header and reading it back yields the same format and settings; distinct (format, settings) pairs give distinct headers.", "quantifier": "all formats and settings values, any memory contents around the header", "why_tests_cant": "Bit-field packing must be right for every combination incl. formats tests never pack.", "anchors": ["src/api/dxt-lossless-transform-file-formats-api/src/embed/mod.rs:TransformHeader", "src/api/dxt-lossless-transform-file-formats-api/src/embed/formats/bc1.rs", "src/api/dxt-lossless-transform-file-formats-api/src/embed/formats/bc2.rs", "src/api/dxt-lossless-transform-file-formats-api/src/embed/formats/bc4.rs"]}
{"id": "C24", "title": "Header decoding is total and strict", "statement": "For every 32-bit header value, decoding either yields settings or a defined error: unknown format nibbles and non-zero version fields are rejected, a header of one format is never decoded as another, and for BC4/BC5/RGB formats non-zero reserved bits are rejected.", "quantifier": "all 2^32 header values", "why_tests_cant": "2^32 values cannot be enumerated by unit tests.", "anchors": ["src/api/dxt-lossless-transform-file-formats-api/src/embed/formats/mod.rs:from_header", "src/api/dxt-lossless-transform-file-formats-api/src/embed/transform_format.rs"]}
{"id": "C25", "title": "dispatch_untransform inverts dispatch_transform", "statement": "If dispatch_transform succeeds for a format with some bundle, dispatch_untransform with the returned header on the produced bytes succeeds and restores the input.", "quantifier": "all formats, bundles (manual or auto with any estimator), inputs, CPUs", "why_tests_cant": "Arbitrary estimators and inputs.", "anchors": ["src/api/dxt-lossless-transform-file-formats-api/src/handlers/dispatch.rs", "src/api/dxt-lossless-transform-file-formats-api/src/bundle/mod.rs"]}
{"id": "C26", "title": "DDS files round-trip", "statement": "If the DDS handler transforms a file successfully, then untransforming the result with the DDS handler succeeds and restores the file byte for byte, including headers and trailing data.", "quantifier": "all byte strings, all bundles/estimators, CPUs", "why_tests_cant": "Infinite input space including malformed headers.", "anchors": ["src/extensions/file-formats/dxt-lossless-transform-dds/src/handler/file_format_handler.rs:transform_bundle", "src/extensions/file-formats/dxt-lossless-transform-dds/src/handler/file_format_handler.rs:untransform"]}
{"id": "C27", "title": "DDS transform only touches what it should", "statement": "A successful DDS transform keeps every header byte except the first four, replaces the texture region by the transformed texture, copies trailing bytes verbatim, and puts the transform header in bytes 0..4.", "quantifier": "all byte strings, bundles", "why_tests_cant": "Infinite input space.", "anchors": ["src/extensions/file-formats/dxt-lossless-transform-dds/src/handler/file_format_handler.rs:transform_bundle"]}
{"id": "C28", "title": "DDS parsing is total and memory safe", "statement": "parse_dds never reads outside the slice for any byte string; it returns None exactly for inputs that are too short (128 bytes, or 148 with a DX10 header) or lack the magic, and otherwise reports data offset 128 or 148 and the format the header fields denote.", "quantifier": "all byte strings", "why_tests_cant": "Adversarial inputs of every length and header value.", "anchors": ["src/extensions/file-formats/dxt-lossless-transform-dds/src/dds/parse_dds.rs:parse_dds", "src/extensions/file-formats/dxt-lossless-transform-dds/src/dds/likely_dds.rs:likely_dds"]}
{"id": "C29", "title": "DDS texture length is the mip-chain size", "statement": "For every header whose level sizes fit in 32 bits, the reported data length equals the exact mathematical sum of the sizes of the stated mip levels (saturating at 2^32-1); with larger dimensions the claim fails (arithmetic overflow).", "quantifier": "all widths, heights, mip counts, formats", "why_tests_cant": "2^96 combinations of dimensions and mip counts.", "anchors": ["src/extensions/file-formats/dxt-lossless-transform-dds/src/dds/parse_dds.rs:calculate_data_length", "src/extensions/file-formats/dxt-lossless-transform-dds/src/dds/parse_dds.rs:calculate_data_length_for_block_compression"]}
{"id": "C30", "title": "DDS handler accepts any sufficiently large output buffer", "statement": "Documented contract: transform_bundle/untransform work with an output buffer at least as large as the input.", "quantifier": "all inputs and all output sizes >= input size", "why_tests_cant": "Depends on the combination of trailing data and output size, which tests do not vary.", "anchors": ["src/extensions/file-formats/dxt-lossless-transform-dds/src/handler/file_format_handler.rs", "src/api/dxt-lossless-transform-file-formats-api/src/api.rs:transform_slice_with_bundle"]}
{"id": "C31", "title": "Transformed and untransformed DDS files are never confused", "statement": "A file produced by the DDS transform is never accepted by can_handle, and untransforming a plain (never transformed) DDS file always fails instead of producing garbage.", "quantifier": "all byte strings, bundles", "why_tests_cant": "Every header value must be considered.", "anchors": ["src/extensions/file-formats/dxt-lossless-transform-dds/src/handler/file_format_detection.rs", "src/extensions/file-formats/dxt-lossless-transform-dds/src/handler/file_format_untransform_detection.rs", "src/api/dxt-lossless-transform-file-formats-api/src/handlers/dispatch.rs:dispatch_untransform"]}
{"id": "C32", "title": "Handler selection", "statement": "The *_with_multiple_handlers functions use the first handler, in iteration order, that accepts the input, return that handler, never call transform on any other handler, and return NoSupportedHandler with the output untouched when none accepts.", "quantifier": "all handler lists (arbitrary behaviours), inputs", "why_tests_cant": "Arbitrary user handlers and list lengths.", "anchors": ["src/api/dxt-lossless-transform-file-formats-api/src/api.rs:transform_slice_with_multiple_handlers", "src/api/dxt-lossless-transform-file-formats-api/src/api.rs:untransform_slice_with_multiple_handlers"]}
{"id": "C33", "title": "C API error reporting", "statement": "Every C entry point maps null pointers to the documented error code (first failing check wins) with no memory written, and otherwise returns Success or the code of the Rust error; on auto-transform failure the out builder pointer is set to null.", "quantifier": "all argument combinations incl. null pointers, lengths, contents", "why_tests_cant": "Combinatorial argument space.", "anchors": ["src/api/dxt-lossless-transform-bc1-api/src/c_api/transform/manual_transform_builder.rs", "src/api/dxt-lossless-transform-bc1-api/src/c_api/transform/auto_transform_builder.rs", "src/api/dxt-lossless-transform-bc2-api/src/c_api/transform/manual_transform_builder.rs", "src/core/dxt-lossless-transform-bc1/src/c_api/transform_auto.rs"]}
{"id": "C34", "title": "Builder histories", "statement": "After any sequence of configuration calls on a (manual) builder, including reset and clone, a transform uses, for each option, the last value set since the last reset (default otherwise), and operations on one builder never affect another.", "quantifier": "all finite histories of API calls over any number of builders", "why_tests_cant": "Unbounded histories.", "anchors": ["src/api/dxt-lossless-transform-bc1-api/src/transform/manual_transform_builder.rs", "src/api/dxt-lossless-transform-bc1-api/src/c_api/transform/manual_transform_builder.rs"]}
{"id": "C35", "title": "Bundle dispatch", "statement": "A bundle transforms a format with the last builder installed for it, whatever the order of with_* calls, fails with NoBuilderForFormat if none was installed, with UnknownTransformFormat for formats without support, and leaves the output unchanged in those cases. A DDS file transformed with an automatic builder names, in its header, settings that no candidate beats by that builder's estimator, and its texture is stored with them.", "quantifier": "all sequences of with_* calls, formats, inputs", "why_tests_cant": "Unbounded call sequences.", "anchors": ["src/api/dxt-lossless-transform-file-formats-api/src/bundle/mod.rs:dispatch_transform"]}
{"id": "C36", "title": "Block decoders", "statement": "decode_bc1/2/3_block_from_slice return None exactly on short slices and otherwise the 16 pixels the BC1/BC2/BC3 formats define; only the first block's bytes matter and no arithmetic overflows.", "quantifier": "all byte strings", "why_tests_cant": "2^64 / 2^128 blocks.", "anchors": ["src/core/dxt-lossless-transform-bc1/src/util/bc1_decode.rs", "src/core/dxt-lossless-transform-bc2/src/util/bc2_decode.rs", "src/core/dxt-lossless-transform-bc3/src/util/bc3_decode.rs"]}
{"id": "C37", "title": "BC1 normalization preserves the picture", "statement": "normalize_blocks changes no decoded pixel of any block, in any mode.", "quantifier": "all block sequences, all modes", "why_tests_cant": "2^64 blocks.", "anchors": ["src/core/dxt-lossless-transform-bc1/src/experimental/normalize_blocks/normalize.rs"]}
{"id": "C38", "title": "BC2/BC3 normalization preserves the picture", "statement": "The BC2 and BC3 normalizers change no decoded pixel of any block, in any mode.", "quantifier": "all block sequences, all modes", "why_tests_cant": "2^128 blocks.", "anchors": ["src/core/dxt-lossless-transform-bc2/src/experimental/normalize_blocks/normalize.rs", "src/core/dxt-lossless-transform-bc3/src/experimental/normalize_blocks/normalize.rs"]}
{"id": "C39", "title": "Normalizing for all modes agrees with normalizing for each mode", "statement": "normalize_blocks_all_modes writes, into the buffer of each mode, what normalize_blocks with that mode writes, and reports whether any block was normalizable.", "quantifier": "all block sequences", "why_tests_cant": "2^64 blocks; unbounded sequences.", "anchors": ["src/core/dxt-lossless-transform-bc1/src/experimental/normalize_blocks/normalize.rs:normalize_blocks_all_modes"]}
{"id": "C40", "title": "RGB565 conversions", "statement": "Expanding a 565 colour to 8-bit channels and packing it again gives the colour back; packing is the truncation of each channel; greater_than compares the raw value.", "quantifier": "all 2^16 colours, all 2^24 RGB triples", "why_tests_cant": "Exhaustive domains not covered by tests.", "anchors": ["src/core/dxt-lossless-transform-common/src/color_565/mod.rs:from_rgb", "src/core/dxt-lossless-transform-common/src/color_565/mod.rs:red", "src/core/dxt-lossless-transform-common/src/color_8888.rs:to_565_lossy"]}
{"id": "C41", "title": "BC7 bit-field helpers", "statement": "extract after insert returns the inserted value (truncated to the field), bits outside the field are unchanged, and extract is the big-endian bit field; no shift overflows for valid ranges.", "quantifier": "all bytes, values, valid ranges", "why_tests_cant": "Not exhaustively tested.", "anchors": ["src/core/dxt-lossless-transform-bc7/src/util/msb_extract_bits.rs", "src/core/dxt-lossless-transform-bc7/src/util/msb_insert_bits.rs"]}
{"id": "C42", "title": "Endpoint splitting primitive", "statement": "split_color_endpoints de-interleaves pairs of 16-bit colours into all first colours followed by all second colours, for every length multiple of 4 and every CPU, without touching other memory.", "quantifier": "all arrays, lengths, CPU feature sets", "why_tests_cant": "Vector tails and CPU paths.", "anchors": ["src/core/dxt-lossless-transform-common/src/transforms/split_565_color_endpoints/mod.rs"]}
{"id": "C43", "title": "File API", "statement": "transform_file_with_* followed by untransform_file_with_* into a third path restores the original file contents, never modifies the input file, creates an output of the same size, and creates no output file if no handler accepts.", "quantifier": "all file contents, paths (distinct), handlers, histories of calls", "why_tests_cant": "Arbitrary contents and call sequences.", "anchors": ["src/api/dxt-lossless-transform-file-formats-api/src/file_io/lightweight_mmap/file.rs", "src/api/dxt-lossless-transform-file-formats-api/src/file_io/lightweight_mmap/file_to_slice.rs", "src/api/dxt-lossless-transform-file-formats-api/src/file_io/lightweight_mmap/slice_to_file.rs"]}
{"id": "C44", "title": "Empty input is handled in every build", "statement": "Length 0 is a valid multiple of the block size, so the safe API should return Ok for it with no effect in every build profile and on every CPU.", "quantifier": "all settings, CPUs, build profiles", "why_tests_cant": "Tests run one profile on one CPU; the failing combination (debug build, vector path, empty input) is not tested.", "anchors": ["src/core/dxt-lossless-transform-bc1/src/transform/with_split_colour/transform/mod.rs", "src/core/dxt-lossless-transform-bc1/src/transform/with_split_colour/untransform/mod.rs", "src/core/dxt-lossless-transform-bc3/src/transform/with_split_alphas/transform/avx512vbmi.rs"]}
{"id": "C45", "title": "LTU estimator bounds", "statement": "The bundled estimator needs no buffer, never fails, returns 0 for empty input and never more than the input length; through its C wrapper the same values are reported.", "quantifier": "all byte strings", "why_tests_cant": "Unbounded inputs.", "anchors": ["src/extensions/estimators/dxt-lossless-transform-ltu/src/lib.rs", "src/extensions/estimators/dxt-lossless-transform-ltu/src/c_api.rs"]}
{"id": "C46", "title": "Transforms without decorrelation only permute bytes", "statement": "With decorrelation None, the transformed buffer is a permutation of the input bytes (same multiset), and with any settings index and alpha bytes are permuted only.", "quantifier": "all inputs, BC1/BC2/BC3, machines of both byte orders", "why_tests_cant": "Infinite domain.", "anchors": ["src/core/dxt-lossless-transform-bc1/src/transform/transform_with_settings.rs", "src/core/dxt-lossless-transform-bc2/src/transform/transform_with_settings.rs", "src/core/dxt-lossless-transform-bc3/src/transform/transform_with_settings.rs"]}
{"id": "C47", "title": "Block locality", "statement": "Changing one input block changes only the output bytes of that block's slots, and each output byte depends on one input block only; so partially equal textures give correspondingly equal transformed sections.", "quantifier": "all inputs, block positions, settings, machines of both byte orders", "why_tests_cant": "Infinite domain.", "anchors": ["src/core/dxt-lossless-transform-bc1/src/transform/transform_with_settings.rs", "src/core/dxt-lossless-transform-bc2/src/transform/transform_with_settings.rs", "src/core/dxt-lossless-transform-bc3/src/transform/transform_with_settings.rs"]}
{"id": "C48", "title": "Untransform never fails on corrupt data", "statement": "For any bytes of valid length and any settings, the untransform functions return Ok; for any 4-byte header and any file, the DDS untransform returns Ok or a documented error and never accesses memory out of bounds.", "quantifier": "all byte strings", "why_tests_cant": "Adversarial inputs.", "anchors": ["src/core/dxt-lossless-transform-bc1/src/transform/safe/transform_with_settings.rs:untransform_bc1_with_settings", "src/extensions/file-formats/dxt-lossless-transform-dds/src/handler/file_format_handler.rs:untransform"]}
{"id": "C49", "title": "Block extraction", "statement": "extract_blocks returns exactly the texture region of the file for accepted formats, None for filtered-out formats, and an error for truncated files, never a slice outside the file.", "quantifier": "all byte strings, filters", "why_tests_cant": "Adversarial inputs.", "anchors": ["src/extensions/file-formats/dxt-lossless-transform-dds/src/handler/file_format_block_extraction.rs", "src/extensions/file-formats/dxt-lossless-transform-dds/src/handler/file_format_check.rs", "src/core/dxt-lossless-transform-file-formats-debug/src/block_extraction.rs"]}
{"id": "C50", "title": "Auto transform asks for a big enough scratch buffer and shows the estimator the right bytes", "statement": "The estimator is first asked for the scratch size of the (larger) endpoint section; every later estimate call receives exactly the colour (and, for BC3, alpha) endpoint section of the next candidate's transformed output, in test order, with a scratch buffer of the size the estimator asked for.", "quantifier": "all inputs, estimators, candidate lists", "why_tests_cant": "Arbitrary estimators observe these calls.", "anchors": ["src/core/dxt-lossless-transform-bc1/src/transform/transform_auto.rs", "src/core/dxt-lossless-transform-bc2/src/transform/transform_auto.rs", "src/core/dxt-lossless-transform-bc3/src/transform/transform_auto.rs"]}
{"id": "C51", "title": "Normalising BC1 transform keeps the picture", "statement": "The experimental BC1 transform with block normalisation writes the ordinary transform of a texture in which transparent and one-colour blocks are in normal form and every pixel is as before; restoring it with the settings kept in the details gives exactly that texture; without normalisation it writes what the ordinary transform writes; only the output and the work buffer change.", "quantifier": "all textures, normalisation modes, settings, buffer positions, CPU feature sets", "why_tests_cant": "2^64 blocks per position, all CPU paths, arbitrary buffer placement.", "anchors": ["src/core/dxt-lossless-transform-bc1/src/experimental/normalize_blocks/transform.rs:transform_bc1_with_normalize_blocks", "src/core/dxt-lossless-transform-bc1/src/experimental/normalize_blocks/mod.rs"]}
{"id": "C52", "title": "Search over normalisation modes", "statement": "The automatic BC1 transform with normalisation always ends, writes only the output buffer, and on success the output is the transform with the returned details of a texture with the same pixels; with a deterministic estimator no candidate has a smaller estimate; when no block can be normalised the outcome is that of the ordinary search; failures are failed allocations or errors the estimator gave.", "quantifier": "all textures, stateful estimators, allocation outcomes, candidate lists", "why_tests_cant": "Arbitrary estimators and allocation failures.", "anchors": ["src/core/dxt-lossless-transform-bc1/src/experimental/normalize_blocks/transform.rs:transform_bc1_auto_with_normalization", "src/core/dxt-lossless-transform-bc1/src/experimental/normalize_blocks/transform.rs:test_normalize_variant_with_normalization"]}
{"id": "C53", "title": "Zstandard estimator: contexts freed, sizes right, search never fails for lack of scratch", "statement": "The Zstandard estimator accepts exactly levels 1 to 22; whatever is asked of it, each compression context it creates is freed exactly once and never used after that; it reports the size the library gives or the library's error code; and if the library keeps its documented bound, an automatic search with this estimator succeeds whenever memory can be allocated; and if the compressed size depends on level and data alone, the search chooses a candidate whose shown sections compress best at that level.", "quantifier": "all levels, sequences of questions, behaviours of the library including failures, textures, CPUs", "why_tests_cant": "Library failures and all question sequences cannot be enumerated.", "anchors": ["src/extensions/compressors/dxt-lossless-transform-zstd/src/lib.rs:ZStandardSizeEstimation"]}
{"id": "C54", "title": "Command line tool: input files safe under every schedule and crash", "statement": "Whatever order the tool's threads run in and wherever it is stopped, only the output files of the given input files are written. If neither directory contains the other, every input file keeps its contents, every finished file's output is the first accepting handler's result for its input, failures leave what their error says, there is no data race on a mapped file, no undefined behaviour and (on 64 bits) no panic.", "quantifier": "all schedules of the parallel loop, crash points, answers of the operating system, directories, file contents, handlers", "why_tests_cant": "Schedules, crash points and operating-system failures cannot be enumerated.", "anchors": ["src/tools/dxt-lossless-transform-cli/src/commands/transform/mod.rs:handle_transform_command", "src/tools/dxt-lossless-transform-cli/src/commands/untransform/mod.rs:handle_untransform_command", "src/api/dxt-lossless-transform-file-formats-api/src/file_io/lightweight_mmap/file.rs"]}
{"id": "C55", "title": "Command line tool: directory round trip", "statement": "If transforming a directory reports a file as done, untransforming the output directory (possibly elsewhere, with other CPUs and another preset) restores the file's exact bytes whenever it reports it as done, and can fail on it only because of the operating system, whatever happens to other files.", "quantifier": "all files, presets, pairs of runs with arbitrary schedules, machines", "why_tests_cant": "Combines two arbitrary schedules and all inputs.", "anchors": ["src/tools/dxt-lossless-transform-cli/src/commands/transform/mod.rs:process_file", "src/tools/dxt-lossless-transform-cli/src/commands/untransform/mod.rs:process_file"]}
{"id": "C56", "title": "Command line tool: every file found once, processing ends, totals right", "statement": "The tool finds exactly the regular files reachable through readable directories, each once; a run takes at most a bounded number of steps beside the handlers' writes and can always finish; the reported total is the sum of the sizes counted, modulo 2^64; running sequentially gives one of the parallel outcomes; the extension that decides on the handler is what follows the last dot of the name, in lower case.", "quantifier": "all directory trees, schedules, numbers of files", "why_tests_cant": "Unbounded trees and schedules.", "anchors": ["src/tools/dxt-lossless-transform-cli/src/util/core.rs:find_all_files", "src/tools/dxt-lossless-transform-cli/src/commands/transform/mod.rs"]}
{"id": "C57", "title": "Command line tool: presets", "statement": "Preset names are recognised in any case and nothing else is; on a DDS file with a whole BC1 texture every preset succeeds and gives a file with the embedded header and the transformed texture: low with the default settings, medium with the settings of smallest estimate among the fast candidates, optimal and max with the settings whose colour section Zstandard compresses best at level 1, among the candidates of the fast and of the full search; BC2 textures are refused.", "quantifier": "all strings, files, CPUs, estimator and library behaviours", "why_tests_cant": "All files and library behaviours.", "anchors": ["src/tools/dxt-lossless-transform-cli/src/commands/transform/mod.rs:TransformPreset", "src/tools/dxt-lossless-transform-cli/src/commands/transform/mod.rs:create_low_preset_bundle"]}
{"id": "C58", "title": "Arrays of aligned allocations are all-or-nothing and leak nothing", "statement": "Creating an array of N allocations either makes all N, each of the requested size and aligned to 64 bytes and all different; or fails, after giving back everything it was handed, each once. Sizes for which no layout exists are refused before the allocator is asked. Dropping the array gives back each allocation exactly once.", "quantifier": "all allocators (any pattern of failures), N, sizes, sets of memory in use before", "why_tests_cant": "A test allocator does not fail at every point; leaks and double frees are not visible in results.", "anchors": ["src/core/dxt-lossless-transform-common/src/allocate.rs:FixedRawAllocArray", "src/core/dxt-lossless-transform-common/src/allocate.rs:allocate_align_64"]}
{"id": "C59", "title": "Looking into files: filters, first handler, errors", "statement": "Filter names are recognised in any case and nothing else is; a filter admits exactly its format. An unreadable file is an I/O error and the caller's function is not called; otherwise the first handler that accepts the file decides, the function is called once with its blocks and format, and its error is passed on. Debug commands tell the user about errors of their own functions.", "quantifier": "all strings, handler lists, files, functions", "why_tests_cant": "Ranges over all handlers and all functions.", "anchors": ["src/core/dxt-lossless-transform-file-formats-debug/src/file_io.rs:extract_blocks_from_file_format", "src/core/dxt-lossless-transform-file-formats-debug/src/block_extraction.rs:TransformFormatFilter", "src/tools/dxt-lossless-transform-cli/src/debug_format/mod.rs:extract_blocks_from_file", "src/tools/dxt-lossless-transform-cli/src/debug_format/mod.rs:handle_debug_error"]}
{"id": "C60", "title": "Round trip test commands pass exactly on textures of their format", "statement": "The test-roundtrip command of BC1, BC2 and BC3 passes on every file with a whole texture of its format and on no other file; it tests all settings and would notice any transform whose restored texture shows another picture; the command ends well exactly if all files pass.", "quantifier": "all files, directories, CPUs, contents of fresh memory; for the test itself all functions in place of the transforms", "why_tests_cant": "The test program itself cannot show that it would notice every wrong transform.", "anchors": ["src/tools/dxt-lossless-transform-cli/src/commands/debug_bc1/roundtrip.rs", "src/tools/dxt-lossless-transform-cli/src/commands/debug_bc2/roundtrip.rs", "src/tools/dxt-lossless-transform-cli/src/commands/debug_bc3/roundtrip.rs"]}
{"id": "C61", "title": "The size cache never changes an answer", "statement": "The debug commands remember compressed sizes in memory and in a file. Through any number of runs, threads and ways to end a run (also while the cache file is being written), every size given is the one that working it out gives, as long as no two byte sequences that were asked about have the same hash but different sizes; after a run that saved the file the next run has the sizes at once. An automatic search with the cache returns the same settings or error and writes the same bytes as without.", "quantifier": "all histories of runs, interleavings of threads, crash points, serialisations that read back what they wrote, estimators, textures", "why_tests_cant": "Ranges over all interleavings, crash points and histories.", "anchors": ["src/tools/dxt-lossless-transform-cli/src/debug_format/compression_size_cache.rs:CompressionSizeCache", "src/tools/dxt-lossless-transform-cli/src/debug_format/estimation/mod.rs:CachedSizeEstimator", "src/tools/dxt-lossless-transform-cli/src/debug_format/compression/helpers.rs:calc_size_with_cache_and_estimation_algorithm"]}
{"id": "C62", "title": "Compressed data from the cache decompresses to the data", "statement": "Cached compressed data has a different file for every hash, level and algorithm. After any uses of the cache in which no write of a file was cut short, what it returns for some bytes decompresses to those bytes (no two byte sequences with the same hash). Once written, the file is used instead of compressing again. Each compression and decompression creates one library context, sets it up for the same format, uses it once and frees it, also on errors.", "quantifier": "all histories of uses, library states, hash functions, data, levels", "why_tests_cant": "Ranges over all histories and library states.", "anchors": ["src/tools/dxt-lossless-transform-cli/src/debug_format/compressed_data_cache.rs:CompressedDataCache", "src/tools/dxt-lossless-transform-cli/src/debug_format/compression/helpers.rs:compress_data_cached", "src/tools/dxt-lossless-transform-cli/src/debug_format/compression/zstd/zstd_raw.rs"]}
{"id": "C63", "title": "Statistics reports are complete and their best result is the smallest", "statement": "A report of the compression statistics command about a texture has one result for each of the settings there are, in a fixed order, each with the size of the texture arranged with these settings, the size of the texture itself, and the size with the settings that the automatic search recommends. All sizes agree with the size cache at the end, so the same settings never have two sizes in a report. The default settings are always found, the best result is the first of the smallest ones, and in the totals over all files the best settings are not worse than the default or the recommended ones. Every size that a run adds to the cache was answered by the estimator for bytes with that hash.", "quantifier": "all textures of whole blocks, cache contents, estimators and library states, levels, algorithms, hash functions, supported processors", "why_tests_cant": "Ranges over all textures, cache contents and library states.", "anchors": ["src/tools/dxt-lossless-transform-cli/src/commands/debug_bc1/calc_compression_stats.rs:analyze_bc1_compression_file", "src/tools/dxt-lossless-transform-cli/src/debug_format/calc_compression_stats_common.rs:CompressionStatsResult", "src/tools/dxt-lossless-transform-cli/src/commands/debug_bc1/mod.rs:determine_best_transform_details_with_estimator_cached"]}
{"id": "C64", "title": "Benchmarks restore the texture in every scenario", "statement": "A benchmark with at least one iteration, over a compressed data cache in which no file was cut short and no two byte sequences have the same hash, does not panic; unless an error stops it, what is decompressed and restored in each scenario (and decompressed in the one without a transform) is the texture again. With no iterations, or with a cache file that was cut short, the program can panic.", "quantifier": "all textures of whole blocks, cache histories, library states, numbers of iterations and warmups, lists of settings, supported processors", "why_tests_cant": "Ranges over all textures, histories and iteration counts.", "anchors": ["src/tools/dxt-lossless-transform-cli/src/commands/debug_bc1/benchmark.rs:process_scenario", "src/tools/dxt-lossless-transform-cli/src/commands/debug_bc1/benchmark.rs:process_untransformed_scenario", "src/tools/dxt-lossless-transform-cli/src/commands/debug_bc3/benchmark.rs"]}
{"id": "C65", "title": "The transforms are lossless on big-endian machines", "statement": "Compiled for a big-endian machine, transforming a texture of whole blocks with any settings and untransforming the result with the same settings gives the texture back, for BC1, BC2 and BC3, in debug and release builds. The transform writes exactly len bytes where it was told to, each section being the one of the little-endian layout except that colours are converted as big-endian numbers; untransforming arbitrary bytes also stays inside its buffers and gives the texture with that layout. Splitting colour endpoints gives all first and then all second colours.", "quantifier": "all textures of whole blocks, buffer positions, settings, build profiles, values of undefined bytes", "why_tests_cant": "Ranges over all textures on a machine the tests are normally not run on.", "anchors": ["src/core/dxt-lossless-transform-bc1/src/transform/standard/transform/portable32.rs", "src/core/dxt-lossless-transform-bc1/src/transform/with_recorrelate/transform/generic.rs", "src/core/dxt-lossless-transform-bc1/src/transform/transform_with_settings.rs:transform_bc1_with_settings", "src/core/dxt-lossless-transform-common/src/transforms/split_565_color_endpoints/portable32.rs:u32_with_separate_endpoints"]}
{"id": "C66", "title": "Transformed data can be moved between byte orders", "statement": "A texture transformed on a little-endian machine is restored unchanged on a big-endian one, and the other way round: both machines produce the same bytes for the same texture and settings.", "quantifier": "all textures of whole blocks, settings, processors, build profiles", "why_tests_cant": "Ranges over all textures and settings on two kinds of machines; the project's own check between byte orders only ever uses the first settings of its list, those without decorrelation.", "anchors": ["src/core/dxt-lossless-transform-bc1/src/transform/transform_with_settings.rs", "src/core/dxt-lossless-transform-bc2/src/transform/transform_with_settings.rs", "src/core/dxt-lossless-transform-bc3/src/transform/transform_with_settings.rs", "src/core/dxt-lossless-transform-common/src/color_565/decorrelate.rs", "src/tools/dxt-lossless-transform-cli/src/commands/debug_endian/transform_command.rs:test_all_combinations"]}
{"id": "C67", "title": "What the verdict of the byte order check means", "statement": "Comparing two files or two directories comes to a verdict; files called identical have the same bytes and directories called identical have the same files with the same bytes, and conversely when everything can be read and reads fill the buffer. The debug-endian command succeeds exactly if, for every test file, both machines transform it to the same files and both restore what they transformed to the same files. An error of a comparison is always one of reading files or directories. A success does not say that the restored file is the test file, that there was a test file, or that settings other than the first were tried.", "quantifier": "all file contents, directory trees, ways reads are cut up, behaviours of the two machines, lists of test files", "why_tests_cant": "Ranges over all contents and trees and all ways the operating system may answer reads; the tests compare a few small files.", "anchors": ["src/tools/dxt-lossless-transform-cli/src/commands/debug_endian/file_compare.rs:compare_files", "src/tools/dxt-lossless-transform-cli/src/commands/debug_endian/file_compare.rs:compare_directories", "src/tools/dxt-lossless-transform-cli/src/commands/debug_endian/endian_test.rs:run_single_endian_test", "src/tools/dxt-lossless-transform-cli/src/commands/debug_endian/mod.rs:handle_debug_command", "src/tools/dxt-lossless-transform-cli/src/commands/debug_endian/transform_command.rs:test_all_combinations"]}
{"id": "C68", "title": "The options of the debug commands mean what they say", "statement": "Exactly the two names zstd and lossless-transform-utils choose an algorithm, in the default spelling of the option. The default levels are those documented. The check made before a command starts accepts an algorithm for measuring exactly if measuring with it cannot reach unfinished code. The estimator made for zstd accepts exactly the levels 1 to 22 and, like the estimator made for lossless-transform-utils, answers with the numbers of the estimator crates. Measuring real compressed sizes never fails for want of a buffer.", "quantifier": "all option strings, algorithms, levels, textures and compression libraries that keep their promises", "why_tests_cant": "Ranges over all strings, levels and data.", "anchors": ["src/tools/dxt-lossless-transform-cli/src/debug_format/compression/mod.rs:CompressionAlgorithm", "src/tools/dxt-lossless-transform-cli/src/debug_format/compression/helpers.rs:validate_compression_algorithm", "src/tools/dxt-lossless-transform-cli/src/debug_format/estimation/mod.rs:create_size_estimator", "src/tools/dxt-lossless-transform-cli/src/debug_format/compression/zstd/zstd_raw.rs"]}
{"id": "C69", "title": "The format report counts every file under its format", "statement": "analyze-formats on a directory reports, for every format of which there are files, in a fixed order, how many of the files found have it and the sum of their sizes; a file counts under the format its header states and as unknown if it cannot be read, is not accepted by a handler or states none. The counts add up to the number of files found and the sizes to the total, whatever the order of the hash map. A path that does not exist or is a file is an error. Sizes that add up to 2^64 or more panic or give a wrong total.", "quantifier": "all directory trees, file contents, sizes, failures to read, orders of the hash map, build profiles", "why_tests_cant": "Ranges over all trees, contents and hash map orders; the command has no tests.", "anchors": ["src/tools/dxt-lossless-transform-cli/src/commands/debug_format_analysis.rs:handle_debug_format_analysis_command", "src/tools/dxt-lossless-transform-cli/src/commands/debug_format_analysis.rs:FormatKey", "src/core/dxt-lossless-transform-file-formats-debug/src/file_io.rs:get_transform_format"]}
{"id": "C70", "title": "No block makes a fuzz target fail", "statement": "None of the fuzz targets for block normalisation (single mode, all modes, split blocks in place; BC1, BC2, BC3) and for comparing BC1 and BC2 colours fails, whatever block they are given, in debug and release builds. The targets that compare decoders with other libraries fail exactly on blocks for which the other library does not give the picture the format defines.", "quantifier": "all 8-byte and 16-byte blocks, build profiles, results of the other libraries", "why_tests_cant": "There are 2^64 and 2^128 blocks; fuzzing tries some of them.", "anchors": ["src/fuzz/fuzz_targets/bc1_normalize_all_modes.rs", "src/fuzz/fuzz_targets/bc2_decode_color_only.rs", "src/fuzz/fuzz_targets/bc3_normalize_in_place.rs", "src/core/dxt-lossless-transform-bc1/src/experimental/normalize_blocks/normalize.rs", "src/core/dxt-lossless-transform-bc1/src/util/bc1_decode.rs"]}
{"id": "C71", "title": "However the threads of a dry run interleave, the compressed data files are complete afterwards", "statement": "The benchmark commands fill the compressed data cache from many threads at once, without locks, and two threads may write the same file. From a directory with only complete files, whatever the order of their system calls, and however far each read and write gets: a file that no thread is writing any more holds exactly what the library makes from the bytes its name stands for, unless an operating system error interrupts a write. No thread waits for another, the number of steps is bounded, every finished call has its file, and the benchmark that follows restores the bytes of every file. A call that reads a file which another thread is writing can return wrong bytes (the dry run does not use them), and an interrupted write leaves a cut file which later calls use.", "quantifier": "all numbers of threads, sequences of calls, schedules of their system calls, lengths of partial reads and writes, points at which the tool is stopped, errors", "why_tests_cant": "The interleavings are chosen by the operating system; a race shows up rarely and not on demand.", "anchors": ["src/tools/dxt-lossless-transform-cli/src/commands/debug_bc3/benchmark.rs:handle_benchmark_command", "src/tools/dxt-lossless-transform-cli/src/debug_format/compression/helpers.rs:compress_data_cached", "src/tools/dxt-lossless-transform-cli/src/debug_format/compressed_data_cache.rs:load_compressed_data", "src/tools/dxt-lossless-transform-cli/src/debug_format/compressed_data_cache.rs:save_compressed_data"]}
{"id": "C72", "title": "The kernels offered for benchmarking write what the ordinary kernels write", "statement": "Every transform and untransform of the bench modules (BC1, BC2, BC3, and the colour endpoint splitters), on a CPU with the features it is compiled for, writes exactly the bytes of the ordinary layout, respectively the original blocks, for every input and length, and touches nothing else; so the benchmarks compare implementations of the same function. Exceptions: most endpoint splitters form a pointer before the array when it is shorter than one turn of their loop, and the BC1 functions shift_unroll_4 and shift_unroll_8 form a pointer past the end of an exactly sized input for most numbers of blocks.", "quantifier": "all inputs, lengths, positions in the buffers, CPU feature sets, build profiles; every function of the bench modules", "why_tests_cant": "Ranges over all block contents, all block counts modulo the unroll factors and all CPU feature sets; forming a pointer out of bounds is not visible in a test's output.", "anchors": ["src/core/dxt-lossless-transform-bc1/src/bench/mod.rs", "src/core/dxt-lossless-transform-bc2/src/bench/mod.rs", "src/core/dxt-lossless-transform-bc3/src/bench/mod.rs", "src/core/dxt-lossless-transform-common/src/transforms/split_565_color_endpoints/bench/mod.rs", "src/core/dxt-lossless-transform-bc1/src/transform/standard/transform/bench/portable64.rs:shift_unroll_4"]}
{"id": "C73", "title": "DDS files on big-endian machines, and moving them between byte orders", "statement": "A DDS file transformed on a big-endian machine is restored byte for byte on every big-endian machine; both directions answer for any bytes and do nothing undefined. A file transformed on a machine of one byte order is restored unchanged on a machine of the other byte order. The same holds for directories processed with the command line tool: a file is back exactly if the two layouts of its texture agree under the settings used.", "quantifier": "all files, bundles of builders (manual and automatic), estimators, output buffers, machines of both byte orders, build profiles", "why_tests_cant": "Ranges over all files, settings and pairs of machines; the project's own check between byte orders stops at the first settings that work, which are those without decorrelation, and the library's unit tests run on one machine.", "anchors": ["src/extensions/file-formats/dxt-lossless-transform-dds/src/handler/file_format_handler.rs", "src/api/dxt-lossless-transform-file-formats-api/src/embed/mod.rs:TransformHeader", "src/api/dxt-lossless-transform-file-formats-api/src/handlers/dispatch.rs", "src/core/dxt-lossless-transform-common/src/color_565/decorrelate.rs"]}
{"id": "C74", "title": "Automatic choice of settings on big-endian machines", "statement": "Compiled for a big-endian machine, the automatic transforms return settings with the smallest estimate among all candidates, the first such in the test order, show the estimator exactly the sections these settings would write there, report estimator and allocation failures and nothing else, and what they write is restored on big-endian machines. An estimator may answer the same question differently each time: the choice is the first candidate for which the answers given in this search add up to the least. What the manual and automatic builders write is restored by a builder with the same settings, and by the builder the automatic one returns; bad lengths are reported and nothing is written. With the bundled LTU estimator, and with Zstandard if its library keeps its bound and memory can be allocated, no search fails and the choice has the smallest estimate, or the best compression at the level.", "quantifier": "all textures, estimators (with state), output buffers, candidates, builders, build profiles, for BC1, BC2 and BC3", "why_tests_cant": "Ranges over all textures and all estimator behaviours on a kind of machine the tests do not run on.", "anchors": ["src/core/dxt-lossless-transform-bc1/src/transform/transform_auto.rs", "src/core/dxt-lossless-transform-bc2/src/transform/transform_auto.rs", "src/core/dxt-lossless-transform-bc3/src/transform/transform_auto.rs", "src/api/dxt-lossless-transform-bc1-api/src/transform/manual_transform_builder.rs", "src/api/dxt-lossless-transform-bc1-api/src/transform/auto_transform_builder.rs"]}
{"id": "C75", "title": "The byte order check with the real tools", "statement": "When the debug-endian command runs the released tool on a little-endian and on a big-endian machine where file operations work, it passes for every set of DDS files that hold all the bytes of a BC1 or BC2 texture in whole blocks; if any of the files is not such a file the command fails; both tools leave the same transformed file (the layout without decorrelation and split) and restore the input. The command that restores a directory restores every transformed file in it under its own name and touches nothing else. The check tests each readable file below the assets directory whose name ends in .dds and whose headers state BC1 or BC2, once, in the order of the names. Passing does not mean that files can be moved between the machines: with any setting that decorrelates they cannot.", "quantifier": "all file contents, headers, CPUs, lists of test files and directory trees", "why_tests_cant": "The command tests the four assets of the repository only; the claim is about every texture and every CPU, and about what a passing run does not show.", "anchors": ["src/tools/dxt-lossless-transform-cli/src/commands/debug_endian/endian_test.rs: get_test_files, is_supported_format, run_all_endian_tests", "src/tools/dxt-lossless-transform-cli/src/commands/debug_endian/transform_command.rs: handle_transform_single_file, handle_untransform_single_file"]}
{"id": "C76", "title": "Interrupted transforms are recognised and can be repeated", "statement": "If the program is killed at any point while the DDS handler transforms a file into a mapped output file, the output holds the finished file or one that untransform refuses, because the header that makes it a transformed file is written last; and running the command again, after any number of interrupted runs, gives the same result as an uninterrupted run. The same holds of what a failed transform leaves. Big-endian machines behave the same way, and what one of them leaves unfinished is restored by machines of neither byte order.", "quantifier": "all DDS files, bundles, estimators, CPUs, initial contents of the output, points of interruption (also inside a copy or a kernel), and histories of interrupted runs", "why_tests_cant": "Ranges over every point at which a process can be stopped and over every order in which bytes arrive.", "anchors": ["src/extensions/file-formats/dxt-lossless-transform-dds/src/handler/file_format_handler.rs: transform_bundle, untransform", "src/api/dxt-lossless-transform-file-formats-api/src/embed/mod.rs: write_to_ptr", "src/tools/dxt-lossless-transform-cli/src/commands/transform/mod.rs: process_file_transform"]}
{"id": "C77", "title": "A killed directory transform leaves finished files or files that are refused", "statement": "If the transform command is killed at any moment while it works through a directory, in parallel or not, the output of each file is as it was before the run, or newly made and still all zeros, or finished, or a file that no untransform restores. Running the untransform command on what was left therefore reports a file as restored only if it wrote back the original, except for files the killed run had not begun to write and files for which it reported an error. Big-endian machines behave the same way, and what one of them leaves unfinished is restored by machines of neither byte order.", "quantifier": "all directories, DDS files, bundles, estimators, CPUs, schedules of the parallel tasks, and moments at which the process is killed (also inside a copy or a kernel)", "why_tests_cant": "Ranges over every moment of every schedule.", "anchors": ["src/tools/dxt-lossless-transform-cli/src/commands/transform/mod.rs: process_files_with_bundle, process_file_transform", "src/extensions/file-formats/dxt-lossless-transform-dds/src/handler/file_format_handler.rs: transform_bundle", "src/api/dxt-lossless-transform-file-formats-api/src/file_io/lightweight_mmap/file.rs: transform_file_with_multiple_handlers"]}
{"id": "C78", "title": "Damage to a transformed file stays where it hit", "statement": "If bytes of a transformed texture are changed, untransforming still succeeds, at most one block of the result is wrong per changed byte, and any change shows in the result. For a transformed DDS file with intact headers the same holds of its texture; its headers come back and the bytes behind the texture are passed on as they are; only the undamaged file is restored to the original. A transformed DDS file cut before the end of its texture is refused and nothing is written; cut behind it, it is restored to the original cut at the same place. The same holds on big-endian machines.", "quantifier": "all textures, settings, files, bundles, CPUs of either byte order, damaged versions and places of a cut", "why_tests_cant": "Ranges over all ways to change any of the bytes.", "anchors": ["src/core/dxt-lossless-transform-bc1/src/transform/transform_with_settings.rs: untransform_bc1_with_settings", "src/core/dxt-lossless-transform-bc2/src/transform/transform_with_settings.rs: untransform_bc2_with_settings", "src/core/dxt-lossless-transform-bc3/src/transform/transform_with_settings.rs: untransform_bc3_with_settings", "src/extensions/file-formats/dxt-lossless-transform-dds/src/handler/file_format_handler.rs: untransform"]}
{"id": "C79", "title": "Directories with links", "statement": "Whatever links a directory contains, also to itself, the tool's search ends and finds exactly the paths along which something other than a directory is reached through at most as many links as the operating system follows; no path is found twice and all are below the directory; without links it finds what C56 says. A file that several paths lead to is processed once for each path: a directory with one file and two links to itself gives 2^41 - 1 paths to that file on Linux.", "quantifier": "all directories, links between them (also cyclic and broken ones), and limits on the number of links", "why_tests_cant": "The number of paths is exponential in the limit and the set of link structures is unbounded.", "anchors": ["src/tools/dxt-lossless-transform-cli/src/util/core.rs find_all_files"]}
{"id": "C80", "title": "C programs on big-endian machines", "statement": "On a big-endian machine the C functions return the documented code for null pointers, bad lengths, failed allocations and failed estimators, write only the texture's length of the output, and on success write the big-endian layout of the settings in force; what a transform wrote, untransforming with the same settings, or with the builder an automatic transform returned, restores exactly. After any history of calls a builder uses the last value set for each option. A program that passes null or held handles and buffers as long as it says never causes undefined behaviour or a panic, not even with an empty texture in a debug build. Without decorrelation the bytes and codes are the same as on a little-endian machine.", "quantifier": "all histories of C calls, handles, pointers, lengths, textures, estimators, both codecs, debug and release builds", "why_tests_cant": "The project has no big-endian machine to run C programs on, and the histories and buffers are unbounded.", "anchors": ["src/api/dxt-lossless-transform-bc1-api/src/c_api/transform/manual_transform_builder.rs", "src/api/dxt-lossless-transform-bc1-api/src/c_api/transform/auto_transform_builder.rs", "src/core/dxt-lossless-transform-bc1/src/c_api/transform_with_settings.rs", "src/core/dxt-lossless-transform-bc1/src/c_api/transform_auto.rs", "the same files of the bc2 crates"]}
{"id": "C81", "title": "The command line tool on big-endian machines", "statement": "On a big-endian machine, in whatever order the tool's threads run and wherever it is stopped, no transform or untransform of a directory has undefined behaviour, and on a 64-bit machine none panics (in a debug build, if texture sizes can be computed without overflow). A file transformed by one big-endian machine's tool and untransformed by another's is back as soon as the second reports it as done, and the second can only fail on it because the operating system does. Every preset succeeds on a whole BC1 file: Low with the default settings, Medium with the smallest LTU estimate of the fast search, Optimal and Max with the settings Zstandard compresses best among the fast and among all candidates; BC2 files are refused by all.", "quantifier": "all directories, files, interleavings, points at which the tool is stopped, failures of the operating system, estimators, build profiles", "why_tests_cant": "The tests run on little-endian machines and cannot enumerate interleavings or directories.", "anchors": ["src/tools/dxt-lossless-transform-cli/src/commands/transform/mod.rs", "src/tools/dxt-lossless-transform-cli/src/commands/untransform/mod.rs", "src/tools/dxt-lossless-transform-cli/src/util/handlers.rs", "src/extensions/file-formats/dxt-lossless-transform-dds/src/handler/file_format_handler.rs"]}
{"id": "C82", "title": "Command line tool on disks with links", "statement": "Symbolic and hard links can make several paths lead to one file. Whatever links there are, in whatever order the tool's threads run and wherever it is stopped, only files that output paths lead to are written. If no output path leads to an input file and no two output paths lead to one file - which holds when there are no links on the way to the outputs and no input is a link to an output - every input keeps its contents, every file reported as done has the first accepting handler's result, there is no undefined behaviour and (on 64 bits) no panic, and a file transformed in one run and reported as restored in another is back. Both conditions are needed, even for directories that are apart: an output that is a link to its input destroys it, and of two outputs that are one file one is lost although both are reported as done.", "quantifier": "all ways links can lead from paths to files, schedules of the parallel loop, crash points, answers of the operating system, directories, file contents, handlers", "why_tests_cant": "Links, schedules and stopping points cannot be enumerated, and a lost output is reported as a success.", "anchors": ["src/tools/dxt-lossless-transform-cli/src/commands/transform/mod.rs", "src/tools/dxt-lossless-transform-cli/src/commands/untransform/mod.rs", "src/api/dxt-lossless-transform-file-formats-api/src/file_io/lightweight_mmap/file.rs", "find_all_files"]}
{"id": "C83", "title": "Restoring when memory runs out", "statement": "Restoring a BC1 texture needs memory beyond its two buffers exactly when the machine is not an x86, the colours were split and decorrelated, and the texture has at least 1024 bytes. If that memory (as many bytes as the texture) cannot be allocated, the function panics instead of returning an error; in every other case the texture, or the DDS file around it, is restored exactly as with unlimited memory, and x86 machines never depend on it. Any file marked otherwise, and any file that is refused, is handled the same with and without memory.", "quantifier": "all textures, files (also damaged ones), settings, machines (x86, portable, big-endian), and answers of the allocator", "why_tests_cant": "Tests do not run out of memory, and the failure depends on architecture, settings and size together.", "anchors": ["src/core/dxt-lossless-transform-bc1/src/transform/with_split_colour_and_recorr/untransform/generic.rs", "src/core/dxt-lossless-transform-common/src/allocate.rs", "untransform_bc1_slice", "DdsHandler::untransform"]}
{"id": "C84", "title": "Debug builds do what release builds do, or panic", "statement": "Calling a function of the library in a debug build either panics or returns the same answer as the release build for the same machine, makes the same calls to the estimator and leaves the same bytes in the output buffer and the same files on disk. Transforming BC2 and restoring BC3 never panic where the release build does not. Whatever answers a C program gets from a debug build it gets from the release build. The command line tool built for debugging panics or leaves the same files and total; with many threads, for every state its run can be in, the release build can be in a state with the same files and total in which every task that did not panic got as far.", "quantifier": "all machines, settings, estimators, byte strings (valid textures and files or not), output buffers and disks, histories of C calls, directories, answers of the operating system and schedules", "why_tests_cant": "Debug assertions and overflow checks could hide a divergence for inputs no test runs in both profiles; tests run one build profile on one CPU.", "anchors": ["src/core/dxt-lossless-transform-bc1/src/transform/safe/transform_with_settings.rs", "src/core/dxt-lossless-transform-bc2/src/transform/safe/transform_with_settings.rs", "src/core/dxt-lossless-transform-bc3/src/transform/safe/transform_with_settings.rs", "src/core/dxt-lossless-transform-bc1/src/transform/transform_auto.rs", "src/extensions/file-formats/dxt-lossless-transform-dds/src/dds/parse_dds.rs:parse_dds", "src/extensions/file-formats/dxt-lossless-transform-dds/src/handler/file_format_handler.rs", "src/api/dxt-lossless-transform-file-formats-api/src/file_io/lightweight_mmap/file.rs", "src/api/dxt-lossless-transform-bc1-api/src/c_api/transform/auto_transform_builder.rs", "src/tools/dxt-lossless-transform-cli/src/commands/transform/mod.rs"]}
{"id": "C85", "title": "Normalising BC1 textures on big-endian machines", "statement": "On a big-endian machine the BC1 transform with block normalisation writes the big-endian layout of a texture in which transparent and one-colour blocks have their normal form and no pixel has changed; restoring it on a big-endian machine with the settings kept in the details gives that texture. Only the output and the work buffer change, for any number of blocks. Without normalisation it writes what the ordinary big-endian transform writes, and without decorrelation what a little-endian machine writes. Its search ends for every estimator, returns details that describe its output, and returns the smallest of the estimates it takes; if nothing can be normalised its outcome is that of the ordinary search.", "quantifier": "all textures, placements of the buffers in memory, normalisation modes, settings, estimators, allocation failures and big-endian machines (debug or release)", "why_tests_cant": "No test runs on a big-endian machine; textures, settings and memory layouts are unbounded.", "anchors": ["src/core/dxt-lossless-transform-bc1/src/experimental/normalize_blocks/transform.rs: transform_bc1_with_normalize_blocks, transform_bc1_auto_with_normalization", "src/core/dxt-lossless-transform-common/src/transforms/split_565_color_endpoints/portable32.rs: u32", "src/core/dxt-lossless-transform-common/src/color_565/decorrelate_batch_ptr.rs"]}
{"id": "C86", "title": "Handles of the bundled estimator in the C API", "statement": "A C program may make and free bundled size estimators and builders in any order. Each estimator handle can be freed exactly once and is fresh when made; null handles do nothing. A builder keeps working, with the same answers, after the estimator it was made with has been freed. Memory in use is one allocation for each estimator not yet freed. A program that passes only null or held handles never meets undefined behaviour.", "quantifier": "all histories of estimator and builder calls, textures, machines, match counters and other estimators in the same program", "why_tests_cant": "Histories are unbounded; use after free and leaks need not show in a test.", "anchors": ["src/extensions/estimators/dxt-lossless-transform-ltu/src/c_api.rs: dltltu_new_size_estimator, dltltu_free_size_estimator, ltu_max_compressed_size, ltu_estimate_compressed_size", "src/extensions/estimators/dxt-lossless-transform-ltu/src/lib.rs: LosslessTransformUtilsSizeEstimation", "src/api/dxt-lossless-transform-bc1-api/src/c_api/transform/auto_transform_builder.rs: dltbc1_new_AutoTransformBuilder, dltbc1_AutoTransformBuilder_Transform"]}
{"id": "C87", "title": "NoEstimation: automatic transforms neither fail nor search", "statement": "With the estimator NoEstimation, which the documentation says is for manual transforms only, an automatic transform of a valid texture succeeds even when no memory can be allocated, always returns the first settings in test order (BC1 and BC2: variant 2, or none without use_all_decorrelation_modes, endpoints not split; BC3: variant 2 or 1, alpha endpoints split, colour endpoints not), and leaves exactly the bytes of the manual transform with these settings. Big-endian machines behave the same way.", "quantifier": "all machines, all memory allocators, all valid textures and outputs at least as long", "why_tests_cant": "The repository's tests use it only where nothing is searched; that no input makes the search fail or choose differently is a claim about every texture and allocator.", "anchors": ["src/api/dxt-lossless-transform-api-common/src/estimate/mod.rs:NoEstimation", "src/core/dxt-lossless-transform-bc1/src/transform/transform_auto.rs:transform_bc1_auto", "src/core/dxt-lossless-transform-bc1/src/transform/settings.rs"]}
{"id": "C88", "title": "Whole commands: paths, exit status, disks", "statement": "Parsing the paths on the command line changes no file and removes nothing; it adds only the missing directories on the way to them, fails exactly when a file is in the way or the operating system refuses, and never changes which files are found, even if the output directory is made inside the input directory. A command writes only below its output directory. An error status means that no file was touched, and success that every file below the input directory was done (refuted: errors of single files, a mistyped input and a file given as input all end in success; what each status does mean is proved exactly). A file that one command transformed is found and restored by a second command on any disk that has the first one's files, unless the operating system fails it; with directories that are apart every command comes to an end without a crash. Big-endian machines behave the same way.", "quantifier": "all disks, paths, orders of the options, refusals of the operating system, file contents, schedules of the threads", "why_tests_cant": "The commands' tests are a handful of directories; the claims are about every disk, every path and every way the threads and the operating system behave.", "anchors": ["src/tools/dxt-lossless-transform-cli/src/main.rs:main", "src/tools/dxt-lossless-transform-cli/src/util/core.rs:canonicalize_cli_path", "src/tools/dxt-lossless-transform-cli/src/commands/transform/mod.rs:handle_transform_command", "src/tools/dxt-lossless-transform-cli/src/commands/untransform/mod.rs:handle_untransform_command"]}
{"id": "C89", "title": "Two commands at the same time", "statement": "If neither of two runs of the command line tool writes a file that the other reads or writes (for instance because each output directory is apart from the other run's directories; both may read the same input), then however their threads interleave, and wherever they are stopped, each run's tasks, total and files are those of a run on its own, and no other file changes; in particular a restoring run beside any such run restores the originals. Restoring a directory that is still being written is undefined behaviour.", "quantifier": "all pairs of commands, handlers, directories, file contents, and interleavings of two processes' threads, machines of both byte orders", "why_tests_cant": "It is a claim about every interleaving of two processes.", "anchors": ["src/tools/dxt-lossless-transform-cli/src/commands/transform/mod.rs:process_files_with_bundle", "src/tools/dxt-lossless-transform-cli/src/commands/untransform/mod.rs:process_files_untransform", "src/api/dxt-lossless-transform-file-formats-api/src/file_io/lightweight_mmap/file.rs"]}
{"id": "C90", "title": "Mistaken calls lose nothing", "statement": "Take a non-empty texture of whole blocks and any sequence of transform and untransform calls on it, each with any codec whose block size divides the length, any settings, either direction, on any supported machine of either byte order, each call getting the previous one's result. Every call succeeds and keeps the length; making the opposite calls in the opposite order gives the original bytes back; two different textures of the same length never end up the same; and the result depends on the machines only through their byte order. So restoring with the wrong settings, the wrong codec or on a machine of the wrong byte order is never reported, and can always be undone.", "quantifier": "all sequences of calls (codecs, settings, directions, machines, output slices) and all non-empty textures", "why_tests_cant": "It ranges over histories of any length and over all textures and machines.", "anchors": ["src/core/dxt-lossless-transform-bc1/src/transform/safe/transform_with_settings.rs:transform_bc1_with_settings", "src/core/dxt-lossless-transform-bc2/src/transform/safe/transform_with_settings.rs:transform_bc2_with_settings", "src/core/dxt-lossless-transform-bc3/src/transform/safe/transform_with_settings.rs:transform_bc3_with_settings"]}
{"id": "C91", "title": "Any file, and damage to the header word", "statement": "For every DDS file with complete headers and a whole texture, whether transformed or not, the untransform's answer and output are determined exactly by nine bits of the first four bytes: an unknown format, a version other than 0 and a texture that is not a whole number of blocks are refused (with the headers already written), and otherwise the result has the DDS magic, the other headers and the bytes behind the texture unchanged, and the texture whose transformed form with the named codec and settings is the one given. So if the first four bytes of a transformed file are replaced by anything, the file is refused, or restored exactly (always, if only reserved bits differ), or restored with a wrong texture without an error; in the last case transforming that texture as the wrong header says and untransforming it as the right one says gives the original texture.", "quantifier": "all files, all 32-bit header words, all machines and builds, all bundles and estimators", "why_tests_cant": "It ranges over all files and all header words, and the exact answer is claimed for each.", "anchors": ["src/extensions/file-formats/dxt-lossless-transform-dds/src/handler/file_format_handler.rs:untransform", "src/api/dxt-lossless-transform-file-formats-api/src/handlers/dispatch.rs:dispatch_untransform", "src/api/dxt-lossless-transform-file-formats-api/src/embed/formats/bc1.rs", "src/api/dxt-lossless-transform-file-formats-api/src/embed/formats/bc2.rs"]}
{"id": "C92", "title": "Histories of transforming and restoring a file", "statement": "Start with a DDS file and, on any fit computers of one byte order, in any order and any number of times, transform it with any bundle and any estimator or restore it, keeping the old file whenever a call fails or panics. Then the file always has its length; whenever it begins with the DDS magic it is the original, and whenever it does not, a release build restores the original from it (a debug build does so or panics). Transforming and restoring take turns: a transformed file is never transformed again, a restored one never restored again. Conversely, for any bytes that restoring accepts, whoever made them, the result can be transformed back with the settings of the header word to the same bytes (reserved bits cleared) if the DDS headers state the word's format, and two files with the same codec and settings in the header word that are restored to the same file differ at most in that word. On computers of different byte order the original can be lost silently.", "quantifier": "all histories of transforms and restores, all DDS files, all bundles, estimators, output buffers, machines and builds", "why_tests_cant": "It ranges over histories of any length with failing calls, over all files and over all machines.", "anchors": ["src/extensions/file-formats/dxt-lossless-transform-dds/src/handler/file_format_handler.rs:transform_bundle", "src/extensions/file-formats/dxt-lossless-transform-dds/src/handler/file_format_handler.rs:untransform", "src/api/dxt-lossless-transform-file-formats-api/src/handlers/dispatch.rs"]}
{"id": "C93", "title": "Nothing but the byte order of the machine matters", "statement": "On little-endian machines, whatever their processor and its features, searching for settings with any (stateful, failing) estimator makes the same estimator calls, the same choice, the same errors and the same bytes; so do transforming and restoring DDS files in memory and on disk, every history of C calls that return, and every run of the command line tool in every interleaving. A debug build does the same or panics. The width of addresses does not matter either, as long as the stated texture and the estimator's answers fit into 32 bits; an estimator that answers 2^32 - 1 makes 32-bit and 64-bit machines choose differently. The same holds among big-endian machines.", "quantifier": "all pairs of supported machines of the same byte order and all builds, all estimators, bundles, files, disks, histories of C calls and interleavings of the tool", "why_tests_cant": "A test runs on one machine; the claim compares all of them, for all inputs, estimators and schedules.", "anchors": ["src/core/dxt-lossless-transform-bc1/src/transform/transform_auto.rs", "src/core/dxt-lossless-transform-bc2/src/transform/transform_auto.rs", "src/core/dxt-lossless-transform-bc3/src/transform/transform_auto.rs", "src/extensions/file-formats/dxt-lossless-transform-dds/src/handler/file_format_handler.rs", "src/api/dxt-lossless-transform-file-formats-api/src/handlers/dispatch.rs"]}
{"id": "C94", "title": "Overlapping buffers when normalising", "statement": "In builds with debug assertions, the functions that normalise blocks panic exactly when the output overlaps the input in part or the length is not whole blocks, and succeed otherwise; normalising for all modes panics as soon as one of its outputs overlaps the input in part. In builds without debug assertions an overlapping call returns and can change the picture of a block.", "quantifier": "all memories, positions, lengths and modes", "why_tests_cant": "Unbounded positions and lengths; the boundary cases are one byte wide.", "anchors": ["src/core/dxt-lossless-transform-bc1/src/experimental/normalize_blocks/normalize.rs:normalize_blocks", "src/core/dxt-lossless-transform-bc2/src/experimental/normalize_blocks/normalize.rs:normalize_blocks", "src/core/dxt-lossless-transform-bc3/src/experimental/normalize_blocks/normalize.rs:normalize_blocks_all_modes"]}
{"id": "C95", "title": "Normalising does not depend on the machine", "statement": "Two machines of the same byte order write the same output for the same texture and details when they transform BC1 with block normalisation, wherever their work buffers are. Their searches over normalisation modes and settings give the same answer with any estimator, leave it in the same state and, if they succeed, leave the same memory, whatever newly allocated memory contains. A debug build of the normalising functions does what the release build does or panics, for any buffers.", "quantifier": "all textures, memories, placements, details, estimators and their states, allocation failures, contents of new memory, CPU feature sets and builds; both byte orders. The conditions of C51 and C52 (enough blocks for the endpoint splitter, even addresses) apply", "why_tests_cant": "Every CPU path, build profile and content of uninitialised memory would have to be compared on every texture.", "anchors": ["src/core/dxt-lossless-transform-bc1/src/experimental/normalize_blocks/transform.rs:transform_bc1_with_normalize_blocks", "src/core/dxt-lossless-transform-bc1/src/experimental/normalize_blocks/transform.rs:transform_bc1_auto_with_normalization", "src/core/dxt-lossless-transform-bc1/src/experimental/normalize_blocks/normalize.rs"]}
{"id": "C96", "title": "Normalising again and again", "statement": "Normalising a BC1, BC2 or BC3 texture in place any number of times, in any modes and in debug or release builds, always succeeds and leaves exactly the memory that one call with the last mode that is not None leaves (for BC3 the last alpha mode and the last colour mode, counted separately); with no such mode nothing changes. The picture stays. The same holds for blocks whose parts are stored apart.", "quantifier": "all memories and areas of whole blocks, all finite sequences of calls with their modes and builds", "why_tests_cant": "It is about all sequences of calls on all textures; tests try a few sequences on a few blocks.", "anchors": ["src/core/dxt-lossless-transform-bc1/src/experimental/normalize_blocks/normalize.rs: normalize_blocks, normalize_split_blocks_in_place", "src/core/dxt-lossless-transform-bc2/src/experimental/normalize_blocks/normalize.rs: normalize_blocks, normalize_split_blocks_in_place", "src/core/dxt-lossless-transform-bc3/src/experimental/normalize_blocks/normalize.rs: normalize_blocks, normalize_split_blocks_in_place"]}
{"id": "C97", "title": "The units of an estimator", "statement": "Automatic choice depends only on which estimates are larger, not on the units they are reported in: if an estimator's sizes go through any strictly increasing function (bits for bytes, a penalty added, squares), a BC1 or BC2 automatic transform does exactly the same - the same settings, bytes, errors and panics - for every estimator, also one with memory. So does the search that normalises BC1 blocks, and so do the builders and the transform of whole DDS files, valid or not, with a bundle whose estimators each have units of their own. BC3 adds up two estimates: for any estimator the same holds for a multiple with a constant added or taken off, and for an estimator that always gives the same answer to the same question it holds for every strictly increasing function. For BC3 with an estimator that changes its answers it does not hold for every such function. The sizes must stay below the largest usize (for BC3, half of it). Big-endian machines behave the same way.", "quantifier": "all estimators, increasing functions, textures, buffers, machines and both candidate lists", "why_tests_cant": "It compares runs with every estimator and every increasing function; tests use one or two estimators.", "anchors": ["src/core/dxt-lossless-transform-bc1/src/transform/transform_auto.rs: transform_bc1_auto", "src/core/dxt-lossless-transform-bc2/src/transform/transform_auto.rs: transform_bc2_auto", "src/core/dxt-lossless-transform-bc3/src/transform/transform_auto.rs: transform_bc3_auto", "src/api/dxt-lossless-transform-api-common/src/estimate/mod.rs: SizeEstimationOperations", "src/core/dxt-lossless-transform-bc1/src/experimental/normalize_blocks/transform.rs: transform_bc1_auto_with_normalization", "src/extensions/file-formats/dxt-lossless-transform-dds/src/handler/file_format_handler.rs: transform_bundle"]}
{"id": "C98", "title": "What the output buffer held before", "statement": "What the output buffer contains before a call makes no difference: two calls that differ only in that return the same settings or error, leave the estimator in the same state and, if they succeed, leave the same bytes in the part of the buffer the call fills (the rest is not touched). This holds for automatic transforms of BC1, BC2 and BC3, also with buffers of different sizes that are large enough, for the builders, for bundles on single textures, and for transforming and restoring whole DDS files, valid or not. The same holds for the BC1 transform that normalises blocks and for its search, whatever the rest of memory, the work buffer and newly allocated memory hold, and wherever the buffers lie. After an error the buffers may still differ. In a debug build on a little-endian machine the texture must not be empty. Big-endian machines behave the same way.", "quantifier": "all buffers' contents, textures, files, settings, bundles, estimators and their states, machines, through the Rust builders and the C functions", "why_tests_cant": "Tests start with one buffer (usually zeroed); a read of an unwritten byte shows only for some contents.", "anchors": ["src/core/dxt-lossless-transform-bc1/src/transform/transform_auto.rs: transform_bc1_auto", "src/core/dxt-lossless-transform-bc2/src/transform/transform_auto.rs: transform_bc2_auto", "src/core/dxt-lossless-transform-bc3/src/transform/transform_auto.rs: transform_bc3_auto", "src/extensions/file-formats/dxt-lossless-transform-dds/src/handler/file_format_handler.rs: transform_bundle, untransform", "src/api/dxt-lossless-transform-bc1-api/src/c_api/transform/auto_transform_builder.rs", "src/api/dxt-lossless-transform-bc1-api/src/c_api/transform/manual_transform_builder.rs", "src/core/dxt-lossless-transform-bc1/src/c_api/transform_auto.rs", "src/core/dxt-lossless-transform-bc1/src/experimental/normalize_blocks/transform.rs: transform_bc1_with_normalize_blocks, transform_bc1_auto_with_normalization"]}
