# Formal model of dxt-lossless-transform in Rocq

The model lives in `rocq/theories` (logical name `Verif`).  It is a set of
total, computable Gallina functions that follow the Rust source function by
function (`Model/`), a small *specification* layer that does not use them
(`Spec/`), proofs connecting the two (`Proofs/`), and one theorem per claim,
with its `Print Assumptions` and an example meeting its hypotheses (`Props/`).
An example called `X_met` gives values for which every hypothesis of theorem `X`
holds at once; the machines, textures and estimators it uses are in
`Props/Cases.v` and `Props/CasesAuto.v`.

## 1. How the code is modelled

| concern | treatment |
|---|---|
| bytes | `Coq.Init.Byte.byte`; buffers are `list byte`; no side condition "is a byte" is ever needed |
| `usize` | `Z`; a Rust slice is never longer than `isize::MAX`, so `len * 16`, `ptr.add` etc. do not wrap on valid inputs. Where wrap-around is reachable (DDS sizes, 32-bit targets, BC3 estimate sum) the operation is modelled with explicit wrap/panic |
| panics, UB | explicit results (`Panic`, `Ub`) of the result monad; nothing is totalised. A theorem that says "`= Ok ...`" therefore also says: no panic, no out-of-bounds access, no out-of-range pointer arithmetic |
| memory (codecs) | a read-only input buffer, a scratch buffer and an output buffer per call; a pointer is (buffer, offset); every `ptr.add` checks `0 <= off <= len`, every load/store checks bounds. The three buffers are separate objects |
| memory (normalisers) | one arena; a pointer is an offset in it, so that buffers may coincide or overlap as the documentation allows |
| mutation | functions return the new memory |
| SIMD | instruction semantics are Gallina functions on byte vectors (`Model/Kernel.v`, `Model/Lanes.v`, `Model/LanesGen.v`); kernels are instruction lists generated from the Rust and inline-assembly source by `tools/rs2v.py` (the generated `Model/Gen*.v` are committed, each with source line citations) and run by the interpreter in `Model/Kernel.v` |
| CPU detection | a record of booleans (architecture, statically enabled level, sse2, ssse3, avx2, avx512f/bw/vl/vbmi), universally quantified |
| registers at entry | the content of never-written registers is an arbitrary function (`junk`), universally quantified |
| user code (estimators, file handlers, allocator, file system) | function arguments of the model, universally quantified; estimators and handlers may keep state |
| debug/release | a boolean parameter where `debug_assert!`/overflow checks matter |

Kernels (vector loops) are proved with a *verified symbolic checker*
(`Proofs/KernelFun.v`, `Proofs/Shapes.v`): the loop body is executed once on
symbolic bytes; a soundness theorem, proved once, lifts the result to every
concrete state and, by induction over the iterations, to every block count.

## 2. Properties

`properties.jsonl` has the statements, `MANIFEST.json` the theorem names and
what is missing where a claim is partial.

| property | modelled in | specification | how proved |
|---|---|---|---|
| C01-C03 round trip, C06-C08 CPU independence, C09-C11 memory safety and frame, C12-C14 layout, C15 validation, C22 bijection, C44 empty input, C46 permutation, C47 locality, C48 (codec part) | `Transform`, `Gen*`, `Kernel` | `Layout` | one theorem per format says that the model equals a list-level layout for every CPU, length and settings; the others follow from it; C22, C46 and C47 also over the big-endian layouts (`Props/PBeLocal.v`) |
| C04, C05, C40 colours | `Color565`, `Ycc`, `Lanes*`, `ColorBatch`, `ColorSlices` | `YCoCg`, `ColorSlices` | the 16-bit field is finite: exhaustive evaluation inside the kernel, lifted to all values; lanes and slices by induction |
| C16-C21, C50 automatic search | `Auto` | `Estimator`, `Answers` | arbitrary stateful estimator; induction over the candidate list |
| C23, C24 header | `Embed` | `Header` | bit arithmetic |
| C25, C35 bundles | `Bundle`, `Builders` | `Header` | case analysis over the previous results; induction over the installed builders |
| C26-C31, C49 DDS, C48 (file part) | `Dds` | `Dds` | arbitrary byte strings |
| C32, C43 handlers and files | `Handlers` | `Handlers`, `Files` | handlers arbitrary over an arbitrary world; induction over the handler list |
| C33, C34 C API, builders | `CApi`, `Builders` | `CApi` | heap of builders; induction over histories |
| C36 decoders | `Decode` | `Pixels` | equality with a per-pixel definition of the formats |
| C37-C39 normalisers | `Normalize` | `Normalize`, `Pixels` | induction over blocks, over the mode list and over the arena |
| C41 BC7 bit fields | `Bc7Bits` | in `Props/PBc7Bits` | bit arithmetic |
| C42 endpoint split | `GenSplit565` | in `Props/PSplit` | kernel machinery |
| C51, C52 BC1 transform with normalisation and its search | `NormTransform` | `Normalize`, `NormTransform`, `NormFirst` | one memory for all buffers; the kernel, splitter, normaliser and decorrelation theorems composed; induction over the candidate list; the details returned are the first smallest of Spec/NormFirst.v |
| C45 bundled estimator | `Ltu` | `Ltu` | arbitrary match counter |
| C53 Zstandard estimator | `Zstd` | `Zstd`, `ZstdSizes` | the library is an arbitrary record of functions over an arbitrary state; log of its calls; C50 for the scratch size; C16-C18 for the choice |
| C54-C56 command line tool: runs over directories | `Cli` | `Cli` | tasks with phases as a transition system; invariant `story` over every run of every schedule; measure for termination |
| C57 presets | `Cli` | `Cli` | composed from C26, C45 and C53 |
| C58 arrays of allocations | `Alloc` | `Alloc` | arbitrary allocator, log of its calls; induction over the array |
| C59 looking into files | `Inspect` | `Inspect` | induction over the handler list |
| C60 round trip test commands | `Inspect` | `Inspect`, `Pixels` | induction over settings, blocks and files; C02-C08 and C36 for the transforms and decoders; C29 for whole blocks |
| C61 size cache | `Caches` | `Caches`, `Bincode` | invariant over interleaved actions and runs; relation between a search with a log and one with the cache |
| C62 compressed data cache | `Caches` | `Compressed` | names cut at separators; invariant over histories: every file is a frame of its data |
| C63 statistics | `Stats` | `Stats` | the cache only grows, so sizes looked up early are still there at the end; fold for the smallest |
| C64 benchmarks | `Stats` | `Compressed` | every cache file is a frame of its data (C62), then induction over iterations |
| C65 big-endian machines | `BigEndian`, `GenBe*`, `BeTransform` | `BigEndian` | loads and stores reverse the bytes; the symbolic check of the kernels as for C01-C12 |
| C66 moving between byte orders | same | `BigEndian`, `Layout` | without decorrelation both layouts agree; otherwise computed counterexamples |
| C67 byte order check | `EndianTest` | `EndianTest`, `Cli` | induction over reads, trees, entries and test files; each machine is a parameter |
| C68 options of the debug commands | `Caches`, `Stats` | `DebugOptions`, `Zstd` | case analysis of the parsers; the estimators are those of C45 and C53 |
| C69 analyze-formats | `FormatAnalysis` | `FormatAnalysis`, `Dds` | the map describes the files seen so far (induction); sorted lists with the same elements are equal |
| C70 fuzz targets | `Fuzz` | `Pixels`, `Normalize` | each target as a function of a block; from C36-C39 |
| C71 cache under threads | `CacheThreads` | `CacheThreads`, `Compressed` | invariant of all schedules: a byte of a file is right or some task has still to write it; a decreasing measure of the work left |
| C72 bench kernels | `Gen/Bench*`, `KernelBench`, `Bench` | `Layout`, `Pack` | as C01-C03: the symbolic check of each loop body, then induction over the turns; the same lemma for every entry of a table |
| C73 files on big-endian machines | `BeFiles`, `BeTransform` | `BeFiles`, `Files`, `Dds` | the proofs of C25-C31 and C48 with the big-endian layouts; between byte orders the restore is the inverse of the other layout |
| C74 automatic settings and builders, big-endian | `BeFiles` | `BeFiles`, `Estimator`, `Answers` | the proofs of C16-C21, C34, C45, C50 and C53 with the big-endian kernels |
| C75 byte order check, real tools | `EndianTool`, `EndianTest`, `BeFiles` | `EndianTool`, `Dds`, `Cli` | the file functions and handlers of both byte orders run on one file (C25, C73), then C67's comparisons; sorting and filtering by induction; the loop over a directory by induction on its entries |
| C76 interrupted transforms | `Interrupted`, `BeInterrupted`, `Dds`, `Cli` | `Interrupted`, `Cli` | the handler as a list of writes (proved to give the handler's output), induction over the point of interruption; C54 for repeated runs |
| C77 killed directory transforms | `Interrupted`, `BeInterrupted`, `Cli`, `Dds` | `Interrupted`, `Cli` | C54's runs restricted to the handler's order of writes; C54 and C76 for the outputs, C55 for restoring |
| C78 damaged transformed files | `Transform`, `Dds`, `BeTransform`, `BeFiles` | `Damage`, `Layout`, `Dds` | every byte of a layout belongs to one block, and blocks are recovered injectively; the headers alone decide how a file is parsed |
| C79 directories with links | `Links` | `Links` | induction on the number of links and the tree; counting for the counterexample |
| C80 C programs on big-endian machines | `BeCApi` (with `CApi`, `BeFiles`) | `BeCApi` (with `CApi`) | the proofs of C33 and C34 over the big-endian layouts |
| C81 command line tool, big-endian | `Cli`, `EndianTool`, `BeFiles` | `Cli`, `BeFiles` | the runs of C54 with the big-endian DDS handler; presets by the searches of C74 with LTU and Zstandard |
| C82 command line tool and links | `LinkedCli` (with `Cli`) | `LinkedCli`, `Cli` | the invariant of C54 over the files paths lead to; concrete runs for the counterexamples |
| C83 restoring when memory runs out | `LowMemory` | `LowMemory` | both functions follow the same path up to the allocation; the panic's exact condition by case analysis |
| C84 debug and release builds | `Transform`, `Auto`, `Dds`, `Handlers`, `BeTransform`, `BeFiles`, `CApi`, `Cli` | `Release`, `ReleaseRuns` | by the layout theorems for at least one block and by the exact theorems of C44 for none; through searches and files by induction over the same program; through the tool's runs by simulation (a task that panicked in the debug build stands still in the release build) |
| C85 normalising transform on big-endian machines | `BeNormTransform` (generated by `tools/gen_be_norm.py`) | `BigEndian`, `Normalize`, `NormTransform` | as C51 and C52, with the big-endian kernels and colours read as big-endian numbers |
| C86 handles of the bundled estimator | `LtuHandles`: estimators, the memory of their contexts, builders that keep a context's address | histories (`Spec/LtuHandles.v`) over those of C34 | invariant over histories; a simulation that removes the handles |
| C87 NoEstimation | `Auto`: `no_estimation` and the searches; `BeFiles` | the chosen settings are written out in the statement | the search cannot fail when every answer is a size; the first-among-ties theorems of C16-C18 give the choice |
| C88 whole commands | `Commands`: disks of files and directories, `mkdir`, `create_dir_all`, `canonicalize_cli_path`, both commands from the paths to the exit status, with the handlers of either byte order | `Spec/Commands.v` (real disks, blocked and refused paths, only new directories) over `Spec/Cli.v` | what one `mkdir` does, then induction over the path; the search and the files of a disk do not see empty directories; C54-C56 for the runs |
| C89 two commands at once | `TwoCommands`: two processes of `Cli` on the same files | `Spec/TwoCommands.v` (who writes what) | a task depends on its two files only; simulation of each process by itself; C54 and C55 (C81 on big-endian machines) for what follows |
| C90 mistaken calls lose nothing | `Calls`: lists of calls of the slice functions of `Transform` and `BeTransform` | `Spec/Calls.v` (allowed calls, opposite calls) | each call is a layout or its inverse, both injective; induction over the list |
| C91 any file, damaged header words | `Dds.dds_untransform`, `Bundle.dispatch_untransform`, and their big-endian forms in `BeFiles` | `Spec/AnyFile.v` (what a word asks for), `Spec/Calls.v` | exact case analysis of the dispatcher; the file as four pieces; C90's layouts for the recovery |
| C92 histories of transforming and restoring a file | `FileHistory`: lists of actions on a file, on computers of either byte order | `Spec/FileHistory.v` (fit computers, one byte order), `Spec/AnyFile.v` | invariant: the file is the original or is accepted and restored to it (C15/C91); injectivity of the layouts; mixed byte orders refuted (C92_mixed_refuted) |
| C93 nothing but the byte order matters | `Auto`, `Bundle`, `Dds`, `Handlers`, `CApi`, `Cli` on two machines | `Spec/Release.v`, `Spec/Machines.v` (estimators whose answers fit) | the searches of two release builds step by step (C06 to C08 for each step), then C84 for debug builds; simulation of runs as in C84; refuted for answers of 2^32 - 1 (C93_address_width_refuted); the same among big-endian machines (C93_be_*, `Proofs/BeMachines.v`, `Proofs/BeMachinesRuns.v`) |
| C94 overlapping buffers when normalising | `Normalize` with debug assertions on | `Spec/Overlap.v` (allowed buffers, calls that stop) | the assertions against C37/C38 for the calls that succeed; a witness for builds without assertions |
| C95 normalising does not depend on the machine | `NormTransform`, `BeNormTransform`, `Normalize` on two machines | `Spec/NormTransform.v`, `Spec/Release.v` | the exact outcome of the search (`auto_some_exact`, `auto_none`) on each machine; measured and normalised textures are unique; assertions only add panics |
| C96 normalising again and again | `Normalize` | `Spec/Passes.v` (calls one after another, the last mode that is not None), `Spec/Normalize.v` | normal forms compose block by block because the picture stays (C37, C38); induction on the calls from the end; the normal form is a function of the block, so the memories are equal |
| C97 the units of an estimator | `Auto`, `Bundle`, `Dds`, `NormTransform`, `BeFiles`, `BeNormTransform` | `Spec/Units.v`, `Spec/UnitsFiles.v` (an estimator whose sizes go through a function, and bundles of such estimators) | a simulation of the search loop: each comparison comes out the same in both units; for BC3 with an answer per question, C18 in both units, exchanging the alpha and the colour part of the two winners |
| C98 what the output buffer held before | `Auto`, `Builders`, `Bundle`, `Dds`, `CApi`, `NormTransform`, `BeFiles`, `BeCApi`, `BeNormTransform` | `Spec/OldContents.v` (two calls do the same on the part they fill) | the search depends only on what the estimator is shown; both calls are followed step by step through the file handler, carrying that the buffers agree on the part written so far |

Nothing in the list was found inexpressible.  Wall-clock speed and compression
ratio are not stated.

## 3. Trusted base

* The Coq 8.16.1 kernel, including conversion by `vm_compute` during the build
  (the gate's `coqchk` repeats these conversions without the virtual machine).
* `Print Assumptions` stands after every theorem of `Props/`; each answers
  "Closed under the global context".  The only library axioms in loaded files
  (not used by any of our theorems) are those of `Coq.ssr.ssrunder`
  (`Under_rel` and its companions), which come with the standard library.
* The reading of Rust into the model.  Each definition cites file and lines.
  For the kernels this reading is done by `tools/rs2v.py`; the translator itself
  is not trusted by Coq but its output (committed) is part of the model and must
  be compared with the source.
* The meaning of x86 instructions and intrinsics: `Model/Kernel.v`,
  `Model/Lanes.v`, `Model/LanesGen.v`, written from Intel's manual (asm blocks are
  in Intel syntax). In the `bench` kernels `tools/rs2v.py` writes a gather with constant
  indices as its loads and 32-bit shift-and-pack as byte picks (`C72_shift_pack` shows the
  latter equal to the manual's description); an end pointer that a loop condition forms anew in
  each turn from values that do not change is formed once, before the loop.
* A CPU that reports a feature also reports what it implies (`cpu_ok`), and
  AVX512BW comes with AVX512VL for BC2 (all shipped CPUs; the code needs it, see
  `C10_bc2_avx512vl_refuted`).
* `ptr_utils` adds byte offsets; `bitfield`, `endian_writer`,
  `lightweight_mmap`, `safe_allocator_api` behave as the comments beside their
  models say.  `allocate_align_64` succeeds in the work buffer of the portable
  `untransform_bc1` with split, decorrelated colours, except in C83, where its answers are a
  parameter (`room`); elsewhere its failure is visible in the result and is a parameter (`alloc_ok`).
* Estimators and handlers do not unwind (they may return errors).
* The source is read at the pinned commit for little-endian x86, x86-64 and
  portable targets, and the transforms, searches, dispatch and DDS handler also
  for big-endian targets (`Model/GenBe*.v`, `Model/BeTransform.v`,
  `Model/BeFiles.v`, generated by `tools/gen_be.py` from the little-endian model, and
  `Model/BeInterrupted.v`, the order in which the handler writes;
  the unaligned accesses of `ptr_utils` are in the byte order of the machine,
  headers are little-endian on every machine). The decoders and normalisers build their
  values from single bytes and do not depend on the byte order.

### Modelled

`core/dxt-lossless-transform-common` (colours, batch functions, endpoint
splitter, decoded block), `-bc1`, `-bc2`, `-bc3` (settings, transform and
untransform with every kernel the dispatchers can reach, safe wrappers, automatic
search, decoders, normalisers, and for BC1 the experimental transform with
normalisation and its search), `-bc7` (bit-field helpers), `api/*` (estimator
trait, builders, embeds, bundles, C API), `core/…-file-formats-api`
(dispatch, handler selection, slice and file entry points), `file-formats/…-dds`
(parser, handler, block extraction, detection, C constants), `extensions/estimators/…-ltu` and
`extensions/compressors/…-zstd` (the library itself is a parameter),
`tools/…-cli` (file search, presets, the transform and untransform commands,
sequential and parallel; the `test-roundtrip` debug commands; the size cache and
the compressed data cache, also used by many threads; statistics and benchmark
scenarios of the other debug commands; the test files, comparisons and verdicts of `debug-endian` and the commands it runs; `analyze-formats`),
`core/…-file-formats-debug` (filters, block extraction, format detection),
the fuzz targets, and the kernels of the `bench` modules (little-endian).

### Not modelled

* `tools/…-cli`: argument parsing beyond the paths (C88) and the preset names, messages, timing (of the benchmarks only what is done with the
  data is modelled); the crate bincode and the
  hash xxh3 (parameters); links in the directory tree outside C79 and C82 (elsewhere a tree is finite and different paths are different files; nowhere do links change during a run); `str::to_lowercase`
  beyond ASCII;
  the Criterion benchmarks, tests and `test_prelude`.
* The zstd library itself; inside the transforms `common/allocate.rs` only
  "succeeds or fails" (the array of allocations has its own model, C58).
* Other processes changing a file while it is mapped; disk-full and similar
  errors other than as arbitrary failures of the file operations.
* Alignment. Kernels and dispatchers only use unaligned accesses (the generator
  of the kernel models refuses any other), so it matters in three places only,
  where `Color565` values are read or written through aligned pointers. In the
  experimental `normalize_blocks/transform.rs` of BC1 it is modelled: whether the
  address of the output is even is a parameter (C51, C52). In
  `color_565/decorrelate_batch_ptr.rs` and the mode `None` of
  `recorrelate_ycocg_r_ptr_split` alignment is a documented duty of the caller,
  and an odd address is outside the model.
* In `NormTransform` all buffers share one memory, so arithmetic that leaves one
  buffer and stays in the memory is not noticed there (the kernels themselves are
  proved in exact buffers).
* Targets without x86 beyond their portable code path.

## 4. What the proofs found in the code

* The four-byte header has no check sum: one flipped bit (0, 6, 7 or 8) of a
  transformed file makes the untransform succeed with another texture
  (C91_noticed_refuted); the 23 reserved bits are ignored when reading BC1 and BC2.
* The command line tool exits with success although files failed, and makes a
  directory of a mistyped input path instead of refusing it (C88_success_refuted,
  C88_nothing_to_do).
* The normalising BC1 transform is undefined behaviour for an output at an odd
  address with every decorrelation mode, while its documentation only recommends
  an alignment (C51_odd_address_refuted, C52_odd_address_refuted).
* Debug builds panic on empty input for BC1 and BC3 (`block_count > 0`
  assertion), C44.
* The BC2 AVX512BW kernels also use AVX512VL instructions, C10.
* BC3 automatic search adds two estimates without checking for overflow, C18.
* DDS: an output larger than the file panics when bytes follow the texture (C30);
  level sizes overflow 32 bits for large dimensions (C28, C29); on 32-bit
  machines a crafted header panics (C48); `can_handle_untransform` accepts a
  plain DDS file (the later header check rejects it, C31).
* File functions with a single handler leave the created output file behind when
  the handler fails, C43.
* A transform that is killed before its first write leaves a file of zeros, which
  untransform accepts as a transformed BC1 file; an untransform that is killed
  leaves a plain DDS file with a wrong texture, C76; at the level of the command,
  C77.
* The command line tool leaves the output file of a failed file behind, and
  untransforming that yields a well-formed DDS file with other contents, C57; it
  does not refuse to write into the input directory or into one inside it, which
  destroys inputs and has undefined behaviour, C54. Two links in a directory that
  lead back to it make it process each file 2^41 - 1 times, C79. An output path that
  is a link to an input destroys the input, and two output paths that lead to one file lose
  an output that is reported as done, C82.
* On machines other than x86, restoring a BC1 texture of at least 1024 bytes with split and
  decorrelated colours panics when memory runs out, C83.
* Debug commands of the command line tool replace their own errors by "no
  supported handler", which is then not printed, C59; `test-roundtrip` fails for
  a directory that holds any file that is not a texture of its format, C60.
* A compressed data file whose writing stopped in the middle is later returned as
  if it were complete, C62. The size cache of empty data depends on the history:
  the estimators answer 0, `compress_data_cached` stores the real compressed size
  under the same key (so the condition of C61 fails there).
* Benchmarks with `--iterations 0` panic (a duration divided by 0). Without
  warmup a cut cache file panics too; with warmup it is an error, which is then
  reported as "no supported handler" and not printed, C64. `analyze-formats` adds
  file sizes without checking for overflow, C69. Measuring with the
  algorithm `lossless-transform-utils` reaches a `todo!()`.
* C automatic transform with null data, builder or output leaves the handle
  variable unchanged although the comment promises null, C33.
* `split_color_endpoints` on SSE2/AVX2 computes a pointer before the array for
  fewer than 16 pairs, C42.
* Normalisation: BC1 "all modes" rewrites transparent blocks in the buffer of
  mode None, and in place this can change the picture; BC3 "all modes" with the
  input as an output is documented but asserts in debug and writes wrong bytes in
  release, C39.
* The search over normalisation modes measures mode None on a texture with
  rewritten transparent blocks, not on what it writes, so it can return a choice
  that is not the best; it passes over estimator errors silently, C52.
* Transformed data is not portable between byte orders when a decorrelation mode
  is used: the portable kernels read colours as native 16-bit numbers, so a
  big-endian machine converts the swapped number, C66. Headers are portable, so
  such a file is restored without an error and with wrong colours. The project's
  `debug-endian` command does not notice: `test_all_combinations` returns after
  the first settings that work, which are those without decorrelation.
  It also never compares the restored file with the test file, passes when there
  are no test files, and calls equal files different when one read is shorter
  than the other, C67.
* Not expressible as a theorem of this model but seen while reading: asm blocks
  with `options(preserves_flags)` that change flags; the BC3 AVX512VBMI
  untransform loads past the alpha-bits section (still inside the input). The test function of the
  normalising search makes a shared and a mutable slice over the same colours.
