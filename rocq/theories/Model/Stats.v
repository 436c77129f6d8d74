(** The debug commands that measure: compression statistics and benchmarks.

    Line numbers are those
    of debug_bc1 where not said otherwise; debug_bc2 and debug_bc3 have the same
    functions for their formats. *)
From Verif Require Import Base.Bytes Base.Res Model.Color565 Model.Ycc Model.Kernel Model.Transform Model.Auto Model.Decode Model.Normalize Model.NormTransform
  Model.Handlers Model.Inspect Model.Zstd Model.Caches.
From Coq Require Import String.
Open Scope string_scope.
Open Scope list_scope.
Open Scope Z_scope.

(** ** Which settings the library recommends *)
Section Determine.
Context {St Er : Type}.
Variables (c : cfg) (v : env) (e : estimator St Er) (use_all : bool).
(** [fresh i] is the content of byte [i] of newly allocated memory. *)
Variable fresh : Z -> byte.

(** [map_err] to a message;
    src/tools/dxt-lossless-transform-cli/src/commands/debug_bc1/mod.rs *)
Definition or_message {A E} (r : result A E) : result A debug_error := match r with ROk a => ROk a | RErr _ => RErr DMessage end.

(** src/tools/dxt-lossless-transform-cli/src/commands/debug_bc1/mod.rs:246-295; the output buffer is dropped *)
Definition determine_bc1 (experimental_normalize : bool) (data : list byte) (st : St) : res (result settings debug_error * St) :=
  if negb (alloc_ok v (zlen data)) then Ok (RErr DMessage, st)
  else if experimental_normalize then
    do r <- transform_bc1_auto_with_normalization c v e use_all fresh true 0 (zlen data) (zlen data) (grow fresh data (zlen data)) st ;;
    let '(r, _, st) := r in
    Ok (or_message (match r with ROk d => ROk (Settings (d_decorr d) (d_split d)) | RErr x => RErr x end), st)
  else
    do r <- transform_bc1_auto_ptr c v e use_all (Ptr BIn 0) (Ptr BOut 0) (zlen data) (Mem data [] (grow fresh [] (zlen data))) st ;;
    let '(r, _, st) := r in Ok (or_message r, st).
(** src/tools/dxt-lossless-transform-cli/src/commands/debug_bc2/mod.rs:232-261 *)
Definition determine_bc2 (data : list byte) (st : St) : res (result settings debug_error * St) :=
  if negb (alloc_ok v (zlen data)) then Ok (RErr DMessage, st)
  else
    do r <- transform_bc2_auto_ptr c v e use_all (Ptr BIn 0) (Ptr BOut 0) (zlen data) (Mem data [] (grow fresh [] (zlen data))) st ;;
    let '(r, _, st) := r in Ok (or_message r, st).
(** src/tools/dxt-lossless-transform-cli/src/commands/debug_bc3/mod.rs:231-259 *)
Definition determine_bc3 (data : list byte) (st : St) : res (result settings3 debug_error * St) :=
  if negb (alloc_ok v (zlen data)) then Ok (RErr DMessage, st)
  else
    do r <- transform_bc3_auto_ptr c v e use_all (Ptr BIn 0) (Ptr BOut 0) (zlen data) (Mem data [] (grow fresh [] (zlen data))) st ;;
    let '(r, _, st) := r in Ok (or_message r, st).
End Determine.

(** ** Statistics *)

(** src/tools/dxt-lossless-transform-cli/src/debug_format/calc_compression_stats_common.rs:65-72 *)
Record transform_result (S : Type) := TransformResult { t_options : S; t_size : Z }.
Arguments TransformResult {S}. Arguments t_options {S}. Arguments t_size {S}.
(** src/tools/dxt-lossless-transform-cli/src/debug_format/calc_compression_stats_common.rs:15-25, without the path *)
Record stats_result (S : Type) := StatsResult {
  original_uncompressed_size : Z; original_compressed_size : Z; all_results : list (transform_result S); api_recommended_result : transform_result S }.
Arguments StatsResult {S}. Arguments original_uncompressed_size {S}. Arguments original_compressed_size {S}. Arguments all_results {S}.
Arguments api_recommended_result {S}.

Section Stats.
Context {S : Type}.
Variables (v : env) (default : S) (same : S -> S -> bool).

(** src/tools/dxt-lossless-transform-cli/src/debug_format/calc_compression_stats_common.rs:34-46 *)
Definition find_best_result (r : stats_result S) : transform_result S :=
  snd (fold_left (fun '(best_size, best_result) result =>
         if t_size result <? best_size then (t_size result, result) else (best_size, best_result))
       (all_results r) (usize_max v, TransformResult default 0)).
(** src/tools/dxt-lossless-transform-cli/src/debug_format/calc_compression_stats_common.rs:50-57 *)
Definition find_default_result (r : stats_result S) : res (transform_result S) :=
  match find (fun result => same (t_options result) default) (all_results r) with
  | Some result => Ok result
  | None => Panic "Default transform should always be present in all_combinations()"
  end.

(** src/tools/dxt-lossless-transform-cli/src/debug_format/calc_compression_stats_common.rs:178-205, the totals that are printed:
    original, best, default, recommended. Simplification: sums do not overflow. *)
Definition sum_of (l : list Z) : Z := fold_right Z.add 0 l.
Fixpoint default_sizes (rs : list (stats_result S)) : res (list Z) :=
  match rs with
  | [] => Ok []
  | r :: rs => do d <- find_default_result r ;; do l <- default_sizes rs ;; Ok (t_size d :: l)
  end.
Definition totals (rs : list (stats_result S)) : res (Z * Z * Z * Z) :=
  do d <- default_sizes rs ;;
  Ok (sum_of (map original_compressed_size rs), sum_of (map (fun r => t_size (find_best_result r)) rs), sum_of d,
      sum_of (map (fun r => t_size (api_recommended_result r)) rs)).

Context {L : Type}.
Variables (hash : list byte -> Z) (lib : zstd_lib L) (matches : list byte -> Z) (fresh : Z -> byte).
Variable transform : Z -> S -> mem -> res mem.           (** length, settings *)
Variable all_combinations : list S.
Variables (compression_level : Z) (compression_algorithm : algorithm).
(** determine_best_transform_details_with_estimator_cached *)
Variable recommend : list byte -> size_cache * L -> res (result S debug_error * (size_cache * L)).

(** src/tools/dxt-lossless-transform-cli/src/commands/debug_bc1/mod.rs:342 *)
Definition calc (data : list byte) (st : size_cache * L) : result Z debug_error * (size_cache * L) :=
  calc_size_with_cache_and_estimation_algorithm hash lib matches v data compression_level compression_algorithm st.

(** src/tools/dxt-lossless-transform-cli/src/commands/debug_bc1/calc_compression_stats.rs:206-225, the loop; [transformed] is the
    content of the buffer *)
Fixpoint analyze_loop (l : list S) (data transformed : list byte) (st : size_cache * L)
  : res (result (list (transform_result S)) debug_error * (size_cache * L)) :=
  match l with
  | [] => Ok (ROk [], st)
  | s :: l =>
      do m <- transform (zlen data) s (Mem data [] transformed) ;;
      match calc (m_out m) st with
      | (RErr e, st) => Ok (RErr e, st)
      | (ROk n, st) =>
          do r <- analyze_loop l data (m_out m) st ;;
          match r with
          | (ROk results, st) => Ok (ROk (TransformResult s n :: results), st)
          | (RErr e, st) => Ok (RErr e, st)
          end
      end
  end.
(** src/tools/dxt-lossless-transform-cli/src/commands/debug_bc1/calc_compression_stats.rs:194-229 *)
Definition analyze_transforms (data : list byte) (st : size_cache * L) : res (result (list (transform_result S)) debug_error * (size_cache * L)) :=
  if negb (alloc_ok v (zlen data)) then Ok (RErr DAllocate, st)
  else analyze_loop all_combinations data (grow fresh [] (zlen data)) st.
(** src/tools/dxt-lossless-transform-cli/src/commands/debug_bc1/calc_compression_stats.rs:232-274 *)
Definition analyze_api_recommendation (data : list byte) (st : size_cache * L) : res (result (transform_result S) debug_error * (size_cache * L)) :=
  do r <- recommend data st ;;
  match r with
  | (RErr e, st) => Ok (RErr e, st)
  | (ROk best_details, st) =>
      if negb (alloc_ok v (zlen data)) then Ok (RErr DAllocate, st)
      else
        do m <- transform (zlen data) best_details (Mem data [] (grow fresh [] (zlen data))) ;;
        Ok (match calc (m_out m) st with
            | (ROk n, st) => (ROk (TransformResult best_details n), st)
            | (RErr e, st) => (RErr e, st)
            end)
  end.
(** src/tools/dxt-lossless-transform-cli/src/commands/debug_bc1/calc_compression_stats.rs:159-188, what is done with the blocks of
    a file. Other threads do not change the cache meanwhile. *)
Definition analyze (data : list byte) (st : size_cache * L) : res (result (stats_result S) debug_error * (size_cache * L)) :=
  do r <- analyze_transforms data st ;;
  match r with
  | (RErr e, st) => Ok (RErr e, st)
  | (ROk all, st) =>
      match calc data st with
      | (RErr e, st) => Ok (RErr e, st)
      | (ROk original, st) =>
          do r <- analyze_api_recommendation data st ;;
          match r with
          | (RErr e, st) => Ok (RErr e, st)
          | (ROk api, st) => Ok (ROk (StatsResult (zlen data) original all api), st)
          end
      end
  end.
End Stats.

(** src/tools/dxt-lossless-transform-cli/src/commands/debug_bc1/mod.rs:342-363 and the like: the estimator is made, with the cache *)
Definition with_cached_estimator {L S} hash (lib : zstd_lib L) matches level a
    (determine : estimator (size_cache * L) debug_error -> list byte -> size_cache * L -> res (result S debug_error * (size_cache * L)))
    (data : list byte) (st : size_cache * L) : res (result S debug_error * (size_cache * L)) :=
  match cached_new hash lib matches a level with
  | RErr e => Ok (RErr e, st)
  | ROk e => determine e data st
  end.

Section Commands.
Context {L : Type}.
Variables (c : cfg) (v : env) (hash : list byte -> Z) (lib : zstd_lib L) (matches : list byte -> Z) (fresh : Z -> byte).
Variables (level : Z) (a : algorithm) (estimate_level : Z) (estimate_algorithm : algorithm) (normalize use_all : bool).

(** cmd/debug_bc1, debug_bc2, src/tools/dxt-lossless-transform-cli/src/commands/debug_bc3/calc_compression_stats.rs *)
Definition analyze_bc1 : list byte -> size_cache * L -> _ :=
  analyze v hash lib matches fresh (fun n s => transform_bc1_with_settings c (Ptr BIn 0) (Ptr BOut 0) n s) all_settings level a
    (with_cached_estimator hash lib matches estimate_level estimate_algorithm (fun e => determine_bc1 c v e use_all fresh normalize)).
Definition analyze_bc2 : list byte -> size_cache * L -> _ :=
  analyze v hash lib matches fresh (fun n s => transform_bc2_with_settings c (Ptr BIn 0) (Ptr BOut 0) n s) all_settings level a
    (with_cached_estimator hash lib matches estimate_level estimate_algorithm (fun e => determine_bc2 c v e use_all fresh)).
Definition analyze_bc3 : list byte -> size_cache * L -> _ :=
  analyze v hash lib matches fresh (fun n s => transform_bc3_with_settings c (Ptr BIn 0) (Ptr BOut 0) n s) all_settings3 level a
    (with_cached_estimator hash lib matches estimate_level estimate_algorithm (fun e => determine_bc3 c v e use_all fresh)).
End Commands.

(** ** Benchmarks *)
Section Benchmark.
Context {S L : Type}.
Variables (v : env) (y : zstd_codec L) (hash : list byte -> Z) (fresh : Z -> byte).
Variables transform untransform : Z -> S -> mem -> res mem.
Variables (iterations warmup_iterations : nat) (compression_level : Z) (compression_algorithm : algorithm) (dry_run : bool).

(** src/tools/dxt-lossless-transform-cli/src/commands/debug_bc1/benchmark.rs:300-317; the buffers are [decompressed] and [final] *)
Fixpoint warmup (n : nat) (compressed : list byte) (len : Z) (details : S) (decompressed final : list byte) (st : L)
  : res (result (list byte * list byte) debug_error * L) :=
  match n with
  | O => Ok (ROk (decompressed, final), st)
  | Datatypes.S n =>
      do r <- decompress_with_algorithm y compressed decompressed compression_algorithm st ;;
      let '(r, decompressed, st) := r in
      match r with
      | RErr e => Ok (RErr e, st)
      | ROk _ => do m <- untransform len details (Mem decompressed [] final) ;; warmup n compressed len details decompressed (m_out m) st
      end
  end.
(** src/tools/dxt-lossless-transform-cli/src/commands/debug_bc1/benchmark.rs:320-329 (also 392-401, and 382-389 but for the error) *)
Fixpoint bench_decompress (n : nat) (compressed decompressed : list byte) (st : L) : res (list byte * L) :=
  match n with
  | O => Ok (decompressed, st)
  | Datatypes.S n =>
      do r <- decompress_with_algorithm y compressed decompressed compression_algorithm st ;;
      let '(r, decompressed, st) := r in
      match r with
      | RErr _ => Panic "called `Result::unwrap()` on an `Err` value"
      | ROk _ => bench_decompress n compressed decompressed st
      end
  end.
(** src/tools/dxt-lossless-transform-cli/src/commands/debug_bc1/benchmark.rs:332-343 *)
Fixpoint bench_untransform (n : nat) (len : Z) (details : S) (decompressed final : list byte) : res (list byte) :=
  match n with
  | O => Ok final
  | Datatypes.S n => do m <- untransform len details (Mem decompressed [] final) ;; bench_untransform n len details decompressed (m_out m)
  end.
(** src/tools/dxt-lossless-transform-cli/src/commands/debug_bc1/benchmark.rs:346-347: dividing a [Duration] *)
Definition average : res unit := match iterations with O => Panic "divide by zero error when dividing duration by scalar" | _ => Ok tt end.

(** src/tools/dxt-lossless-transform-cli/src/commands/debug_bc1/benchmark.rs:257-355. Instead of the times measured, the result
    is the content of the last buffer, [final_output]. [reads] and [fate]: whether
    the cache file can be read, and how far writing it gets. *)
Definition process_scenario (reads : bool) (fate : save_fate) (data : list byte) (details : S) (sizes : size_cache) (dc : data_cache) (st : L)
  : res (result (option (list byte)) debug_error * (size_cache * data_cache * L)) :=
  let len := zlen data in
  if negb (alloc_ok v len) then Ok (RErr DAllocate, (sizes, dc, st))
  else
    do m <- transform len details (Mem data [] (grow fresh [] len)) ;;
    do r <- compress_data_cached y hash reads fate (m_out m) compression_level compression_algorithm sizes dc st ;;
    let '(r, (sizes, dc, st)) := r in
    match r with
    | RErr e => Ok (RErr e, (sizes, dc, st))
    | ROk (buffer, compressed_size) =>
        if dry_run then Ok (ROk None, (sizes, dc, st))
        else
          let compressed := firstn (Z.to_nat compressed_size) buffer in
          do r <- warmup warmup_iterations compressed len details (grow fresh [] len) (grow fresh [] len) st ;;
          let '(r, st) := r in
          match r with
          | RErr e => Ok (RErr e, (sizes, dc, st))
          | ROk (decompressed, final) =>
              do r <- bench_decompress iterations compressed decompressed st ;;
              let '(decompressed, st) := r in
              do final <- bench_untransform iterations len details decompressed final ;;
              do _ <- average ;;
              Ok (ROk (Some final), (sizes, dc, st))
          end
    end.

(** src/tools/dxt-lossless-transform-cli/src/commands/debug_bc1/benchmark.rs:382-389 *)
Fixpoint warmup_untransformed (n : nat) (compressed decompressed : list byte) (st : L) : res (result (list byte) debug_error * L) :=
  match n with
  | O => Ok (ROk decompressed, st)
  | Datatypes.S n =>
      do r <- decompress_with_algorithm y compressed decompressed compression_algorithm st ;;
      let '(r, decompressed, st) := r in
      match r with
      | RErr e => Ok (RErr e, st)
      | ROk _ => warmup_untransformed n compressed decompressed st
      end
  end.
(** src/tools/dxt-lossless-transform-cli/src/commands/debug_bc1/benchmark.rs:357-412; the result is the content of [decompressed_data] *)
Definition process_untransformed_scenario (reads : bool) (fate : save_fate) (data : list byte) (sizes : size_cache) (dc : data_cache) (st : L)
  : res (result (option (list byte)) debug_error * (size_cache * data_cache * L)) :=
  do r <- compress_data_cached y hash reads fate data compression_level compression_algorithm sizes dc st ;;
  let '(r, (sizes, dc, st)) := r in
  match r with
  | RErr e => Ok (RErr e, (sizes, dc, st))
  | ROk (buffer, compressed_size) =>
      if dry_run then Ok (ROk None, (sizes, dc, st))
      else if negb (alloc_ok v (zlen data)) then Ok (RErr DAllocate, (sizes, dc, st))
      else
        let compressed := firstn (Z.to_nat compressed_size) buffer in
        do r <- warmup_untransformed warmup_iterations compressed (grow fresh [] (zlen data)) st ;;
        let '(r, st) := r in
        match r with
        | RErr e => Ok (RErr e, (sizes, dc, st))
        | ROk decompressed =>
            do r <- bench_decompress iterations compressed decompressed st ;;
            let '(decompressed, st) := r in
            do _ <- average ;;
            Ok (ROk (Some decompressed), (sizes, dc, st))
        end
  end.

(** src/tools/dxt-lossless-transform-cli/src/commands/debug_bc1/benchmark.rs:230-238, the loop; each scenario with what happens
    to its cache file *)
Fixpoint process_scenarios (l : list (S * (bool * save_fate))) (data : list byte) (sizes : size_cache) (dc : data_cache) (st : L)
  : res (result (list (option (list byte))) debug_error * (size_cache * data_cache * L)) :=
  match l with
  | [] => Ok (ROk [], (sizes, dc, st))
  | (details, (reads, fate)) :: l =>
      do r <- process_scenario reads fate data details sizes dc st ;;
      let '(r, (sizes, dc, st)) := r in
      match r with
      | RErr e => Ok (RErr e, (sizes, dc, st))
      | ROk o =>
          do r <- process_scenarios l data sizes dc st ;;
          let '(r, s) := r in Ok (match r with ROk os => ROk (o :: os) | RErr e => RErr e end, s)
      end
  end.
(** src/tools/dxt-lossless-transform-cli/src/commands/debug_bc1/benchmark.rs:182-252, what is done with the blocks of a file:
    [fixed] are the scenarios other than the recommended settings, [fates] what
    happens to the cache files, [last] to the one of the untransformed data *)
Definition benchmark_blocks (recommend : list byte -> size_cache * L -> res (result S debug_error * (size_cache * L))) (fixed : list S)
    (fates : list (bool * save_fate)) (last : bool * save_fate) (data : list byte) (sizes : size_cache) (dc : data_cache) (st : L)
  : res (result (list (option (list byte))) debug_error * (size_cache * data_cache * L)) :=
  do r <- recommend data (sizes, st) ;;
  let '(r, (sizes, st)) := r in
  match r with
  | RErr e => Ok (RErr e, (sizes, dc, st))
  | ROk best_details =>
      do r <- process_scenarios (combine (best_details :: fixed) fates) data sizes dc st ;;
      let '(r, (sizes, dc, st)) := r in
      match r with
      | RErr e => Ok (RErr e, (sizes, dc, st))
      | ROk os =>
          do r <- process_untransformed_scenario (fst last) (snd last) data sizes dc st ;;
          let '(r, s) := r in Ok (match r with ROk o => ROk (os ++ [o]) | RErr e => RErr e end, s)
      end
  end.
End Benchmark.

(** src/tools/dxt-lossless-transform-cli/src/commands/debug_bc1/benchmark.rs:200-227 (the same in debug_bc2): the fixed scenarios;
    the first scenario is the recommended one *)
Definition fixed_scenarios : list settings := [Settings VNone false; Settings V1 false; Settings VNone true; Settings V1 true].
(** src/tools/dxt-lossless-transform-cli/src/commands/debug_bc3/benchmark.rs:196-259 *)
Definition fixed_scenarios3 : list settings3 :=
  [Settings3 VNone false false; Settings3 V1 false false; Settings3 VNone false true; Settings3 V1 false true;
   Settings3 VNone true false; Settings3 V1 true false; Settings3 VNone true true; Settings3 V1 true true].

(** ** The benchmark of the recommendation *)

(** src/tools/dxt-lossless-transform-cli/src/commands/debug_bc1/benchmark_determine_best.rs:126-134 and 139-148: [n] times
    [run_determine_best_once] (lines 164-178), which makes a new estimator each time
    (src/tools/dxt-lossless-transform-cli/src/commands/debug_bc1/mod.rs:311-325) *)
Fixpoint determine_times {St S} (n : nat) (once : St -> res (result S debug_error * St)) (st : St) : res (result unit debug_error * St) :=
  match n with
  | O => Ok (ROk tt, st)
  | Datatypes.S n =>
      do r <- once st ;;
      match r with (ROk _, st) => determine_times n once st | (RErr e, st) => Ok (RErr e, st) end
  end.
(** src/tools/dxt-lossless-transform-cli/src/commands/debug_bc1/benchmark_determine_best.rs:120-162, without the times: the
    length that is reported *)
Definition process_determine_best_scenario {St S} (iterations warmups : nat) (once : list byte -> St -> res (result S debug_error * St)) (data : list byte) (st : St)
  : res (result Z debug_error * St) :=
  do r <- determine_times warmups (once data) st ;;
  match r with
  | (RErr e, st) => Ok (RErr e, st)
  | (ROk _, st) =>
      do r <- determine_times iterations (once data) st ;;
      match r with
      | (RErr e, st) => Ok (RErr e, st)
      | (ROk _, st) => do _ <- average iterations ;; Ok (ROk (zlen data), st)
      end
  end.
