(** C68: the options of the debug commands; more about C61-C64. *)
From Verif Require Import Base.Bytes Base.Res Model.Color565 Model.Ycc Model.Kernel Model.Transform Model.Auto Model.Decode Model.Normalize Model.NormTransform
  Model.Handlers Model.Inspect Model.Cli Model.Ltu Model.Zstd Model.Caches Model.Stats Spec.YCoCg Spec.Layout Spec.Files Spec.Estimator Spec.Cli Spec.Zstd Spec.DebugOptions
  Proofs.CliFacts Proofs.CachesFacts Proofs.StatsFacts Proofs.AutoProps Proofs.AutoTheorems Proofs.DebugOptionsFacts Props.PDds Props.PZstd.
From Coq Require Import String.
Open Scope list_scope.
Open Scope Z_scope.

(** C68: exactly these names of algorithms are recognised, in any case. *)
Theorem C68_names : forall s a,
  algorithm_from_str s = ROk a <->
  In (lower s, a) [("zstd", ZStandard); ("zstandard", ZStandard); ("ltu", LosslessTransformUtils); ("lossless-transform-utils", LosslessTransformUtils)]%string.
Proof. exact algorithm_names. Qed.
Print Assumptions C68_names.
Example C68_names_case : algorithm_from_str "ZStd" = ROk ZStandard /\ algorithm_from_str "Lossless-Transform-Utils" = ROk LosslessTransformUtils /\
  algorithm_from_str "zst" = RErr DMessage /\ lower "ZStd" = "zstd"%string.
Proof. repeat split. Qed.

(** C68: a level that is given is used; otherwise it is 16 for compressing and 3
    for estimating with Zstandard (0 with the other algorithm, which has none).
    The estimating algorithm is the compressing one unless given, and the default
    level for estimating is that of the algorithm that estimates. *)
Theorem C68_levels :
  (forall l a, get_compression_level (Some l) a = l) /\
  get_compression_level None ZStandard = 16 /\ get_compression_level None LosslessTransformUtils = 0 /\
  (forall a, get_estimate_compression_algorithm None a = a) /\ (forall e a, get_estimate_compression_algorithm (Some e) a = e) /\
  (forall l e a, get_estimate_compression_level (Some l) e a = l) /\
  (forall e a, get_estimate_compression_algorithm e a = ZStandard -> get_estimate_compression_level None e a = 3) /\
  (forall e a, get_estimate_compression_algorithm e a = LosslessTransformUtils -> get_estimate_compression_level None e a = 0).
Proof.
  do 3 (split; [reflexivity|]). do 2 (split; [intros; reflexivity|]). split; [reflexivity|].
  split; intros e a H; unfold get_estimate_compression_level; rewrite H; reflexivity.
Qed.
Print Assumptions C68_levels.

(** C68: the check at the start of a command refuses exactly the algorithms that
    would panic when asked to compress or decompress; one that is let through
    never does. *)
Theorem C68_check : forall a,
  (validate_compression_algorithm a = ROk tt -> forall (L : Type) (y : zstd_codec L) data level out st,
     (exists r, compress_with_algorithm y data a level st = Ok r) /\ (exists r, decompress_with_algorithm y data out a st = Ok r)) /\
  (validate_compression_algorithm a <> ROk tt <-> forall (L : Type) (y : zstd_codec L) data level out st,
     (exists why, compress_with_algorithm y data a level st = Panic why) /\ (exists why, decompress_with_algorithm y data out a st = Panic why)).
Proof. intros a. split; [exact (accepted_never_panics a)|exact (refuses_iff a)]. Qed.
Print Assumptions C68_check.
Example C68_check_case : validate_compression_algorithm ZStandard = ROk tt /\ validate_compression_algorithm LosslessTransformUtils <> ROk tt.
Proof. split; [reflexivity|discriminate]. Qed.

(** C68: the estimator made for Zstandard exists for the levels 1 to 22 and is the
    library's for that level, with errors turned into messages; any other level
    is an error. *)
Theorem C68_zstd_estimator : forall (L : Type) (lib : zstd_lib L) matches level,
  (1 <= level <= 22 -> exists e, create_size_estimator lib matches ZStandard level = ROk e /\
     (forall st n, hides_error (fst (max_compressed_size (zstd lib level) st n)) (fst (max_compressed_size e st n)) /\
        snd (max_compressed_size e st n) = snd (max_compressed_size (zstd lib level) st n)) /\
     (forall st d n, hides_error (fst (estimate_compressed_size (zstd lib level) st d n)) (fst (estimate_compressed_size e st d n)) /\
        snd (estimate_compressed_size e st d n) = snd (estimate_compressed_size (zstd lib level) st d n))) /\
  (~ 1 <= level <= 22 -> create_size_estimator lib matches ZStandard level = RErr DMessage).
Proof. exact zstd_estimator. Qed.
Print Assumptions C68_zstd_estimator.
(** C68: and the one for the other algorithm is its estimator, whatever the level. *)
Theorem C68_ltu_estimator : forall (L : Type) (lib : zstd_lib L) matches level,
  exists e, create_size_estimator lib matches LosslessTransformUtils level = ROk e /\
    (forall st n, hides_error (fst (max_compressed_size (ltu matches) tt n)) (fst (max_compressed_size e st n))) /\
    (forall st d n, hides_error (fst (estimate_compressed_size (ltu matches) tt d n)) (fst (estimate_compressed_size e st d n))).
Proof. exact ltu_estimator. Qed.
Print Assumptions C68_ltu_estimator.

(** C68: a library that keeps its promise (Spec/Zstd.v) is never given too small a
    buffer: measuring succeeds, with the size the library reports. *)
Theorem C68_measured : forall (L : Type) (lib : zstd_lib L) matches v data level st, keeps_promise lib -> 1 <= level <= 22 ->
  (data = [] \/ z_compress_bound lib (zlen data) = 0 \/ alloc_ok v (z_compress_bound lib (zlen data)) = true) ->
  exists n st', calc_size_with_estimation_algorithm lib matches v data level ZStandard st = (ROk n, st') /\
    (data = [] -> n = 0) /\
    (data <> [] -> exists cctx st1, n = fst (z_compress2 lib cctx (z_compress_bound lib (zlen data)) data st1)).
Proof. exact zstd_sizes. Qed.
Print Assumptions C68_measured.
Example C68_measured_case : let d := map (fun i => lo8 (i / 3 * 37)) (zseq 0 32) in
  alloc_ok env64 (z_compress_bound toy (zlen d)) = true /\ (exists n st', calc_size_with_estimation_algorithm toy (fun _ => 0) env64 d 3 ZStandard 0 = (ROk n, st') /\ 0 < n) /\
  fst (calc_size_with_estimation_algorithm toy (fun _ => 0) env64 d 23 ZStandard 0) = RErr DMessage.
Proof. cbv zeta. split; [reflexivity|]. split; [eexists; eexists; split; [vm_compute; reflexivity|reflexivity]|reflexivity]. Qed.

(** C61: the first run starts without a file: nothing is loaded and there is no
    error. A file that cannot be opened or decoded is an error, and changes
    nothing. *)
Theorem C61_load : forall b opens m,
  load_from_disk b opens None m = (ROk tt, m) /\
  (forall bytes, opens = false \/ decode b bytes = None -> exists e, load_from_disk b opens (Some bytes) m = (RErr e, m)) /\
  (forall bytes m1, opens = true -> decode b bytes = Some m1 -> load_from_disk b opens (Some bytes) m = (ROk tt, m1)).
Proof.
  intros b opens m. split; [reflexivity|]. unfold load_from_disk. split.
  - intros bytes [->|H]; [eexists; reflexivity|]. destruct opens; cbn [negb]; [rewrite H|]; eexists; reflexivity.
  - intros bytes m1 -> ->. reflexivity.
Qed.
Print Assumptions C61_load.

(** C62: data that had to be compressed has its size remembered, for later
    questions about the size only, and no other size is changed. *)
Theorem C62_size_remembered : forall (L : Type) (y : zstd_codec L) hash reads fate data level a sizes c st buf n sizes' c' st',
  c (cache_key (hash data) level a) = None ->
  compress_data_cached y hash reads fate data level a sizes c st = Ok (ROk (buf, n), (sizes', c', st')) ->
  cache_get sizes' (hash data, level, a) = Some n /\ forall k, k <> (hash data, level, a) -> cache_get sizes' k = cache_get sizes k.
Proof. exact compressed_size_remembered. Qed.
Print Assumptions C62_size_remembered.

(** C62: a file of the cache that cannot be read is an error, and nothing changes. *)
Theorem C62_unreadable : forall (L : Type) (y : zstd_codec L) hash fate data level a sizes c st x,
  c (cache_key (hash data) level a) = Some x ->
  exists e, compress_data_cached y hash false fate data level a sizes c st = Ok (RErr e, (sizes, c, st)).
Proof. exact unreadable_reported. Qed.
Print Assumptions C62_unreadable.

(** C63: the settings reported as recommended are the best for the estimator among
    those the user asked to try (as C16-C18 say of the automatic transform). *)
Theorem C63_bc1_recommended : forall (Er : Type) (c : cfg) (v : env) (mx : Z -> result Z Er) (size : list byte -> Z -> result Z Er) fresh
    (all : bool) (x : list byte) (s : settings),
  cpu_ok c -> (c_debug c = true -> x <> []) -> (forall d n z, size d n = ROk z -> 0 <= z /\ z <= usize_max v) -> zlen x mod 8 = 0 ->
  determine_bc1 c v (pure mx size) all fresh false x tt = Ok (ROk s, tt) ->
  candidate all (decorrelation_mode s) /\
  exists scratch z, mx (zlen x / 2) = ROk scratch /\ total_size (fun d => size d scratch) (bc1_shown x s) = ROk z /\
    forall s', candidate all (decorrelation_mode s') -> exists z', total_size (fun d => size d scratch) (bc1_shown x s') = ROk z' /\ z <= z'.
Proof.
  intros Er c v mx size fresh all x s C D B M H. destruct (bc1_recommends _ _ _ _ _ _ _ _ _ M H) as (y & E).
  destruct (lC16_bc1_auto_optimal Er c v mx size all x _ s y C D B E) as (P & _ & Q). split; [exact P|exact Q].
Qed.
Print Assumptions C63_bc1_recommended.
Theorem C63_bc2_recommended : forall (Er : Type) (c : cfg) (v : env) (mx : Z -> result Z Er) (size : list byte -> Z -> result Z Er) fresh
    (all : bool) (x : list byte) (s : settings),
  cpu_ok c -> (c_avx512bw c = true -> c_avx512vl c = true) -> (forall d n z, size d n = ROk z -> 0 <= z /\ z <= usize_max v) -> zlen x mod 16 = 0 ->
  determine_bc2 c v (pure mx size) all fresh x tt = Ok (ROk s, tt) ->
  candidate all (decorrelation_mode s) /\
  exists scratch z, mx (zlen x / 4) = ROk scratch /\ total_size (fun d => size d scratch) (bc2_shown x s) = ROk z /\
    forall s', candidate all (decorrelation_mode s') -> exists z', total_size (fun d => size d scratch) (bc2_shown x s') = ROk z' /\ z <= z'.
Proof.
  intros Er c v mx size fresh all x s C D B M H. destruct (bc2_recommends _ _ _ _ _ _ _ _ _ M H) as (y & E).
  destruct (lC17_bc2_auto_optimal Er c v mx size all x _ s y C D B E) as (P & _ & Q). split; [exact P|exact Q].
Qed.
Print Assumptions C63_bc2_recommended.
Theorem C63_bc3_recommended : forall (Er : Type) (c : cfg) (v : env) (mx : Z -> result Z Er) (size : list byte -> Z -> result Z Er) fresh
    (all : bool) (x : list byte) (s : settings3),
  cpu_ok c -> (c_debug c = true -> x <> []) -> (forall d n z, size d n = ROk z -> 0 <= z /\ 2 * z <= usize_max v) -> zlen x mod 16 = 0 ->
  determine_bc3 c v (pure mx size) all fresh x tt = Ok (ROk s, tt) ->
  candidate all (decorrelation_mode3 s) /\
  exists scratch z, mx (zlen x / 4) = ROk scratch /\ total_size (fun d => size d scratch) (bc3_shown x s) = ROk z /\
    forall s', candidate all (decorrelation_mode3 s') -> exists z', total_size (fun d => size d scratch) (bc3_shown x s') = ROk z' /\ z <= z'.
Proof.
  intros Er c v mx size fresh all x s C D B M H. destruct (bc3_recommends _ _ _ _ _ _ _ _ _ M H) as (y & E).
  destruct (lC18_bc3_auto_optimal Er c v mx size all x _ s y C D B E) as (P & _ & Q). split; [exact P|exact Q].
Qed.
Print Assumptions C63_bc3_recommended.
(** C63: with the option for normalising, they are those of the normalising search
    (C52). *)
Theorem C63_bc1_normalizing_recommended : forall (St Er : Type) (c : cfg) (v : env) (e : estimator St Er) use_all fresh data st s st',
  determine_bc1 c v e use_all fresh true data st = Ok (ROk s, st') ->
  exists d m, transform_bc1_auto_with_normalization c v e use_all fresh true 0 (zlen data) (zlen data) (grow fresh data (zlen data)) st = Ok (ROk d, m, st') /\
    decorrelation_mode s = d_decorr d /\ split_colour_endpoints s = d_split d.
Proof. intros St Er c v e use_all fresh. exact (bc1_normalizing_recommends c v e use_all fresh). Qed.
Print Assumptions C63_bc1_normalizing_recommended.
Example C63_recommended_case : let x := map (fun i => lo8 (i * 37 + 11)) (zseq 0 16) in
  let e := pure (fun n => ROk (2 * n)) (fun d _ => ROk (fold_right Z.add 0 (map b2z d)) : result Z unit) in
  (exists s, determine_bc1 cpu env64 e true (fun _ => x00) false x tt = Ok (ROk s, tt) /\ s <> default_settings) /\
  (exists s, determine_bc1 cpu env64 e true (fun _ => x00) true x tt = Ok (ROk s, tt)) /\
  (exists s, determine_bc2 cpu env64 e true (fun _ => x00) x tt = Ok (ROk s, tt)) /\
  (exists s, determine_bc3 cpu env64 e true (fun _ => x00) x tt = Ok (ROk s, tt)).
Proof.
  cbv zeta. split; [eexists; split; [vm_compute; reflexivity|discriminate]|].
  split; [eexists; vm_compute; reflexivity|]. split; eexists; vm_compute; reflexivity.
Qed.

(** C63: a statistics command ends with an error only for want of memory, or with
    the error met in measuring one of the textures of the report, or in finding the
    recommended settings. *)
Theorem C63_bc1_errors : forall (L : Type) (c : cfg) (v : env) (hash : list byte -> Z) (lib : zstd_lib L) matches fresh level a elevel ea normalize use_all data, supported c ->
  zlen data mod 8 = 0 -> (c_debug c = true -> data <> []) -> forall st e st',
  analyze_bc1 c v hash lib matches fresh level a elevel ea normalize use_all data st = Ok (RErr e, st') ->
  (e = DAllocate /\ alloc_ok v (zlen data) = false) \/
  (exists d s1 s2, (d = data \/ exists s, d = bc1_layout (decorrelation_mode s) (split_colour_endpoints s) data) /\
     calc_size_with_cache_and_estimation_algorithm hash lib matches v d level a s1 = (RErr e, s2)) \/
  exists s1 s2, with_cached_estimator hash lib matches elevel ea (fun e => determine_bc1 c v e use_all fresh normalize) data s1 = Ok (RErr e, s2).
Proof. exact (@bc1_errors). Qed.
Print Assumptions C63_bc1_errors.
Theorem C63_bc2_errors : forall (L : Type) (c : cfg) (v : env) (hash : list byte -> Z) (lib : zstd_lib L) matches fresh level a elevel ea use_all data, supported c ->
  zlen data mod 16 = 0 -> forall st e st',
  analyze_bc2 c v hash lib matches fresh level a elevel ea use_all data st = Ok (RErr e, st') ->
  (e = DAllocate /\ alloc_ok v (zlen data) = false) \/
  (exists d s1 s2, (d = data \/ exists s, d = bc2_layout (decorrelation_mode s) (split_colour_endpoints s) data) /\
     calc_size_with_cache_and_estimation_algorithm hash lib matches v d level a s1 = (RErr e, s2)) \/
  exists s1 s2, with_cached_estimator hash lib matches elevel ea (fun e => determine_bc2 c v e use_all fresh) data s1 = Ok (RErr e, s2).
Proof. exact (@bc2_errors). Qed.
Print Assumptions C63_bc2_errors.
Theorem C63_bc3_errors : forall (L : Type) (c : cfg) (v : env) (hash : list byte -> Z) (lib : zstd_lib L) matches fresh level a elevel ea use_all data, supported c ->
  zlen data mod 16 = 0 -> (c_debug c = true -> data <> []) -> forall st e st',
  analyze_bc3 c v hash lib matches fresh level a elevel ea use_all data st = Ok (RErr e, st') ->
  (e = DAllocate /\ alloc_ok v (zlen data) = false) \/
  (exists d s1 s2, (d = data \/ exists s, d = bc3_layout (decorrelation_mode3 s) (split_alpha_endpoints s) (split_colour_endpoints3 s) data) /\
     calc_size_with_cache_and_estimation_algorithm hash lib matches v d level a s1 = (RErr e, s2)) \/
  exists s1 s2, with_cached_estimator hash lib matches elevel ea (fun e => determine_bc3 c v e use_all fresh) data s1 = Ok (RErr e, s2).
Proof. exact (@bc3_errors). Qed.
Print Assumptions C63_bc3_errors.
Example C63_errors_case : let x := map (fun i => lo8 (i / 3 * 37)) (zseq 0 32) in
  analyze_bc1 cpu (Env (2 ^ 64 - 1) (fun n => n <=? 8)) (fun _ => 0) toy (fun _ => 0) (fun _ => x00) 16 ZStandard 3 ZStandard false true x ([], 0) = Ok (RErr DAllocate, ([], 0)).
Proof. vm_compute. reflexivity. Qed.

(** C64: besides the recommended one, the scenarios are all settings with no
    decorrelation or the first mode, each once. *)
Theorem C64_scenarios :
  (forall s, In s fixed_scenarios <-> decorrelation_mode s = VNone \/ decorrelation_mode s = V1) /\ NoDup fixed_scenarios /\
  (forall s, In s fixed_scenarios3 <-> decorrelation_mode3 s = VNone \/ decorrelation_mode3 s = V1) /\ NoDup fixed_scenarios3.
Proof.
  split; [intros [[] []]; cbn; intuition congruence|]. split; [repeat constructor; cbn; intuition discriminate|].
  split; [intros [[] [] []]; cbn; intuition congruence|]. repeat constructor; cbn; intuition discriminate.
Qed.
Print Assumptions C64_scenarios.

(** C64: the benchmark of the recommendation asks for it as often as it is told to,
    first to warm up and then to measure, and reports the size of the texture. *)
Theorem C64_determine_best : forall (St S : Type) (once : list byte -> St -> res (result S debug_error * St)) data iterations warmups st,
  (forall st, exists s st', once data st = Ok (ROk s, st')) ->
  ((0 < iterations)%nat -> exists st', process_determine_best_scenario iterations warmups once data st = Ok (ROk (zlen data), st')) /\
  (forall z st' k, process_determine_best_scenario iterations warmups (counting once) data (st, 0%nat) = Ok (ROk z, (st', k)) -> k = (warmups + iterations)%nat).
Proof. intros St S once data iterations warmups st H. split; [exact (best_runs once data iterations warmups st H)|intros z st' k; exact (best_count once data iterations warmups st z st' k)]. Qed.
Print Assumptions C64_determine_best.
(** C64, refuted: with no iterations it does all the warming up and then panics. *)
Theorem C64_determine_best_zero_refuted : forall (St S : Type) (once : list byte -> St -> res (result S debug_error * St)) data warmups st,
  (forall st, exists s st', once data st = Ok (ROk s, st')) ->
  exists why, process_determine_best_scenario 0 warmups once data st = Panic why.
Proof. intros St S. exact (@best_zero St S). Qed.
Print Assumptions C64_determine_best_zero_refuted.
Example C64_determine_best_case :
  process_determine_best_scenario 2 1 (counting (fun _ (st : nat) => Ok (ROk default_settings, S st))) [x01; x02] (7%nat, 0%nat) = Ok (ROk 2, (10%nat, 3%nat)).
Proof. reflexivity. Qed.
