(** C63 and C64: the statistics command and the benchmarks. *)
From Verif Require Import Base.Bytes Base.Res Model.Color565 Model.Ycc Model.Kernel Model.Transform Model.Auto Model.Decode Model.Normalize Model.NormTransform
  Model.Handlers Model.Inspect Model.Zstd Model.Caches Model.Stats Spec.Layout Spec.Files Spec.Caches Spec.Compressed Spec.Stats
  Proofs.StatsFacts Props.PDds Props.PZstd Props.PCaches.
From Coq Require Import String.
Open Scope list_scope.
Open Scope Z_scope.

(** ** Statistics *)

(** Whatever is in the size cache at the start, for all texture data: a report has,
    for each of the settings there are, in the fixed order, the size of the data
    arranged with these settings; the size of the data itself; and the size with
    the settings that the automatic search recommends. All sizes are those that
    the cache has at the end. The recommended settings appear in the list, with
    the same size; the default settings are found in it; and the best result is
    the first of the smallest ones. If all sizes in the cache were measured, all
    sizes in the cache afterwards were measured. *)
Theorem C63_bc1_report : forall (L : Type) c v hash (lib : zstd_lib L) matches fresh level a elevel ea normalize use_all data m st m' st', supported c ->
  forall r, zlen data mod 8 = 0 -> (c_debug c = true -> data <> []) ->
  analyze_bc1 c v hash lib matches fresh level a elevel ea normalize use_all data (m, st) = Ok (ROk r, (m', st')) ->
  (exists api s1 s2,
     with_cached_estimator hash lib matches elevel ea (fun e => determine_bc1 c v e use_all fresh normalize) data s1 = Ok (ROk api, s2) /\
     reports (fun d n => cache_get m' (hash d, level, a) = Some n)
       (fun s => bc1_layout (decorrelation_mode s) (split_colour_endpoints s)) all_settings api data r) /\
  (In (api_recommended_result r) (all_results r) /\
   (exists t, find_default_result default_settings settings_eqb r = Ok t /\ In t (all_results r) /\ t_options t = Settings V1 true) /\
   ((exists t, In t (all_results r) /\ t_size t < usize_max v) -> first_smallest (all_results r) (find_best_result v default_settings r))) /\
  (all_measured hash lib matches m -> all_measured hash lib matches m').
Proof. exact (@bc1_reports). Qed.
Print Assumptions C63_bc1_report.
Theorem C63_bc2_report : forall (L : Type) c v hash (lib : zstd_lib L) matches fresh level a elevel ea use_all data m st m' st', supported c ->
  forall r, zlen data mod 16 = 0 ->
  analyze_bc2 c v hash lib matches fresh level a elevel ea use_all data (m, st) = Ok (ROk r, (m', st')) ->
  (exists api s1 s2,
     with_cached_estimator hash lib matches elevel ea (fun e => determine_bc2 c v e use_all fresh) data s1 = Ok (ROk api, s2) /\
     reports (fun d n => cache_get m' (hash d, level, a) = Some n)
       (fun s => bc2_layout (decorrelation_mode s) (split_colour_endpoints s)) all_settings api data r) /\
  (In (api_recommended_result r) (all_results r) /\
   (exists t, find_default_result default_settings settings_eqb r = Ok t /\ In t (all_results r) /\ t_options t = Settings V1 true) /\
   ((exists t, In t (all_results r) /\ t_size t < usize_max v) -> first_smallest (all_results r) (find_best_result v default_settings r))) /\
  (all_measured hash lib matches m -> all_measured hash lib matches m').
Proof. exact (@bc2_reports). Qed.
Print Assumptions C63_bc2_report.
Theorem C63_bc3_report : forall (L : Type) c v hash (lib : zstd_lib L) matches fresh level a elevel ea use_all data m st m' st', supported c ->
  forall r, zlen data mod 16 = 0 -> (c_debug c = true -> data <> []) ->
  analyze_bc3 c v hash lib matches fresh level a elevel ea use_all data (m, st) = Ok (ROk r, (m', st')) ->
  (exists api s1 s2,
     with_cached_estimator hash lib matches elevel ea (fun e => determine_bc3 c v e use_all fresh) data s1 = Ok (ROk api, s2) /\
     reports (fun d n => cache_get m' (hash d, level, a) = Some n)
       (fun s => bc3_layout (decorrelation_mode3 s) (split_alpha_endpoints s) (split_colour_endpoints3 s)) all_settings3 api data r) /\
  (In (api_recommended_result r) (all_results r) /\
   (exists t, find_default_result default_settings3 settings3_eqb r = Ok t /\ In t (all_results r) /\ t_options t = Settings3 V1 true true) /\
   ((exists t, In t (all_results r) /\ t_size t < usize_max v) -> first_smallest (all_results r) (find_best_result v default_settings3 r))) /\
  (all_measured hash lib matches m -> all_measured hash lib matches m').
Proof. exact (@bc3_reports). Qed.
Print Assumptions C63_bc3_report.

(** For such reports of any number of files, the total with the best settings is
    not above the total with the default settings or with the recommended ones. *)
Theorem C63_totals : forall (S : Type) v (default : S) same, (forall a b, same a b = true <-> a = b) ->
  forall rs,
  (forall r, In r rs -> In default (map t_options (all_results r)) /\
     exists t, In t (all_results r) /\ t_size t = t_size (api_recommended_result r) /\ t_size t < usize_max v) ->
  exists original best_total default_total api_total, totals v default same rs = Ok (original, best_total, default_total, api_total) /\
    best_total <= default_total /\ best_total <= api_total.
Proof. exact (@totals_ordered). Qed.
Print Assumptions C63_totals.

(** The totals: the sizes of the files as they are, the size of the first of the
    smallest results of each file, the size with the default settings, and the size
    with the recommended settings, each added up over all files. *)
Theorem C63_totals_sums : forall (S : Type) v (default : S) same, (forall a b, same a b = true <-> a = b) ->
  forall rs,
  (forall r, In r rs -> In default (map t_options (all_results r)) /\ exists t, In t (all_results r) /\ t_size t < usize_max v) ->
  exists best defaults,
    Forall2 (fun r t => first_smallest (all_results r) t) rs best /\
    Forall2 (fun r t => In t (all_results r) /\ t_options t = default) rs defaults /\
    totals v default same rs =
      Ok (fold_right Z.add 0 (map original_compressed_size rs), fold_right Z.add 0 (map t_size best), fold_right Z.add 0 (map t_size defaults),
          fold_right Z.add 0 (map (fun r => t_size (api_recommended_result r)) rs)).
Proof. exact (@totals_sums). Qed.
Print Assumptions C63_totals_sums.
Example C63_totals_case :
  let r1 := StatsResult 100 90 [TransformResult 0 80; TransformResult 1 70; TransformResult 2 75] (TransformResult 1 70) in
  let r2 := StatsResult 200 50 [TransformResult 0 60; TransformResult 1 44; TransformResult 2 45] (TransformResult 2 45) in
  totals env64 0 Z.eqb [r1; r2] = Ok (140, 114, 140, 115).
Proof. vm_compute. reflexivity. Qed.

Definition noisy (i : Z) : byte := lo8 (i * 91 + 5).
Example C63_case : let x := map (fun i => lo8 (i / 3 * 37)) (zseq 0 32) in
  supported cpu /\ zlen x mod 8 = 0 /\ x <> [] /\ all_measured sum toy (fun _ => 0) [] /\
  exists r m', analyze_bc1 cpu (Env (2 ^ 64 - 1) (fun n => n <=? 1000)) sum toy (fun _ => 0) noisy 16 ZStandard 3 ZStandard false true x ([], 0) = Ok (ROk r, (m', 17)) /\
    zlen (all_results r) = 8 /\ zlen m' = 17 /\ Forall (fun t => t_size t < usize_max (Env (2 ^ 64 - 1) (fun n => n <=? 1000))) (all_results r).
Proof.
  cbv zeta. split; [exact cpu_supported|]. split; [reflexivity|]. split; [discriminate|]. split; [intros h l a n H; discriminate|].
  do 2 eexists. split; [vm_compute; reflexivity|]. split; [reflexivity|]. split; [reflexivity|].
  repeat (constructor; [vm_compute; reflexivity|]). constructor.
Qed.

(** ** Benchmarks *)

(** A benchmark of texture data with at least one iteration: for any settings in
    place of the fixed scenarios, after any uses of the compressed data cache with
    nothing cut short, if no two byte sequences that go through the cache have the
    same hash. It does not panic. If it is not stopped by an error, then in every
    scenario, and in the one without a transform, what was decompressed and
    restored in the last iteration is the data again. *)
Theorem C64_bc1_restores : forall (L : Type) (y : zstd_codec L) frame c v hash fresh data (iterations warmups : nat) level (dry_run : bool)
    recommend fixed fates last us sizes files sizes0 st best sizes1 st1,
  behaves y frame -> supported c -> zlen data mod 8 = 0 -> (c_debug c = true -> data <> []) -> (0 < iterations)%nat ->
  (forall u, In u us -> not_cut u) -> uses y hash us [] no_files = (sizes, files) ->
  List.length fates = Datatypes.S (List.length fixed) -> (forall f n, In f (last :: fates) -> snd f <> StopsAfter n) ->
  recommend data (sizes0, st) = Ok (ROk best, (sizes1, st1)) ->
  no_collision hash (map u_data us ++ data :: map (fun s => bc1_layout (decorrelation_mode s) (split_colour_endpoints s) data) (best :: fixed)) ->
  exists r after,
  benchmark_blocks v y hash fresh (fun n s => transform_bc1_with_settings c (Ptr BIn 0) (Ptr BOut 0) n s)
    (fun n s => untransform_bc1_with_settings c (Ptr BIn 0) (Ptr BOut 0) n s) iterations warmups level ZStandard dry_run recommend fixed fates last data sizes0 files st
    = Ok (r, after) /\
  forall os, r = ROk os -> os = repeat (if dry_run then None else Some data) (List.length fixed + 2).
Proof.
  intros L y frame c v hash fresh data iterations warmups level dry_run recommend fixed fates last us sizes files sizes0 st best sizes1 st1 B K Hm HD IT.
  exact (benchmark_restores y frame v hash fresh _ _ lay1 data iterations warmups level dry_run recommend fixed fates last us sizes files sizes0 st best sizes1 st1
    B (bc1_pair c data K Hm HD) IT).
Qed.
Print Assumptions C64_bc1_restores.
Theorem C64_bc2_restores : forall (L : Type) (y : zstd_codec L) frame c v hash fresh data (iterations warmups : nat) level (dry_run : bool)
    recommend fixed fates last us sizes files sizes0 st best sizes1 st1,
  behaves y frame -> supported c -> zlen data mod 16 = 0 -> (0 < iterations)%nat ->
  (forall u, In u us -> not_cut u) -> uses y hash us [] no_files = (sizes, files) ->
  List.length fates = Datatypes.S (List.length fixed) -> (forall f n, In f (last :: fates) -> snd f <> StopsAfter n) ->
  recommend data (sizes0, st) = Ok (ROk best, (sizes1, st1)) ->
  no_collision hash (map u_data us ++ data :: map (fun s => bc2_layout (decorrelation_mode s) (split_colour_endpoints s) data) (best :: fixed)) ->
  exists r after,
  benchmark_blocks v y hash fresh (fun n s => transform_bc2_with_settings c (Ptr BIn 0) (Ptr BOut 0) n s)
    (fun n s => untransform_bc2_with_settings c (Ptr BIn 0) (Ptr BOut 0) n s) iterations warmups level ZStandard dry_run recommend fixed fates last data sizes0 files st
    = Ok (r, after) /\
  forall os, r = ROk os -> os = repeat (if dry_run then None else Some data) (List.length fixed + 2).
Proof.
  intros L y frame c v hash fresh data iterations warmups level dry_run recommend fixed fates last us sizes files sizes0 st best sizes1 st1 B K Hm IT.
  exact (benchmark_restores y frame v hash fresh _ _ lay2 data iterations warmups level dry_run recommend fixed fates last us sizes files sizes0 st best sizes1 st1
    B (bc2_pair c data K Hm) IT).
Qed.
Print Assumptions C64_bc2_restores.
Theorem C64_bc3_restores : forall (L : Type) (y : zstd_codec L) frame c v hash fresh data (iterations warmups : nat) level (dry_run : bool)
    recommend fixed fates last us sizes files sizes0 st best sizes1 st1,
  behaves y frame -> supported c -> zlen data mod 16 = 0 -> (c_debug c = true -> data <> []) -> (0 < iterations)%nat ->
  (forall u, In u us -> not_cut u) -> uses y hash us [] no_files = (sizes, files) ->
  List.length fates = Datatypes.S (List.length fixed) -> (forall f n, In f (last :: fates) -> snd f <> StopsAfter n) ->
  recommend data (sizes0, st) = Ok (ROk best, (sizes1, st1)) ->
  no_collision hash (map u_data us ++ data ::
    map (fun s => bc3_layout (decorrelation_mode3 s) (split_alpha_endpoints s) (split_colour_endpoints3 s) data) (best :: fixed)) ->
  exists r after,
  benchmark_blocks v y hash fresh (fun n s => transform_bc3_with_settings c (Ptr BIn 0) (Ptr BOut 0) n s)
    (fun n s => untransform_bc3_with_settings c (Ptr BIn 0) (Ptr BOut 0) n s) iterations warmups level ZStandard dry_run recommend fixed fates last data sizes0 files st
    = Ok (r, after) /\
  forall os, r = ROk os -> os = repeat (if dry_run then None else Some data) (List.length fixed + 2).
Proof.
  intros L y frame c v hash fresh data iterations warmups level dry_run recommend fixed fates last us sizes files sizes0 st best sizes1 st1 B K Hm HD IT.
  exact (benchmark_restores y frame v hash fresh _ _ lay3 data iterations warmups level dry_run recommend fixed fates last us sizes files sizes0 st best sizes1 st1
    B (bc3_pair c data K Hm HD) IT).
Qed.
Print Assumptions C64_bc3_restores.

(** With no iterations no scenario has a result, and *)
Theorem C64_no_iterations : forall (S L : Type) (y : zstd_codec L) v hash fresh (transform untransform : Z -> S -> mem -> res mem) data warmups level a reads fate s
    sizes files st o rest,
  process_scenario v y hash fresh transform untransform 0 warmups level a false reads fate data s sizes files st <> Ok (ROk o, rest).
Proof. exact (@no_iterations). Qed.
Print Assumptions C64_no_iterations.

Definition blank : plain_state := (0, (fun _ => None), (fun _ => None)).
Definition block16 : list byte := map (fun i => lo8 (i * 37)) (zseq 0 16).
Definition bench1 (iterations warmups : nat) (fates : list (bool * save_fate)) (files : data_cache) :=
  benchmark_blocks env64 plain sum noisy (fun n s => transform_bc1_with_settings cpu (Ptr BIn 0) (Ptr BOut 0) n s)
    (fun n s => untransform_bc1_with_settings cpu (Ptr BIn 0) (Ptr BOut 0) n s) iterations warmups 16 ZStandard false
    (fun _ st => Ok (ROk (Settings V2 true), st)) fixed_scenarios fates (true, Completes) block16 [] files blank.
Definition fine (n : nat) : list (bool * save_fate) := repeat (true, Completes) n.
(** the program panics. *)
Theorem C64_zero_panics_refuted : bench1 0 0 (fine 5) no_files = Panic "divide by zero error when dividing duration by scalar".
Proof. vm_compute. reflexivity. Qed.
Print Assumptions C64_zero_panics_refuted.
(** It also panics, without warmup, if an earlier run was stopped before it wrote
    anything into a file of the cache; with warmup it fails. *)
Theorem C64_cut_file_refuted :
  let cut := snd (uses plain sum [Use block16 16 ZStandard true (StopsAfter 0) blank] [] no_files) in
  bench1 1 0 (fine 5) cut = Panic "called `Result::unwrap()` on an `Err` value" /\
  (exists after, bench1 1 1 (fine 5) cut = Ok (RErr DMessage, after)).
Proof. cbv zeta. split; [vm_compute; reflexivity|eexists; vm_compute; reflexivity]. Qed.
Print Assumptions C64_cut_file_refuted.

(** A decision of [no_collision]. *)
Fixpoint bytes_eqb (a b : list byte) : bool :=
  match a, b with [], [] => true | x :: a, y :: b => Byte.eqb x y && bytes_eqb a b | _, _ => false end.
Lemma bytes_eqb_eq : forall a b, bytes_eqb a b = true -> a = b.
Proof.
  induction a as [|x a IH]; intros [|y b] H; try discriminate; [reflexivity|]. cbn [bytes_eqb] in H. apply andb_prop in H.
  rewrite (IH b (proj2 H)), (Byte.byte_dec_bl x y (proj1 H)). reflexivity.
Qed.
Lemma no_collision_check : forall hash ds, forallb (fun d => forallb (fun d' => negb (hash d =? hash d') || bytes_eqb d d') ds) ds = true -> no_collision hash ds.
Proof.
  intros hash ds H d d' I I' E. rewrite forallb_forall in H. specialize (H d I). cbv beta in H. rewrite forallb_forall in H. specialize (H d' I').
  cbv beta in H. rewrite (proj2 (Z.eqb_eq _ _) E) in H. apply bytes_eqb_eq. exact H.
Qed.
Example C64_case : no_collision sum ([] ++ block16 ::
    map (fun s => bc1_layout (decorrelation_mode s) (split_colour_endpoints s) block16) (Settings V2 true :: fixed_scenarios)) /\
  match bench1 3 2 (fine 5) no_files with Ok (ROk os, _) => os = repeat (Some block16) 6 | _ => False end.
Proof. split; [apply no_collision_check; vm_compute; reflexivity|vm_compute; reflexivity]. Qed.
