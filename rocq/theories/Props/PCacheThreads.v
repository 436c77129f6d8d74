(** C71: the compressed data cache under threads. *)
From Verif Require Import Base.Bytes Base.Res Model.Color565 Model.Ycc Model.Kernel Model.Transform Model.Auto Model.Handlers Model.Inspect Model.Zstd Model.Caches Model.Stats
  Spec.Layout Spec.Files Spec.Caches Spec.Compressed Model.CacheThreads Spec.CacheThreads Proofs.StatsFacts Proofs.CacheThreadsFacts Props.PDds Props.PCaches Props.PStats.
From Coq Require Import String.
Open Scope list_scope.
Open Scope Z_scope.

(** Any number of tasks, each with any calls, from a directory with only complete
    files, under any schedule: also one that stops at any point, and with errors of
    all kinds except one in the middle of writing a file. A file that no task is
    writing at the end is complete: it holds exactly what the library makes from
    the bytes that its name stands for. *)
Theorem C71_complete : forall (L : Type) (y : zstd_codec L) frame hash ds calls schedule dir dir' ts',
  behaves y frame -> no_collision hash (ds ++ all_data calls) -> complete_files y hash ds dir -> (forall i, ~ In (i, WriteFails) schedule) ->
  run y hash schedule dir (dry_run_tasks calls) = (dir', ts') ->
  forall name bytes, dir' name = Some bytes -> (forall t, In t ts' -> ~ writes hash t name) -> complete_file y hash (ds ++ all_data calls) name bytes.
Proof. exact (@threads_complete). Qed.
Print Assumptions C71_complete.

(** So when all the tasks are done, all files are complete, and can be
    decompressed. *)
Theorem C71_finished : forall (L : Type) (y : zstd_codec L) frame hash ds calls schedule dir dir' ts',
  behaves y frame -> no_collision hash (ds ++ all_data calls) -> complete_files y hash ds dir -> (forall i, ~ In (i, WriteFails) schedule) ->
  run y hash schedule dir (dry_run_tasks calls) = (dir', ts') -> (forall t, In t ts' -> t_calls t = []) ->
  complete_files y hash (ds ++ all_data calls) dir' /\ genuine frame hash (ds ++ all_data calls) dir'.
Proof. exact (@threads_finished). Qed.
Print Assumptions C71_finished.

(** The directories to start with: none at all, and those left by any number of
    uses of the cache one after the other, with nothing cut short. *)
Theorem C71_earlier_uses : forall (L : Type) (y : zstd_codec L) hash us sizes, (forall u, In u us -> not_cut u) ->
  complete_files y hash (map u_data us) (snd (uses y hash us sizes no_files)).
Proof.
  intros L y hash us sizes A. apply uses_complete; [|intros n b E; discriminate]. intros u I. split; [exact (A u I)|apply in_map; exact I].
Qed.
Print Assumptions C71_earlier_uses.

(** If creating a file never fails, then for a task all of whose calls returned,
    there is a file for each call. *)
Theorem C71_all_present : forall (L : Type) (y : zstd_codec L) hash schedule dir calls dir' ts', (forall i, ~ In (i, CreateFails) schedule) ->
  run y hash schedule dir (dry_run_tasks calls) = (dir', ts') ->
  forall i cs t c, nth_error calls i = Some cs -> nth_error ts' i = Some t -> List.length (t_answers t) = List.length cs -> In c cs ->
  exists f, dir' (cache_key (hash (call_data c)) (call_level c) ZStandard) = Some f.
Proof. exact (@all_present). Qed.
Print Assumptions C71_all_present.

(** No task ever waits for another one: whatever happened before, a task with
    calls left can take a turn in which nothing fails. *)
Theorem C71_never_stuck : forall (L : Type) (y : zstd_codec L) hash (st : L) schedule dir calls dir' ts' t,
  run y hash schedule dir (dry_run_tasks calls) = (dir', ts') ->
  In t ts' -> t_calls t <> [] -> exists a, goes_well a = true /\ turn y hash a dir' t <> None.
Proof. exact (@never_stuck). Qed.
Print Assumptions C71_never_stuck.

(** And there is no endless work: the number of turns is bounded, for all
    schedules, with any errors. *)
Theorem C71_ends : forall (L : Type) (y : zstd_codec L) frame hash ds calls dir,
  behaves y frame -> no_collision hash (ds ++ all_data calls) -> complete_files y hash ds dir ->
  exists n, forall schedule, (turns_taken y hash schedule dir (dry_run_tasks calls) <= n)%nat.
Proof. exact (@threads_end). Qed.
Print Assumptions C71_ends.

(** The turns are those of [compress_data_cached]: what a call does to the
    directory and what it returns is what a task does alone. *)
Theorem C71_one_call : forall (L : Type) (y : zstd_codec L) hash u sizes dir buf n sizes' dir' st',
  u_algorithm u = ZStandard -> u_reads u = true -> u_fate u = Completes ->
  one_use y hash u sizes dir = Ok (ROk (buf, n), (sizes', dir', st')) ->
  exists schedule dir2, run y hash schedule dir (dry_run_tasks [[Call (u_data u) (u_level u)]]) = (dir2, [Task Begin [] [firstn (Z.to_nat n) buf]]) /\
    forall name, dir2 name = dir' name.
Proof. exact (@one_call). Qed.
Print Assumptions C71_one_call.

(** ** The benchmark after the dry run *)

(** From a directory as the dry run leaves it, the benchmark of a file does not
    panic; if no error stops it, then in every scenario the bytes of the file come
    out; and the directory is again such a one, for the next file. *)
Theorem C71_bc1_benchmark : forall (L : Type) (y : zstd_codec L) frame c v hash fresh data (iterations warmups : nat) level (dry_run : bool)
    recommend fixed fates last ds files sizes0 st best sizes1 st1,
  behaves y frame -> supported c -> zlen data mod 8 = 0 -> (c_debug c = true -> data <> []) -> (0 < iterations)%nat ->
  genuine frame hash ds files ->
  List.length fates = Datatypes.S (List.length fixed) -> (forall f n, In f (last :: fates) -> snd f <> StopsAfter n) ->
  recommend data (sizes0, st) = Ok (ROk best, (sizes1, st1)) ->
  no_collision hash ds -> (forall d, In d (data :: map (fun s => bc1_layout (decorrelation_mode s) (split_colour_endpoints s) data) (best :: fixed)) -> In d ds) ->
  exists r sizes2 files2 st2,
  benchmark_blocks v y hash fresh (fun n s => transform_bc1_with_settings c (Ptr BIn 0) (Ptr BOut 0) n s)
    (fun n s => untransform_bc1_with_settings c (Ptr BIn 0) (Ptr BOut 0) n s) iterations warmups level ZStandard dry_run recommend fixed fates last data sizes0 files st
    = Ok (r, (sizes2, files2, st2)) /\ genuine frame hash ds files2 /\
  forall os, r = ROk os -> os = repeat (if dry_run then None else Some data) (List.length fixed + 2).
Proof.
  intros L y frame c v hash fresh data iterations warmups level dry_run recommend fixed fates last ds files sizes0 st best sizes1 st1 B K Hm HD IT.
  exact (benchmark_genuine y frame v hash fresh _ _ lay1 data iterations warmups level dry_run recommend fixed fates last ds files sizes0 st best sizes1 st1
    B (bc1_pair c data K Hm HD) IT).
Qed.
Print Assumptions C71_bc1_benchmark.
Theorem C71_bc2_benchmark : forall (L : Type) (y : zstd_codec L) frame c v hash fresh data (iterations warmups : nat) level (dry_run : bool)
    recommend fixed fates last ds files sizes0 st best sizes1 st1,
  behaves y frame -> supported c -> zlen data mod 16 = 0 -> (0 < iterations)%nat ->
  genuine frame hash ds files ->
  List.length fates = Datatypes.S (List.length fixed) -> (forall f n, In f (last :: fates) -> snd f <> StopsAfter n) ->
  recommend data (sizes0, st) = Ok (ROk best, (sizes1, st1)) ->
  no_collision hash ds -> (forall d, In d (data :: map (fun s => bc2_layout (decorrelation_mode s) (split_colour_endpoints s) data) (best :: fixed)) -> In d ds) ->
  exists r sizes2 files2 st2,
  benchmark_blocks v y hash fresh (fun n s => transform_bc2_with_settings c (Ptr BIn 0) (Ptr BOut 0) n s)
    (fun n s => untransform_bc2_with_settings c (Ptr BIn 0) (Ptr BOut 0) n s) iterations warmups level ZStandard dry_run recommend fixed fates last data sizes0 files st
    = Ok (r, (sizes2, files2, st2)) /\ genuine frame hash ds files2 /\
  forall os, r = ROk os -> os = repeat (if dry_run then None else Some data) (List.length fixed + 2).
Proof.
  intros L y frame c v hash fresh data iterations warmups level dry_run recommend fixed fates last ds files sizes0 st best sizes1 st1 B K Hm IT.
  exact (benchmark_genuine y frame v hash fresh _ _ lay2 data iterations warmups level dry_run recommend fixed fates last ds files sizes0 st best sizes1 st1
    B (bc2_pair c data K Hm) IT).
Qed.
Print Assumptions C71_bc2_benchmark.
Theorem C71_bc3_benchmark : forall (L : Type) (y : zstd_codec L) frame c v hash fresh data (iterations warmups : nat) level (dry_run : bool)
    recommend fixed fates last ds files sizes0 st best sizes1 st1,
  behaves y frame -> supported c -> zlen data mod 16 = 0 -> (c_debug c = true -> data <> []) -> (0 < iterations)%nat ->
  genuine frame hash ds files ->
  List.length fates = Datatypes.S (List.length fixed) -> (forall f n, In f (last :: fates) -> snd f <> StopsAfter n) ->
  recommend data (sizes0, st) = Ok (ROk best, (sizes1, st1)) ->
  no_collision hash ds ->
  (forall d, In d (data :: map (fun s => bc3_layout (decorrelation_mode3 s) (split_alpha_endpoints s) (split_colour_endpoints3 s) data) (best :: fixed)) -> In d ds) ->
  exists r sizes2 files2 st2,
  benchmark_blocks v y hash fresh (fun n s => transform_bc3_with_settings c (Ptr BIn 0) (Ptr BOut 0) n s)
    (fun n s => untransform_bc3_with_settings c (Ptr BIn 0) (Ptr BOut 0) n s) iterations warmups level ZStandard dry_run recommend fixed fates last data sizes0 files st
    = Ok (r, (sizes2, files2, st2)) /\ genuine frame hash ds files2 /\
  forall os, r = ROk os -> os = repeat (if dry_run then None else Some data) (List.length fixed + 2).
Proof.
  intros L y frame c v hash fresh data iterations warmups level dry_run recommend fixed fates last ds files sizes0 st best sizes1 st1 B K Hm HD IT.
  exact (benchmark_genuine y frame v hash fresh _ _ lay3 data iterations warmups level dry_run recommend fixed fates last ds files sizes0 st best sizes1 st1
    B (bc3_pair c data K Hm HD) IT).
Qed.
Print Assumptions C71_bc3_benchmark.

(** ** An example *)

(** Three tasks with the same call. The first two find no file. The first creates
    it and writes one byte; the second makes it empty again; the first writes its
    next byte, which leaves a gap. The third reads the file then. Then both write
    the rest. *)
Definition one : call := Call [Byte.x41; Byte.x42; Byte.x43] 16.
Definition mixed : list (nat * action plain_state) :=
  [(0, Look); (1, Look); (0, Compress blank); (1, Compress blank); (0, Create); (0, Write 0); (1, Create); (0, Write 0);
   (2, Look); (2, Read 99); (2, Read 99); (1, Write 1); (0, Write 99); (1, Write 99)]%nat.
Definition three : data_cache * list task := run plain sum mixed no_files (dry_run_tasks [[one]; [one]; [one]]).
Example C71_case : behaves plain plain_frame /\ no_collision sum ([] ++ all_data [[one]; [one]; [one]]) /\ complete_files plain sum [] no_files /\
  (forall i, ~ In (i, WriteFails) mixed) /\ (forall i, ~ In (i, CreateFails) mixed) /\ (forall t, In t (snd three) -> t_calls t = []) /\
  fst three (cache_key (sum (call_data one)) 16 ZStandard) = Some [Byte.x01; Byte.x41; Byte.x42; Byte.x43] /\
  turns_taken plain sum mixed no_files (dry_run_tasks [[one]; [one]; [one]]) = 14%nat.
Proof.
  split; [exact plain_behaves|]. split; [apply no_collision_check; vm_compute; reflexivity|]. split; [intros n b E; discriminate|].
  split; [intros i H; cbn in H; repeat (destruct H as [H|H]; [discriminate|]); exact H|].
  split; [intros i H; cbn in H; repeat (destruct H as [H|H]; [discriminate|]); exact H|].
  split; [|split; vm_compute; reflexivity].
  assert (E : forallb (fun t => match t_calls t with [] => true | _ => false end) (snd three) = true) by (vm_compute; reflexivity).
  intros t I. rewrite forallb_forall in E. specialize (E t I). cbv beta in E. destruct (t_calls t); [reflexivity|discriminate].
Qed.
(** What a call returns in the meantime can be wrong: the third task got the two
    bytes that were there, the gap and the second byte. The dry run does not use
    what the calls return. *)
Theorem C71_reading_meanwhile_refuted : nth_error (map t_answers (snd three)) 2 = Some [[Byte.x00; Byte.x41]].
Proof. vm_compute. reflexivity. Qed.
Print Assumptions C71_reading_meanwhile_refuted.
(** And if writing fails in the middle, which gives only a warning, the file stays
    as it is, and all later calls use it. *)
Theorem C71_failed_write_refuted :
  let r := run plain sum [(0, Look); (0, Compress blank); (0, Create); (0, Write 1); (0, WriteFails);
                          (1, Look); (1, Read 99); (1, Read 99)]%nat no_files (dry_run_tasks [[one]; [one]]) in
  map t_answers (snd r) = [[[Byte.x01; Byte.x41; Byte.x42; Byte.x43]]; [[Byte.x01; Byte.x41]]] /\
  map t_calls (snd r) = [[]; []] /\ fst r (cache_key (sum (call_data one)) 16 ZStandard) = Some [Byte.x01; Byte.x41].
Proof. cbv zeta. split; [vm_compute; reflexivity|]. split; vm_compute; reflexivity. Qed.
Print Assumptions C71_failed_write_refuted.
