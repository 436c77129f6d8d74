(** C67: what the debug-endian command's verdicts mean. *)
From Verif Require Import Base.Bytes Base.Res Model.Color565 Model.Kernel Model.Transform Model.Auto Model.Builders Model.Embed Model.Bundle
  Model.Dds Model.Handlers Model.Inspect Model.Cli Model.EndianTest Spec.Cli Spec.EndianTest Proofs.CliFacts Proofs.EndianTestFacts.
From Verif Require Import Props.PDds Props.PHandlers Props.PFiles.
From Coq Require Import String.
Open Scope list_scope.

(** C67: comparing two files ends, whatever they hold and however the reads go;
    it says "identical" only of files with the same bytes. *)
Theorem C67_files_sound : forall f1 f2 : disk_file,
  (exists r, compare_files f1 f2 = Ok r) /\
  (compare_files f1 f2 = Ok (ROk true) -> exists x, on_disk f1 = Some x /\ on_disk f2 = Some x).
Proof.
  intros f1 f2. split; [destruct (compare_files_ok f1 f2) as (r & E & _); exists r; exact E|exact (compare_files_sound f1 f2)].
Qed.
Print Assumptions C67_files_sound.

(** C67: when both files can be read and every read fills the buffer, the verdict
    is exactly whether the bytes are the same. *)
Theorem C67_files_exact : forall (f1 f2 : disk_file) (x y : list byte),
  reads_well f1 -> reads_well f2 -> on_disk f1 = Some x -> on_disk f2 = Some y ->
  exists b, compare_files f1 f2 = Ok (ROk b) /\ (b = true <-> x = y).
Proof. exact compare_files_complete. Qed.
Print Assumptions C67_files_exact.
Example C67_files_exact_case :
  let f x := DiskFile (Some x) true true (fun _ => Some 65536) in
  reads_well (f [x01]) /\ compare_files (f [x01; x02]) (f [x01; x02]) = Ok (ROk true) /\ compare_files (f [x01; x02]) (f [x01; x03]) = Ok (ROk false).
Proof.
  split; [repeat split; intros n; exists 65536; split; [reflexivity|discriminate]|]. split; vm_compute; reflexivity.
Qed.

(** C67, refuted without that: two files with the same bytes are called different
    when one read returns fewer bytes than the other, which [Read::read] allows. *)
Theorem C67_short_reads_refuted : exists (f1 f2 : disk_file) (x : list byte),
  on_disk f1 = Some x /\ on_disk f2 = Some x /\ size_ok f1 = true /\ size_ok f2 = true /\
  can_open f1 = true /\ can_open f2 = true /\ (forall n, reads f1 n <> None /\ reads f2 n <> None) /\
  compare_files f1 f2 = Ok (ROk false).
Proof. exact short_reads. Qed.
Print Assumptions C67_short_reads_refuted.

(** C67: directories called identical have the same files (by their paths below
    the directory) with the same bytes; none is extra on either side. *)
Theorem C67_directories_sound : forall d1 d2 : directory, real_tree (d_tree d1) ->
  (exists r, compare_directories d1 d2 = Ok r) /\ (compare_directories d1 d2 = Ok (ROk true) -> same_directory d1 d2).
Proof. intros d1 d2 R. split; [exact (compare_directories_total d1 d2)|exact (compare_directories_sound d1 d2 R)]. Qed.
Print Assumptions C67_directories_sound.

(** C67: and identical directories that can be read are called identical. *)
Theorem C67_directories_complete : forall d1 d2 : directory, real_tree (d_tree d1) -> real_tree (d_tree d2) ->
  readable (d_tree d1) -> readable (d_tree d2) -> (forall p, reads_well (d_file d1 p)) -> (forall p, reads_well (d_file d2 p)) ->
  same_directory d1 d2 -> compare_directories d1 d2 = Ok (ROk true).
Proof. exact compare_directories_complete. Qed.
Print Assumptions C67_directories_complete.
Example C67_directories_case :
  real_tree (d_tree (one_file [x01])) /\ readable (d_tree (one_file [x01])) /\ same_directory (one_file [x01]) (one_file [x01]) /\
  compare_directories (one_file [x01]) (one_file [x01]) = Ok (ROk true) /\ compare_directories (one_file [x01]) (one_file [x02]) = Ok (ROk false).
Proof.
  split; [apply one_file_real|]. split; [apply one_file_readable|]. split; [apply same_one_file|]. split; vm_compute; reflexivity.
Qed.

(** C67: the command always comes to a verdict, and if it succeeds then for every
    test file both machines transformed it, to the same files, and both restored
    what they transformed, to the same files. *)
Theorem C67_passed : forall (le be : machine) (tests : list (list byte)), real_machine le ->
  (exists r, handle_debug_command le be tests = Ok r) /\
  (handle_debug_command le be tests = Ok (ROk tt) -> forall f, In f tests -> machines_agree le be f).
Proof. intros le be tests R. split; [exact (command_total le be tests)|exact (command_sound le be tests R)]. Qed.
Print Assumptions C67_passed.

(** C67: conversely, machines that agree on every test file pass, as long as the
    directories can be read back. *)
Theorem C67_passes : forall (le be : machine) (tests : list (list byte)),
  real_machine le -> real_machine be -> quiet_machine le -> quiet_machine be ->
  (forall f, In f tests -> machines_agree le be f) -> handle_debug_command le be tests = Ok (ROk tt).
Proof. exact command_complete. Qed.
Print Assumptions C67_passes.
Example C67_passes_case : let m := toy_machine (fun f => rev f) in
  real_machine m /\ quiet_machine m /\ machines_agree m m [x01; x02] /\
  handle_debug_command m m [[x01; x02]; [x03]] = Ok (ROk tt) /\
  handle_debug_command m (toy_machine (fun f => f)) [[x01; x02]; [x03]] = Ok (RErr TestsFailed).
Proof.
  cbv zeta. split; [apply toy_real|]. split; [apply toy_quiet|]. split; [apply toy_agree|]. split; vm_compute; reflexivity.
Qed.

(** C67: failing because of the tests is different from failing because something
    could not be run or read: it means that the machines differ on a test file. *)
Theorem C67_failed : forall (le be : machine) (tests : list (list byte)),
  real_machine le -> real_machine be -> quiet_machine le -> quiet_machine be -> only_io_errors le -> only_io_errors be ->
  handle_debug_command le be tests = Ok (RErr TestsFailed) -> exists f, In f tests /\ ~ machines_agree le be f.
Proof. exact command_failed. Qed.
Print Assumptions C67_failed.
Example C67_failed_case : only_io_errors (toy_machine (fun f => f)).
Proof. split; intros ? ? E; discriminate E. Qed.

(** C67: what is reported about one test file: whether both machines transformed
    it; if so, whether both restored what they transformed; and whether the files
    after both steps were called identical. *)
Theorem C67_flags : forall (le be : machine) (f : list byte) r, run_single_endian_test le be f = Ok (ROk r) ->
  exists tl dl tb db, run_transform le f = ROk (tl, dl) /\ run_transform be f = ROk (tb, db) /\
    transform_success r = tl && tb /\
    (transform_success r = false -> untransform_success r = false /\ files_identical r = false) /\
    (transform_success r = true -> exists ul rl ub rb, run_untransform le dl = ROk (ul, rl) /\ run_untransform be db = ROk (ub, rb) /\
       untransform_success r = ul && ub /\ (untransform_success r = false -> files_identical r = false) /\
       (files_identical r = true <->
          untransform_success r = true /\ compare_directories dl db = Ok (ROk true) /\ compare_directories rl rb = Ok (ROk true))).
Proof. exact single_flags. Qed.
Print Assumptions C67_flags.
Example C67_flags_case :
  run_single_endian_test (toy_machine (fun f => f)) (toy_machine (fun f => rev f)) [x01; x02] = Ok (ROk (EndianTestResult true true false)).
Proof. vm_compute. reflexivity. Qed.

(** C67: the command that each machine runs on a test file tries the eight
    settings in this order, each on the files the attempts before it left, and ends
    with the first that works; it fails if none does. Textures of other formats
    are refused and nothing is touched. *)
Theorem C67_settings : forall {St Er : Type} (ext : path -> option string) (hs : list (handler (bundle St Er) St))
    (inspectors : list inspector) (o0 : io) (o : stable_variant -> bool -> io) (input output : path) (fs : files) (w : St),
  (get_transform_format ext o0 input inspectors AllFormats fs = Ok (ROk (Some FBc1)) -> forall r fs' w',
   handle_transform_single_file ext hs inspectors o0 o input output fs w = Ok (r, fs', w') <->
   exists b, attempts (fun v s => transform_file_with_multiple_handlers ext (o v s) hs input output
        (with_bc1_manual bundle_new (manual_split_colour_endpoints (manual_decorrelation_mode manual_new v) s))) settings_in_order fs w b fs' w' /\
     r = if b then ROk tt else RErr DMessage) /\
  (get_transform_format ext o0 input inspectors AllFormats fs = Ok (ROk (Some FBc2)) -> forall r fs' w',
   handle_transform_single_file ext hs inspectors o0 o input output fs w = Ok (r, fs', w') <->
   exists b, attempts (fun v s => transform_file_with_multiple_handlers ext (o v s) hs input output
        (with_bc2_manual bundle_new (manual_split_colour_endpoints (manual_decorrelation_mode manual_new v) s))) settings_in_order fs w b fs' w' /\
     r = if b then ROk tt else RErr DMessage) /\
  (forall f, get_transform_format ext o0 input inspectors AllFormats fs = Ok (ROk f) -> f <> Some FBc1 -> f <> Some FBc2 ->
   handle_transform_single_file ext hs inspectors o0 o input output fs w = Ok (RErr DMessage, fs, w)).
Proof.
  intros. split; [intros E r fs' w'; exact (tried_bc1 ext hs inspectors o0 o input output fs w r fs' w' E)|].
  split; [intros E r fs' w'; exact (tried_bc2 ext hs inspectors o0 o input output fs w r fs' w' E)|]. intros f. exact (tried_others ext hs inspectors o0 o input output fs w f).
Qed.
Print Assumptions C67_settings.

(** C67, refuted: "passed" does not say that textures survive. The command never
    compares what was restored with the test file: machines that lose it pass. *)
Theorem C67_lossless_refuted : exists (le be : machine) (f : list byte), real_machine le /\ real_machine be /\
  handle_debug_command le be [f] = Ok (ROk tt) /\
  (forall d ok, run_transform le f = ROk (ok, d) -> forall d1 ok1, run_untransform le d = ROk (ok1, d1) ->
     forall p, on_disk (d_file d1 p) <> Some f).
Proof.
  exists (toy_machine (fun _ => [])), (toy_machine (fun _ => [])), [x01]. split; [apply toy_real|]. split; [apply toy_real|].
  split; [vm_compute; reflexivity|]. intros d ok E d1 ok1 E1 p. injection E as <- <-. injection E1 as <- <-. discriminate.
Qed.
Print Assumptions C67_lossless_refuted.

(** C67, refuted: nor does it say that anything was tested. *)
Theorem C67_tested_refuted : forall le be : machine, handle_debug_command le be [] = Ok (ROk tt).
Proof. reflexivity. Qed.
Print Assumptions C67_tested_refuted.

(** C67, refuted: the command each machine runs on a test file goes through the
    settings but stops at the first that works, which is no decorrelation and no
    split. If those work the outcome is
    theirs and no other settings are looked at. Together with
    [C66_bc1_decorrelated_refuted] this is why the command passes although
    decorrelated textures do not move between byte orders. *)
Theorem C67_every_setting_refuted : forall {St Er : Type} (ext : path -> option string) (hs : list (handler (bundle St Er) St))
    (inspectors : list inspector) (o0 : io) (o : stable_variant -> bool -> io) (input output : path) (fs : files) (w : St) h fs1 w1,
  (get_transform_format ext o0 input inspectors AllFormats fs = Ok (ROk (Some FBc1)) ->
   transform_file_with_multiple_handlers ext (o VariantNone false) hs input output
     (with_bc1_manual bundle_new (manual_split_colour_endpoints (manual_decorrelation_mode manual_new VariantNone) false)) fs w = Ok (ROk h, fs1, w1) ->
   handle_transform_single_file ext hs inspectors o0 o input output fs w = Ok (ROk tt, fs1, w1)) /\
  (get_transform_format ext o0 input inspectors AllFormats fs = Ok (ROk (Some FBc2)) ->
   transform_file_with_multiple_handlers ext (o VariantNone false) hs input output
     (with_bc2_manual bundle_new (manual_split_colour_endpoints (manual_decorrelation_mode manual_new VariantNone) false)) fs w = Ok (ROk h, fs1, w1) ->
   handle_transform_single_file ext hs inspectors o0 o input output fs w = Ok (ROk tt, fs1, w1)).
Proof. intros. split; [eapply first_bc1|eapply first_bc2]. Qed.
Print Assumptions C67_every_setting_refuted.

(** A texture for which the first settings work, and others give other bytes. *)
Example C67_every_setting_case :
  let ext := fun _ : path => Some "dds"%string in
  let run v s := transform_file_with_multiple_handlers ext PFiles.disk [PHandlers.dds] "a.dds" "t.dds" (bc1_bundle (Er := unit) v s) PFiles.dir tt in
  get_transform_format ext PFiles.disk "a.dds" (all_inspectors true env64) AllFormats PFiles.dir = Ok (ROk (Some FBc1)) /\
  PFiles.ok (run VariantNone false) = true /\ PFiles.ok (run Variant1 false) = true /\
  PFiles.files_after (run VariantNone false) "t.dds"%string <> PFiles.files_after (run Variant1 false) "t.dds"%string.
Proof. cbv zeta. split; [vm_compute; reflexivity|]. split; [vm_compute; reflexivity|]. split; [vm_compute; reflexivity|]. vm_compute. discriminate. Qed.
