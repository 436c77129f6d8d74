(** C84, continued: debug and release builds of the C functions and of the
    command line tool. [equally_far_or_panicked] is in Spec/ReleaseRuns.v. *)
From Verif Require Import Base.Bytes Base.Res Model.Color565 Model.Ycc Model.Kernel Model.Transform Model.Auto Model.Builders Model.Embed Model.Bundle Model.Dds Model.Handlers Model.Cli
  Model.CApi Model.BigEndian Model.BeTransform Model.BeFiles Model.BeCApi Model.EndianTool.
From Verif Require Import Spec.Layout Spec.Estimator Spec.Files Spec.Dds Spec.CApi Spec.BeCApi Spec.Cli Spec.Release Spec.ReleaseRuns.
From Verif Require Import Proofs.BigEndianFacts Proofs.CliExamples Proofs.ReleaseFacts Proofs.BeReleaseFacts Proofs.ReleaseCalls Proofs.ReleaseRuns.
From Verif Require Import Props.PDds Props.PFiles Props.Cases Props.PCApi.
From Coq Require Import String.
Open Scope string_scope.
Open Scope list_scope.
Open Scope Z_scope.

(** ** C programs *)

(** C84: any call with any arguments, valid or not. *)
Theorem C84_c_calls : forall (St : Type) (k : codec) (c : cfg) (v : env) (call : c_call St) (h : heap St) (st : St), supported c ->
  same_or_panics (run_c_call k c v call h st) (run_c_call k (release_build c) v call h st).
Proof. intros St k c v call h st K. exact (call_agree k c v K call h st). Qed.
Print Assumptions C84_c_calls.
(** an automatic transform, and one with an empty texture *)
Example C84_c_calls_met : let h := Heap [] [Some (CAutoBuilder (summing (-1)) true)] in
  let call n := CAutoTransform (Some 0%nat) (Some texture) n (Some texture) 16 (Some None) in
  supported debug_cpu /\ c_debug debug_cpu = true /\
  (exists o b h1 st1, run_c_call CBc1 debug_cpu plenty (call 16) h 0 = Ok (GaveBuilder Success o (Some (Some b)), h1, st1)) /\
  (exists why, run_c_call CBc1 debug_cpu plenty (call 0) h 0 = Panic why) /\
  (exists o b h1 st1, run_c_call CBc1 (release_build debug_cpu) plenty (call 0) h 0 = Ok (GaveBuilder Success o (Some (Some b)), h1, st1)).
Proof.
  cbv zeta. split; [exact debug_supported|]. split; [reflexivity|]. split; [do 4 eexists; vm_compute; reflexivity|].
  split; [eexists; vm_compute; reflexivity|do 4 eexists; vm_compute; reflexivity].
Qed.

(** The core crates' C functions. *)
Theorem C84_core_c_functions : forall (St : Type) (k : codec) (c : cfg) (v : env) (s : settings) (i : option (list byte)) (n : Z) (o : option (list byte)) (m : Z)
    (e : option (c_estimator St)) (use_all : bool) (cell : option settings) (st : St), supported c ->
  same_or_panics (core_transform_c k c s i n o m) (core_transform_c k (release_build c) s i n o m) /\
  same_or_panics (core_untransform_c k c s i n o m) (core_untransform_c k (release_build c) s i n o m) /\
  same_or_panics (core_transform_auto_c k c v i n o m e use_all cell st) (core_transform_auto_c k (release_build c) v i n o m e use_all cell st).
Proof.
  intros St k c v s i n o m e all cell st K. split; [|split].
  - exact (core_call_agree _ _ i n o m (fun x out => core_agree k c s x out K)).
  - exact (core_call_agree _ _ i n o m (fun x out => core_un_agree k c s x out K)).
  - exact (core_auto_c_agree k c v K i n o m e all cell st).
Qed.
Print Assumptions C84_core_c_functions.
Example C84_core_c_functions_met : supported debug_cpu /\ c_debug debug_cpu = true /\
  (exists o, core_transform_c CBc2 debug_cpu (Settings V2 true) (Some texture) 16 (Some texture) 16 = Ok (CoreSuccess, o)) /\
  (exists o s st, core_transform_auto_c CBc1 debug_cpu plenty (Some texture) 16 (Some texture) 16 (Some (summing (-1))) false (Some (Settings V3 true)) 0 = Ok (CoreSuccess, o, Some s, st)).
Proof. split; [exact debug_supported|]. split; [reflexivity|]. split; [eexists; vm_compute; reflexivity|do 3 eexists; vm_compute; reflexivity]. Qed.

(** Whatever a program saw of a debug build, it could have seen of the release
    build: the same answers to the same calls. *)
Theorem C84_c_histories : forall (St : Type) (k : codec) (c : cfg) (v : env) (past : @history St) (h : heap St) (st : St), supported c ->
  ran k c v past h st -> ran k (release_build c) v past h st.
Proof. intros St k c v past h st K. exact (ran_release k c v K past h st). Qed.
Print Assumptions C84_c_histories.
(** making a builder and transforming with it *)
Example C84_c_histories_met : supported debug_cpu /\ exists (past : @history Z) h, ran CBc1 debug_cpu plenty past h 0 /\ List.length past = 2%nat.
Proof.
  split; [exact debug_supported|]. do 2 eexists. split; [|shelve]. eapply (ran_call _ _ _ _ _ _ (CTransform (Some texture) 16 (Some texture) 16 (Some 0%nat)));
    [eapply (ran_call _ _ _ _ _ _ CNew); [apply (ran_start _ _ _ 0)|reflexivity]|vm_compute; reflexivity].
  Unshelve. reflexivity.
Qed.

Theorem C84_big_endian_c_calls : forall (St : Type) (k : codec) (c : cfg) (v : env) (call : c_call St) (h : heap St) (st : St), cpu_ok c ->
  same_or_panics (be_run_c_call k c v call h st) (be_run_c_call k (release_build c) v call h st).
Proof. intros St k c v call h st K. exact (be_call_agree k c v K call h st). Qed.
Print Assumptions C84_big_endian_c_calls.
Example C84_big_endian_c_calls_met : let c := big_endian_cpu true x5a in let h := Heap [] [Some (CAutoBuilder (summing (-1)) true)] in
  cpu_ok c /\ c_debug c = true /\
  exists o b h1 st1, be_run_c_call CBc1 c plenty (CAutoTransform (Some 0%nat) (Some texture) 0 (Some texture) 16 (Some None)) h 0 = Ok (GaveBuilder Success o (Some (Some b)), h1, st1).
Proof. cbv zeta. split; [exact (big_endian_ok true x5a)|]. split; [reflexivity|]. do 4 eexists. vm_compute. reflexivity. Qed.

Theorem C84_big_endian_c_histories : forall (St : Type) (k : codec) (c : cfg) (v : env) (past : @history St) (h : heap St) (st : St), cpu_ok c ->
  be_ran k c v past h st -> be_ran k (release_build c) v past h st.
Proof. intros St k c v past h st K. exact (be_ran_release k c v K past h st). Qed.
Print Assumptions C84_big_endian_c_histories.
Example C84_big_endian_c_histories_met : let c := big_endian_cpu true x5a in cpu_ok c /\ exists (past : @history Z) h, be_ran CBc1 c plenty past h 0 /\ List.length past = 2%nat.
Proof.
  cbv zeta. split; [exact (big_endian_ok true x5a)|]. do 2 eexists. split; [|shelve]. eapply (be_ran_call _ _ _ _ _ _ (CTransform (Some texture) 16 (Some texture) 16 (Some 0%nat)));
    [eapply (be_ran_call _ _ _ _ _ _ CNew); [apply (be_ran_start _ _ _ 0)|reflexivity]|vm_compute; reflexivity].
  Unshelve. reflexivity.
Qed.

(** ** The command line tool *)

(** C84, one file after another: the same files, the same total and the same
    estimator state, for any directories, any answers of the operating system. *)
Theorem C84_tool : forall (St Er : Type) (utf8 : string -> bool) (show : Er -> string) (c : cfg) (v : env) (cmd : command (bundle St Er)) (I O : components)
    (entries : list (answers * components)) (fs : files) (st : St) (total : Z), supported c ->
  same_or_panics (process_files utf8 cmd (all_handlers show c v) I O (c_debug c) entries fs st total)
                 (process_files utf8 cmd (all_handlers show (release_build c) v) I O false entries fs st total).
Proof.
  intros St Er utf8 show c v cmd I O entries fs st total K.
  exact (files_agree utf8 cmd _ _ I O (dds_accepts utf8 show c v cmd) (dds_work show c v cmd K) (c_debug c) entries fs st total).
Qed.
Print Assumptions C84_tool.
Example C84_tool_met : let f := fun _ : unit => EmptyString in let fs := fun p => if String.eqb p "/in/a.dds" then Some file1 else None in
  supported debug_cpu /\ c_debug debug_cpu = true /\
  exists fs1, process_files (fun _ => true) (TransformDir (manual CBc1)) (all_handlers f debug_cpu env64) ["in"] ["out"] true [(works, ["in"; "a.dds"])] fs tt 0 = Ok (zlen file1, fs1, tt) /\
    fs1 "/out/a.dds" <> fs "/in/a.dds".
Proof. cbv zeta. split; [exact debug_supported|]. split; [reflexivity|]. eexists. split; [vm_compute; reflexivity|vm_compute; discriminate]. Qed.

(** C84, many files at a time: for every state a run of the debug build can be
    in, whatever the order of the threads' steps, the release build has a run that
    leaves the same files and the same total, and every task as far, except those
    that panicked in the debug build. *)
Theorem C84_tool_threads : forall (St Er : Type) (utf8 : string -> bool) (show : Er -> string) (c : cfg) (v : env) (cmd : command (bundle St Er)) (I O : components)
    (entries : list components) (fs : files) (s : state), supported c ->
  reachable utf8 cmd (all_handlers show c v) I O entries fs s ->
  exists s1, reachable utf8 cmd (all_handlers show (release_build c) v) I O entries fs s1 /\
    s_files s = s_files s1 /\ s_total s = s_total s1 /\ Forall2 equally_far_or_panicked (s_tasks s) (s_tasks s1).
Proof.
  intros St Er utf8 show c v cmd I O entries fs s K R.
  exact (reachable_other utf8 cmd _ _ I O (dds_accepts utf8 show c v cmd) (dds_work show c v cmd K) entries fs s R).
Qed.
Print Assumptions C84_tool_threads.

(** a run in which one file's headers made the debug build panic (C28), and
    another file's task has gone on to find its handler *)
Example C84_tool_threads_met : let f := fun _ : unit => EmptyString in let big := sample_header (four "DXT1") (2 ^ 18) (2 ^ 18) 1 in
  let fs := fun p => if String.eqb p "/in/a.dds" then Some file1 else if String.eqb p "/in/b.dds" then Some big else None in
  supported debug_cpu /\ c_debug debug_cpu = true /\
  exists h s, reachable (fun _ => true) (TransformDir (manual CBc1)) (all_handlers f debug_cpu env64) ["in"] ["out"] [["in"; "a.dds"]; ["in"; "b.dds"]] fs s /\
    s_tasks s = [(["in"; "a.dds"], Accepted (zlen file1) file1 h); (["in"; "b.dds"], Panicked)].
Proof.
  cbv zeta. split; [exact debug_supported|]. split; [reflexivity|].
  eexists. apply one_panics with (x := file1) (y := sample_header (four "DXT1") (2 ^ 18) (2 ^ 18) 1) (w := tt) (w1 := tt); [reflexivity|reflexivity|vm_compute; reflexivity|].
  exists tt. eexists. vm_compute. reflexivity.
Qed.

Theorem C84_big_endian_tool : forall (St Er : Type) (utf8 : string -> bool) (show : Er -> string) (c : cfg) (v : env) (cmd : command (bundle St Er)) (I O : components)
    (entries : list (answers * components)) (files_given : list components) (fs : files) (st : St) (total : Z), cpu_ok c ->
  same_or_panics (process_files utf8 cmd (be_all_handlers show c v) I O (c_debug c) entries fs st total)
                 (process_files utf8 cmd (be_all_handlers show (release_build c) v) I O false entries fs st total) /\
  forall s, reachable utf8 cmd (be_all_handlers show c v) I O files_given fs s ->
  exists s1, reachable utf8 cmd (be_all_handlers show (release_build c) v) I O files_given fs s1 /\
    s_files s = s_files s1 /\ s_total s = s_total s1 /\ Forall2 equally_far_or_panicked (s_tasks s) (s_tasks s1).
Proof.
  intros St Er utf8 show c v cmd I O entries given fs st total K. split.
  - exact (files_agree utf8 cmd _ _ I O (be_dds_accepts utf8 show c v cmd) (be_dds_work show c v cmd K) (c_debug c) entries fs st total).
  - intros s R. exact (reachable_other utf8 cmd _ _ I O (be_dds_accepts utf8 show c v cmd) (be_dds_work show c v cmd K) given fs s R).
Qed.
Print Assumptions C84_big_endian_tool.
Example C84_big_endian_tool_met : let c := big_endian_cpu true x5a in let f := fun _ : unit => EmptyString in let fs := fun p => if String.eqb p "/in/a.dds" then Some file1 else None in
  cpu_ok c /\ c_debug c = true /\
  exists fs1, process_files (fun _ => true) (TransformDir (manual CBc1)) (be_all_handlers f c env64) ["in"] ["out"] true [(works, ["in"; "a.dds"])] fs tt 0 = Ok (zlen file1, fs1, tt) /\
    fs1 "/out/a.dds" <> fs "/in/a.dds".
Proof. cbv zeta. split; [exact (big_endian_ok true x5a)|]. split; [reflexivity|]. eexists. split; [vm_compute; reflexivity|vm_compute; discriminate]. Qed.
