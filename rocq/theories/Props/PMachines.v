(** C93: what the search for settings, the DDS handler, the C functions and the
    command line tool do does not depend on the machine, among little-endian ones.
    [same_or_panics] (Spec/Release.v) compares all that a call returns and leaves
    behind; only debug builds panic where others do not (C84). *)
From Verif Require Import Base.Bytes Base.Res Model.Color565 Model.Ycc Model.Kernel Model.Transform Model.Auto Model.Builders Model.Embed Model.Bundle Model.Dds Model.Handlers Model.Cli
  Model.CApi Spec.Layout Spec.Estimator Spec.Files Spec.Dds Spec.CApi Spec.Cli Spec.Release Spec.ReleaseRuns Spec.Machines Proofs.CliExamples Proofs.Machines.
From Verif Require Import Props.PDds Props.PFiles Props.Cases Props.CasesAuto Props.PCApi.
From Coq Require Import String.
Open Scope string_scope.
Open Scope list_scope.
Open Scope Z_scope.

(** Searching for settings, with any estimator. The same calls to the estimator
    (it can note them in its state), the same choice, errors and bytes. *)
Theorem C93_auto : forall (St Er : Type) (c1 c2 : cfg) (v : env) (e : estimator St Er) (use_all : bool) (x out : list byte) (st : St),
  supported c1 -> supported c2 -> c_debug c2 = false ->
  (same_or_panics (transform_bc1_auto c1 v e use_all x out st) (transform_bc1_auto c2 v e use_all x out st) /\
   same_or_panics (transform_bc2_auto c1 v e use_all x out st) (transform_bc2_auto c2 v e use_all x out st) /\
   same_or_panics (transform_bc3_auto c1 v e use_all x out st) (transform_bc3_auto c2 v e use_all x out st)) /\
  (c_debug c1 = false ->
   transform_bc1_auto c1 v e use_all x out st = transform_bc1_auto c2 v e use_all x out st /\
   transform_bc2_auto c1 v e use_all x out st = transform_bc2_auto c2 v e use_all x out st /\
   transform_bc3_auto c1 v e use_all x out st = transform_bc3_auto c2 v e use_all x out st).
Proof.
  intros St Er c1 c2 v e all x out st K1 K2 D2. split; [exact (mixed_auto c1 c2 K1 K2 D2 St Er v e all x out st)|]. intros D1.
  split; [exact (auto_same1 c1 c2 K1 K2 D1 D2 v e all x out st)|]. split; [exact (auto_same2 c1 c2 K1 K2 D1 D2 v e all x out st)|exact (auto_same3 c1 c2 K1 K2 D1 D2 v e all x out st)].
Qed.
Print Assumptions C93_auto.
Definition portable : cfg := Cfg false OtherArch false false false false false false false false x5a.
Lemma portable_supported : supported portable.
Proof. split; [constructor; intros H; discriminate H|intros H; discriminate H]. Qed.
(** an estimator that counts its calls *)
Example C93_auto_met : supported debug_cpu /\ supported fast_cpu /\ supported portable /\ c_debug portable = false /\ c_debug fast_cpu = false /\
  exists s y, transform_bc1_auto fast_cpu roomy counts true (Cases.texture 24) (Cases.texture 24) 0 = Ok (ROk s, y, 9).
Proof.
  split; [exact debug_supported|]. split; [exact fast_supported|]. split; [exact portable_supported|]. split; [reflexivity|]. split; [reflexivity|].
  do 2 eexists. vm_compute. reflexivity.
Qed.

(** DDS files, with any bundle. *)
Theorem C93_dds : forall (St Er : Type) (show : Er -> string) (c1 c2 : cfg) (v : env) (t : bundle St Er) (x out : list byte) (st : St),
  supported c1 -> supported c2 -> c_debug c2 = false ->
  (same_or_panics (dds_transform_bundle show c1 v t x out st) (dds_transform_bundle show c2 v t x out st) /\
   same_or_panics (dds_untransform c1 v x out) (dds_untransform c2 v x out)) /\
  (c_debug c1 = false ->
   dds_transform_bundle show c1 v t x out st = dds_transform_bundle show c2 v t x out st /\ dds_untransform c1 v x out = dds_untransform c2 v x out).
Proof.
  intros St Er show c1 c2 v t x out st K1 K2 D2. split.
  - split; [exact (mixed_dds c1 c2 K1 K2 D2 St Er show v t x out st)|exact (mixed_undds c1 c2 K1 K2 D2 v x out)].
  - intros D1. split; [exact (dds_same c1 c2 K1 K2 D1 D2 St Er show v t x out st)|exact (undds_same c1 c2 K1 K2 D1 D2 v x out)].
Qed.
Print Assumptions C93_dds.
Example C93_dds_met : let f := fun _ : unit => EmptyString in supported fast_cpu /\ supported portable /\ c_debug portable = false /\
  exists y, dds_transform_bundle f portable env64 (manual CBc1) file1 file1 tt = Ok (ROk tt, y, tt) /\ y <> file1.
Proof. cbv zeta. split; [exact fast_supported|]. split; [exact portable_supported|]. split; [reflexivity|]. eexists. split; [vm_compute; reflexivity|discriminate]. Qed.

(** Nor does it depend on whether addresses have 32 or 64 bits (or any number
    from 32 up), if the estimator's answers and the size the headers state fit. *)
Theorem C93_address_width : forall (St Er : Type) (show : Er -> string) (c1 c2 : cfg) (v1 v2 : env) (t : bundle St Er) (x out : list byte) (st : St),
  supported c1 -> supported c2 -> c_debug c2 = false ->
  2 ^ 32 - 1 <= usize_max v1 -> 2 ^ 32 - 1 <= usize_max v2 -> (forall n, alloc_ok v1 n = alloc_ok v2 n) -> modest_bundle t (2 ^ 32 - 1) ->
  (forall i, parse_dds_ignore_magic false x = Ok (Some i) -> i_data_offset i + i_data_length i < 2 ^ 32) ->
  same_or_panics (dds_transform_bundle show c1 v1 t x out st) (dds_transform_bundle show c2 v2 t x out st) /\
  same_or_panics (dds_untransform c1 v1 x out) (dds_untransform c2 v2 x out).
Proof. exact address_width. Qed.
Print Assumptions C93_address_width.
(** an estimator whose answers depend on how often it was asked *)
Definition moody : estimator Z unit := Estimator (fun st n => (ROk n, st + 1)) (fun st d n => (ROk (st * 5 mod 7), st + 1)).
Example C93_address_width_met : modest_bundle (St := Z) (Er := unit) (installed [WithAuto CBc1 (auto_new_ultra moody)]) (2 ^ 32 - 1) /\
  (forall i, parse_dds_ignore_magic false file1 = Ok (Some i) -> i_data_offset i + i_data_length i < 2 ^ 32) /\
  exists y st', dds_transform_bundle (fun _ : unit => EmptyString) portable env32 (installed [WithAuto CBc1 (auto_new_ultra moody)]) file1 file1 0 = Ok (ROk tt, y, st') /\ y <> file1.
Proof.
  split; [|split].
  - intros b H. cbn [installed fold_left installs bundle_new b_bc1 b_bc2 with_bc1_auto] in H. destruct H as [H|H]; [|discriminate H]. assert (E : auto_new_ultra moody = b) by congruence. subst b. intros st d n z st'. cbn [moody ab_estimator auto_new_ultra estimate_compressed_size]. clear H. intros H.
    assert (EZ : z = st * 5 mod 7) by congruence. subst z. pose proof (Z.mod_pos_bound (st * 5) 7 ltac:(lia)). lia.
  - assert (P : parse_dds_ignore_magic false file1 = Ok (Some (info_of file1))) by (vm_compute; reflexivity). intros i H. rewrite P in H.
    assert (E : info_of file1 = i) by congruence. rewrite <- E. vm_compute. reflexivity.
  - do 2 eexists. split; [vm_compute; reflexivity|discriminate].
Qed.
(** With an estimator that says 2^32 - 1, the largest number of a 32-bit
    machine, the machines choose different settings. *)
Theorem C93_address_width_refuted : exists (e : estimator unit unit) (x y1 y2 : list byte),
  let t := installed [WithAuto CBc1 (auto_new_ultra e)] in let f := fun _ : unit => EmptyString in
  dds_transform_bundle f portable env32 t x x tt = Ok (ROk tt, y1, tt) /\ dds_transform_bundle f portable env64 t x x tt = Ok (ROk tt, y2, tt) /\ y1 <> y2.
Proof.
  exists (Estimator (fun st _ => (ROk 0, st)) (fun st _ _ => (ROk (2 ^ 32 - 1), st))), file1. do 2 eexists.
  split; [vm_compute; reflexivity|]. split; [vm_compute; reflexivity|discriminate].
Qed.
Print Assumptions C93_address_width_refuted.

(** Files on disk. *)
Theorem C93_files : forall (St Er : Type) (show : Er -> string) (c1 c2 : cfg) (v : env) (o : io) (ip op : string) (x out : list byte) (b : bundle St Er) (fs : files) (st : St),
  supported c1 -> supported c2 -> c_debug c2 = false ->
  let h := dds_handler show c1 v in let h' := dds_handler show c2 v in
  same_or_panics (transform_file_with_handler o h ip op b fs st) (transform_file_with_handler o h' ip op b fs st) /\
  same_or_panics (untransform_file_with_handler o h ip op fs st) (untransform_file_with_handler o h' ip op fs st) /\
  same_or_panics (transform_file_to_slice_with_handler o h ip out b fs st) (transform_file_to_slice_with_handler o h' ip out b fs st) /\
  same_or_panics (untransform_file_to_slice_with_handler o h ip out fs st) (untransform_file_to_slice_with_handler o h' ip out fs st) /\
  same_or_panics (transform_slice_to_file_with_handler o h x op b fs st) (transform_slice_to_file_with_handler o h' x op b fs st) /\
  same_or_panics (untransform_slice_to_file_with_handler o h x op fs st) (untransform_slice_to_file_with_handler o h' x op fs st).
Proof. intros St Er show c1 c2 v o ip op x out b fs st K1 K2 D2. exact (m_files c1 c2 K1 K2 D2 show v o ip op x out b fs st). Qed.
Print Assumptions C93_files.
Example C93_files_met : let f := fun _ : unit => EmptyString in supported fast_cpu /\ supported portable /\
  exists fs1, transform_file_with_handler disk (dds_handler f fast_cpu env64) "a.dds" "t.dds" (manual CBc1) dir tt = Ok (ROk tt, fs1, tt) /\ fs1 "t.dds" <> dir "a.dds".
Proof. cbv zeta. split; [exact fast_supported|]. split; [exact portable_supported|]. eexists. split; [vm_compute; reflexivity|vm_compute; discriminate]. Qed.

(** C programs: what a program can do and get on one machine, with calls that
    return, it can do and get on every other. *)
Theorem C93_c_programs : forall (St : Type) (k : codec) (c1 c2 : cfg) (v : env) (past : @history St) (h : heap St) (st : St),
  supported c1 -> supported c2 -> c_debug c2 = false -> ran k c1 v past h st -> ran k c2 v past h st.
Proof. intros St k c1 c2 v past h st K1 K2 D2. exact (m_ran c1 c2 K1 K2 D2 k v past h st). Qed.
Print Assumptions C93_c_programs.
Example C93_c_programs_met : supported fast_cpu /\ supported portable /\ exists (past : @history Z) h, ran CBc1 fast_cpu plenty past h 0 /\ List.length past = 2%nat.
Proof.
  split; [exact fast_supported|]. split; [exact portable_supported|]. do 2 eexists. split; [|shelve]. eapply (ran_call _ _ _ _ _ _ (CTransform (Some texture) 16 (Some texture) 16 (Some 0%nat)));
    [eapply (ran_call _ _ _ _ _ _ CNew); [apply (ran_start _ _ _ 0)|reflexivity]|vm_compute; reflexivity].
  Unshelve. reflexivity.
Qed.

(** The command line tool, one file after another and in any interleaving. *)
Theorem C93_tool : forall (St Er : Type) (utf8 : string -> bool) (show : Er -> string) (c1 c2 : cfg) (v : env) (cmd : command (bundle St Er)) (I O : components)
    (entries : list (answers * components)) (given : list components) (fs : files) (st : St) (total : Z), supported c1 -> supported c2 -> c_debug c2 = false ->
  same_or_panics (process_files utf8 cmd (all_handlers show c1 v) I O (c_debug c1) entries fs st total)
                 (process_files utf8 cmd (all_handlers show c2 v) I O (c_debug c2) entries fs st total) /\
  forall s, reachable utf8 cmd (all_handlers show c1 v) I O given fs s ->
  exists s1, reachable utf8 cmd (all_handlers show c2 v) I O given fs s1 /\
    s_files s = s_files s1 /\ s_total s = s_total s1 /\ Forall2 equally_far_or_panicked (s_tasks s) (s_tasks s1).
Proof.
  intros St Er utf8 show c1 c2 v cmd I O entries given fs st total K1 K2 D2. split.
  - rewrite D2. exact (m_process c1 c2 K1 K2 D2 show v utf8 cmd I O entries fs st total).
  - intros s R. exact (m_reachable c1 c2 K1 K2 D2 show v utf8 cmd I O given fs s R).
Qed.
Print Assumptions C93_tool.
Example C93_tool_met : let f := fun _ : unit => EmptyString in let fs := fun p => if String.eqb p "/in/a.dds" then Some file1 else None in
  supported fast_cpu /\ supported portable /\
  exists fs1, process_files (fun _ => true) (TransformDir (manual CBc1)) (all_handlers f fast_cpu env64) ["in"] ["out"] false [(works, ["in"; "a.dds"])] fs tt 0 = Ok (zlen file1, fs1, tt) /\
    fs1 "/out/a.dds" <> fs "/in/a.dds".
Proof. cbv zeta. split; [exact fast_supported|]. split; [exact portable_supported|]. eexists. split; [vm_compute; reflexivity|vm_compute; discriminate]. Qed.
