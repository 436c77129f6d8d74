(** C93 among big-endian machines. They share one set of kernels (the portable
    ones), so they differ in the build and in what fresh memory holds. *)
From Verif Require Import Base.Bytes Base.Res Model.Color565 Model.Ycc Model.Kernel Model.Transform Model.Auto Model.Builders Model.Embed Model.Bundle Model.Dds Model.Handlers Model.Cli
  Model.CApi Model.BigEndian Model.BeTransform Model.BeFiles Model.BeCApi Model.EndianTool Spec.Layout Spec.BigEndian Spec.Estimator Spec.Files Spec.BeFiles Spec.Dds Spec.CApi Spec.BeCApi
  Spec.Cli Spec.Release Spec.ReleaseRuns Proofs.CliExamples Proofs.BigEndianFacts Proofs.BeMachines Proofs.BeMachinesRuns.
From Verif Require Import Props.PDds Props.PFiles Props.Cases Props.CasesAuto Props.PCApi.
From Coq Require Import String.
Open Scope string_scope.
Open Scope list_scope.
Open Scope Z_scope.

Theorem C93_be_auto : forall (St Er : Type) (d1 : bool) (j1 j2 : byte) (v : env) (e : estimator St Er) (use_all : bool) (x out : list byte) (st : St),
  let c1 := big_endian_cpu d1 j1 in let c2 := big_endian_cpu false j2 in
  (same_or_panics (be_transform_bc1_auto c1 v e use_all x out st) (be_transform_bc1_auto c2 v e use_all x out st) /\
   same_or_panics (be_transform_bc2_auto c1 v e use_all x out st) (be_transform_bc2_auto c2 v e use_all x out st) /\
   same_or_panics (be_transform_bc3_auto c1 v e use_all x out st) (be_transform_bc3_auto c2 v e use_all x out st)) /\
  (d1 = false ->
   be_transform_bc1_auto c1 v e use_all x out st = be_transform_bc1_auto c2 v e use_all x out st /\
   be_transform_bc2_auto c1 v e use_all x out st = be_transform_bc2_auto c2 v e use_all x out st /\
   be_transform_bc3_auto c1 v e use_all x out st = be_transform_bc3_auto c2 v e use_all x out st).
Proof.
  intros St Er d1 j1 j2 v e all x out st c1 c2. pose proof (big_endian_ok d1 j1 : cpu_ok c1) as K1. pose proof (big_endian_ok false j2 : cpu_ok c2) as K2. split.
  - exact (be_mixed_auto c1 c2 K1 K2 eq_refl St Er v e all x out st).
  - intros D1. assert (D : c_debug c1 = false) by exact D1.
    split; [exact (be_auto_same1 c1 c2 K1 K2 D eq_refl St Er v e all x out st)|].
    split; [exact (be_auto_same2 c1 c2 K1 K2 D eq_refl St Er v e all x out st)|exact (be_auto_same3 c1 c2 K1 K2 D eq_refl St Er v e all x out st)].
Qed.
Print Assumptions C93_be_auto.
(** an estimator that counts its calls *)
Example C93_be_auto_met : exists s y, be_transform_bc1_auto (big_endian_cpu true x00) roomy counts true (Cases.texture 24) (Cases.texture 24) 0 = Ok (ROk s, y, 9) /\ y <> Cases.texture 24.
Proof. do 2 eexists. split; [vm_compute; reflexivity|discriminate]. Qed.

Theorem C93_be_dds : forall (St Er : Type) (show : Er -> string) (d1 : bool) (j1 j2 : byte) (v : env) (t : bundle St Er) (x out : list byte) (st : St),
  let c1 := big_endian_cpu d1 j1 in let c2 := big_endian_cpu false j2 in
  (same_or_panics (be_dds_transform_bundle show c1 v t x out st) (be_dds_transform_bundle show c2 v t x out st) /\
   same_or_panics (be_dds_untransform c1 v x out) (be_dds_untransform c2 v x out)) /\
  (d1 = false ->
   be_dds_transform_bundle show c1 v t x out st = be_dds_transform_bundle show c2 v t x out st /\ be_dds_untransform c1 v x out = be_dds_untransform c2 v x out).
Proof.
  intros St Er show d1 j1 j2 v t x out st c1 c2. pose proof (big_endian_ok d1 j1 : cpu_ok c1) as K1. pose proof (big_endian_ok false j2 : cpu_ok c2) as K2. split.
  - split; [exact (be_mixed_dds c1 c2 K1 K2 eq_refl St Er show v t x out st)|exact (be_mixed_undds c1 c2 K1 K2 eq_refl v x out)].
  - intros D1. assert (D : c_debug c1 = false) by exact D1.
    split; [exact (be_dds_same c1 c2 K1 K2 D eq_refl St Er show v t x out st)|exact (be_undds_same c1 c2 K1 K2 D eq_refl v x out)].
Qed.
Print Assumptions C93_be_dds.
Example C93_be_dds_met : let f := fun _ : unit => EmptyString in
  exists y, be_dds_transform_bundle f (big_endian_cpu true x00) env64 (manual CBc1) file1 file1 tt = Ok (ROk tt, y, tt) /\ y <> file1.
Proof. cbv zeta. eexists. split; [vm_compute; reflexivity|discriminate]. Qed.

Theorem C93_be_files : forall (St Er : Type) (show : Er -> string) (d1 : bool) (j1 j2 : byte) (v : env) (o : io) (ip op : string) (x out : list byte) (b : bundle St Er) (fs : files) (st : St),
  let h := be_dds_handler show (big_endian_cpu d1 j1) v in let h' := be_dds_handler show (big_endian_cpu false j2) v in
  same_or_panics (transform_file_with_handler o h ip op b fs st) (transform_file_with_handler o h' ip op b fs st) /\
  same_or_panics (untransform_file_with_handler o h ip op fs st) (untransform_file_with_handler o h' ip op fs st) /\
  same_or_panics (transform_file_to_slice_with_handler o h ip out b fs st) (transform_file_to_slice_with_handler o h' ip out b fs st) /\
  same_or_panics (untransform_file_to_slice_with_handler o h ip out fs st) (untransform_file_to_slice_with_handler o h' ip out fs st) /\
  same_or_panics (transform_slice_to_file_with_handler o h x op b fs st) (transform_slice_to_file_with_handler o h' x op b fs st) /\
  same_or_panics (untransform_slice_to_file_with_handler o h x op fs st) (untransform_slice_to_file_with_handler o h' x op fs st).
Proof.
  intros St Er show d1 j1 j2 v o ip op x out b fs st.
  exact (be_m_files _ _ (big_endian_ok d1 j1) (big_endian_ok false j2) eq_refl show v o ip op x out b fs st).
Qed.
Print Assumptions C93_be_files.
Example C93_be_files_met : let f := fun _ : unit => EmptyString in
  exists fs1, transform_file_with_handler disk (be_dds_handler f (big_endian_cpu true x01) env64) "a.dds" "t.dds" (manual CBc1) dir tt = Ok (ROk tt, fs1, tt) /\ fs1 "t.dds" <> dir "a.dds".
Proof. cbv zeta. eexists. split; [vm_compute; reflexivity|vm_compute; discriminate]. Qed.

Theorem C93_be_c_programs : forall (St : Type) (k : codec) (d1 : bool) (j1 j2 : byte) (v : env) (past : @history St) (h : heap St) (st : St),
  be_ran k (big_endian_cpu d1 j1) v past h st -> be_ran k (big_endian_cpu false j2) v past h st.
Proof. intros St k d1 j1 j2 v past h st. exact (be_m_ran _ _ (big_endian_ok d1 j1) (big_endian_ok false j2) eq_refl k v past h st). Qed.
Print Assumptions C93_be_c_programs.
Example C93_be_c_programs_met : exists (past : @history Z) h, be_ran CBc1 (big_endian_cpu true x01) plenty past h 0 /\ List.length past = 2%nat.
Proof.
  do 2 eexists. split; [|shelve]. eapply (be_ran_call _ _ _ _ _ _ (CTransform (Some texture) 16 (Some texture) 16 (Some 0%nat)));
    [eapply (be_ran_call _ _ _ _ _ _ CNew); [apply (be_ran_start _ _ _ 0)|reflexivity]|vm_compute; reflexivity].
  Unshelve. reflexivity.
Qed.

Theorem C93_be_tool : forall (St Er : Type) (utf8 : string -> bool) (show : Er -> string) (d1 : bool) (j1 j2 : byte) (v : env) (cmd : command (bundle St Er)) (I O : components)
    (entries : list (answers * components)) (given : list components) (fs : files) (st : St) (total : Z),
  let hs := be_all_handlers show (big_endian_cpu d1 j1) v in let hs' := be_all_handlers show (big_endian_cpu false j2) v in
  same_or_panics (process_files utf8 cmd hs I O d1 entries fs st total) (process_files utf8 cmd hs' I O false entries fs st total) /\
  forall s, reachable utf8 cmd hs I O given fs s ->
  exists s1, reachable utf8 cmd hs' I O given fs s1 /\
    s_files s = s_files s1 /\ s_total s = s_total s1 /\ Forall2 equally_far_or_panicked (s_tasks s) (s_tasks s1).
Proof.
  intros St Er utf8 show d1 j1 j2 v cmd I O entries given fs st total hs hs'. split.
  - exact (be_m_process _ _ (big_endian_ok d1 j1) (big_endian_ok false j2) eq_refl show v utf8 cmd I O entries fs st total).
  - intros s R. exact (be_m_reachable _ _ (big_endian_ok d1 j1) (big_endian_ok false j2) eq_refl show v utf8 cmd I O given fs s R).
Qed.
Print Assumptions C93_be_tool.
Example C93_be_tool_met : let f := fun _ : unit => EmptyString in let fs := fun p => if String.eqb p "/in/a.dds" then Some file1 else None in
  exists fs1, process_files (fun _ => true) (TransformDir (manual CBc1)) (be_all_handlers f (big_endian_cpu true x01) env64) ["in"] ["out"] true [(works, ["in"; "a.dds"])] fs tt 0
    = Ok (zlen file1, fs1, tt) /\ fs1 "/out/a.dds" <> fs "/in/a.dds".
Proof. cbv zeta. eexists. split; [vm_compute; reflexivity|vm_compute; discriminate]. Qed.
