(** Runs of the tool and C programs on different big-endian machines (C93). *)
From Verif Require Import Base.Bytes Base.Res Model.Color565 Model.Ycc Model.Kernel Model.Transform Model.Auto Model.Builders Model.Embed Model.Bundle Model.Dds Model.Handlers Model.Cli
  Model.CApi Model.BigEndian Model.BeTransform Model.BeFiles Model.BeCApi Model.EndianTool
  Spec.Files Spec.CApi Spec.BeCApi Spec.Cli Spec.Release Spec.ReleaseRuns
  Proofs.BigEndianFacts Proofs.ReleaseFacts Proofs.BeReleaseFacts Proofs.ReleaseCalls Proofs.ReleaseRuns Proofs.Machines Proofs.BeMachines.
From Coq Require Import String.
Open Scope list_scope.
Open Scope Z_scope.

Section Mixed.
Variables (c1 c2 : cfg).
Hypotheses (K1 : cpu_ok c1) (K2 : cpu_ok c2) (D2 : c_debug c2 = false).
Let KR := release_ok c1 K1.
Section Files.
Context {St Er : Type}.
Variables (show : Er -> string) (v : Auto.env).
Let h := @be_dds_handler St Er show c1 v.
Let h' := @be_dds_handler St Er show c2 v.
Variables (utf8 : string -> bool) (cmd : command (bundle St Er)).
Lemma be_m_accepts : forall x p w, agree (accepts utf8 cmd h x p w) (accepts utf8 cmd h' x p w).
Proof.
  intros x p w. unfold accepts. destruct cmd; cbn [h h' be_dds_handler h_can_handle h_can_handle_untransform]; rewrite D2;
    (apply agree_bind; [|intros; apply agree_refl]); [apply can_agree|apply can_un_agree].
Qed.
Lemma be_m_work : forall x out w, agree (work cmd h x out w) (work cmd h' x out w).
Proof. intros x out w. unfold work. destruct cmd; [exact (be_m_slice c1 c2 K1 K2 D2 show v x out b w)|exact (be_m_unslice c1 c2 K1 K2 D2 show v x out w)]. Qed.
Lemma be_m_reachable : forall I O entries fs s, reachable utf8 cmd [h] I O entries fs s ->
  exists s', reachable utf8 cmd [h'] I O entries fs s' /\ s_files s = s_files s' /\ s_total s = s_total s' /\ Forall2 equally_far_or_panicked (s_tasks s) (s_tasks s').
Proof. intros I O. exact (reachable_other utf8 cmd h h' I O be_m_accepts be_m_work). Qed.
Lemma be_m_process : forall I O entries fs st total,
  agree (process_files utf8 cmd [h] I O (c_debug c1) entries fs st total) (process_files utf8 cmd [h'] I O false entries fs st total).
Proof. intros I O. exact (files_agree utf8 cmd h h' I O be_m_accepts be_m_work (c_debug c1)). Qed.
End Files.

(** *** C programs *)
Lemma be_mixed_core : forall k s x out, be_core_transform k c1 s x out = be_core_transform k c2 s x out /\ be_core_untransform k c1 s x out = be_core_untransform k c2 s x out.
Proof.
  intros [] s x out; cbn [be_core_transform be_core_untransform].
  - rewrite (be_slice1 c1 s x out K1), (be_unslice1 c1 s x out K1). exact (be_slices_same1 _ c2 KR K2 eq_refl D2 s x out).
  - rewrite (be_slice2 c1 s x out K1), (be_unslice2 c1 s x out K1). exact (be_slices_same2 _ c2 KR K2 eq_refl D2 s x out).
Qed.
Section C.
Context {St : Type}.
Variables (k : codec) (v : Auto.env).
Lemma be_m_call : forall (call : c_call St) h st, agree (be_run_c_call k c1 v call h st) (be_run_c_call k c2 v call h st).
Proof.
  intros call h st. destruct call; cbn [be_run_c_call]; try apply agree_refl; (apply agree_bind; [|intros; apply agree_refl]).
  - apply manual_call_agree. intros. unfold be_manual_transform. left. f_equal. apply be_mixed_core.
  - apply manual_call_agree. intros. unfold be_manual_untransform. left. f_equal. apply be_mixed_core.
  - match goal with |- agree (be_auto_transform_c _ _ _ ?b ?d ?n ?o ?m ?cell _ _) _ => destruct b as [b'|], d as [d'|], o as [o'|], cell as [cell'|] end;
      cbn [be_auto_transform_c]; try apply agree_refl.
    do 3 (apply agree_bind; [apply agree_refl|intros ? _]). cbv zeta.
    apply agree_bind; [|intros; apply agree_refl]. unfold be_auto_transform. apply agree_bind; [|intros; apply agree_refl].
    unfold be_core_auto. destruct k; apply (be_mixed_auto c1 c2 K1 K2 D2).
Qed.
Lemma be_m_ran : forall past h st, be_ran k c1 v past h st -> be_ran (St := St) k c2 v past h st.
Proof.
  intros past h st R. induction R as [st|past h st call a h1 st1 R IH E]; [constructor|].
  econstructor; [exact IH|]. destruct (be_m_call call h st) as [Q|(w & Q)]; rewrite E in Q; [symmetry; exact Q|discriminate Q].
Qed.
End C.
End Mixed.
