(** Debug and release builds of the C functions. *)
From Verif Require Import Base.Bytes Base.Res Model.Color565 Model.Kernel Model.Transform Model.Auto Model.Builders Model.CApi Model.BeTransform Model.BeFiles Model.BeCApi
  Spec.Layout Spec.Files Spec.Release Spec.CApi Spec.BeCApi Proofs.ReleaseFacts Proofs.BeReleaseFacts.
Open Scope list_scope.
Open Scope Z_scope.

Lemma core_un_agree : forall k c s x out, supported c -> agree (core_untransform k c s x out) (core_untransform k (release_build c) s x out).
Proof. intros [] c s x out K; [apply unslice1|apply unslice2]; exact (proj1 K). Qed.
Lemma be_core_un_agree : forall k c s x out, cpu_ok c -> agree (be_core_untransform k c s x out) (be_core_untransform k (release_build c) s x out).
Proof. intros [] c s x out K; left; [apply be_unslice1|apply be_unslice2]; exact K. Qed.

Lemma core_call_agree : forall run run' i n o m, (forall x out, agree (run x out) (run' x out)) -> agree (core_call run i n o m) (core_call run' i n o m).
Proof.
  intros run run' [i|] n [o|] m H; cbn [core_call]; try apply agree_refl.
  apply agree_bind; [apply agree_refl|]. intros a _. apply agree_bind; [apply agree_refl|]. intros b _. apply agree_bind; [apply H|]. intros; apply agree_refl.
Qed.
Lemma manual_call_agree : forall St run run' i n o m b (h : heap St), (forall mb x out, agree (run mb x out) (run' mb x out)) ->
  agree (manual_call run i n o m b h) (manual_call run' i n o m b h).
Proof.
  intros St run run' [i|] n [o|] m [b|] h H; cbn [manual_call]; try apply agree_refl.
  do 3 (apply agree_bind; [apply agree_refl|intros ? _]). apply agree_bind; [apply H|]. intros; apply agree_refl.
Qed.

Section Le.
Context {St : Type}.
Variables (k : codec) (c : cfg) (v : Auto.env).
Hypothesis (K : supported c).
Lemma manual_agree : forall i n o m b (h : heap St), agree (manual_transform_c k c i n o m b h) (manual_transform_c k (release_build c) i n o m b h).
Proof. intros. apply manual_call_agree. intros. unfold manual_transform. apply agree_bind; [apply core_agree; exact K|]. intros; apply agree_refl. Qed.
Lemma manual_un_agree : forall i n o m b (h : heap St), agree (manual_untransform_c k c i n o m b h) (manual_untransform_c k (release_build c) i n o m b h).
Proof. intros. apply manual_call_agree. intros. unfold manual_untransform. apply agree_bind; [apply core_un_agree; exact K|]. intros; apply agree_refl. Qed.
Lemma auto_c_agree : forall b d n o m cell (h : heap St) st, agree (auto_transform_c k c v b d n o m cell h st) (auto_transform_c k (release_build c) v b d n o m cell h st).
Proof.
  intros [b|] [d|] n [o|] m [cell|] h st; cbn [auto_transform_c]; try apply agree_refl.
  do 3 (apply agree_bind; [apply agree_refl|intros ? _]). cbv zeta.
  apply agree_bind; [|intros; apply agree_refl]. unfold auto_transform. apply agree_bind; [apply core_auto_agree; exact K|]. intros; apply agree_refl.
Qed.
Lemma core_auto_c_agree : forall d n o m e all cell (st : St),
  agree (core_transform_auto_c k c v d n o m e all cell st) (core_transform_auto_c k (release_build c) v d n o m e all cell st).
Proof.
  intros [d|] n [o|] m [e|] all [cell|] st; cbn [core_transform_auto_c]; try apply agree_refl.
  do 2 (apply agree_bind; [apply agree_refl|intros ? _]).
  apply agree_bind; [apply core_auto_agree; exact K|]. intros; apply agree_refl.
Qed.
Lemma call_agree : forall (call : c_call St) h st, agree (run_c_call k c v call h st) (run_c_call k (release_build c) v call h st).
Proof.
  intros call h st. destruct call; cbn [run_c_call]; try apply agree_refl; (apply agree_bind; [|intros; apply agree_refl]).
  - apply manual_agree. - apply manual_un_agree. - apply auto_c_agree.
Qed.
Lemma ran_release : forall past h st, ran k c v past h st -> ran (St := St) k (release_build c) v past h st.
Proof.
  intros past h st R. induction R as [st|past h st call a h1 st1 R IH E]; [constructor|].
  econstructor; [exact IH|]. destruct (call_agree call h st) as [Q|(w & Q)]; rewrite E in Q; [symmetry; exact Q|discriminate Q].
Qed.
End Le.

Section Be.
Context {St : Type}.
Variables (k : codec) (c : cfg) (v : Auto.env).
Hypothesis (K : cpu_ok c).
Lemma be_manual_agree : forall i n o m b (h : heap St), agree (be_manual_transform_c k c i n o m b h) (be_manual_transform_c k (release_build c) i n o m b h).
Proof. intros. apply manual_call_agree. intros. unfold be_manual_transform. apply agree_bind; [apply be_core_agree; exact K|]. intros; apply agree_refl. Qed.
Lemma be_manual_un_agree : forall i n o m b (h : heap St), agree (be_manual_untransform_c k c i n o m b h) (be_manual_untransform_c k (release_build c) i n o m b h).
Proof. intros. apply manual_call_agree. intros. unfold be_manual_untransform. apply agree_bind; [apply be_core_un_agree; exact K|]. intros; apply agree_refl. Qed.
Lemma be_auto_c_agree : forall b d n o m cell (h : heap St) st, agree (be_auto_transform_c k c v b d n o m cell h st) (be_auto_transform_c k (release_build c) v b d n o m cell h st).
Proof.
  intros [b|] [d|] n [o|] m [cell|] h st; cbn [be_auto_transform_c]; try apply agree_refl.
  do 3 (apply agree_bind; [apply agree_refl|intros ? _]). cbv zeta.
  apply agree_bind; [|intros; apply agree_refl]. unfold be_auto_transform. apply agree_bind; [apply be_core_auto_agree; exact K|]. intros; apply agree_refl.
Qed.
Lemma be_core_auto_c_agree : forall d n o m e all cell (st : St),
  agree (be_core_transform_auto_c k c v d n o m e all cell st) (be_core_transform_auto_c k (release_build c) v d n o m e all cell st).
Proof.
  intros [d|] n [o|] m [e|] all [cell|] st; cbn [be_core_transform_auto_c]; try apply agree_refl.
  do 2 (apply agree_bind; [apply agree_refl|intros ? _]).
  apply agree_bind; [apply be_core_auto_agree; exact K|]. intros; apply agree_refl.
Qed.
Lemma be_call_agree : forall (call : c_call St) h st, agree (be_run_c_call k c v call h st) (be_run_c_call k (release_build c) v call h st).
Proof.
  intros call h st. destruct call; cbn [be_run_c_call]; try apply agree_refl; (apply agree_bind; [|intros; apply agree_refl]).
  - apply be_manual_agree. - apply be_manual_un_agree. - apply be_auto_c_agree.
Qed.
Lemma be_ran_release : forall past h st, be_ran k c v past h st -> be_ran (St := St) k (release_build c) v past h st.
Proof.
  intros past h st R. induction R as [st|past h st call a h1 st1 R IH E]; [constructor|].
  econstructor; [exact IH|]. destruct (be_call_agree call h st) as [Q|(w & Q)]; rewrite E in Q; [symmetry; exact Q|discriminate Q].
Qed.
End Be.
