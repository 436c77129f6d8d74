(** Exactly which calls on an empty texture panic in debug builds. *)
From Verif Require Import Base.Bytes Base.Res Model.Color565 Model.Ycc Model.Kernel
  Model.GenBc1Std Model.GenBc1Rec Model.GenBc1Sc Model.GenBc1Scr Model.GenBc3Sa Model.Transform
  Proofs.KernelCheck Proofs.KernelLoop Proofs.KernelFun Proofs.Shapes Spec.YCoCg Spec.Layout
  Proofs.LayoutFacts Proofs.ShapeLayout Proofs.Families
  Proofs.KBc1Sc Proofs.KBc1Scr Proofs.KBc1ScrU Proofs.KBc3Sa Proofs.KBc3Sac Proofs.KBc3Sacr Proofs.KBc3Sar Proofs.TransformFacts Proofs.SliceFacts Proofs.TransformProps.
From Coq Require Import ZifyBool ZifyNat.

Lemma sse2_same : forall c, cpu_ok c -> has_sse2 c = c_sse2 c.
Proof. intros c K. unfold has_sse2. pose proof (ok_x64 c K). destruct (is_x64 c); [rewrite H by reflexivity|]; reflexivity. Qed.

(** ** The paths without the assertion *)
Ltac take X := let m' := fresh "m'" in let E := fresh "E" in let J := fresh "J" in
  destruct X as (m' & E & J); rewrite E; cbn [bind]; exists m'; split; [reflexivity|exact J].
Ltac quiet_start :=
  intros ins outs m0 N kk n m K Hf Hp W Hkk Hn HN J; cbv beta.

Lemma sc_t_quiet : forall c, SPEC c VNone sh_bc1_sc_t (negb (is_x86 c && c_avx512bw c)) any_n
  (fun P n m => bc1_sc_t_transform_with_split_colour c (P (PI 0)) (P (PO 0)) (P (PO 1)) (P (PO 2)) n m).
Proof.
  intros c. quiet_start.
  unfold bc1_sc_t_transform_with_split_colour, bc1_sc_t_transform_with_split_colour_x86, has_avx512bw, has_avx2.
  rewrite (sse2_same c K).
  pose proof (fun f => bc1_sc_t_generic_transform_with_split_colour_ok c ins outs m0 N kk n m K f Logic.I W Hkk Hn HN J) as G.
  pose proof (fun f => bc1_sc_t_avx2_transform_with_split_colour_ok c ins outs m0 N kk n m K f Logic.I W Hkk Hn HN J) as A.
  pose proof (fun f => bc1_sc_t_sse2_transform_with_split_colour_ok c ins outs m0 N kk n m K f Logic.I W Hkk Hn HN J) as S.
  cbv beta in G, A, S.
  destruct (is_x86 c), (c_avx512bw c), (c_static c), (c_avx2 c), (c_sse2 c); try discriminate Hf; cbn [negb];
    first [take (A eq_refl) | take (S eq_refl) | take (G eq_refl)].
Qed.
Lemma sc_u_quiet : forall c, SPEC c VNone sh_bc1_sc_u (negb (is_x86 c && c_sse2 c)) any_n
  (fun P n m => bc1_sc_u_untransform_with_split_colour c (P (PI 0)) (P (PI 1)) (P (PI 2)) (P (PO 0)) n m).
Proof.
  intros c. quiet_start.
  unfold bc1_sc_u_untransform_with_split_colour, bc1_sc_u_untransform_with_split_colour_x86, has_avx512bw, has_avx2.
  rewrite (sse2_same c K).
  pose proof (fun f => bc1_sc_u_generic_untransform_with_split_colour_ok c ins outs m0 N kk n m K f Logic.I W Hkk Hn HN J) as G.
  cbv beta in G. pose proof (ok_512bw c K) as B1. pose proof (ok_512f c K) as B2. pose proof (ok_avx2 c K) as B3. pose proof (ok_ssse3 c K) as B4.
  destruct (is_x86 c); cbn [andb negb] in Hf; [|take (G eq_refl)].
  destruct (c_sse2 c); [discriminate Hf|]. destruct (c_ssse3 c); [discriminate (B4 eq_refl)|]. destruct (c_avx2 c); [discriminate (B3 eq_refl)|].
  destruct (c_avx512f c); [discriminate (B2 eq_refl)|]. destruct (c_avx512bw c); [discriminate (B1 eq_refl)|].
  destruct (c_static c); cbn [negb]; take (G eq_refl).
Qed.
Lemma scr_t_quiet : forall c v, SPEC c v sh_bc1_scr_t (vok v && negb (is_x86 c && c_avx512bw c)) any_n
  (fun P n m => bc1_scr_t_transform_with_split_colour_and_recorr c (P (PI 0)) (P (PO 0)) (P (PO 1)) (P (PO 2)) n v m).
Proof.
  intros c v. quiet_start. apply andb_true_iff in Hf. destruct Hf as [Hv Hf].
  unfold bc1_scr_t_transform_with_split_colour_and_recorr, bc1_scr_t_transform_with_split_colour_and_recorr_x86, has_avx512bw, has_avx2.
  replace (negb (vnum v =? 0)) with true by (destruct v; (discriminate Hv || reflexivity)). rewrite debug_assert_t. cbn [bind].
  rewrite (sse2_same c K).
  pose proof (fun f => bc1_scr_t_generic_transform_with_split_colour_and_decorr_generic_ok c v ins outs m0 N kk n m K f Logic.I W Hkk Hn HN J) as G.
  pose proof (fun f => bc1_scr_t_avx2_transform_with_split_colour_and_decorr_ok c v ins outs m0 N kk n m K f Logic.I W Hkk Hn HN J) as A.
  pose proof (fun f => bc1_scr_t_sse2_transform_with_split_colour_and_decorr_ok c v ins outs m0 N kk n m K f Logic.I W Hkk Hn HN J) as S.
  rewrite Hv in G, A, S. cbn [andb] in G, A, S. cbv beta in G, A, S.
  destruct (is_x86 c), (c_avx512bw c), (c_static c), (c_avx2 c), (c_sse2 c); try discriminate Hf; cbn [negb];
    first [take (A eq_refl) | take (S eq_refl) | take (G eq_refl)].
Qed.
Lemma scr_u_quiet : forall c v, ISPEC c v sh_bc1_scr_u (vok v && negb (is_x86 c && c_sse2 c)) any_n
  (fun P n m => bc1_scr_u_untransform_with_split_colour_and_recorr c (P (PI 0)) (P (PI 1)) (P (PI 2)) (P (PO 0)) n v m).
Proof.
  intros c v ins outs m0 n K Hf Hp W Hin. apply andb_true_iff in Hf. destruct Hf as [Hv Hf].
  unfold bc1_scr_u_untransform_with_split_colour_and_recorr, bc1_scr_u_untransform_with_split_colour_and_recorr_x86, has_avx512bw, has_avx2.
  try (replace (negb (vnum v =? 0)) with true by (destruct v; (discriminate Hv || reflexivity)); rewrite debug_assert_t; cbn [bind]). rewrite (sse2_same c K).
  pose proof (bc1_scr_u_generic_ok c v) as G.
  pose proof (ok_512bw c K) as B1. pose proof (ok_512f c K) as B2. pose proof (ok_avx2 c K) as B3. pose proof (ok_ssse3 c K) as B4.
  destruct (is_x86 c); cbn [andb negb] in Hf; [|use_ispec G].
  destruct (c_sse2 c); [discriminate Hf|]. destruct (c_ssse3 c); [discriminate (B4 eq_refl)|]. destruct (c_avx2 c); [discriminate (B3 eq_refl)|].
  destruct (c_avx512f c); [discriminate (B2 eq_refl)|]. destruct (c_avx512bw c); [discriminate (B1 eq_refl)|].
  destruct (c_static c); cbn [negb]; use_ispec G.
Qed.
Lemma sa_t_quiet : forall c, SPEC c VNone sh_bc3_sa_t (negb (is_x86 c && c_avx512vbmi c)) any_n
  (fun P n m => bc3_sa_t_transform_with_split_alphas c (P (PI 0)) (P (PO 0)) (P (PO 1)) (P (PO 2)) (P (PO 3)) (P (PO 4)) n m).
Proof.
  intros c. quiet_start.
  unfold bc3_sa_t_transform_with_split_alphas, bc3_sa_t_transform_with_split_alphas_x86, has_avx512vbmi, has_avx2.
  pose proof (fun f => bc3_sa_t_generic_transform_with_split_alphas_ok c ins outs m0 N kk n m K f Logic.I W Hkk Hn HN J) as G.
  pose proof (fun f => bc3_sa_t_avx2_transform_with_split_alphas_ok c ins outs m0 N kk n m K f Logic.I W Hkk Hn HN J) as A.
  cbv beta in G, A.
  destruct (is_x86 c), (c_avx512vbmi c), (c_static c), (c_avx2 c); try discriminate Hf; cbn [negb];
    first [take (A eq_refl) | take (G eq_refl)].
Qed.

(** ** The paths with it *)
Ltac loud := unfold cpu_has, debug_assert; cbn [andb bind negb Z.ltb Z.compare]; eexists; reflexivity.
Section Loud.
Variables (c : cfg) (K : cpu_ok c) (D : c_debug c = true) (X : is_x86 c = true).
Lemma sc_t_loud : c_avx512bw c = true -> forall i a b d m, exists why, bc1_sc_t_transform_with_split_colour c i a b d 0 m = Panic why.
Proof.
  intros H i a b d m. pose proof (ok_512bw c K H) as B1. pose proof (ok_512f c K B1) as B2. pose proof (ok_ssse3 c K (ok_avx2 c K B2)) as B3.
  unfold bc1_sc_t_transform_with_split_colour, bc1_sc_t_transform_with_split_colour_x86, has_avx512bw. rewrite X, H.
  unfold bc1_sc_t_avx512bw_transform_with_split_colour. rewrite H, B1, B3, D. destruct (c_static c); cbn [negb]; loud.
Qed.
Lemma sc_u_loud : c_sse2 c = true -> forall i a b d m, exists why, bc1_sc_u_untransform_with_split_colour c i a b d 0 m = Panic why.
Proof.
  intros H i a b d m. pose proof (ok_512bw c K) as B1.
  unfold bc1_sc_u_untransform_with_split_colour, bc1_sc_u_untransform_with_split_colour_x86, has_avx512bw, has_avx2. rewrite (sse2_same c K), X, H.
  unfold bc1_sc_u_avx512bw_untransform_with_split_colour, bc1_sc_u_avx2_untransform_with_split_colour, bc1_sc_u_sse2_untransform_with_split_colour.
  rewrite D, H. destruct (c_avx512bw c); [rewrite (B1 eq_refl)|destruct (c_avx2 c)]; destruct (c_static c); cbn [negb]; loud.
Qed.
Lemma scr_t_loud : c_avx512bw c = true -> forall v i a b d m, vok v = true -> exists why, bc1_scr_t_transform_with_split_colour_and_recorr c i a b d 0 v m = Panic why.
Proof.
  intros H v i a b d m V. pose proof (ok_512bw c K H) as B1. pose proof (ok_512f c K B1) as B2. pose proof (ok_ssse3 c K (ok_avx2 c K B2)) as B3.
  unfold bc1_scr_t_transform_with_split_colour_and_recorr, bc1_scr_t_transform_with_split_colour_and_recorr_x86, has_avx512bw.
  replace (negb (vnum v =? 0)) with true by (destruct v; (discriminate V || reflexivity)). rewrite debug_assert_t. cbn [bind]. rewrite X, H.
  unfold bc1_scr_t_avx512bw_transform_with_split_colour_and_decorr, bc1_scr_t_avx512bw_transform_decorr_var1, bc1_scr_t_avx512bw_transform_decorr_var2,
    bc1_scr_t_avx512bw_transform_decorr_var3, bc1_scr_t_avx512bw_transform_impl. rewrite H, B1, B3, D.
  destruct v; try discriminate V; destruct (c_static c); cbn [negb]; loud.
Qed.
Lemma scr_u_loud : c_sse2 c = true -> forall v i a b d m, vok v = true -> exists why, bc1_scr_u_untransform_with_split_colour_and_recorr c i a b d 0 v m = Panic why.
Proof.
  intros H v i a b d m V. pose proof (ok_512bw c K) as B1.
  unfold bc1_scr_u_untransform_with_split_colour_and_recorr, bc1_scr_u_untransform_with_split_colour_and_recorr_x86, has_avx512bw, has_avx2. rewrite (sse2_same c K), X, H.
  unfold bc1_scr_u_avx512bw_untransform_with_split_colour_and_recorr, bc1_scr_u_avx2_untransform_with_split_colour_and_recorr, bc1_scr_u_sse2_untransform_with_split_colour_and_recorr,
    bc1_scr_u_avx512bw_untransform_recorr_var1, bc1_scr_u_avx512bw_untransform_recorr_var2, bc1_scr_u_avx512bw_untransform_recorr_var3,
    bc1_scr_u_avx2_untransform_recorr_var1, bc1_scr_u_avx2_untransform_recorr_var2, bc1_scr_u_avx2_untransform_recorr_var3,
    bc1_scr_u_sse2_untransform_recorr_var1, bc1_scr_u_sse2_untransform_recorr_var2, bc1_scr_u_sse2_untransform_recorr_var3,
    bc1_scr_u_avx512bw_untransform_recorr, bc1_scr_u_avx2_untransform_recorr, bc1_scr_u_sse2_untransform_recorr.
  rewrite D, H. destruct v; try discriminate V; (destruct (c_avx512bw c); [rewrite (B1 eq_refl)|destruct (c_avx2 c)]; destruct (c_static c); cbn [negb]; loud).
Qed.
Lemma sa_t_loud : c_avx512vbmi c = true -> forall i a b d e f m, exists why, bc3_sa_t_transform_with_split_alphas c i a b d e f 0 m = Panic why.
Proof.
  intros H i a b d e f m. pose proof (ok_512vbmi c K H) as B0. pose proof (ok_512bw c K B0) as B1. pose proof (ok_512f c K B1) as B2. pose proof (ok_ssse3 c K (ok_avx2 c K B2)) as B3.
  unfold bc3_sa_t_transform_with_split_alphas, bc3_sa_t_transform_with_split_alphas_x86, has_avx512vbmi. rewrite X, H.
  unfold bc3_sa_t_avx512vbmi_transform_with_split_alphas. rewrite H, B1, B2, B3, D. destruct (c_static c); cbn [negb]; loud.
Qed.
End Loud.

(** ** The entry points *)
Lemma checked_nil : forall blk run out, 0 < blk -> checked blk run [] out = bind (run (Ptr BIn 0) (Ptr BOut 0) 0 (Mem [] [] out)) (fun m => Ok (ROk tt, m_out m)).
Proof.
  intros blk run out H. unfold checked. change (zlen (@nil byte)) with 0. rewrite Z.mod_0_l by lia. cbn [Z.eqb negb].
  pose proof (zlen_nonneg _ out). replace (zlen out <? 0) with false by lia. reflexivity.
Qed.
Lemma p_out : forall i a (out : list byte) k, k = 0 -> ptr_add (Mem i a out) (Ptr BOut 0) k = Ok (Ptr BOut 0).
Proof. intros i a out k ->. pose proof (zlen_nonneg _ out). rewrite ptr_add_in; [reflexivity|]. cbn [p_off p_buf buf_of m_out]. lia. Qed.
Lemma p_in : forall i a (out : list byte) k, k = 0 -> ptr_add (Mem i a out) (Ptr BIn 0) k = Ok (Ptr BIn 0).
Proof. intros i a out k ->. pose proof (zlen_nonneg _ i). rewrite ptr_add_in; [reflexivity|]. cbn [p_off p_buf buf_of m_in]. lia. Qed.
Lemma variant_cases : forall v, v = VNone \/ (vok v = true /\ variant_eqb v VNone = false).
Proof. intros []; auto. Qed.

Definition b_t1 (c : cfg) (s : settings) : bool := c_debug c && split_colour_endpoints s && is_x86 c && c_avx512bw c.
Definition b_u1 (c : cfg) (s : settings) : bool := c_debug c && split_colour_endpoints s && is_x86 c && c_sse2 c.
Definition b_t3 (c : cfg) (s : settings3) : bool :=
  c_debug c && split_alpha_endpoints s && negb (split_colour_endpoints3 s) && variant_eqb (decorrelation_mode3 s) VNone && is_x86 c && c_avx512vbmi c.

Lemma quiet_case : forall (d sp q : bool), d && sp && q = false -> (d = true -> sp = true -> False) \/ (d = true /\ sp = true /\ q = false).
Proof. intros [] [] []; auto; intros; left; congruence. Qed.

Lemma bc1_loud : forall c s out, cpu_ok c -> b_t1 c s = true -> exists why, transform_bc1 c s [] out = Panic why.
Proof.
  intros c [v sp] out K H. unfold b_t1 in H. cbn [split_colour_endpoints] in H. ksplit. subst sp.
  unfold transform_bc1. rewrite checked_nil by lia. unfold transform_bc1_with_settings. cbn [split_colour_endpoints decorrelation_mode].
  rewrite debug_assert_t. cbn [bind]. rewrite !p_out by reflexivity. cbn [bind].
  destruct (variant_cases v) as [->|(V & NV)].
  - cbn [variant_eqb]. destruct (sc_t_loud c K ltac:(assumption) ltac:(assumption) ltac:(assumption) (Ptr BIn 0) (Ptr BOut 0) (Ptr BOut 0) (Ptr BOut 0) (Mem [] [] out)) as (w & E).
    exists w. change (0 / 8) with 0. rewrite E. reflexivity.
  - rewrite NV. destruct (scr_t_loud c K ltac:(assumption) ltac:(assumption) ltac:(assumption) v (Ptr BIn 0) (Ptr BOut 0) (Ptr BOut 0) (Ptr BOut 0) (Mem [] [] out) V) as (w & E).
    exists w. change (0 / 8) with 0. rewrite E. reflexivity.
Qed.
Lemma unbc1_loud : forall c s out, cpu_ok c -> b_u1 c s = true -> exists why, untransform_bc1 c s [] out = Panic why.
Proof.
  intros c [v sp] out K H. unfold b_u1 in H. cbn [split_colour_endpoints] in H. ksplit. subst sp.
  unfold untransform_bc1. rewrite checked_nil by lia. unfold untransform_bc1_with_settings. cbn [split_colour_endpoints decorrelation_mode].
  rewrite debug_assert_t. cbn [bind]. rewrite !p_in by reflexivity. cbn [bind].
  destruct (variant_cases v) as [->|(V & NV)].
  - cbn [variant_eqb]. destruct (sc_u_loud c K ltac:(assumption) ltac:(assumption) ltac:(assumption) (Ptr BIn 0) (Ptr BIn 0) (Ptr BIn 0) (Ptr BOut 0) (Mem [] [] out)) as (w & E).
    exists w. change (0 / 8) with 0. rewrite E. reflexivity.
  - rewrite NV. destruct (scr_u_loud c K ltac:(assumption) ltac:(assumption) ltac:(assumption) v (Ptr BIn 0) (Ptr BIn 0) (Ptr BIn 0) (Ptr BOut 0) (Mem [] [] out) V) as (w & E).
    exists w. change (0 / 8) with 0. rewrite E. reflexivity.
Qed.
Lemma bc3_loud : forall c s out, cpu_ok c -> b_t3 c s = true -> exists why, transform_bc3 c s [] out = Panic why.
Proof.
  intros c [v sa sp] out K H. unfold b_t3 in H. cbn [split_alpha_endpoints split_colour_endpoints3 decorrelation_mode3] in H. ksplit. subst sa.
  destruct sp; [discriminate|]. destruct v; try discriminate.
  unfold transform_bc3. rewrite checked_nil by lia. unfold transform_bc3_with_settings. cbn [split_alpha_endpoints split_colour_endpoints3 decorrelation_mode3].
  rewrite debug_assert_t. cbn [bind variant_eqb negb]. rewrite !p_out by reflexivity. cbn [bind].
  destruct (sa_t_loud c K ltac:(assumption) ltac:(assumption) ltac:(assumption) (Ptr BIn 0) (Ptr BOut 0) (Ptr BOut 0) (Ptr BOut 0) (Ptr BOut 0) (Ptr BOut 0) (Mem [] [] out)) as (w & E).
  exists w. change (0 / 16) with 0. rewrite E. reflexivity.
Qed.

Lemma put_nothing : forall (out y : list byte) n, n = 0 -> zlen y = n -> splice out 0 y = out.
Proof. intros out y n -> L. destruct y; [reflexivity|]. unfold zlen in L. cbn [List.length] in L. lia. Qed.

Section Quiet1.
Variables (c : cfg) (s : settings) (m : mem).
Hypotheses (K : cpu_ok c).
Lemma bc1_quiet : b_t1 c s = false -> split_colour_endpoints s = true -> c_debug c = true ->
  transform_bc1_with_settings c (Ptr BIn 0) (Ptr BOut 0) (8 * 0) s m =
  Ok (Mem (m_in m) (m_aux m) (splice (m_out m) 0 (bc1_layout (decorrelation_mode s) (split_colour_endpoints s) (slice (m_in m) 0 (8 * 0))))).
Proof.
  intros Q SP DB. pose proof (zlen_nonneg _ (m_in m)) as Hi. pose proof (zlen_nonneg _ (m_out m)) as Ho.
  assert (Ha : 0 <= 0) by lia.
  unfold b_t1 in Q. rewrite DB, SP in Q. cbn [andb] in Q. assert (Q' : negb (is_x86 c && c_avx512bw c) = true) by (rewrite Q; reflexivity). clear Q.
  destruct s as [v sp]. cbn [decorrelation_mode split_colour_endpoints] in *. subst sp. unfold transform_bc1_with_settings.
  cbn [decorrelation_mode split_colour_endpoints]. replace (8 * 0 mod 8 =? 0) with true by reflexivity.
  rewrite debug_assert_t. cbn [bind]. cbv zeta.
  destruct (variant_eqb v VNone) eqn:EV; cbn [negb].
  { destruct v; try discriminate EV. kernel (sc_t_quiet c) fam_bc1_sc 0 0 0 m. fin_t 0 0 m. }
  { assert (VO : vok v = true) by (destruct v; [discriminate EV|reflexivity..]). kernel (scr_t_quiet c v) (fam_bc1_scr v) 0 0 0 m. fin_t 0 0 m. }
Qed.
Lemma unbc1_quiet : b_u1 c s = false -> split_colour_endpoints s = true -> c_debug c = true ->
  exists y, untransform_bc1_with_settings c (Ptr BIn 0) (Ptr BOut 0) (8 * 0) s m =
  Ok (Mem (m_in m) (m_aux m) (splice (m_out m) 0 y)) /\
  inverse_of 8 (bc1_fields (decorrelation_mode s) (split_colour_endpoints s)) (slice (m_in m) 0 (8 * 0)) y.
Proof.
  intros Q SP DB. pose proof (zlen_nonneg _ (m_in m)) as Hi. pose proof (zlen_nonneg _ (m_out m)) as Ho.
  assert (Ha : 0 <= 0) by lia.
  unfold b_u1 in Q. rewrite DB, SP in Q. cbn [andb] in Q. assert (Q' : negb (is_x86 c && c_sse2 c) = true) by (rewrite Q; reflexivity). clear Q.
  destruct s as [v sp]. cbn [decorrelation_mode split_colour_endpoints] in *. subst sp. unfold untransform_bc1_with_settings.
  cbn [decorrelation_mode split_colour_endpoints]. replace (8 * 0 mod 8 =? 0) with true by reflexivity.
  rewrite debug_assert_t. cbn [bind]. cbv zeta.
  destruct (variant_eqb v VNone) eqn:EV; cbn [negb].
  { destruct v; try discriminate EV. kernel (sc_u_quiet c) fam_bc1_sc 0 0 0 m. fin_u 0 0 m. }
  { assert (VO : vok v = true) by (destruct v; [discriminate EV|reflexivity..]). kernel (scr_u_quiet c v) (fam_bc1_scr v) 0 0 0 m. fin_u 0 0 m. }
Qed.
End Quiet1.

Section Quiet3.
Variables (c : cfg) (s : settings3) (m : mem).
Hypotheses (K : cpu_ok c).
Lemma bc3_quiet : b_t3 c s = false -> split_alpha_endpoints s = true -> c_debug c = true ->
  transform_bc3_with_settings c (Ptr BIn 0) (Ptr BOut 0) (16 * 0) s m =
  Ok (Mem (m_in m) (m_aux m) (splice (m_out m) 0 (bc3_layout (decorrelation_mode3 s) (split_alpha_endpoints s) (split_colour_endpoints3 s) (slice (m_in m) 0 (16 * 0))))).
Proof.
  intros Q SA DB. pose proof (zlen_nonneg _ (m_in m)) as Hi. pose proof (zlen_nonneg _ (m_out m)) as Ho.
  assert (Ha : 0 <= 0) by lia.
  unfold b_t3 in Q. rewrite DB, SA in Q. cbn [andb] in Q.
  destruct s as [v sa sp]. cbn [decorrelation_mode3 split_alpha_endpoints split_colour_endpoints3] in *. subst sa. unfold transform_bc3_with_settings.
  cbn [decorrelation_mode3 split_alpha_endpoints split_colour_endpoints3]. replace (16 * 0 mod 16 =? 0) with true by reflexivity.
  rewrite debug_assert_t. cbn [bind]. cbv zeta.
  destruct sp; destruct (variant_eqb v VNone) eqn:EV; cbn [negb andb] in *.
  { destruct v; try discriminate EV. kernel (bc3_sac_t_transform_with_split_alphas_and_colour_ok c) fam_bc3_sac 0 0 0 m. fin_t 0 0 m. }
  { assert (VO : vok v = true) by (destruct v; [discriminate EV|reflexivity..]). kernel (bc3_sacr_t_transform_with_split_alphas_colour_and_recorr_ok c v) (fam_bc3_sacr v) 0 0 0 m. fin_t 0 0 m. }
  { assert (Q' : negb (is_x86 c && c_avx512vbmi c) = true) by (rewrite Q; reflexivity). clear Q.
    destruct v; try discriminate EV. kernel (sa_t_quiet c) fam_bc3_sa 0 0 0 m. fin_t 0 0 m. }
  { assert (VO : vok v = true) by (destruct v; [discriminate EV|reflexivity..]). kernel (bc3_sar_t_transform_with_split_alphas_and_recorr_ok c v) (fam_bc3_sar v) 0 0 0 m. fin_t 0 0 m. }
Qed.
Lemma unbc3_quiet : split_alpha_endpoints s = true ->
  exists y, untransform_bc3_with_settings c (Ptr BIn 0) (Ptr BOut 0) (16 * 0) s m =
  Ok (Mem (m_in m) (m_aux m) (splice (m_out m) 0 y)) /\
  inverse_of 16 (bc3_fields (decorrelation_mode3 s) (split_alpha_endpoints s) (split_colour_endpoints3 s)) (slice (m_in m) 0 (16 * 0)) y.
Proof.
  intros SA. pose proof (zlen_nonneg _ (m_in m)) as Hi. pose proof (zlen_nonneg _ (m_out m)) as Ho.
  assert (Ha : 0 <= 0) by lia.
  destruct s as [v sa sp]. cbn [decorrelation_mode3 split_alpha_endpoints split_colour_endpoints3] in *. subst sa. unfold untransform_bc3_with_settings.
  cbn [decorrelation_mode3 split_alpha_endpoints split_colour_endpoints3]. replace (16 * 0 mod 16 =? 0) with true by reflexivity.
  rewrite debug_assert_t. cbn [bind]. cbv zeta.
  destruct sp; destruct (variant_eqb v VNone) eqn:EV; cbn [negb andb] in *.
  { destruct v; try discriminate EV. kernel (bc3_sac_u_untransform_with_split_alphas_and_colour_ok c) fam_bc3_sac 0 0 0 m. fin_u 0 0 m. }
  { assert (VO : vok v = true) by (destruct v; [discriminate EV|reflexivity..]). kernel (bc3_sacr_u_untransform_with_split_alphas_colour_and_recorr_ok c v) (fam_bc3_sacr v) 0 0 0 m. fin_u 0 0 m. }
  { destruct v; try discriminate EV. kernel (bc3_sa_u_untransform_with_split_alphas_ok c) fam_bc3_sa 0 0 0 m. fin_u 0 0 m. }
  { assert (VO : vok v = true) by (destruct v; [discriminate EV|reflexivity..]). kernel (bc3_sar_u_untransform_with_split_alphas_and_recorr_ok c v) (fam_bc3_sar v) 0 0 0 m. fin_u 0 0 m. }
Qed.
End Quiet3.

Lemma lay_nothing : forall fs, lay fs [] = [].
Proof. unfold lay. induction fs; [reflexivity|]. cbn [map List.concat]. exact IHfs. Qed.
Lemma slice_nil : forall a n, slice (@nil byte) a n = [].
Proof. intros a n. unfold slice. rewrite skipn_nil. apply firstn_nil. Qed.

Lemma bc1_exactly : forall c s out, cpu_ok c ->
  if b_t1 c s then exists why, transform_bc1 c s [] out = Panic why else transform_bc1 c s [] out = Ok (ROk tt, out).
Proof.
  intros c s out K. destruct (b_t1 c s) eqn:B; [exact (bc1_loud c s out K B)|].
  destruct (c_debug c) eqn:D; [|exact (proj1 (lC44_bc1_empty_release_partial c s out K D))].
  destruct (split_colour_endpoints s) eqn:SP.
  - unfold transform_bc1. rewrite checked_nil by lia. change 0 with (8 * 0) at 3. rewrite (bc1_quiet c s _ K B SP D). cbn [bind m_in m_aux m_out].
    rewrite slice_nil. unfold bc1_layout. change (blocks 8 []) with (@nil (list byte)). rewrite lay_nothing. reflexivity.
  - rewrite bc1_slice; [|exact K|intros _ E; congruence|reflexivity|exact (zlen_nonneg _ out)].
    unfold bc1_layout. change (blocks 8 []) with (@nil (list byte)). rewrite lay_nothing. reflexivity.
Qed.
Lemma unbc1_exactly : forall c s out, cpu_ok c ->
  if b_u1 c s then exists why, untransform_bc1 c s [] out = Panic why else untransform_bc1 c s [] out = Ok (ROk tt, out).
Proof.
  intros c s out K. destruct (b_u1 c s) eqn:B; [exact (unbc1_loud c s out K B)|].
  destruct (c_debug c) eqn:D; [|exact (proj2 (lC44_bc1_empty_release_partial c s out K D))].
  destruct (split_colour_endpoints s) eqn:SP.
  - unfold untransform_bc1. rewrite checked_nil by lia. change 0 with (8 * 0) at 3.
    destruct (unbc1_quiet c s (Mem [] [] out) K B SP D) as (y & E & (L & _)). cbn [m_in m_aux m_out] in E, L. rewrite E. rewrite slice_nil in L.
    destruct y; [reflexivity|discriminate L].
  - destruct (unbc1_slice c s [] out K) as (y & E & L & _); [intros _ Q; congruence|reflexivity|exact (zlen_nonneg _ out)|].
    rewrite E. destruct y; [reflexivity|discriminate L].
Qed.
Lemma bc3_exactly : forall c s out, cpu_ok c ->
  if b_t3 c s then exists why, transform_bc3 c s [] out = Panic why else transform_bc3 c s [] out = Ok (ROk tt, out).
Proof.
  intros c s out K. destruct (b_t3 c s) eqn:B; [exact (bc3_loud c s out K B)|].
  destruct (c_debug c) eqn:D; [|exact (proj1 (lC44_bc3_empty_release_partial c s out K D))].
  destruct (split_alpha_endpoints s) eqn:SP.
  - unfold transform_bc3. rewrite checked_nil by lia. change 0 with (16 * 0) at 3. rewrite (bc3_quiet c s _ K B SP D). cbn [bind m_in m_aux m_out].
    rewrite slice_nil. unfold bc3_layout. change (blocks 16 []) with (@nil (list byte)). rewrite lay_nothing. reflexivity.
  - rewrite bc3_slice; [|exact K|intros _ E; congruence|reflexivity|exact (zlen_nonneg _ out)].
    unfold bc3_layout. change (blocks 16 []) with (@nil (list byte)). rewrite lay_nothing. reflexivity.
Qed.
Lemma unbc3_exactly : forall c s out, cpu_ok c -> untransform_bc3 c s [] out = Ok (ROk tt, out).
Proof.
  intros c s out K.
  destruct (split_alpha_endpoints s) eqn:SP.
  - unfold untransform_bc3. rewrite checked_nil by lia. change 0 with (16 * 0) at 3.
    destruct (unbc3_quiet c s (Mem [] [] out) K SP) as (y & E & (L & _)). cbn [m_in m_aux m_out] in E, L. rewrite E. rewrite slice_nil in L.
    destruct y; [reflexivity|discriminate L].
  - destruct (unbc3_slice c s [] out K) as (y & E & L & _); [intros _ Q; congruence|reflexivity|exact (zlen_nonneg _ out)|].
    rewrite E. destruct y; [reflexivity|discriminate L].
Qed.
