From Verif Require Import Base.Bytes Base.Res Model.Color565 Model.Ycc Model.Kernel Model.ColorBatch Model.GenBc3Sa
  Proofs.KernelCheck Proofs.KernelLoop Proofs.KernelFun Proofs.Shapes.
From Coq Require Import ZifyBool ZifyNat.

Lemma bc3_sa_t_generic_transform_with_split_alphas_ok : forall c, SPEC c VNone sh_bc3_sa_t (true) any_n
  (fun P n m => bc3_sa_t_generic_transform_with_split_alphas c (P (PI 0)) (P (PO 0)) (P (PO 1)) (P (PO 2)) (P (PO 3)) (P (PO 4)) n m).
Proof. intros c. kstart bc3_sa_t_generic_transform_with_split_alphas. kauto ltac:(fail). Qed.

Lemma bc3_sa_t_avx512vbmi_transform_with_split_alphas_ok : forall c, SPEC c VNone sh_bc3_sa_t (c_avx2 c && c_avx512f c && c_avx512vbmi c && c_sse2 c) (nz_debug c)
  (fun P n m => bc3_sa_t_avx512vbmi_transform_with_split_alphas c (P (PI 0)) (P (PO 0)) (P (PO 1)) (P (PO 2)) (P (PO 3)) (P (PO 4)) n m).
Proof. intros c. kstart bc3_sa_t_avx512vbmi_transform_with_split_alphas. kauto ltac:(first [kcall bc3_sa_t_generic_transform_with_split_alphas_ok]). Qed.

Lemma bc3_sa_t_avx2_transform_with_split_alphas_ok : forall c, SPEC c VNone sh_bc3_sa_t (c_avx2 c) any_n
  (fun P n m => bc3_sa_t_avx2_transform_with_split_alphas c (P (PI 0)) (P (PO 0)) (P (PO 1)) (P (PO 2)) (P (PO 3)) (P (PO 4)) n m).
Proof. intros c. kstart bc3_sa_t_avx2_transform_with_split_alphas. kauto ltac:(first [kcall bc3_sa_t_generic_transform_with_split_alphas_ok]). Qed.

Lemma bc3_sa_t_transform_with_split_alphas_x86_ok : forall c, SPEC c VNone sh_bc3_sa_t (is_x86 c) (nz_debug c)
  (fun P n m => bc3_sa_t_transform_with_split_alphas_x86 c (P (PI 0)) (P (PO 0)) (P (PO 1)) (P (PO 2)) (P (PO 3)) (P (PO 4)) n m).
Proof. intros c. kstart bc3_sa_t_transform_with_split_alphas_x86. kauto ltac:(first [kcall bc3_sa_t_generic_transform_with_split_alphas_ok | kcall bc3_sa_t_avx512vbmi_transform_with_split_alphas_ok | kcall bc3_sa_t_avx2_transform_with_split_alphas_ok]). Qed.

Lemma bc3_sa_t_transform_with_split_alphas_ok : forall c, SPEC c VNone sh_bc3_sa_t (true) (nz_debug c)
  (fun P n m => bc3_sa_t_transform_with_split_alphas c (P (PI 0)) (P (PO 0)) (P (PO 1)) (P (PO 2)) (P (PO 3)) (P (PO 4)) n m).
Proof. intros c. kstart bc3_sa_t_transform_with_split_alphas. kauto ltac:(first [kcall bc3_sa_t_generic_transform_with_split_alphas_ok | kcall bc3_sa_t_transform_with_split_alphas_x86_ok]). Qed.

Lemma bc3_sa_u_generic_untransform_with_split_alphas_ok : forall c, SPEC c VNone sh_bc3_sa_u (true) any_n
  (fun P n m => bc3_sa_u_generic_untransform_with_split_alphas c (P (PI 0)) (P (PI 1)) (P (PI 2)) (P (PI 3)) (P (PI 4)) (P (PO 0)) n m).
Proof. intros c. kstart bc3_sa_u_generic_untransform_with_split_alphas. kauto ltac:(fail). Qed.

Lemma bc3_sa_u_sse2_untransform_with_split_alphas_sse2_ok : forall c, SPEC c VNone sh_bc3_sa_u (c_sse2 c) any_n
  (fun P n m => bc3_sa_u_sse2_untransform_with_split_alphas_sse2 c (P (PI 0)) (P (PI 1)) (P (PI 2)) (P (PI 3)) (P (PI 4)) (P (PO 0)) n m).
Proof. intros c. kstart bc3_sa_u_sse2_untransform_with_split_alphas_sse2. kauto ltac:(first [kcall bc3_sa_u_generic_untransform_with_split_alphas_ok]). Qed.

Lemma bc3_sa_u_untransform_with_split_alphas_x86_ok : forall c, SPEC c VNone sh_bc3_sa_u (is_x86 c) any_n
  (fun P n m => bc3_sa_u_untransform_with_split_alphas_x86 c (P (PI 0)) (P (PI 1)) (P (PI 2)) (P (PI 3)) (P (PI 4)) (P (PO 0)) n m).
Proof. intros c. kstart bc3_sa_u_untransform_with_split_alphas_x86. kauto ltac:(first [kcall bc3_sa_u_generic_untransform_with_split_alphas_ok | kcall bc3_sa_u_sse2_untransform_with_split_alphas_sse2_ok]). Qed.

Lemma bc3_sa_u_untransform_with_split_alphas_ok : forall c, SPEC c VNone sh_bc3_sa_u (true) any_n
  (fun P n m => bc3_sa_u_untransform_with_split_alphas c (P (PI 0)) (P (PI 1)) (P (PI 2)) (P (PI 3)) (P (PI 4)) (P (PO 0)) n m).
Proof. intros c. kstart bc3_sa_u_untransform_with_split_alphas. kauto ltac:(first [kcall bc3_sa_u_generic_untransform_with_split_alphas_ok | kcall bc3_sa_u_untransform_with_split_alphas_x86_ok]). Qed.
