From Verif Require Import Base.Bytes Base.Res Model.Color565 Model.Ycc Model.Kernel Model.ColorBatch Model.GenBc1Std
  Proofs.KernelCheck Proofs.KernelLoop Proofs.KernelFun Proofs.Shapes.
From Coq Require Import ZifyBool ZifyNat.

Lemma bc1_std_t_portable32_u32_with_separate_pointers_ok : forall c, SPEC c VNone sh_bc1_std_t (true) any_n
  (fun P n m => bc1_std_t_portable32_u32_with_separate_pointers c (P (PI 0)) (P (PO 0)) (P (PO 1)) (8 * n) m).
Proof. intros c. kstart bc1_std_t_portable32_u32_with_separate_pointers. kauto ltac:(fail). Qed.

Lemma bc1_std_t_avx512f_permute_512_with_separate_pointers_ok : forall c, SPEC c VNone sh_bc1_std_t (c_avx512f c && c_sse2 c) any_n
  (fun P n m => bc1_std_t_avx512f_permute_512_with_separate_pointers c (P (PI 0)) (P (PO 0)) (P (PO 1)) (8 * n) m).
Proof. intros c. kstart bc1_std_t_avx512f_permute_512_with_separate_pointers. kauto ltac:(first [kcall bc1_std_t_portable32_u32_with_separate_pointers_ok]). Qed.

Lemma bc1_std_t_avx512f_permute_512_ok : forall c, TSPEC c VNone sh_bc1_std_t (c_avx512f c && c_sse2 c) any_n
  (fun P n m => bc1_std_t_avx512f_permute_512 c (P (PI 0)) (P (PO 0)) (8 * n) m).
Proof. intros c. kstart bc1_std_t_avx512f_permute_512. kauto ltac:(first [kcall bc1_std_t_avx512f_permute_512_with_separate_pointers_ok]). Qed.

Lemma bc1_std_t_avx2_shuffle_permute_unroll_2_with_separate_pointers_ok : forall c, SPEC c VNone sh_bc1_std_t (c_avx2 c) any_n
  (fun P n m => bc1_std_t_avx2_shuffle_permute_unroll_2_with_separate_pointers c (P (PI 0)) (P (PO 0)) (P (PO 1)) (8 * n) m).
Proof. intros c. kstart bc1_std_t_avx2_shuffle_permute_unroll_2_with_separate_pointers. kauto ltac:(first [kcall bc1_std_t_portable32_u32_with_separate_pointers_ok]). Qed.

Lemma bc1_std_t_avx2_shuffle_permute_unroll_2_ok : forall c, TSPEC c VNone sh_bc1_std_t (c_avx2 c) any_n
  (fun P n m => bc1_std_t_avx2_shuffle_permute_unroll_2 c (P (PI 0)) (P (PO 0)) (8 * n) m).
Proof. intros c. kstart bc1_std_t_avx2_shuffle_permute_unroll_2. kauto ltac:(first [kcall bc1_std_t_avx2_shuffle_permute_unroll_2_with_separate_pointers_ok]). Qed.

Lemma bc1_std_t_sse2_shufps_unroll_4_with_separate_pointers_ok : forall c, SPEC c VNone sh_bc1_std_t (c_sse2 c) any_n
  (fun P n m => bc1_std_t_sse2_shufps_unroll_4_with_separate_pointers c (P (PI 0)) (P (PO 0)) (P (PO 1)) (8 * n) m).
Proof. intros c. kstart bc1_std_t_sse2_shufps_unroll_4_with_separate_pointers. kauto ltac:(first [kcall bc1_std_t_portable32_u32_with_separate_pointers_ok]). Qed.

Lemma bc1_std_t_sse2_shufps_unroll_4_ok : forall c, TSPEC c VNone sh_bc1_std_t (c_sse2 c) any_n
  (fun P n m => bc1_std_t_sse2_shufps_unroll_4 c (P (PI 0)) (P (PO 0)) (8 * n) m).
Proof. intros c. kstart bc1_std_t_sse2_shufps_unroll_4. kauto ltac:(first [kcall bc1_std_t_sse2_shufps_unroll_4_with_separate_pointers_ok]). Qed.

Lemma bc1_std_t_portable32_u32_ok : forall c, TSPEC c VNone sh_bc1_std_t (true) any_n
  (fun P n m => bc1_std_t_portable32_u32 c (P (PI 0)) (P (PO 0)) (8 * n) m).
Proof. intros c. kstart bc1_std_t_portable32_u32. kauto ltac:(first [kcall bc1_std_t_portable32_u32_with_separate_pointers_ok]). Qed.

Lemma bc1_std_t_transform_x86_ok : forall c, TSPEC c VNone sh_bc1_std_t (is_x86 c) any_n
  (fun P n m => bc1_std_t_transform_x86 c (P (PI 0)) (P (PO 0)) (8 * n) m).
Proof. intros c. kstart bc1_std_t_transform_x86. kauto ltac:(first [kcall bc1_std_t_avx512f_permute_512_ok | kcall bc1_std_t_avx2_shuffle_permute_unroll_2_ok | kcall bc1_std_t_sse2_shufps_unroll_4_ok | kcall bc1_std_t_portable32_u32_ok]). Qed.

Lemma bc1_std_t_transform_ok : forall c, TSPEC c VNone sh_bc1_std_t (true) any_n
  (fun P n m => bc1_std_t_transform c (P (PI 0)) (P (PO 0)) (8 * n) m).
Proof. intros c. kstart bc1_std_t_transform. kauto ltac:(first [kcall bc1_std_t_portable32_u32_ok | kcall bc1_std_t_transform_x86_ok]). Qed.

Lemma bc1_std_u_portable32_u32_untransform_with_separate_pointers_ok : forall c, SPEC c VNone sh_bc1_std_u (true) any_n
  (fun P n m => bc1_std_u_portable32_u32_untransform_with_separate_pointers c (P (PI 0)) (P (PI 1)) (P (PO 0)) (8 * n) m).
Proof. intros c. kstart bc1_std_u_portable32_u32_untransform_with_separate_pointers. kauto ltac:(fail). Qed.

Lemma bc1_std_u_avx512f_permute_512_untransform_unroll_2_with_components_ok : forall c, SPEC c VNone sh_bc1_std_u (c_avx512f c && c_sse2 c) any_n
  (fun P n m => bc1_std_u_avx512f_permute_512_untransform_unroll_2_with_components c (P (PO 0)) (8 * n) (P (PI 1)) (P (PI 0)) m).
Proof. intros c. kstart bc1_std_u_avx512f_permute_512_untransform_unroll_2_with_components. kauto ltac:(first [kcall bc1_std_u_portable32_u32_untransform_with_separate_pointers_ok]). Qed.

Lemma bc1_std_u_avx512f_permute_512_untransform_unroll_2_ok : forall c, TSPEC c VNone sh_bc1_std_u (c_avx512f c && c_sse2 c) any_n
  (fun P n m => bc1_std_u_avx512f_permute_512_untransform_unroll_2 c (P (PI 0)) (P (PO 0)) (8 * n) m).
Proof. intros c. kstart bc1_std_u_avx512f_permute_512_untransform_unroll_2. kauto ltac:(first [kcall bc1_std_u_avx512f_permute_512_untransform_unroll_2_with_components_ok]). Qed.

Lemma bc1_std_u_avx2_permd_untransform_unroll_2_with_components_ok : forall c, SPEC c VNone sh_bc1_std_u (c_avx2 c) any_n
  (fun P n m => bc1_std_u_avx2_permd_untransform_unroll_2_with_components c (P (PO 0)) (8 * n) (P (PI 1)) (P (PI 0)) m).
Proof. intros c. kstart bc1_std_u_avx2_permd_untransform_unroll_2_with_components. kauto ltac:(first [kcall bc1_std_u_portable32_u32_untransform_with_separate_pointers_ok]). Qed.

Lemma bc1_std_u_avx2_permd_untransform_unroll_2_ok : forall c, TSPEC c VNone sh_bc1_std_u (c_avx2 c) any_n
  (fun P n m => bc1_std_u_avx2_permd_untransform_unroll_2 c (P (PI 0)) (P (PO 0)) (8 * n) m).
Proof. intros c. kstart bc1_std_u_avx2_permd_untransform_unroll_2. kauto ltac:(first [kcall bc1_std_u_avx2_permd_untransform_unroll_2_with_components_ok]). Qed.

Lemma bc1_std_u_sse2_unpck_untransform_unroll_2_with_components_ok : forall c, SPEC c VNone sh_bc1_std_u (c_sse2 c) any_n
  (fun P n m => bc1_std_u_sse2_unpck_untransform_unroll_2_with_components c (P (PO 0)) (8 * n) (P (PI 1)) (P (PI 0)) m).
Proof. intros c. kstart bc1_std_u_sse2_unpck_untransform_unroll_2_with_components. kauto ltac:(first [kcall bc1_std_u_portable32_u32_untransform_with_separate_pointers_ok]). Qed.

Lemma bc1_std_u_sse2_unpck_untransform_unroll_2_ok : forall c, TSPEC c VNone sh_bc1_std_u (c_sse2 c) any_n
  (fun P n m => bc1_std_u_sse2_unpck_untransform_unroll_2 c (P (PI 0)) (P (PO 0)) (8 * n) m).
Proof. intros c. kstart bc1_std_u_sse2_unpck_untransform_unroll_2. kauto ltac:(first [kcall bc1_std_u_sse2_unpck_untransform_unroll_2_with_components_ok]). Qed.

Lemma bc1_std_u_portable32_u32_untransform_ok : forall c, TSPEC c VNone sh_bc1_std_u (true) any_n
  (fun P n m => bc1_std_u_portable32_u32_untransform c (P (PI 0)) (P (PO 0)) (8 * n) m).
Proof. intros c. kstart bc1_std_u_portable32_u32_untransform. kauto ltac:(first [kcall bc1_std_u_portable32_u32_untransform_with_separate_pointers_ok]). Qed.

Lemma bc1_std_u_untransform_x86_ok : forall c, TSPEC c VNone sh_bc1_std_u (is_x86 c) any_n
  (fun P n m => bc1_std_u_untransform_x86 c (P (PI 0)) (P (PO 0)) (8 * n) m).
Proof. intros c. kstart bc1_std_u_untransform_x86. kauto ltac:(first [kcall bc1_std_u_avx512f_permute_512_untransform_unroll_2_ok | kcall bc1_std_u_avx2_permd_untransform_unroll_2_ok | kcall bc1_std_u_sse2_unpck_untransform_unroll_2_ok | kcall bc1_std_u_portable32_u32_untransform_ok]). Qed.

Lemma bc1_std_u_untransform_ok : forall c, TSPEC c VNone sh_bc1_std_u (true) any_n
  (fun P n m => bc1_std_u_untransform c (P (PI 0)) (P (PO 0)) (8 * n) m).
Proof. intros c. kstart bc1_std_u_untransform. kauto ltac:(first [kcall bc1_std_u_portable32_u32_untransform_ok | kcall bc1_std_u_untransform_x86_ok]). Qed.

Lemma bc1_std_t_transform_with_separate_pointers_x86_ok : forall c, SPEC c VNone sh_bc1_std_t (is_x86 c) any_n
  (fun P n m => bc1_std_t_transform_with_separate_pointers_x86 c (P (PI 0)) (P (PO 0)) (P (PO 1)) (8 * n) m).
Proof. intros c. kstart bc1_std_t_transform_with_separate_pointers_x86. kauto ltac:(first [kcall bc1_std_t_portable32_u32_with_separate_pointers_ok | kcall bc1_std_t_avx512f_permute_512_with_separate_pointers_ok | kcall bc1_std_t_avx2_shuffle_permute_unroll_2_with_separate_pointers_ok | kcall bc1_std_t_sse2_shufps_unroll_4_with_separate_pointers_ok]). Qed.

Lemma bc1_std_t_transform_with_separate_pointers_ok : forall c, SPEC c VNone sh_bc1_std_t (true) any_n
  (fun P n m => bc1_std_t_transform_with_separate_pointers c (P (PI 0)) (P (PO 0)) (P (PO 1)) (8 * n) m).
Proof. intros c. kstart bc1_std_t_transform_with_separate_pointers. kauto ltac:(first [kcall bc1_std_t_portable32_u32_with_separate_pointers_ok | kcall bc1_std_t_transform_with_separate_pointers_x86_ok]). Qed.

Lemma bc1_std_u_untransform_with_separate_pointers_x86_ok : forall c, SPEC c VNone sh_bc1_std_u (is_x86 c) any_n
  (fun P n m => bc1_std_u_untransform_with_separate_pointers_x86 c (P (PI 0)) (P (PI 1)) (P (PO 0)) (8 * n) m).
Proof. intros c. kstart bc1_std_u_untransform_with_separate_pointers_x86. kauto ltac:(first [kcall bc1_std_u_portable32_u32_untransform_with_separate_pointers_ok | kcall bc1_std_u_avx512f_permute_512_untransform_unroll_2_with_components_ok | kcall bc1_std_u_avx2_permd_untransform_unroll_2_with_components_ok | kcall bc1_std_u_sse2_unpck_untransform_unroll_2_with_components_ok]). Qed.

Lemma bc1_std_u_untransform_with_separate_pointers_ok : forall c, SPEC c VNone sh_bc1_std_u (true) any_n
  (fun P n m => bc1_std_u_untransform_with_separate_pointers c (P (PI 0)) (P (PI 1)) (P (PO 0)) (8 * n) m).
Proof. intros c. kstart bc1_std_u_untransform_with_separate_pointers. kauto ltac:(first [kcall bc1_std_u_portable32_u32_untransform_with_separate_pointers_ok | kcall bc1_std_u_untransform_with_separate_pointers_x86_ok]). Qed.
