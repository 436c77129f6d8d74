From Verif Require Import Base.Bytes Base.Res Model.Color565 Model.Ycc Model.Kernel Model.ColorBatch Model.GenBc3Std
  Proofs.KernelCheck Proofs.KernelLoop Proofs.KernelFun Proofs.Shapes.
From Coq Require Import ZifyBool ZifyNat.

Lemma bc3_std_t_portable32_u32_with_separate_endpoints_ok : forall c, SPEC c VNone sh_bc3_std_t (true) any_n
  (fun P n m => bc3_std_t_portable32_u32_with_separate_endpoints c (P (PI 0)) (P (PO 0)) (P (PO 1)) (P (PO 2)) (P (PO 3)) (padd (P (PO 0)) (n * 2)) m).
Proof. intros c. kstart bc3_std_t_portable32_u32_with_separate_endpoints. kauto ltac:(fail). Qed.

Lemma bc3_std_t_avx512vbmi_avx512_vbmi_with_separate_pointers_ok : forall c, SPEC c VNone sh_bc3_std_t (c_avx2 c && c_avx512f c && c_avx512vbmi c && c_sse2 c) any_n
  (fun P n m => bc3_std_t_avx512vbmi_avx512_vbmi_with_separate_pointers c (P (PI 0)) (P (PO 0)) (P (PO 1)) (P (PO 2)) (P (PO 3)) (16 * n) m).
Proof. intros c. kstart bc3_std_t_avx512vbmi_avx512_vbmi_with_separate_pointers. kauto ltac:(first [kcall bc3_std_t_portable32_u32_with_separate_endpoints_ok]). Qed.

Lemma bc3_std_t_avx512vbmi_avx512_vbmi_ok : forall c, TSPEC c VNone sh_bc3_std_t (c_avx2 c && c_avx512f c && c_avx512vbmi c && c_sse2 c) any_n
  (fun P n m => bc3_std_t_avx512vbmi_avx512_vbmi c (P (PI 0)) (P (PO 0)) (16 * n) m).
Proof. intros c. kstart bc3_std_t_avx512vbmi_avx512_vbmi. kauto ltac:(first [kcall bc3_std_t_avx512vbmi_avx512_vbmi_with_separate_pointers_ok]). Qed.

Lemma bc3_std_t_avx2_u32_avx2_with_separate_pointers_ok : forall c, SPEC c VNone sh_bc3_std_t (c_avx2 c) any_n
  (fun P n m => bc3_std_t_avx2_u32_avx2_with_separate_pointers c (P (PI 0)) (P (PO 0)) (P (PO 1)) (P (PO 2)) (P (PO 3)) (padd (P (PO 0)) (n * 2)) m).
Proof. intros c. kstart bc3_std_t_avx2_u32_avx2_with_separate_pointers. kauto ltac:(first [kcall bc3_std_t_portable32_u32_with_separate_endpoints_ok]). Qed.

Lemma bc3_std_t_avx2_u32_avx2_ok : forall c, TSPEC c VNone sh_bc3_std_t (c_avx2 c) any_n
  (fun P n m => bc3_std_t_avx2_u32_avx2 c (P (PI 0)) (P (PO 0)) (16 * n) m).
Proof. intros c. kstart bc3_std_t_avx2_u32_avx2. kauto ltac:(first [kcall bc3_std_t_avx2_u32_avx2_with_separate_pointers_ok]). Qed.

Lemma bc3_std_t_portable32_u32_ok : forall c, TSPEC c VNone sh_bc3_std_t (true) any_n
  (fun P n m => bc3_std_t_portable32_u32 c (P (PI 0)) (P (PO 0)) (16 * n) m).
Proof. intros c. kstart bc3_std_t_portable32_u32. kauto ltac:(first [kcall bc3_std_t_portable32_u32_with_separate_endpoints_ok]). Qed.

Lemma bc3_std_t_transform_x86_ok : forall c, TSPEC c VNone sh_bc3_std_t (is_x86 c) any_n
  (fun P n m => bc3_std_t_transform_x86 c (P (PI 0)) (P (PO 0)) (16 * n) m).
Proof. intros c. kstart bc3_std_t_transform_x86. kauto ltac:(first [kcall bc3_std_t_avx512vbmi_avx512_vbmi_ok | kcall bc3_std_t_avx2_u32_avx2_ok | kcall bc3_std_t_portable32_u32_ok]). Qed.

Lemma bc3_std_t_transform_ok : forall c, TSPEC c VNone sh_bc3_std_t (true) any_n
  (fun P n m => bc3_std_t_transform c (P (PI 0)) (P (PO 0)) (16 * n) m).
Proof. intros c. kstart bc3_std_t_transform. kauto ltac:(first [kcall bc3_std_t_portable32_u32_ok | kcall bc3_std_t_transform_x86_ok]). Qed.

Lemma bc3_std_u_portable32_u32_untransform_with_separate_pointers_ok : forall c, SPEC c VNone sh_bc3_std_u (true) any_n
  (fun P n m => bc3_std_u_portable32_u32_untransform_with_separate_pointers c (P (PI 0)) (P (PI 1)) (P (PI 2)) (P (PI 3)) (P (PO 0)) (16 * n) m).
Proof. intros c. kstart bc3_std_u_portable32_u32_untransform_with_separate_pointers. kauto ltac:(fail). Qed.

Lemma bc3_std_u_avx512vbmi_64_avx512_untransform_separate_components_ok : forall c, TSPEC c VNone sh_bc3_std_u (c_avx512f c && c_avx512vbmi c) any_n
  (fun P n m => bc3_std_u_avx512vbmi_64_avx512_untransform_separate_components c (P (PI 0)) (P (PI 1)) (P (PI 2)) (P (PI 3)) (P (PO 0)) (16 * n) m).
Proof. intros c. kstart bc3_std_u_avx512vbmi_64_avx512_untransform_separate_components. kauto ltac:(first [kcall bc3_std_u_portable32_u32_untransform_with_separate_pointers_ok]). Qed.

Lemma bc3_std_u_avx512vbmi_64_avx512_untransform_ok : forall c, TSPEC c VNone sh_bc3_std_u (c_avx512f c && c_avx512vbmi c) any_n
  (fun P n m => bc3_std_u_avx512vbmi_64_avx512_untransform c (P (PI 0)) (P (PO 0)) (16 * n) m).
Proof. intros c. kstart bc3_std_u_avx512vbmi_64_avx512_untransform. kauto ltac:(first [kcall bc3_std_u_avx512vbmi_64_avx512_untransform_separate_components_ok]). Qed.

Lemma bc3_std_u_avx512vbmi_32_avx512_untransform_separate_components_32_ok : forall c, TSPEC c VNone sh_bc3_std_u (c_avx2 c && c_avx512f c && c_avx512vbmi c && c_sse2 c) any_n
  (fun P n m => bc3_std_u_avx512vbmi_32_avx512_untransform_separate_components_32 c (P (PI 0)) (P (PI 1)) (P (PI 2)) (P (PI 3)) (P (PO 0)) (16 * n) m).
Proof. intros c. kstart bc3_std_u_avx512vbmi_32_avx512_untransform_separate_components_32. kauto ltac:(first [kcall bc3_std_u_portable32_u32_untransform_with_separate_pointers_ok]). Qed.

Lemma bc3_std_u_avx512vbmi_32_avx512_untransform_32_ok : forall c, TSPEC c VNone sh_bc3_std_u (c_avx2 c && c_avx512f c && c_avx512vbmi c && c_sse2 c) any_n
  (fun P n m => bc3_std_u_avx512vbmi_32_avx512_untransform_32 c (P (PI 0)) (P (PO 0)) (16 * n) m).
Proof. intros c. kstart bc3_std_u_avx512vbmi_32_avx512_untransform_32. kauto ltac:(first [kcall bc3_std_u_avx512vbmi_32_avx512_untransform_separate_components_32_ok]). Qed.

Lemma bc3_std_u_sse2_64_u64_untransform_sse2_separate_components_ok : forall c, SPEC c VNone sh_bc3_std_u (c_sse2 c) any_n
  (fun P n m => bc3_std_u_sse2_64_u64_untransform_sse2_separate_components c (P (PI 0)) (P (PI 1)) (P (PI 2)) (P (PI 3)) (P (PO 0)) (16 * n) m).
Proof. intros c. kstart bc3_std_u_sse2_64_u64_untransform_sse2_separate_components. kauto ltac:(first [kcall bc3_std_u_portable32_u32_untransform_with_separate_pointers_ok]). Qed.

Lemma bc3_std_u_sse2_64_u64_untransform_sse2_ok : forall c, TSPEC c VNone sh_bc3_std_u (c_sse2 c) any_n
  (fun P n m => bc3_std_u_sse2_64_u64_untransform_sse2 c (P (PI 0)) (P (PO 0)) (16 * n) m).
Proof. intros c. kstart bc3_std_u_sse2_64_u64_untransform_sse2. kauto ltac:(first [kcall bc3_std_u_sse2_64_u64_untransform_sse2_separate_components_ok]). Qed.

Lemma bc3_std_u_sse2_32_u32_untransform_sse2_ok : forall c, TSPEC c VNone sh_bc3_std_u (c_sse2 c) any_n
  (fun P n m => bc3_std_u_sse2_32_u32_untransform_sse2 c (P (PI 0)) (P (PO 0)) (16 * n) m).
Proof. intros c. kstart bc3_std_u_sse2_32_u32_untransform_sse2. kauto ltac:(first [kcall bc3_std_u_portable32_u32_untransform_with_separate_pointers_ok]). Qed.

Lemma bc3_std_u_portable32_u32_untransform_v2_ok : forall c, TSPEC c VNone sh_bc3_std_u (true) any_n
  (fun P n m => bc3_std_u_portable32_u32_untransform_v2 c (P (PI 0)) (P (PO 0)) (16 * n) m).
Proof. intros c. kstart bc3_std_u_portable32_u32_untransform_v2. kauto ltac:(first [kcall bc3_std_u_portable32_u32_untransform_with_separate_pointers_ok]). Qed.

Lemma bc3_std_u_untransform_x86_ok : forall c, TSPEC c VNone sh_bc3_std_u (is_x86 c) any_n
  (fun P n m => bc3_std_u_untransform_x86 c (P (PI 0)) (P (PO 0)) (16 * n) m).
Proof. intros c. kstart bc3_std_u_untransform_x86. kauto ltac:(first [kcall bc3_std_u_avx512vbmi_64_avx512_untransform_ok | kcall bc3_std_u_avx512vbmi_32_avx512_untransform_32_ok | kcall bc3_std_u_sse2_64_u64_untransform_sse2_ok | kcall bc3_std_u_sse2_32_u32_untransform_sse2_ok | kcall bc3_std_u_portable32_u32_untransform_v2_ok]). Qed.

Lemma bc3_std_u_untransform_ok : forall c, TSPEC c VNone sh_bc3_std_u (true) any_n
  (fun P n m => bc3_std_u_untransform c (P (PI 0)) (P (PO 0)) (16 * n) m).
Proof. intros c. kstart bc3_std_u_untransform. kauto ltac:(first [kcall bc3_std_u_portable32_u32_untransform_v2_ok | kcall bc3_std_u_untransform_x86_ok]). Qed.
