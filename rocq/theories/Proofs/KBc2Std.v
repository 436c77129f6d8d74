From Verif Require Import Base.Bytes Base.Res Model.Color565 Model.Ycc Model.Kernel Model.ColorBatch Model.GenBc2Std
  Proofs.KernelCheck Proofs.KernelLoop Proofs.KernelFun Proofs.Shapes.
From Coq Require Import ZifyBool ZifyNat.

Lemma bc2_std_t_portable32_u32_with_separate_pointers_ok : forall c, SPEC c VNone sh_bc2_std_t (true) any_n
  (fun P n m => bc2_std_t_portable32_u32_with_separate_pointers c (P (PI 0)) (P (PO 0)) (P (PO 1)) (P (PO 2)) (16 * n) m).
Proof. intros c. kstart bc2_std_t_portable32_u32_with_separate_pointers. kauto ltac:(fail). Qed.

Lemma bc2_std_t_avx512_permute_512_v2_with_separate_pointers_ok : forall c, SPEC c VNone sh_bc2_std_t (c_avx512f c && c_sse2 c) any_n
  (fun P n m => bc2_std_t_avx512_permute_512_v2_with_separate_pointers c (P (PI 0)) (P (PO 0)) (P (PO 1)) (P (PO 2)) (16 * n) m).
Proof. intros c. kstart bc2_std_t_avx512_permute_512_v2_with_separate_pointers. kauto ltac:(first [kcall bc2_std_t_portable32_u32_with_separate_pointers_ok]). Qed.

Lemma bc2_std_t_avx512_permute_512_v2_ok : forall c, TSPEC c VNone sh_bc2_std_t (c_avx512f c && c_sse2 c) any_n
  (fun P n m => bc2_std_t_avx512_permute_512_v2 c (P (PI 0)) (P (PO 0)) (16 * n) m).
Proof. intros c. kstart bc2_std_t_avx512_permute_512_v2. kauto ltac:(first [kcall bc2_std_t_avx512_permute_512_v2_with_separate_pointers_ok]). Qed.

Lemma bc2_std_t_avx2_shuffle_with_separate_pointers_ok : forall c, SPEC c VNone sh_bc2_std_t (c_avx2 c) any_n
  (fun P n m => bc2_std_t_avx2_shuffle_with_separate_pointers c (P (PI 0)) (P (PO 0)) (P (PO 1)) (P (PO 2)) (16 * n) m).
Proof. intros c. kstart bc2_std_t_avx2_shuffle_with_separate_pointers. kauto ltac:(first [kcall bc2_std_t_portable32_u32_with_separate_pointers_ok]). Qed.

Lemma bc2_std_t_avx2_shuffle_ok : forall c, TSPEC c VNone sh_bc2_std_t (c_avx2 c) any_n
  (fun P n m => bc2_std_t_avx2_shuffle c (P (PI 0)) (P (PO 0)) (16 * n) m).
Proof. intros c. kstart bc2_std_t_avx2_shuffle. kauto ltac:(first [kcall bc2_std_t_avx2_shuffle_with_separate_pointers_ok]). Qed.

Lemma bc2_std_t_sse2_shuffle_v3_with_separate_pointers_ok : forall c, SPEC c VNone sh_bc2_std_t (c_sse2 c) any_n
  (fun P n m => bc2_std_t_sse2_shuffle_v3_with_separate_pointers c (P (PI 0)) (P (PO 0)) (P (PO 1)) (P (PO 2)) (16 * n) m).
Proof. intros c. kstart bc2_std_t_sse2_shuffle_v3_with_separate_pointers. kauto ltac:(first [kcall bc2_std_t_portable32_u32_with_separate_pointers_ok]). Qed.

Lemma bc2_std_t_sse2_shuffle_v3_ok : forall c, TSPEC c VNone sh_bc2_std_t (c_sse2 c) any_n
  (fun P n m => bc2_std_t_sse2_shuffle_v3 c (P (PI 0)) (P (PO 0)) (16 * n) m).
Proof. intros c. kstart bc2_std_t_sse2_shuffle_v3. kauto ltac:(first [kcall bc2_std_t_sse2_shuffle_v3_with_separate_pointers_ok]). Qed.

Lemma bc2_std_t_sse2_shuffle_v2_with_separate_pointers_ok : forall c, SPEC c VNone sh_bc2_std_t (c_sse2 c) any_n
  (fun P n m => bc2_std_t_sse2_shuffle_v2_with_separate_pointers c (P (PI 0)) (P (PO 0)) (P (PO 1)) (P (PO 2)) (16 * n) m).
Proof. intros c. kstart bc2_std_t_sse2_shuffle_v2_with_separate_pointers. kauto ltac:(first [kcall bc2_std_t_portable32_u32_with_separate_pointers_ok]). Qed.

Lemma bc2_std_t_sse2_shuffle_v2_ok : forall c, TSPEC c VNone sh_bc2_std_t (c_sse2 c) any_n
  (fun P n m => bc2_std_t_sse2_shuffle_v2 c (P (PI 0)) (P (PO 0)) (16 * n) m).
Proof. intros c. kstart bc2_std_t_sse2_shuffle_v2. kauto ltac:(first [kcall bc2_std_t_sse2_shuffle_v2_with_separate_pointers_ok]). Qed.

Lemma bc2_std_t_portable32_u32_ok : forall c, TSPEC c VNone sh_bc2_std_t (true) any_n
  (fun P n m => bc2_std_t_portable32_u32 c (P (PI 0)) (P (PO 0)) (16 * n) m).
Proof. intros c. kstart bc2_std_t_portable32_u32. kauto ltac:(first [kcall bc2_std_t_portable32_u32_with_separate_pointers_ok]). Qed.

Lemma bc2_std_t_transform_x86_ok : forall c, TSPEC c VNone sh_bc2_std_t (is_x86 c) any_n
  (fun P n m => bc2_std_t_transform_x86 c (P (PI 0)) (P (PO 0)) (16 * n) m).
Proof. intros c. kstart bc2_std_t_transform_x86. kauto ltac:(first [kcall bc2_std_t_avx512_permute_512_v2_ok | kcall bc2_std_t_avx2_shuffle_ok | kcall bc2_std_t_sse2_shuffle_v3_ok | kcall bc2_std_t_sse2_shuffle_v2_ok | kcall bc2_std_t_portable32_u32_ok]). Qed.

Lemma bc2_std_t_transform_ok : forall c, TSPEC c VNone sh_bc2_std_t (true) any_n
  (fun P n m => bc2_std_t_transform c (P (PI 0)) (P (PO 0)) (16 * n) m).
Proof. intros c. kstart bc2_std_t_transform. kauto ltac:(first [kcall bc2_std_t_portable32_u32_ok | kcall bc2_std_t_transform_x86_ok]). Qed.

Lemma bc2_std_u_portable32_u32_untransform_with_separate_pointers_ok : forall c, SPEC c VNone sh_bc2_std_u (true) any_n
  (fun P n m => bc2_std_u_portable32_u32_untransform_with_separate_pointers c (P (PI 0)) (P (PI 1)) (P (PI 2)) (P (PO 0)) (16 * n) m).
Proof. intros c. kstart bc2_std_u_portable32_u32_untransform_with_separate_pointers. kauto ltac:(fail). Qed.

Lemma bc2_std_u_avx512_avx512_shuffle_with_components_intrinsics_ok : forall c, SPEC c VNone sh_bc2_std_u (c_avx512f c) any_n
  (fun P n m => bc2_std_u_avx512_avx512_shuffle_with_components_intrinsics c (P (PO 0)) (16 * n) (P (PI 0)) (P (PI 1)) (P (PI 2)) m).
Proof. intros c. kstart bc2_std_u_avx512_avx512_shuffle_with_components_intrinsics. kauto ltac:(first [kcall bc2_std_u_portable32_u32_untransform_with_separate_pointers_ok]). Qed.

Lemma bc2_std_u_avx512_avx512_shuffle_with_components_ok : forall c, SPEC c VNone sh_bc2_std_u (c_avx512f c) any_n
  (fun P n m => bc2_std_u_avx512_avx512_shuffle_with_components c (P (PO 0)) (16 * n) (P (PI 0)) (P (PI 1)) (P (PI 2)) m).
Proof. intros c. kstart bc2_std_u_avx512_avx512_shuffle_with_components. kauto ltac:(first [kcall bc2_std_u_avx512_avx512_shuffle_with_components_intrinsics_ok]). Qed.

Lemma bc2_std_u_avx512_avx512_shuffle_ok : forall c, TSPEC c VNone sh_bc2_std_u (c_avx512f c && is_x86 c) any_n
  (fun P n m => bc2_std_u_avx512_avx512_shuffle c (P (PI 0)) (P (PO 0)) (16 * n) m).
Proof. intros c. kstart bc2_std_u_avx512_avx512_shuffle. kauto ltac:(first [kcall bc2_std_u_avx512_avx512_shuffle_with_components_intrinsics_ok | kcall bc2_std_u_avx512_avx512_shuffle_with_components_ok]). Qed.

Lemma bc2_std_u_avx2_avx2_shuffle_with_components_i686_ok : forall c, SPEC c VNone sh_bc2_std_u (c_avx2 c && is_i686 c) any_n
  (fun P n m => bc2_std_u_avx2_avx2_shuffle_with_components_i686 c (P (PO 0)) (16 * n) (P (PI 0)) (P (PI 1)) (P (PI 2)) m).
Proof. intros c. kstart bc2_std_u_avx2_avx2_shuffle_with_components_i686. kauto ltac:(first [kcall bc2_std_u_portable32_u32_untransform_with_separate_pointers_ok]). Qed.

Lemma bc2_std_u_avx2_avx2_shuffle_i686_ok : forall c, TSPEC c VNone sh_bc2_std_u (c_avx2 c && is_i686 c) any_n
  (fun P n m => bc2_std_u_avx2_avx2_shuffle_i686 c (P (PI 0)) (P (PO 0)) (16 * n) m).
Proof. intros c. kstart bc2_std_u_avx2_avx2_shuffle_i686. kauto ltac:(first [kcall bc2_std_u_avx2_avx2_shuffle_with_components_i686_ok]). Qed.

Lemma bc2_std_u_avx2_avx2_shuffle_with_components_x64_ok : forall c, SPEC c VNone sh_bc2_std_u (c_avx2 c && is_x64 c) any_n
  (fun P n m => bc2_std_u_avx2_avx2_shuffle_with_components_x64 c (P (PO 0)) (16 * n) (P (PI 0)) (P (PI 1)) (P (PI 2)) m).
Proof. intros c. kstart bc2_std_u_avx2_avx2_shuffle_with_components_x64. kauto ltac:(first [kcall bc2_std_u_portable32_u32_untransform_with_separate_pointers_ok]). Qed.

Lemma bc2_std_u_avx2_avx2_shuffle_x64_ok : forall c, TSPEC c VNone sh_bc2_std_u (c_avx2 c && is_x64 c) any_n
  (fun P n m => bc2_std_u_avx2_avx2_shuffle_x64 c (P (PI 0)) (P (PO 0)) (16 * n) m).
Proof. intros c. kstart bc2_std_u_avx2_avx2_shuffle_x64. kauto ltac:(first [kcall bc2_std_u_avx2_avx2_shuffle_with_components_x64_ok]). Qed.

Lemma bc2_std_u_sse2_shuffle_with_components_ok : forall c, SPEC c VNone sh_bc2_std_u (c_sse2 c) any_n
  (fun P n m => bc2_std_u_sse2_shuffle_with_components c (P (PO 0)) (16 * n) (P (PI 0)) (P (PI 1)) (P (PI 2)) m).
Proof. intros c. kstart bc2_std_u_sse2_shuffle_with_components. kauto ltac:(first [kcall bc2_std_u_portable32_u32_untransform_with_separate_pointers_ok]). Qed.

Lemma bc2_std_u_sse2_shuffle_ok : forall c, TSPEC c VNone sh_bc2_std_u (c_sse2 c) any_n
  (fun P n m => bc2_std_u_sse2_shuffle c (P (PI 0)) (P (PO 0)) (16 * n) m).
Proof. intros c. kstart bc2_std_u_sse2_shuffle. kauto ltac:(first [kcall bc2_std_u_sse2_shuffle_with_components_ok]). Qed.

Lemma bc2_std_u_portable32_u32_untransform_ok : forall c, TSPEC c VNone sh_bc2_std_u (true) any_n
  (fun P n m => bc2_std_u_portable32_u32_untransform c (P (PI 0)) (P (PO 0)) (16 * n) m).
Proof. intros c. kstart bc2_std_u_portable32_u32_untransform. kauto ltac:(first [kcall bc2_std_u_portable32_u32_untransform_with_separate_pointers_ok]). Qed.

Lemma bc2_std_u_untransform_x86_ok : forall c, TSPEC c VNone sh_bc2_std_u (is_x86 c) any_n
  (fun P n m => bc2_std_u_untransform_x86 c (P (PI 0)) (P (PO 0)) (16 * n) m).
Proof. intros c. kstart bc2_std_u_untransform_x86. kauto ltac:(first [kcall bc2_std_u_avx512_avx512_shuffle_ok | kcall bc2_std_u_avx2_avx2_shuffle_i686_ok | kcall bc2_std_u_avx2_avx2_shuffle_x64_ok | kcall bc2_std_u_sse2_shuffle_ok | kcall bc2_std_u_portable32_u32_untransform_ok]). Qed.

Lemma bc2_std_u_untransform_ok : forall c, TSPEC c VNone sh_bc2_std_u (true) any_n
  (fun P n m => bc2_std_u_untransform c (P (PI 0)) (P (PO 0)) (16 * n) m).
Proof. intros c. kstart bc2_std_u_untransform. kauto ltac:(first [kcall bc2_std_u_portable32_u32_untransform_ok | kcall bc2_std_u_untransform_x86_ok]). Qed.
