From Verif Require Import Base.Bytes Base.Res Model.Color565 Model.Ycc Model.Kernel Model.KernelBench
  Model.GenBc3Std Model.GenBc3Sa Model.GenBenchBc3
  Proofs.KernelCheck Proofs.KernelLoop Proofs.KernelFun Proofs.Shapes Proofs.KernelBenchFun Proofs.KBc3Std Proofs.KBc3Sa.
From Coq Require Import ZifyBool ZifyNat.

Lemma bc3_std_t_bench_u32_transform_ok : forall c, TSPEC c VNone sh_bc3_std_t (true) any_n
  (fun P n m => bc3_std_t_bench_u32_transform c (P (PI 0)) (P (PO 0)) (16 * n) m).
Proof. intros c. kstart bc3_std_t_bench_u32_transform. kbench ltac:(first [kcall bc3_std_t_portable32_u32_ok]). Qed.

Lemma bc3_std_t_bench_u32_avx2_transform_ok : forall c, TSPEC c VNone sh_bc3_std_t (c_avx2 c && is_x86 c) any_n
  (fun P n m => bc3_std_t_bench_u32_avx2_transform c (P (PI 0)) (P (PO 0)) (16 * n) m).
Proof. intros c. kstart bc3_std_t_bench_u32_avx2_transform. kbench ltac:(first [kcall bc3_std_t_avx2_u32_avx2_ok]). Qed.

Lemma bc3_std_t_bench_avx512_vbmi_transform_ok : forall c, TSPEC c VNone sh_bc3_std_t (c_avx2 c && c_avx512f c && c_avx512vbmi c && c_sse2 c) any_n
  (fun P n m => bc3_std_t_bench_avx512_vbmi_transform c (P (PI 0)) (P (PO 0)) (16 * n) m).
Proof. intros c. kstart bc3_std_t_bench_avx512_vbmi_transform. kbench ltac:(first [kcall bc3_std_t_avx512vbmi_avx512_vbmi_ok]). Qed.

Lemma bc3_std_t_bench_portable32_u32_unroll_2_ok : forall c, TSPEC c VNone sh_bc3_std_t (true) any_n
  (fun P n m => bc3_std_t_bench_portable32_u32_unroll_2 c (P (PI 0)) (P (PO 0)) (16 * n) m).
Proof. intros c. kstart bc3_std_t_bench_portable32_u32_unroll_2. kbench ltac:(first [kcall bc3_std_t_portable32_u32_with_separate_endpoints_ok]). Qed.

Lemma bc3_std_u_bench_portable_u32_untransform_ok : forall c, TSPEC c VNone sh_bc3_std_u (true) any_n
  (fun P n m => bc3_std_u_bench_portable_u32_untransform c (P (PI 0)) (P (PO 0)) (16 * n) m).
Proof. intros c. kstart bc3_std_u_bench_portable_u32_untransform. kbench ltac:(first [kcall bc3_std_u_portable32_u32_untransform_with_separate_pointers_ok]). Qed.

Lemma bc3_std_u_bench_u32_untransform_ok : forall c, TSPEC c VNone sh_bc3_std_u (true) any_n
  (fun P n m => bc3_std_u_bench_u32_untransform c (P (PI 0)) (P (PO 0)) (16 * n) m).
Proof. intros c. kstart bc3_std_u_bench_u32_untransform. kbench ltac:(first [kcall bc3_std_u_bench_portable_u32_untransform_ok]). Qed.

Lemma bc3_std_u_bench_u32_untransform_v2_ok : forall c, TSPEC c VNone sh_bc3_std_u (true) any_n
  (fun P n m => bc3_std_u_bench_u32_untransform_v2 c (P (PI 0)) (P (PO 0)) (16 * n) m).
Proof. intros c. kstart bc3_std_u_bench_u32_untransform_v2. kbench ltac:(first [kcall bc3_std_u_portable32_u32_untransform_v2_ok]). Qed.

Lemma bc3_std_u_bench_portable_u64_untransform_ok : forall c, TSPEC c VNone sh_bc3_std_u (true) any_n
  (fun P n m => bc3_std_u_bench_portable_u64_untransform c (P (PI 0)) (P (PO 0)) (16 * n) m).
Proof. intros c. kstart bc3_std_u_bench_portable_u64_untransform. kbench ltac:(first [kcall bc3_std_u_portable32_u32_untransform_with_separate_pointers_ok]). Qed.

Lemma bc3_std_u_bench_u64_untransform_ok : forall c, TSPEC c VNone sh_bc3_std_u (true) any_n
  (fun P n m => bc3_std_u_bench_u64_untransform c (P (PI 0)) (P (PO 0)) (16 * n) m).
Proof. intros c. kstart bc3_std_u_bench_u64_untransform. kbench ltac:(first [kcall bc3_std_u_bench_portable_u64_untransform_ok]). Qed.

Lemma bc3_std_u_bench_u32_untransform_sse2_ok : forall c, TSPEC c VNone sh_bc3_std_u (c_sse2 c) any_n
  (fun P n m => bc3_std_u_bench_u32_untransform_sse2 c (P (PI 0)) (P (PO 0)) (16 * n) m).
Proof. intros c. kstart bc3_std_u_bench_u32_untransform_sse2. kbench ltac:(first [kcall bc3_std_u_sse2_32_u32_untransform_sse2_ok]). Qed.

Lemma bc3_std_u_bench_u64_untransform_sse2_ok : forall c, TSPEC c VNone sh_bc3_std_u (c_sse2 c) any_n
  (fun P n m => bc3_std_u_bench_u64_untransform_sse2 c (P (PI 0)) (P (PO 0)) (16 * n) m).
Proof. intros c. kstart bc3_std_u_bench_u64_untransform_sse2. kbench ltac:(first [kcall bc3_std_u_sse2_64_u64_untransform_sse2_ok]). Qed.

Lemma bc3_std_u_bench_avx512_untransform_ok : forall c, TSPEC c VNone sh_bc3_std_u (c_avx512f c && c_avx512vbmi c) any_n
  (fun P n m => bc3_std_u_bench_avx512_untransform c (P (PI 0)) (P (PO 0)) (16 * n) m).
Proof. intros c. kstart bc3_std_u_bench_avx512_untransform. kbench ltac:(first [kcall bc3_std_u_avx512vbmi_64_avx512_untransform_ok]). Qed.

Lemma bc3_std_u_bench_avx512_untransform_32_ok : forall c, TSPEC c VNone sh_bc3_std_u (c_avx2 c && c_avx512f c && c_avx512vbmi c && c_sse2 c) any_n
  (fun P n m => bc3_std_u_bench_avx512_untransform_32 c (P (PI 0)) (P (PO 0)) (16 * n) m).
Proof. intros c. kstart bc3_std_u_bench_avx512_untransform_32. kbench ltac:(first [kcall bc3_std_u_avx512vbmi_32_avx512_untransform_32_ok]). Qed.

Lemma bc3_bench_std_u32_transform_ok : forall c, TSPEC c VNone sh_bc3_std_t (true) any_n
  (fun P n m => bc3_bench_std_u32_transform c (P (PI 0)) (P (PO 0)) (16 * n) m).
Proof. intros c. kstart bc3_bench_std_u32_transform. kbench ltac:(first [kcall bc3_std_t_bench_u32_transform_ok]). Qed.

Lemma bc3_bench_std_u32_avx2_transform_ok : forall c, TSPEC c VNone sh_bc3_std_t (c_avx2 c && is_x86 c) any_n
  (fun P n m => bc3_bench_std_u32_avx2_transform c (P (PI 0)) (P (PO 0)) (16 * n) m).
Proof. intros c. kstart bc3_bench_std_u32_avx2_transform. kbench ltac:(first [kcall bc3_std_t_bench_u32_avx2_transform_ok]). Qed.

Lemma bc3_bench_std_u32_unroll_2_ok : forall c, TSPEC c VNone sh_bc3_std_t (true) any_n
  (fun P n m => bc3_bench_std_u32_unroll_2 c (P (PI 0)) (P (PO 0)) (16 * n) m).
Proof. intros c. kstart bc3_bench_std_u32_unroll_2. kbench ltac:(first [kcall bc3_std_t_bench_portable32_u32_unroll_2_ok]). Qed.

Lemma bc3_bench_std_avx512_vbmi_transform_ok : forall c, TSPEC c VNone sh_bc3_std_t (c_avx2 c && c_avx512f c && c_avx512vbmi c && c_sse2 c) any_n
  (fun P n m => bc3_bench_std_avx512_vbmi_transform c (P (PI 0)) (P (PO 0)) (16 * n) m).
Proof. intros c. kstart bc3_bench_std_avx512_vbmi_transform. kbench ltac:(first [kcall bc3_std_t_bench_avx512_vbmi_transform_ok]). Qed.

Lemma bc3_bench_sa_generic_transform_with_split_alphas_ok : forall c, SPEC c VNone sh_bc3_sa_t (true) any_n
  (fun P n m => bc3_bench_sa_generic_transform_with_split_alphas c (P (PI 0)) (P (PO 0)) (P (PO 1)) (P (PO 2)) (P (PO 3)) (P (PO 4)) n m).
Proof. intros c. kstart bc3_bench_sa_generic_transform_with_split_alphas. kbench ltac:(first [kcall bc3_sa_t_generic_transform_with_split_alphas_ok]). Qed.

Lemma bc3_bench_sa_avx2_transform_with_split_alphas_ok : forall c, SPEC c VNone sh_bc3_sa_t (c_avx2 c && is_x86 c) any_n
  (fun P n m => bc3_bench_sa_avx2_transform_with_split_alphas c (P (PI 0)) (P (PO 0)) (P (PO 1)) (P (PO 2)) (P (PO 3)) (P (PO 4)) n m).
Proof. intros c. kstart bc3_bench_sa_avx2_transform_with_split_alphas. kbench ltac:(first [kcall bc3_sa_t_avx2_transform_with_split_alphas_ok]). Qed.

Lemma bc3_bench_sa_avx512_transform_with_split_alphas_ok : forall c, SPEC c VNone sh_bc3_sa_t (c_avx2 c && c_avx512f c && c_avx512vbmi c && c_sse2 c) (nz_debug c)
  (fun P n m => bc3_bench_sa_avx512_transform_with_split_alphas c (P (PI 0)) (P (PO 0)) (P (PO 1)) (P (PO 2)) (P (PO 3)) (P (PO 4)) n m).
Proof. intros c. kstart bc3_bench_sa_avx512_transform_with_split_alphas. kbench ltac:(first [kcall bc3_sa_t_avx512vbmi_transform_with_split_alphas_ok]). Qed.

Lemma bc3_bench_u_std_u32_untransform_ok : forall c, TSPEC c VNone sh_bc3_std_u (true) any_n
  (fun P n m => bc3_bench_u_std_u32_untransform c (P (PI 0)) (P (PO 0)) (16 * n) m).
Proof. intros c. kstart bc3_bench_u_std_u32_untransform. kbench ltac:(first [kcall bc3_std_u_bench_u32_untransform_ok]). Qed.

Lemma bc3_bench_u_std_u32_untransform_v2_ok : forall c, TSPEC c VNone sh_bc3_std_u (true) any_n
  (fun P n m => bc3_bench_u_std_u32_untransform_v2 c (P (PI 0)) (P (PO 0)) (16 * n) m).
Proof. intros c. kstart bc3_bench_u_std_u32_untransform_v2. kbench ltac:(first [kcall bc3_std_u_bench_u32_untransform_v2_ok]). Qed.

Lemma bc3_bench_u_std_u64_untransform_ok : forall c, TSPEC c VNone sh_bc3_std_u (true) any_n
  (fun P n m => bc3_bench_u_std_u64_untransform c (P (PI 0)) (P (PO 0)) (16 * n) m).
Proof. intros c. kstart bc3_bench_u_std_u64_untransform. kbench ltac:(first [kcall bc3_std_u_bench_u64_untransform_ok]). Qed.

Lemma bc3_bench_u_std_u32_untransform_sse2_ok : forall c, TSPEC c VNone sh_bc3_std_u (c_sse2 c) any_n
  (fun P n m => bc3_bench_u_std_u32_untransform_sse2 c (P (PI 0)) (P (PO 0)) (16 * n) m).
Proof. intros c. kstart bc3_bench_u_std_u32_untransform_sse2. kbench ltac:(first [kcall bc3_std_u_bench_u32_untransform_sse2_ok]). Qed.

Lemma bc3_bench_u_std_u64_untransform_sse2_ok : forall c, TSPEC c VNone sh_bc3_std_u (c_sse2 c) any_n
  (fun P n m => bc3_bench_u_std_u64_untransform_sse2 c (P (PI 0)) (P (PO 0)) (16 * n) m).
Proof. intros c. kstart bc3_bench_u_std_u64_untransform_sse2. kbench ltac:(first [kcall bc3_std_u_bench_u64_untransform_sse2_ok]). Qed.

Lemma bc3_bench_u_std_avx512_untransform_ok : forall c, TSPEC c VNone sh_bc3_std_u (c_avx512f c && c_avx512vbmi c) any_n
  (fun P n m => bc3_bench_u_std_avx512_untransform c (P (PI 0)) (P (PO 0)) (16 * n) m).
Proof. intros c. kstart bc3_bench_u_std_avx512_untransform. kbench ltac:(first [kcall bc3_std_u_bench_avx512_untransform_ok]). Qed.

Lemma bc3_bench_u_std_avx512_untransform_32_ok : forall c, TSPEC c VNone sh_bc3_std_u (c_avx2 c && c_avx512f c && c_avx512vbmi c && c_sse2 c) any_n
  (fun P n m => bc3_bench_u_std_avx512_untransform_32 c (P (PI 0)) (P (PO 0)) (16 * n) m).
Proof. intros c. kstart bc3_bench_u_std_avx512_untransform_32. kbench ltac:(first [kcall bc3_std_u_bench_avx512_untransform_32_ok]). Qed.

Lemma bc3_bench_u_sa_generic_untransform_with_split_alphas_ok : forall c, SPEC c VNone sh_bc3_sa_u (true) any_n
  (fun P n m => bc3_bench_u_sa_generic_untransform_with_split_alphas c (P (PI 0)) (P (PI 1)) (P (PI 2)) (P (PI 3)) (P (PI 4)) (P (PO 0)) n m).
Proof. intros c. kstart bc3_bench_u_sa_generic_untransform_with_split_alphas. kbench ltac:(first [kcall bc3_sa_u_generic_untransform_with_split_alphas_ok]). Qed.

Lemma bc3_bench_u_sa_sse2_untransform_with_split_alphas_ok : forall c, SPEC c VNone sh_bc3_sa_u (c_sse2 c) any_n
  (fun P n m => bc3_bench_u_sa_sse2_untransform_with_split_alphas c (P (PI 0)) (P (PI 1)) (P (PI 2)) (P (PI 3)) (P (PI 4)) (P (PO 0)) n m).
Proof. intros c. kstart bc3_bench_u_sa_sse2_untransform_with_split_alphas. kbench ltac:(first [kcall bc3_sa_u_sse2_untransform_with_split_alphas_sse2_ok]). Qed.
