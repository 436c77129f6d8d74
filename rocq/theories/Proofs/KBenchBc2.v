From Verif Require Import Base.Bytes Base.Res Model.Color565 Model.Ycc Model.Kernel Model.KernelBench
  Model.GenBc2Std Model.GenBenchBc2
  Proofs.KernelCheck Proofs.KernelLoop Proofs.KernelFun Proofs.Shapes Proofs.KernelBenchFun Proofs.KBc2Std.
From Coq Require Import ZifyBool ZifyNat.

Lemma bc2_std_t_bench_avx512_permute_512_with_separate_pointers_ok : forall c, SPEC c VNone sh_bc2_std_t (c_avx512f c && c_sse2 c) any_n
  (fun P n m => bc2_std_t_bench_avx512_permute_512_with_separate_pointers c (P (PI 0)) (P (PO 0)) (P (PO 1)) (P (PO 2)) (16 * n) m).
Proof. intros c. kstart bc2_std_t_bench_avx512_permute_512_with_separate_pointers. kbench ltac:(first [kcall bc2_std_t_portable32_u32_with_separate_pointers_ok]). Qed.

Lemma bc2_std_t_bench_avx512_permute_512_ok : forall c, TSPEC c VNone sh_bc2_std_t (c_avx512f c && c_sse2 c) any_n
  (fun P n m => bc2_std_t_bench_avx512_permute_512 c (P (PI 0)) (P (PO 0)) (16 * n) m).
Proof. intros c. kstart bc2_std_t_bench_avx512_permute_512. kbench ltac:(first [kcall bc2_std_t_bench_avx512_permute_512_with_separate_pointers_ok]). Qed.

Lemma bc2_std_t_bench_avx512_permute_512_intrinsics_ok : forall c, TSPEC c VNone sh_bc2_std_t (c_avx512f c && c_sse2 c) any_n
  (fun P n m => bc2_std_t_bench_avx512_permute_512_intrinsics c (P (PI 0)) (P (PO 0)) (16 * n) m).
Proof. intros c. kstart bc2_std_t_bench_avx512_permute_512_intrinsics. kbench ltac:(first [kcall bc2_std_t_portable32_u32_with_separate_pointers_ok]). Qed.

Lemma bc2_std_t_bench_sse2_shuffle_v3_ok : forall c, TSPEC c VNone sh_bc2_std_t (c_sse2 c) any_n
  (fun P n m => bc2_std_t_bench_sse2_shuffle_v3 c (P (PI 0)) (P (PO 0)) (16 * n) m).
Proof. intros c. kstart bc2_std_t_bench_sse2_shuffle_v3. kbench ltac:(first [kcall bc2_std_t_sse2_shuffle_v3_ok]). Qed.

Lemma bc2_std_t_bench_sse2_shuffle_v2_ok : forall c, TSPEC c VNone sh_bc2_std_t (c_sse2 c) any_n
  (fun P n m => bc2_std_t_bench_sse2_shuffle_v2 c (P (PI 0)) (P (PO 0)) (16 * n) m).
Proof. intros c. kstart bc2_std_t_bench_sse2_shuffle_v2. kbench ltac:(first [kcall bc2_std_t_sse2_shuffle_v2_ok]). Qed.

Lemma bc2_std_t_bench_avx2_shuffle_ok : forall c, TSPEC c VNone sh_bc2_std_t (c_avx2 c) any_n
  (fun P n m => bc2_std_t_bench_avx2_shuffle c (P (PI 0)) (P (PO 0)) (16 * n) m).
Proof. intros c. kstart bc2_std_t_bench_avx2_shuffle. kbench ltac:(first [kcall bc2_std_t_avx2_shuffle_ok]). Qed.

Lemma bc2_std_t_bench_u32_ok : forall c, TSPEC c VNone sh_bc2_std_t (true) any_n
  (fun P n m => bc2_std_t_bench_u32 c (P (PI 0)) (P (PO 0)) (16 * n) m).
Proof. intros c. kstart bc2_std_t_bench_u32. kbench ltac:(first [kcall bc2_std_t_portable32_u32_ok]). Qed.

Lemma bc2_std_t_bench_portable32_u32_unroll_2_ok : forall c, TSPEC c VNone sh_bc2_std_t (true) any_n
  (fun P n m => bc2_std_t_bench_portable32_u32_unroll_2 c (P (PI 0)) (P (PO 0)) (16 * n) m).
Proof. intros c. kstart bc2_std_t_bench_portable32_u32_unroll_2. kbench ltac:(fail). Qed.

Lemma bc2_std_t_bench_u32_unroll_2_ok : forall c, TSPEC c VNone sh_bc2_std_t (true) any_n
  (fun P n m => bc2_std_t_bench_u32_unroll_2 c (P (PI 0)) (P (PO 0)) (16 * n) m).
Proof. intros c. kstart bc2_std_t_bench_u32_unroll_2. kbench ltac:(first [kcall bc2_std_t_bench_portable32_u32_unroll_2_ok]). Qed.

Lemma bc2_std_t_bench_portable32_u32_unroll_4_ok : forall c, TSPEC c VNone sh_bc2_std_t (true) any_n
  (fun P n m => bc2_std_t_bench_portable32_u32_unroll_4 c (P (PI 0)) (P (PO 0)) (16 * n) m).
Proof. intros c. kstart bc2_std_t_bench_portable32_u32_unroll_4. kbench ltac:(fail). Qed.

Lemma bc2_std_t_bench_u32_unroll_4_ok : forall c, TSPEC c VNone sh_bc2_std_t (true) any_n
  (fun P n m => bc2_std_t_bench_u32_unroll_4 c (P (PI 0)) (P (PO 0)) (16 * n) m).
Proof. intros c. kstart bc2_std_t_bench_u32_unroll_4. kbench ltac:(first [kcall bc2_std_t_bench_portable32_u32_unroll_4_ok]). Qed.

Lemma bc2_std_t_bench_permute_512_v2_ok : forall c, TSPEC c VNone sh_bc2_std_t (c_avx512f c && c_sse2 c) any_n
  (fun P n m => bc2_std_t_bench_permute_512_v2 c (P (PI 0)) (P (PO 0)) (16 * n) m).
Proof. intros c. kstart bc2_std_t_bench_permute_512_v2. kbench ltac:(first [kcall bc2_std_t_avx512_permute_512_v2_ok]). Qed.

Lemma bc2_std_t_bench_sse2_shuffle_v1_ok : forall c, TSPEC c VNone sh_bc2_std_t (c_sse2 c) any_n
  (fun P n m => bc2_std_t_bench_sse2_shuffle_v1 c (P (PI 0)) (P (PO 0)) (16 * n) m).
Proof. intros c. kstart bc2_std_t_bench_sse2_shuffle_v1. kbench ltac:(first [kcall bc2_std_t_portable32_u32_with_separate_pointers_ok]). Qed.

Lemma bc2_std_t_bench_sse2_shuffle_v1_unroll_2_ok : forall c, TSPEC c VNone sh_bc2_std_t (c_sse2 c) any_n
  (fun P n m => bc2_std_t_bench_sse2_shuffle_v1_unroll_2 c (P (PI 0)) (P (PO 0)) (16 * n) m).
Proof. intros c. kstart bc2_std_t_bench_sse2_shuffle_v1_unroll_2. kbench ltac:(first [kcall bc2_std_t_portable32_u32_with_separate_pointers_ok]). Qed.

Lemma bc2_bench_std_u32_ok : forall c, TSPEC c VNone sh_bc2_std_t (true) any_n
  (fun P n m => bc2_bench_std_u32 c (P (PI 0)) (P (PO 0)) (16 * n) m).
Proof. intros c. kstart bc2_bench_std_u32. kbench ltac:(first [kcall bc2_std_t_bench_u32_ok]). Qed.

Lemma bc2_bench_std_u32_unroll_2_ok : forall c, TSPEC c VNone sh_bc2_std_t (true) any_n
  (fun P n m => bc2_bench_std_u32_unroll_2 c (P (PI 0)) (P (PO 0)) (16 * n) m).
Proof. intros c. kstart bc2_bench_std_u32_unroll_2. kbench ltac:(first [kcall bc2_std_t_bench_u32_unroll_2_ok]). Qed.

Lemma bc2_bench_std_u32_unroll_4_ok : forall c, TSPEC c VNone sh_bc2_std_t (true) any_n
  (fun P n m => bc2_bench_std_u32_unroll_4 c (P (PI 0)) (P (PO 0)) (16 * n) m).
Proof. intros c. kstart bc2_bench_std_u32_unroll_4. kbench ltac:(first [kcall bc2_std_t_bench_u32_unroll_4_ok]). Qed.

Lemma bc2_bench_std_avx2_shuffle_ok : forall c, TSPEC c VNone sh_bc2_std_t (c_avx2 c) any_n
  (fun P n m => bc2_bench_std_avx2_shuffle c (P (PI 0)) (P (PO 0)) (16 * n) m).
Proof. intros c. kstart bc2_bench_std_avx2_shuffle. kbench ltac:(first [kcall bc2_std_t_bench_avx2_shuffle_ok]). Qed.

Lemma bc2_bench_std_sse2_shuffle_v2_ok : forall c, TSPEC c VNone sh_bc2_std_t (c_sse2 c) any_n
  (fun P n m => bc2_bench_std_sse2_shuffle_v2 c (P (PI 0)) (P (PO 0)) (16 * n) m).
Proof. intros c. kstart bc2_bench_std_sse2_shuffle_v2. kbench ltac:(first [kcall bc2_std_t_bench_sse2_shuffle_v2_ok]). Qed.

Lemma bc2_bench_std_sse2_shuffle_v3_ok : forall c, TSPEC c VNone sh_bc2_std_t (c_sse2 c) any_n
  (fun P n m => bc2_bench_std_sse2_shuffle_v3 c (P (PI 0)) (P (PO 0)) (16 * n) m).
Proof. intros c. kstart bc2_bench_std_sse2_shuffle_v3. kbench ltac:(first [kcall bc2_std_t_bench_sse2_shuffle_v3_ok]). Qed.

Lemma bc2_bench_std_shuffle_v1_ok : forall c, TSPEC c VNone sh_bc2_std_t (c_sse2 c) any_n
  (fun P n m => bc2_bench_std_shuffle_v1 c (P (PI 0)) (P (PO 0)) (16 * n) m).
Proof. intros c. kstart bc2_bench_std_shuffle_v1. kbench ltac:(first [kcall bc2_std_t_bench_sse2_shuffle_v1_ok]). Qed.

Lemma bc2_bench_std_shuffle_v1_unroll_2_ok : forall c, TSPEC c VNone sh_bc2_std_t (c_sse2 c) any_n
  (fun P n m => bc2_bench_std_shuffle_v1_unroll_2 c (P (PI 0)) (P (PO 0)) (16 * n) m).
Proof. intros c. kstart bc2_bench_std_shuffle_v1_unroll_2. kbench ltac:(first [kcall bc2_std_t_bench_sse2_shuffle_v1_unroll_2_ok]). Qed.

Lemma bc2_bench_std_permute_512_v2_ok : forall c, TSPEC c VNone sh_bc2_std_t (c_avx512f c && c_sse2 c) any_n
  (fun P n m => bc2_bench_std_permute_512_v2 c (P (PI 0)) (P (PO 0)) (16 * n) m).
Proof. intros c. kstart bc2_bench_std_permute_512_v2. kbench ltac:(first [kcall bc2_std_t_bench_permute_512_v2_ok]). Qed.

Lemma bc2_bench_std_permute_512_ok : forall c, TSPEC c VNone sh_bc2_std_t (c_avx512f c && c_sse2 c) any_n
  (fun P n m => bc2_bench_std_permute_512 c (P (PI 0)) (P (PO 0)) (16 * n) m).
Proof. intros c. kstart bc2_bench_std_permute_512. kbench ltac:(first [kcall bc2_std_t_bench_avx512_permute_512_ok]). Qed.

Lemma bc2_std_u_bench_u32_untransform_ok : forall c, TSPEC c VNone sh_bc2_std_u (true) any_n
  (fun P n m => bc2_std_u_bench_u32_untransform c (P (PI 0)) (P (PO 0)) (16 * n) m).
Proof. intros c. kstart bc2_std_u_bench_u32_untransform. kbench ltac:(first [kcall bc2_std_u_portable32_u32_untransform_ok]). Qed.

Lemma bc2_bench_u_std_u32_untransform_ok : forall c, TSPEC c VNone sh_bc2_std_u (true) any_n
  (fun P n m => bc2_bench_u_std_u32_untransform c (P (PI 0)) (P (PO 0)) (16 * n) m).
Proof. intros c. kstart bc2_bench_u_std_u32_untransform. kbench ltac:(first [kcall bc2_std_u_bench_u32_untransform_ok]). Qed.

Lemma bc2_std_u_bench_sse2_shuffle_ok : forall c, TSPEC c VNone sh_bc2_std_u (c_sse2 c) any_n
  (fun P n m => bc2_std_u_bench_sse2_shuffle c (P (PI 0)) (P (PO 0)) (16 * n) m).
Proof. intros c. kstart bc2_std_u_bench_sse2_shuffle. kbench ltac:(first [kcall bc2_std_u_sse2_shuffle_ok]). Qed.

Lemma bc2_bench_u_std_sse2_shuffle_ok : forall c, TSPEC c VNone sh_bc2_std_u (c_sse2 c) any_n
  (fun P n m => bc2_bench_u_std_sse2_shuffle c (P (PI 0)) (P (PO 0)) (16 * n) m).
Proof. intros c. kstart bc2_bench_u_std_sse2_shuffle. kbench ltac:(first [kcall bc2_std_u_bench_sse2_shuffle_ok]). Qed.

Lemma bc2_std_u_bench_avx2_shuffle_ok : forall c, TSPEC c VNone sh_bc2_std_u (c_avx2 c && is_x86 c) any_n
  (fun P n m => bc2_std_u_bench_avx2_shuffle c (P (PI 0)) (P (PO 0)) (16 * n) m).
Proof. intros c. kstart bc2_std_u_bench_avx2_shuffle. kbench ltac:(first [kcall bc2_std_u_avx2_avx2_shuffle_x64_ok | kcall bc2_std_u_avx2_avx2_shuffle_i686_ok]). Qed.

Lemma bc2_bench_u_std_avx2_shuffle_ok : forall c, TSPEC c VNone sh_bc2_std_u (c_avx2 c && is_x86 c) any_n
  (fun P n m => bc2_bench_u_std_avx2_shuffle c (P (PI 0)) (P (PO 0)) (16 * n) m).
Proof. intros c. kstart bc2_bench_u_std_avx2_shuffle. kbench ltac:(first [kcall bc2_std_u_bench_avx2_shuffle_ok]). Qed.

Lemma bc2_std_u_bench_avx512_shuffle_ok : forall c, TSPEC c VNone sh_bc2_std_u (c_avx512f c && is_x86 c) any_n
  (fun P n m => bc2_std_u_bench_avx512_shuffle c (P (PI 0)) (P (PO 0)) (16 * n) m).
Proof. intros c. kstart bc2_std_u_bench_avx512_shuffle. kbench ltac:(first [kcall bc2_std_u_avx512_avx512_shuffle_ok]). Qed.

Lemma bc2_bench_u_std_avx512_shuffle_ok : forall c, TSPEC c VNone sh_bc2_std_u (c_avx512f c && is_x86 c) any_n
  (fun P n m => bc2_bench_u_std_avx512_shuffle c (P (PI 0)) (P (PO 0)) (16 * n) m).
Proof. intros c. kstart bc2_bench_u_std_avx512_shuffle. kbench ltac:(first [kcall bc2_std_u_bench_avx512_shuffle_ok]). Qed.
