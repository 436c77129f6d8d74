From Verif Require Import Base.Bytes Base.Res Model.Color565 Model.Ycc Model.Kernel Model.KernelBench
  Model.GenBc1Std Model.GenBenchBc1
  Proofs.KernelCheck Proofs.KernelLoop Proofs.KernelFun Proofs.Shapes Proofs.KernelBenchFun Proofs.KBc1Std.
From Coq Require Import ZifyBool ZifyNat.

Lemma bc1_std_t_bench_avx2_permute_ok : forall c, TSPEC c VNone sh_bc1_std_t (c_avx2 c) any_n
  (fun P n m => bc1_std_t_bench_avx2_permute c (P (PI 0)) (P (PO 0)) (8 * n) m).
Proof. intros c. kstart bc1_std_t_bench_avx2_permute. kbench ltac:(first [kcall bc1_std_t_portable32_u32_with_separate_pointers_ok]). Qed.

Lemma bc1_std_t_bench_avx2_permute_unroll_2_ok : forall c, TSPEC c VNone sh_bc1_std_t (c_avx2 c) any_n
  (fun P n m => bc1_std_t_bench_avx2_permute_unroll_2 c (P (PI 0)) (P (PO 0)) (8 * n) m).
Proof. intros c. kstart bc1_std_t_bench_avx2_permute_unroll_2. kbench ltac:(first [kcall bc1_std_t_portable32_u32_with_separate_pointers_ok]). Qed.

Lemma bc1_std_t_bench_avx2_gather_ok : forall c, TSPEC c VNone sh_bc1_std_t (c_avx2 c) any_n
  (fun P n m => bc1_std_t_bench_avx2_gather c (P (PI 0)) (P (PO 0)) (8 * n) m).
Proof. intros c. kstart bc1_std_t_bench_avx2_gather. kbench ltac:(first [kcall bc1_std_t_portable32_u32_with_separate_pointers_ok]). Qed.

Lemma bc1_std_t_bench_avx2_shuffle_permute_ok : forall c, TSPEC c VNone sh_bc1_std_t (c_avx2 c) any_n
  (fun P n m => bc1_std_t_bench_avx2_shuffle_permute c (P (PI 0)) (P (PO 0)) (8 * n) m).
Proof. intros c. kstart bc1_std_t_bench_avx2_shuffle_permute. kbench ltac:(first [kcall bc1_std_t_portable32_u32_with_separate_pointers_ok]). Qed.

Lemma bc1_std_t_bench_avx512f_permute_512_unroll_2_with_separate_pointers_ok : forall c, SPEC c VNone sh_bc1_std_t (c_avx512f c && c_sse2 c) any_n
  (fun P n m => bc1_std_t_bench_avx512f_permute_512_unroll_2_with_separate_pointers c (P (PI 0)) (P (PO 0)) (P (PO 1)) (8 * n) m).
Proof. intros c. kstart bc1_std_t_bench_avx512f_permute_512_unroll_2_with_separate_pointers. kbench ltac:(first [kcall bc1_std_t_portable32_u32_with_separate_pointers_ok]). Qed.

Lemma bc1_std_t_bench_avx512f_permute_512_unroll_2_ok : forall c, TSPEC c VNone sh_bc1_std_t (c_avx512f c && c_sse2 c) any_n
  (fun P n m => bc1_std_t_bench_avx512f_permute_512_unroll_2 c (P (PI 0)) (P (PO 0)) (8 * n) m).
Proof. intros c. kstart bc1_std_t_bench_avx512f_permute_512_unroll_2. kbench ltac:(first [kcall bc1_std_t_bench_avx512f_permute_512_unroll_2_with_separate_pointers_ok]). Qed.

Lemma bc1_std_t_bench_shufps_unroll_4_ok : forall c, TSPEC c VNone sh_bc1_std_t (c_sse2 c) any_n
  (fun P n m => bc1_std_t_bench_shufps_unroll_4 c (P (PI 0)) (P (PO 0)) (8 * n) m).
Proof. intros c. kstart bc1_std_t_bench_shufps_unroll_4. kbench ltac:(first [kcall bc1_std_t_sse2_shufps_unroll_4_ok]). Qed.

Lemma bc1_std_t_bench_shuffle_permute_unroll_2_ok : forall c, TSPEC c VNone sh_bc1_std_t (c_avx2 c) any_n
  (fun P n m => bc1_std_t_bench_shuffle_permute_unroll_2 c (P (PI 0)) (P (PO 0)) (8 * n) m).
Proof. intros c. kstart bc1_std_t_bench_shuffle_permute_unroll_2. kbench ltac:(first [kcall bc1_std_t_avx2_shuffle_permute_unroll_2_ok]). Qed.

Lemma bc1_std_t_bench_u32_ok : forall c, TSPEC c VNone sh_bc1_std_t (true) any_n
  (fun P n m => bc1_std_t_bench_u32 c (P (PI 0)) (P (PO 0)) (8 * n) m).
Proof. intros c. kstart bc1_std_t_bench_u32. kbench ltac:(first [kcall bc1_std_t_portable32_u32_ok]). Qed.

Lemma bc1_std_t_bench_permute_512_ok : forall c, TSPEC c VNone sh_bc1_std_t (c_avx512f c && c_sse2 c) any_n
  (fun P n m => bc1_std_t_bench_permute_512 c (P (PI 0)) (P (PO 0)) (8 * n) m).
Proof. intros c. kstart bc1_std_t_bench_permute_512. kbench ltac:(first [kcall bc1_std_t_avx512f_permute_512_ok]). Qed.

Lemma bc1_std_t_bench_portable32_u32_unroll_2_ok : forall c, TSPEC c VNone sh_bc1_std_t (true) any_n
  (fun P n m => bc1_std_t_bench_portable32_u32_unroll_2 c (P (PI 0)) (P (PO 0)) (8 * n) m).
Proof. intros c. kstart bc1_std_t_bench_portable32_u32_unroll_2. kbench ltac:(fail). Qed.

Lemma bc1_std_t_bench_portable32_u32_unroll_4_ok : forall c, TSPEC c VNone sh_bc1_std_t (true) any_n
  (fun P n m => bc1_std_t_bench_portable32_u32_unroll_4 c (P (PI 0)) (P (PO 0)) (8 * n) m).
Proof. intros c. kstart bc1_std_t_bench_portable32_u32_unroll_4. kbench ltac:(fail). Qed.

Lemma bc1_std_t_bench_portable32_u32_unroll_8_ok : forall c, TSPEC c VNone sh_bc1_std_t (true) any_n
  (fun P n m => bc1_std_t_bench_portable32_u32_unroll_8 c (P (PI 0)) (P (PO 0)) (8 * n) m).
Proof. intros c. kstart bc1_std_t_bench_portable32_u32_unroll_8. kbench ltac:(fail). Qed.

Lemma bc1_std_t_bench_portable64_shift_ok : forall c, TSPEC c VNone sh_bc1_std_t (true) any_n
  (fun P n m => bc1_std_t_bench_portable64_shift c (P (PI 0)) (P (PO 0)) (8 * n) m).
Proof. intros c. kstart bc1_std_t_bench_portable64_shift. kbench ltac:(fail). Qed.

Lemma bc1_std_t_bench_portable64_portable_ok : forall c, TSPEC c VNone sh_bc1_std_t (true) any_n
  (fun P n m => bc1_std_t_bench_portable64_portable c (P (PI 0)) (P (PO 0)) (8 * n) m).
Proof. intros c. kstart bc1_std_t_bench_portable64_portable. kbench ltac:(first [kcall bc1_std_t_bench_portable64_shift_ok]). Qed.

Lemma bc1_std_t_bench_portable64_shift_unroll_2_ok : forall c, TSPEC c VNone sh_bc1_std_t (true) any_n
  (fun P n m => bc1_std_t_bench_portable64_shift_unroll_2 c (P (PI 0)) (P (PO 0)) (8 * n) m).
Proof. intros c. kstart bc1_std_t_bench_portable64_shift_unroll_2. kbench ltac:(fail). Qed.

Lemma bc1_std_t_bench_portable64_shift_with_count_ok : forall c, TSPEC c VNone sh_bc1_std_t (true) any_n
  (fun P n m => bc1_std_t_bench_portable64_shift_with_count c (P (PI 0)) (P (PO 0)) (8 * n) m).
Proof. intros c. kstart bc1_std_t_bench_portable64_shift_with_count. kbench ltac:(fail). Qed.

Lemma bc1_std_t_bench_portable64_shift_with_count_unroll_2_ok : forall c, TSPEC c VNone sh_bc1_std_t (true) any_n
  (fun P n m => bc1_std_t_bench_portable64_shift_with_count_unroll_2 c (P (PI 0)) (P (PO 0)) (8 * n) m).
Proof. intros c. kstart bc1_std_t_bench_portable64_shift_with_count_unroll_2. kbench ltac:(fail). Qed.

Lemma bc1_std_t_bench_portable64_shift_with_count_unroll_4_ok : forall c, TSPEC c VNone sh_bc1_std_t (true) any_n
  (fun P n m => bc1_std_t_bench_portable64_shift_with_count_unroll_4 c (P (PI 0)) (P (PO 0)) (8 * n) m).
Proof. intros c. kstart bc1_std_t_bench_portable64_shift_with_count_unroll_4. kbench ltac:(fail). Qed.

Lemma bc1_std_t_bench_portable64_shift_with_count_unroll_8_ok : forall c, TSPEC c VNone sh_bc1_std_t (true) any_n
  (fun P n m => bc1_std_t_bench_portable64_shift_with_count_unroll_8 c (P (PI 0)) (P (PO 0)) (8 * n) m).
Proof. intros c. kstart bc1_std_t_bench_portable64_shift_with_count_unroll_8. kbench ltac:(fail). Qed.

Lemma bc1_std_t_bench_sse2_punpckhqdq_unroll_4_ok : forall c, TSPEC c VNone sh_bc1_std_t (c_sse2 c) any_n
  (fun P n m => bc1_std_t_bench_sse2_punpckhqdq_unroll_4 c (P (PI 0)) (P (PO 0)) (8 * n) m).
Proof. intros c. kstart bc1_std_t_bench_sse2_punpckhqdq_unroll_4. kbench ltac:(first [kcall bc1_std_t_portable32_u32_with_separate_pointers_ok]). Qed.

Lemma bc1_std_t_bench_sse2_punpckhqdq_unroll_2_ok : forall c, TSPEC c VNone sh_bc1_std_t (c_sse2 c) any_n
  (fun P n m => bc1_std_t_bench_sse2_punpckhqdq_unroll_2 c (P (PI 0)) (P (PO 0)) (8 * n) m).
Proof. intros c. kstart bc1_std_t_bench_sse2_punpckhqdq_unroll_2. kbench ltac:(first [kcall bc1_std_t_portable32_u32_with_separate_pointers_ok]). Qed.

Lemma bc1_std_t_bench_sse2_shufps_unroll_2_ok : forall c, TSPEC c VNone sh_bc1_std_t (c_sse2 c) any_n
  (fun P n m => bc1_std_t_bench_sse2_shufps_unroll_2 c (P (PI 0)) (P (PO 0)) (8 * n) m).
Proof. intros c. kstart bc1_std_t_bench_sse2_shufps_unroll_2. kbench ltac:(first [kcall bc1_std_t_portable32_u32_with_separate_pointers_ok]). Qed.

Lemma bc1_std_u_bench_avx2_permd_untransform_ok : forall c, TSPEC c VNone sh_bc1_std_u (c_avx2 c) any_n
  (fun P n m => bc1_std_u_bench_avx2_permd_untransform c (P (PI 0)) (P (PO 0)) (8 * n) m).
Proof. intros c. kstart bc1_std_u_bench_avx2_permd_untransform. kbench ltac:(first [kcall bc1_std_u_portable32_u32_untransform_with_separate_pointers_ok]). Qed.

Lemma bc1_std_u_bench_avx2_unpck_untransform_ok : forall c, TSPEC c VNone sh_bc1_std_u (c_avx2 c) any_n
  (fun P n m => bc1_std_u_bench_avx2_unpck_untransform c (P (PI 0)) (P (PO 0)) (8 * n) m).
Proof. intros c. kstart bc1_std_u_bench_avx2_unpck_untransform. kbench ltac:(first [kcall bc1_std_u_portable32_u32_untransform_with_separate_pointers_ok]). Qed.

Lemma bc1_std_u_bench_avx2_unpck_untransform_unroll_2_ok : forall c, TSPEC c VNone sh_bc1_std_u (c_avx2 c) any_n
  (fun P n m => bc1_std_u_bench_avx2_unpck_untransform_unroll_2 c (P (PI 0)) (P (PO 0)) (8 * n) m).
Proof. intros c. kstart bc1_std_u_bench_avx2_unpck_untransform_unroll_2. kbench ltac:(first [kcall bc1_std_u_portable32_u32_untransform_with_separate_pointers_ok]). Qed.

Lemma bc1_std_u_bench_avx512f_permute_512_untransform_unroll_2_with_components_intrinsics_ok : forall c, SPEC c VNone sh_bc1_std_u (c_avx512f c && c_sse2 c) any_n
  (fun P n m => bc1_std_u_bench_avx512f_permute_512_untransform_unroll_2_with_components_intrinsics c (P (PO 0)) (8 * n) (P (PI 1)) (P (PI 0)) m).
Proof. intros c. kstart bc1_std_u_bench_avx512f_permute_512_untransform_unroll_2_with_components_intrinsics. kbench ltac:(first [kcall bc1_std_u_portable32_u32_untransform_with_separate_pointers_ok]). Qed.

Lemma bc1_std_u_bench_avx512f_permute_512_untransform_unroll_2_intrinsics_ok : forall c, TSPEC c VNone sh_bc1_std_u (c_avx512f c && c_sse2 c) any_n
  (fun P n m => bc1_std_u_bench_avx512f_permute_512_untransform_unroll_2_intrinsics c (P (PI 0)) (P (PO 0)) (8 * n) m).
Proof. intros c. kstart bc1_std_u_bench_avx512f_permute_512_untransform_unroll_2_intrinsics. kbench ltac:(first [kcall bc1_std_u_bench_avx512f_permute_512_untransform_unroll_2_with_components_intrinsics_ok]). Qed.

Lemma bc1_std_u_bench_u32_untransform_ok : forall c, TSPEC c VNone sh_bc1_std_u (true) any_n
  (fun P n m => bc1_std_u_bench_u32_untransform c (P (PI 0)) (P (PO 0)) (8 * n) m).
Proof. intros c. kstart bc1_std_u_bench_u32_untransform. kbench ltac:(first [kcall bc1_std_u_portable32_u32_untransform_ok]). Qed.

Lemma bc1_std_u_bench_unpck_untransform_unroll_2_ok : forall c, TSPEC c VNone sh_bc1_std_u (c_sse2 c) any_n
  (fun P n m => bc1_std_u_bench_unpck_untransform_unroll_2 c (P (PI 0)) (P (PO 0)) (8 * n) m).
Proof. intros c. kstart bc1_std_u_bench_unpck_untransform_unroll_2. kbench ltac:(first [kcall bc1_std_u_sse2_unpck_untransform_unroll_2_ok]). Qed.

Lemma bc1_std_u_bench_permd_untransform_unroll_2_ok : forall c, TSPEC c VNone sh_bc1_std_u (c_avx2 c) any_n
  (fun P n m => bc1_std_u_bench_permd_untransform_unroll_2 c (P (PI 0)) (P (PO 0)) (8 * n) m).
Proof. intros c. kstart bc1_std_u_bench_permd_untransform_unroll_2. kbench ltac:(first [kcall bc1_std_u_avx2_permd_untransform_unroll_2_ok]). Qed.

Lemma bc1_std_u_bench_permute_512_untransform_unroll_2_ok : forall c, TSPEC c VNone sh_bc1_std_u (c_avx512f c && c_sse2 c) any_n
  (fun P n m => bc1_std_u_bench_permute_512_untransform_unroll_2 c (P (PI 0)) (P (PO 0)) (8 * n) m).
Proof. intros c. kstart bc1_std_u_bench_permute_512_untransform_unroll_2. kbench ltac:(first [kcall bc1_std_u_avx512f_permute_512_untransform_unroll_2_ok]). Qed.

Lemma bc1_std_u_bench_portable32_u32_untransform_unroll_2_ok : forall c, TSPEC c VNone sh_bc1_std_u (true) any_n
  (fun P n m => bc1_std_u_bench_portable32_u32_untransform_unroll_2 c (P (PI 0)) (P (PO 0)) (8 * n) m).
Proof. intros c. kstart bc1_std_u_bench_portable32_u32_untransform_unroll_2. kbench ltac:(fail). Qed.

Lemma bc1_std_u_bench_portable32_u32_untransform_unroll_4_ok : forall c, TSPEC c VNone sh_bc1_std_u (true) any_n
  (fun P n m => bc1_std_u_bench_portable32_u32_untransform_unroll_4 c (P (PI 0)) (P (PO 0)) (8 * n) m).
Proof. intros c. kstart bc1_std_u_bench_portable32_u32_untransform_unroll_4. kbench ltac:(fail). Qed.

Lemma bc1_std_u_bench_portable32_u32_untransform_unroll_8_ok : forall c, TSPEC c VNone sh_bc1_std_u (true) any_n
  (fun P n m => bc1_std_u_bench_portable32_u32_untransform_unroll_8 c (P (PI 0)) (P (PO 0)) (8 * n) m).
Proof. intros c. kstart bc1_std_u_bench_portable32_u32_untransform_unroll_8. kbench ltac:(fail). Qed.

Lemma bc1_std_u_bench_sse2_unpck_untransform_ok : forall c, TSPEC c VNone sh_bc1_std_u (c_sse2 c) any_n
  (fun P n m => bc1_std_u_bench_sse2_unpck_untransform c (P (PI 0)) (P (PO 0)) (8 * n) m).
Proof. intros c. kstart bc1_std_u_bench_sse2_unpck_untransform. kbench ltac:(first [kcall bc1_std_u_portable32_u32_untransform_with_separate_pointers_ok]). Qed.

Lemma bc1_std_u_bench_sse2_unpck_untransform_unroll_4_ok : forall c, TSPEC c VNone sh_bc1_std_u (c_sse2 c) any_n
  (fun P n m => bc1_std_u_bench_sse2_unpck_untransform_unroll_4 c (P (PI 0)) (P (PO 0)) (8 * n) m).
Proof. intros c. kstart bc1_std_u_bench_sse2_unpck_untransform_unroll_4. kbench ltac:(first [kcall bc1_std_u_portable32_u32_untransform_with_separate_pointers_ok]). Qed.

Lemma bc1_bench_std_shufps_unroll_4_ok : forall c, TSPEC c VNone sh_bc1_std_t (c_sse2 c) any_n
  (fun P n m => bc1_bench_std_shufps_unroll_4 c (P (PI 0)) (P (PO 0)) (8 * n) m).
Proof. intros c. kstart bc1_bench_std_shufps_unroll_4. kbench ltac:(first [kcall bc1_std_t_bench_shufps_unroll_4_ok]). Qed.

Lemma bc1_bench_std_shuffle_permute_unroll_2_ok : forall c, TSPEC c VNone sh_bc1_std_t (c_avx2 c) any_n
  (fun P n m => bc1_bench_std_shuffle_permute_unroll_2 c (P (PI 0)) (P (PO 0)) (8 * n) m).
Proof. intros c. kstart bc1_bench_std_shuffle_permute_unroll_2. kbench ltac:(first [kcall bc1_std_t_bench_shuffle_permute_unroll_2_ok]). Qed.

Lemma bc1_bench_std_u32_ok : forall c, TSPEC c VNone sh_bc1_std_t (true) any_n
  (fun P n m => bc1_bench_std_u32 c (P (PI 0)) (P (PO 0)) (8 * n) m).
Proof. intros c. kstart bc1_bench_std_u32. kbench ltac:(first [kcall bc1_std_t_bench_u32_ok]). Qed.

Lemma bc1_bench_std_permute_512_ok : forall c, TSPEC c VNone sh_bc1_std_t (c_avx512f c && c_sse2 c) any_n
  (fun P n m => bc1_bench_std_permute_512 c (P (PI 0)) (P (PO 0)) (8 * n) m).
Proof. intros c. kstart bc1_bench_std_permute_512. kbench ltac:(first [kcall bc1_std_t_bench_permute_512_ok]). Qed.

Lemma bc1_bench_std_punpckhqdq_unroll_2_ok : forall c, TSPEC c VNone sh_bc1_std_t (c_sse2 c) any_n
  (fun P n m => bc1_bench_std_punpckhqdq_unroll_2 c (P (PI 0)) (P (PO 0)) (8 * n) m).
Proof. intros c. kstart bc1_bench_std_punpckhqdq_unroll_2. kbench ltac:(first [kcall bc1_std_t_bench_sse2_punpckhqdq_unroll_2_ok]). Qed.

Lemma bc1_bench_std_punpckhqdq_unroll_4_ok : forall c, TSPEC c VNone sh_bc1_std_t (c_sse2 c) any_n
  (fun P n m => bc1_bench_std_punpckhqdq_unroll_4 c (P (PI 0)) (P (PO 0)) (8 * n) m).
Proof. intros c. kstart bc1_bench_std_punpckhqdq_unroll_4. kbench ltac:(first [kcall bc1_std_t_bench_sse2_punpckhqdq_unroll_4_ok]). Qed.

Lemma bc1_bench_std_shufps_unroll_2_ok : forall c, TSPEC c VNone sh_bc1_std_t (c_sse2 c) any_n
  (fun P n m => bc1_bench_std_shufps_unroll_2 c (P (PI 0)) (P (PO 0)) (8 * n) m).
Proof. intros c. kstart bc1_bench_std_shufps_unroll_2. kbench ltac:(first [kcall bc1_std_t_bench_sse2_shufps_unroll_2_ok]). Qed.

Lemma bc1_bench_std_gather_ok : forall c, TSPEC c VNone sh_bc1_std_t (c_avx2 c) any_n
  (fun P n m => bc1_bench_std_gather c (P (PI 0)) (P (PO 0)) (8 * n) m).
Proof. intros c. kstart bc1_bench_std_gather. kbench ltac:(first [kcall bc1_std_t_bench_avx2_gather_ok]). Qed.

Lemma bc1_bench_std_permute_ok : forall c, TSPEC c VNone sh_bc1_std_t (c_avx2 c) any_n
  (fun P n m => bc1_bench_std_permute c (P (PI 0)) (P (PO 0)) (8 * n) m).
Proof. intros c. kstart bc1_bench_std_permute. kbench ltac:(first [kcall bc1_std_t_bench_avx2_permute_ok]). Qed.

Lemma bc1_bench_std_permute_unroll_2_ok : forall c, TSPEC c VNone sh_bc1_std_t (c_avx2 c) any_n
  (fun P n m => bc1_bench_std_permute_unroll_2 c (P (PI 0)) (P (PO 0)) (8 * n) m).
Proof. intros c. kstart bc1_bench_std_permute_unroll_2. kbench ltac:(first [kcall bc1_std_t_bench_avx2_permute_unroll_2_ok]). Qed.

Lemma bc1_bench_std_shuffle_permute_ok : forall c, TSPEC c VNone sh_bc1_std_t (c_avx2 c) any_n
  (fun P n m => bc1_bench_std_shuffle_permute c (P (PI 0)) (P (PO 0)) (8 * n) m).
Proof. intros c. kstart bc1_bench_std_shuffle_permute. kbench ltac:(first [kcall bc1_std_t_bench_avx2_shuffle_permute_ok]). Qed.

Lemma bc1_bench_std_permute_512_unroll_2_ok : forall c, TSPEC c VNone sh_bc1_std_t (c_avx512f c && c_sse2 c) any_n
  (fun P n m => bc1_bench_std_permute_512_unroll_2 c (P (PI 0)) (P (PO 0)) (8 * n) m).
Proof. intros c. kstart bc1_bench_std_permute_512_unroll_2. kbench ltac:(first [kcall bc1_std_t_bench_avx512f_permute_512_unroll_2_ok]). Qed.

Lemma bc1_bench_std_permute_512_unroll_2_with_separate_pointers_ok : forall c, SPEC c VNone sh_bc1_std_t (c_avx512f c && c_sse2 c) any_n
  (fun P n m => bc1_bench_std_permute_512_unroll_2_with_separate_pointers c (P (PI 0)) (P (PO 0)) (P (PO 1)) (8 * n) m).
Proof. intros c. kstart bc1_bench_std_permute_512_unroll_2_with_separate_pointers. kbench ltac:(first [kcall bc1_std_t_bench_avx512f_permute_512_unroll_2_with_separate_pointers_ok]). Qed.

Lemma bc1_bench_std_u32_unroll_2_ok : forall c, TSPEC c VNone sh_bc1_std_t (true) any_n
  (fun P n m => bc1_bench_std_u32_unroll_2 c (P (PI 0)) (P (PO 0)) (8 * n) m).
Proof. intros c. kstart bc1_bench_std_u32_unroll_2. kbench ltac:(first [kcall bc1_std_t_bench_portable32_u32_unroll_2_ok]). Qed.

Lemma bc1_bench_std_u32_unroll_4_ok : forall c, TSPEC c VNone sh_bc1_std_t (true) any_n
  (fun P n m => bc1_bench_std_u32_unroll_4 c (P (PI 0)) (P (PO 0)) (8 * n) m).
Proof. intros c. kstart bc1_bench_std_u32_unroll_4. kbench ltac:(first [kcall bc1_std_t_bench_portable32_u32_unroll_4_ok]). Qed.

Lemma bc1_bench_std_u32_unroll_8_ok : forall c, TSPEC c VNone sh_bc1_std_t (true) any_n
  (fun P n m => bc1_bench_std_u32_unroll_8 c (P (PI 0)) (P (PO 0)) (8 * n) m).
Proof. intros c. kstart bc1_bench_std_u32_unroll_8. kbench ltac:(first [kcall bc1_std_t_bench_portable32_u32_unroll_8_ok]). Qed.

Lemma bc1_bench_std_portable_ok : forall c, TSPEC c VNone sh_bc1_std_t (true) any_n
  (fun P n m => bc1_bench_std_portable c (P (PI 0)) (P (PO 0)) (8 * n) m).
Proof. intros c. kstart bc1_bench_std_portable. kbench ltac:(first [kcall bc1_std_t_bench_portable64_portable_ok]). Qed.

Lemma bc1_bench_std_shift_ok : forall c, TSPEC c VNone sh_bc1_std_t (true) any_n
  (fun P n m => bc1_bench_std_shift c (P (PI 0)) (P (PO 0)) (8 * n) m).
Proof. intros c. kstart bc1_bench_std_shift. kbench ltac:(first [kcall bc1_std_t_bench_portable64_shift_ok]). Qed.

Lemma bc1_bench_std_shift_unroll_2_ok : forall c, TSPEC c VNone sh_bc1_std_t (true) any_n
  (fun P n m => bc1_bench_std_shift_unroll_2 c (P (PI 0)) (P (PO 0)) (8 * n) m).
Proof. intros c. kstart bc1_bench_std_shift_unroll_2. kbench ltac:(first [kcall bc1_std_t_bench_portable64_shift_unroll_2_ok]). Qed.

Lemma bc1_bench_std_shift_with_count_ok : forall c, TSPEC c VNone sh_bc1_std_t (true) any_n
  (fun P n m => bc1_bench_std_shift_with_count c (P (PI 0)) (P (PO 0)) (8 * n) m).
Proof. intros c. kstart bc1_bench_std_shift_with_count. kbench ltac:(first [kcall bc1_std_t_bench_portable64_shift_with_count_ok]). Qed.

Lemma bc1_bench_std_shift_with_count_unroll_2_ok : forall c, TSPEC c VNone sh_bc1_std_t (true) any_n
  (fun P n m => bc1_bench_std_shift_with_count_unroll_2 c (P (PI 0)) (P (PO 0)) (8 * n) m).
Proof. intros c. kstart bc1_bench_std_shift_with_count_unroll_2. kbench ltac:(first [kcall bc1_std_t_bench_portable64_shift_with_count_unroll_2_ok]). Qed.

Lemma bc1_bench_std_shift_with_count_unroll_4_ok : forall c, TSPEC c VNone sh_bc1_std_t (true) any_n
  (fun P n m => bc1_bench_std_shift_with_count_unroll_4 c (P (PI 0)) (P (PO 0)) (8 * n) m).
Proof. intros c. kstart bc1_bench_std_shift_with_count_unroll_4. kbench ltac:(first [kcall bc1_std_t_bench_portable64_shift_with_count_unroll_4_ok]). Qed.

Lemma bc1_bench_std_shift_with_count_unroll_8_ok : forall c, TSPEC c VNone sh_bc1_std_t (true) any_n
  (fun P n m => bc1_bench_std_shift_with_count_unroll_8 c (P (PI 0)) (P (PO 0)) (8 * n) m).
Proof. intros c. kstart bc1_bench_std_shift_with_count_unroll_8. kbench ltac:(first [kcall bc1_std_t_bench_portable64_shift_with_count_unroll_8_ok]). Qed.

Lemma bc1_bench_u_std_u32_untransform_ok : forall c, TSPEC c VNone sh_bc1_std_u (true) any_n
  (fun P n m => bc1_bench_u_std_u32_untransform c (P (PI 0)) (P (PO 0)) (8 * n) m).
Proof. intros c. kstart bc1_bench_u_std_u32_untransform. kbench ltac:(first [kcall bc1_std_u_bench_u32_untransform_ok]). Qed.

Lemma bc1_bench_u_std_unpck_untransform_unroll_2_ok : forall c, TSPEC c VNone sh_bc1_std_u (c_sse2 c) any_n
  (fun P n m => bc1_bench_u_std_unpck_untransform_unroll_2 c (P (PI 0)) (P (PO 0)) (8 * n) m).
Proof. intros c. kstart bc1_bench_u_std_unpck_untransform_unroll_2. kbench ltac:(first [kcall bc1_std_u_bench_unpck_untransform_unroll_2_ok]). Qed.

Lemma bc1_bench_u_std_permd_untransform_unroll_2_ok : forall c, TSPEC c VNone sh_bc1_std_u (c_avx2 c) any_n
  (fun P n m => bc1_bench_u_std_permd_untransform_unroll_2 c (P (PI 0)) (P (PO 0)) (8 * n) m).
Proof. intros c. kstart bc1_bench_u_std_permd_untransform_unroll_2. kbench ltac:(first [kcall bc1_std_u_bench_permd_untransform_unroll_2_ok]). Qed.

Lemma bc1_bench_u_std_permute_512_untransform_unroll_2_ok : forall c, TSPEC c VNone sh_bc1_std_u (c_avx512f c && c_sse2 c) any_n
  (fun P n m => bc1_bench_u_std_permute_512_untransform_unroll_2 c (P (PI 0)) (P (PO 0)) (8 * n) m).
Proof. intros c. kstart bc1_bench_u_std_permute_512_untransform_unroll_2. kbench ltac:(first [kcall bc1_std_u_bench_permute_512_untransform_unroll_2_ok]). Qed.

Lemma bc1_bench_u_std_unpck_untransform_ok : forall c, TSPEC c VNone sh_bc1_std_u (c_sse2 c) any_n
  (fun P n m => bc1_bench_u_std_unpck_untransform c (P (PI 0)) (P (PO 0)) (8 * n) m).
Proof. intros c. kstart bc1_bench_u_std_unpck_untransform. kbench ltac:(first [kcall bc1_std_u_bench_sse2_unpck_untransform_ok]). Qed.

Lemma bc1_bench_u_std_unpck_untransform_unroll_4_ok : forall c, TSPEC c VNone sh_bc1_std_u (c_sse2 c) any_n
  (fun P n m => bc1_bench_u_std_unpck_untransform_unroll_4 c (P (PI 0)) (P (PO 0)) (8 * n) m).
Proof. intros c. kstart bc1_bench_u_std_unpck_untransform_unroll_4. kbench ltac:(first [kcall bc1_std_u_bench_sse2_unpck_untransform_unroll_4_ok]). Qed.

Lemma bc1_bench_u_std_permd_untransform_ok : forall c, TSPEC c VNone sh_bc1_std_u (c_avx2 c) any_n
  (fun P n m => bc1_bench_u_std_permd_untransform c (P (PI 0)) (P (PO 0)) (8 * n) m).
Proof. intros c. kstart bc1_bench_u_std_permd_untransform. kbench ltac:(first [kcall bc1_std_u_bench_avx2_permd_untransform_ok]). Qed.

Lemma bc1_bench_u_std_avx2_unpck_untransform_ok : forall c, TSPEC c VNone sh_bc1_std_u (c_avx2 c) any_n
  (fun P n m => bc1_bench_u_std_avx2_unpck_untransform c (P (PI 0)) (P (PO 0)) (8 * n) m).
Proof. intros c. kstart bc1_bench_u_std_avx2_unpck_untransform. kbench ltac:(first [kcall bc1_std_u_bench_avx2_unpck_untransform_ok]). Qed.

Lemma bc1_bench_u_std_avx2_unpck_untransform_unroll_2_ok : forall c, TSPEC c VNone sh_bc1_std_u (c_avx2 c) any_n
  (fun P n m => bc1_bench_u_std_avx2_unpck_untransform_unroll_2 c (P (PI 0)) (P (PO 0)) (8 * n) m).
Proof. intros c. kstart bc1_bench_u_std_avx2_unpck_untransform_unroll_2. kbench ltac:(first [kcall bc1_std_u_bench_avx2_unpck_untransform_unroll_2_ok]). Qed.

Lemma bc1_bench_u_std_permute_512_untransform_unroll_2_intrinsics_ok : forall c, TSPEC c VNone sh_bc1_std_u (c_avx512f c && c_sse2 c) any_n
  (fun P n m => bc1_bench_u_std_permute_512_untransform_unroll_2_intrinsics c (P (PI 0)) (P (PO 0)) (8 * n) m).
Proof. intros c. kstart bc1_bench_u_std_permute_512_untransform_unroll_2_intrinsics. kbench ltac:(first [kcall bc1_std_u_bench_avx512f_permute_512_untransform_unroll_2_intrinsics_ok]). Qed.

Lemma bc1_bench_u_std_permute_512_untransform_unroll_2_with_components_intrinsics_ok : forall c, SPEC c VNone sh_bc1_std_u (c_avx512f c && c_sse2 c) any_n
  (fun P n m => bc1_bench_u_std_permute_512_untransform_unroll_2_with_components_intrinsics c (P (PO 0)) (8 * n) (P (PI 1)) (P (PI 0)) m).
Proof. intros c. kstart bc1_bench_u_std_permute_512_untransform_unroll_2_with_components_intrinsics. kbench ltac:(first [kcall bc1_std_u_bench_avx512f_permute_512_untransform_unroll_2_with_components_intrinsics_ok]). Qed.

Lemma bc1_bench_u_std_u32_untransform_unroll_2_ok : forall c, TSPEC c VNone sh_bc1_std_u (true) any_n
  (fun P n m => bc1_bench_u_std_u32_untransform_unroll_2 c (P (PI 0)) (P (PO 0)) (8 * n) m).
Proof. intros c. kstart bc1_bench_u_std_u32_untransform_unroll_2. kbench ltac:(first [kcall bc1_std_u_bench_portable32_u32_untransform_unroll_2_ok]). Qed.

Lemma bc1_bench_u_std_u32_untransform_unroll_4_ok : forall c, TSPEC c VNone sh_bc1_std_u (true) any_n
  (fun P n m => bc1_bench_u_std_u32_untransform_unroll_4 c (P (PI 0)) (P (PO 0)) (8 * n) m).
Proof. intros c. kstart bc1_bench_u_std_u32_untransform_unroll_4. kbench ltac:(first [kcall bc1_std_u_bench_portable32_u32_untransform_unroll_4_ok]). Qed.

Lemma bc1_bench_u_std_u32_untransform_unroll_8_ok : forall c, TSPEC c VNone sh_bc1_std_u (true) any_n
  (fun P n m => bc1_bench_u_std_u32_untransform_unroll_8 c (P (PI 0)) (P (PO 0)) (8 * n) m).
Proof. intros c. kstart bc1_bench_u_std_u32_untransform_unroll_8. kbench ltac:(first [kcall bc1_std_u_bench_portable32_u32_untransform_unroll_8_ok]). Qed.
