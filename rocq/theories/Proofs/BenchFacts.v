(** What the functions of Model/Bench.v write. Written by tools/gen_bench.py. *)
From Verif Require Import Base.Bytes Base.Res Model.Color565 Model.Ycc Model.Kernel Model.KernelBench
  Model.GenBenchBc1 Model.GenBenchBc2 Model.GenBenchBc3 Model.GenSplit565 Model.GenBenchSplit565 Model.Bench
  Proofs.KernelCheck Proofs.KernelLoop Proofs.KernelFun Proofs.Shapes Spec.YCoCg Spec.Layout
  Proofs.LayoutFacts Proofs.ShapeLayout Proofs.Families Proofs.TransformFacts Proofs.Split565Facts
  Proofs.BenchRun Proofs.KBenchBc1 Proofs.KBenchBc2 Proofs.KBenchBc3 Proofs.KBenchSplit565.
From Coq Require Import ZifyBool ZifyNat.

Lemma bc1_bench_transforms_run : Forall (t_entry 8 (bc1_layout VNone false)) bc1_bench_transforms.
Proof.
  repeat (apply Forall_cons || apply Forall_nil); intros c K Hf; cbn [fst snd] in *.
  - exact (bc1_t_run0 c _ _ (bc1_bench_std_shufps_unroll_4_ok c) K Hf).
  - exact (bc1_t_run0 c _ _ (bc1_bench_std_shuffle_permute_unroll_2_ok c) K Hf).
  - exact (bc1_t_run0 c _ _ (bc1_bench_std_u32_ok c) K Hf).
  - exact (bc1_t_run0 c _ _ (bc1_bench_std_permute_512_ok c) K Hf).
  - exact (bc1_t_run0 c _ _ (bc1_bench_std_punpckhqdq_unroll_2_ok c) K Hf).
  - exact (bc1_t_run0 c _ _ (bc1_bench_std_punpckhqdq_unroll_4_ok c) K Hf).
  - exact (bc1_t_run0 c _ _ (bc1_bench_std_shufps_unroll_2_ok c) K Hf).
  - exact (bc1_t_run0 c _ _ (bc1_bench_std_gather_ok c) K Hf).
  - exact (bc1_t_run0 c _ _ (bc1_bench_std_permute_ok c) K Hf).
  - exact (bc1_t_run0 c _ _ (bc1_bench_std_permute_unroll_2_ok c) K Hf).
  - exact (bc1_t_run0 c _ _ (bc1_bench_std_shuffle_permute_ok c) K Hf).
  - exact (bc1_t_run0 c _ _ (bc1_bench_std_permute_512_unroll_2_ok c) K Hf).
  - exact (bc1_t_run0 c _ _ (bc1_bench_std_u32_unroll_2_ok c) K Hf).
  - exact (bc1_t_run0 c _ _ (bc1_bench_std_u32_unroll_4_ok c) K Hf).
  - exact (bc1_t_run0 c _ _ (bc1_bench_std_u32_unroll_8_ok c) K Hf).
  - exact (bc1_t_run0 c _ _ (bc1_bench_std_portable_ok c) K Hf).
  - exact (bc1_t_run0 c _ _ (bc1_bench_std_shift_ok c) K Hf).
  - exact (bc1_t_run0 c _ _ (bc1_bench_std_shift_unroll_2_ok c) K Hf).
  - exact (bc1_t_run0 c _ _ (bc1_bench_std_shift_with_count_ok c) K Hf).
  - exact (bc1_t_run0 c _ _ (bc1_bench_std_shift_with_count_unroll_2_ok c) K Hf).
  - exact (bc1_t_run0 c _ _ (bc1_bench_std_shift_with_count_unroll_4_ok c) K Hf).
  - exact (bc1_t_run0 c _ _ (bc1_bench_std_shift_with_count_unroll_8_ok c) K Hf).
Qed.
Lemma bc1_bench_untransforms_run : Forall (u_entry 8 (bc1_layout VNone false)) bc1_bench_untransforms.
Proof.
  repeat (apply Forall_cons || apply Forall_nil); intros c K Hf; cbn [fst snd] in *.
  - exact (bc1_u_run0 c _ _ (bc1_bench_u_std_u32_untransform_ok c) K Hf).
  - exact (bc1_u_run0 c _ _ (bc1_bench_u_std_unpck_untransform_unroll_2_ok c) K Hf).
  - exact (bc1_u_run0 c _ _ (bc1_bench_u_std_permd_untransform_unroll_2_ok c) K Hf).
  - exact (bc1_u_run0 c _ _ (bc1_bench_u_std_permute_512_untransform_unroll_2_ok c) K Hf).
  - exact (bc1_u_run0 c _ _ (bc1_bench_u_std_unpck_untransform_ok c) K Hf).
  - exact (bc1_u_run0 c _ _ (bc1_bench_u_std_unpck_untransform_unroll_4_ok c) K Hf).
  - exact (bc1_u_run0 c _ _ (bc1_bench_u_std_permd_untransform_ok c) K Hf).
  - exact (bc1_u_run0 c _ _ (bc1_bench_u_std_avx2_unpck_untransform_ok c) K Hf).
  - exact (bc1_u_run0 c _ _ (bc1_bench_u_std_avx2_unpck_untransform_unroll_2_ok c) K Hf).
  - exact (bc1_u_run0 c _ _ (bc1_bench_u_std_permute_512_untransform_unroll_2_intrinsics_ok c) K Hf).
  - exact (bc1_u_run0 c _ _ (bc1_bench_u_std_u32_untransform_unroll_2_ok c) K Hf).
  - exact (bc1_u_run0 c _ _ (bc1_bench_u_std_u32_untransform_unroll_4_ok c) K Hf).
  - exact (bc1_u_run0 c _ _ (bc1_bench_u_std_u32_untransform_unroll_8_ok c) K Hf).
Qed.
Lemma bc2_bench_transforms_run : Forall (t_entry 16 (bc2_layout VNone false)) bc2_bench_transforms.
Proof.
  repeat (apply Forall_cons || apply Forall_nil); intros c K Hf; cbn [fst snd] in *.
  - exact (bc2_t_run0 c _ _ (bc2_bench_std_u32_ok c) K Hf).
  - exact (bc2_t_run0 c _ _ (bc2_bench_std_u32_unroll_2_ok c) K Hf).
  - exact (bc2_t_run0 c _ _ (bc2_bench_std_u32_unroll_4_ok c) K Hf).
  - exact (bc2_t_run0 c _ _ (bc2_bench_std_avx2_shuffle_ok c) K Hf).
  - exact (bc2_t_run0 c _ _ (bc2_bench_std_sse2_shuffle_v2_ok c) K Hf).
  - exact (bc2_t_run0 c _ _ (bc2_bench_std_sse2_shuffle_v3_ok c) K Hf).
  - exact (bc2_t_run0 c _ _ (bc2_bench_std_shuffle_v1_ok c) K Hf).
  - exact (bc2_t_run0 c _ _ (bc2_bench_std_shuffle_v1_unroll_2_ok c) K Hf).
  - exact (bc2_t_run0 c _ _ (bc2_bench_std_permute_512_v2_ok c) K Hf).
  - exact (bc2_t_run0 c _ _ (bc2_bench_std_permute_512_ok c) K Hf).
Qed.
Lemma bc2_bench_untransforms_run : Forall (u_entry 16 (bc2_layout VNone false)) bc2_bench_untransforms.
Proof.
  repeat (apply Forall_cons || apply Forall_nil); intros c K Hf; cbn [fst snd] in *.
  - exact (bc2_u_run0 c _ _ (bc2_bench_u_std_u32_untransform_ok c) K Hf).
  - exact (bc2_u_run0 c _ _ (bc2_bench_u_std_sse2_shuffle_ok c) K Hf).
  - exact (bc2_u_run0 c _ _ (bc2_bench_u_std_avx2_shuffle_ok c) K Hf).
  - exact (bc2_u_run0 c _ _ (bc2_bench_u_std_avx512_shuffle_ok c) K Hf).
Qed.
Lemma bc3_bench_transforms_run : Forall (t_entry 16 (bc3_layout VNone false false)) bc3_bench_transforms.
Proof.
  repeat (apply Forall_cons || apply Forall_nil); intros c K Hf; cbn [fst snd] in *.
  - exact (bc3_t_run0 c _ _ (bc3_bench_std_u32_transform_ok c) K Hf).
  - exact (bc3_t_run0 c _ _ (bc3_bench_std_u32_avx2_transform_ok c) K Hf).
  - exact (bc3_t_run0 c _ _ (bc3_bench_std_u32_unroll_2_ok c) K Hf).
  - exact (bc3_t_run0 c _ _ (bc3_bench_std_avx512_vbmi_transform_ok c) K Hf).
Qed.
Lemma bc3_bench_untransforms_run : Forall (u_entry 16 (bc3_layout VNone false false)) bc3_bench_untransforms.
Proof.
  repeat (apply Forall_cons || apply Forall_nil); intros c K Hf; cbn [fst snd] in *.
  - exact (bc3_u_run0 c _ _ (bc3_bench_u_std_u32_untransform_ok c) K Hf).
  - exact (bc3_u_run0 c _ _ (bc3_bench_u_std_u32_untransform_v2_ok c) K Hf).
  - exact (bc3_u_run0 c _ _ (bc3_bench_u_std_u64_untransform_ok c) K Hf).
  - exact (bc3_u_run0 c _ _ (bc3_bench_u_std_u32_untransform_sse2_ok c) K Hf).
  - exact (bc3_u_run0 c _ _ (bc3_bench_u_std_u64_untransform_sse2_ok c) K Hf).
  - exact (bc3_u_run0 c _ _ (bc3_bench_u_std_avx512_untransform_ok c) K Hf).
  - exact (bc3_u_run0 c _ _ (bc3_bench_u_std_avx512_untransform_32_ok c) K Hf).
Qed.
Lemma split_bench_run : Forall split_entry split_bench.
Proof.
  repeat (apply Forall_cons || apply Forall_nil); intros c K Hf; cbn [fst snd] in *.
  - exact (split_run0 c _ _ _ (common_transforms_split_565_color_endpoints_bench_u32_ok c) K Hf).
  - exact (split_run0 c _ _ _ (common_transforms_split_565_color_endpoints_bench_u64_ok c) K Hf).
  - exact (split_run0 c _ _ _ (common_transforms_split_565_color_endpoints_bench_u64_unroll_2_ok c) K Hf).
  - exact (split_run0 c _ _ _ (common_transforms_split_565_color_endpoints_bench_u64_unroll_4_ok c) K Hf).
  - exact (split_run0 c _ _ _ (common_transforms_split_565_color_endpoints_bench_u64_unroll_8_ok c) K Hf).
  - exact (split_run0 c _ _ _ (common_transforms_split_565_color_endpoints_bench_u64_mix_ok c) K Hf).
  - exact (split_run0 c _ _ _ (common_transforms_split_565_color_endpoints_bench_u64_mix_unroll_2_ok c) K Hf).
  - exact (split_run0 c _ _ _ (common_transforms_split_565_color_endpoints_bench_u64_mix_unroll_4_ok c) K Hf).
  - exact (split_run0 c _ _ _ (common_transforms_split_565_color_endpoints_bench_u64_mix_unroll_8_ok c) K Hf).
  - exact (split_run0 c _ _ _ (common_transforms_split_565_color_endpoints_bench_sse2_shift_impl_ok c) K Hf).
  - exact (split_run0 c _ _ _ (common_transforms_split_565_color_endpoints_bench_sse2_shuf_impl_ok c) K Hf).
  - exact (split_run0 c _ _ _ (common_transforms_split_565_color_endpoints_bench_sse2_shuf_unroll2_impl_asm_ok c) K Hf).
  - exact (split_run0 c _ _ _ (common_transforms_split_565_color_endpoints_bench_sse2_shuf_unroll2_impl_ok c) K Hf).
  - exact (split_run0 c _ _ _ (common_transforms_split_565_color_endpoints_bench_ssse3_pshufb_unroll2_impl_ok c) K Hf).
  - exact (split_run0 c _ _ _ (common_transforms_split_565_color_endpoints_bench_ssse3_pshufb_unroll4_impl_ok c) K Hf).
  - exact (split_run0 c _ _ _ (common_transforms_split_565_color_endpoints_bench_avx2_shuf_impl_asm_ok c) K Hf).
  - exact (split_run0 c _ _ _ (common_transforms_split_565_color_endpoints_bench_avx2_shuf_impl_ok c) K Hf).
  - exact (split_run0 c _ _ _ (common_transforms_split_565_color_endpoints_bench_avx2_shuf_impl_unroll_2_ok c) K Hf).
  - exact (split_run0 c _ _ _ (common_transforms_split_565_color_endpoints_bench_avx512_impl_unroll2_ok c) K Hf).
  - exact (split_run0 c _ _ _ (common_transforms_split_565_color_endpoints_bench_avx512_impl_ok c) K Hf).
Qed.
