(** The public functions behind the [bench] feature that take the input, the output and
    the length in bytes: the name, the CPU features the function is compiled for, the function.
    src/core/dxt-lossless-transform-bc1/src/bench/mod.rs:9-349, src/core/dxt-lossless-transform-bc2/src/bench/mod.rs:9-110, src/core/dxt-lossless-transform-bc3/src/bench/mod.rs:10-212,
    src/core/dxt-lossless-transform-common/src/transforms/split_565_color_endpoints/bench/mod.rs:14-156. Written by tools/gen_bench.py. *)
From Verif Require Import Base.Bytes Base.Res Model.Color565 Model.Ycc Model.Kernel Model.KernelBench
  Model.GenBenchBc1 Model.GenBenchBc2 Model.GenBenchBc3 Model.GenSplit565 Model.GenBenchSplit565.

Open Scope string_scope.
Open Scope list_scope.
Open Scope Z_scope.

(** src/core/dxt-lossless-transform-bc1/src/bench/mod.rs:9-349 *)
Definition kernel := cfg -> ptr -> ptr -> Z -> mem -> res mem.
Definition bench_entry : Type := string * (cfg -> bool) * kernel.

Definition bc1_bench_transforms : list bench_entry :=
  [("shufps_unroll_4", (fun c => c_sse2 c), bc1_bench_std_shufps_unroll_4);
   ("shuffle_permute_unroll_2", (fun c => c_avx2 c), bc1_bench_std_shuffle_permute_unroll_2);
   ("u32", (fun c => true), bc1_bench_std_u32);
   ("permute_512", (fun c => c_avx512f c && c_sse2 c), bc1_bench_std_permute_512);
   ("punpckhqdq_unroll_2", (fun c => c_sse2 c), bc1_bench_std_punpckhqdq_unroll_2);
   ("punpckhqdq_unroll_4", (fun c => c_sse2 c), bc1_bench_std_punpckhqdq_unroll_4);
   ("shufps_unroll_2", (fun c => c_sse2 c), bc1_bench_std_shufps_unroll_2);
   ("gather", (fun c => c_avx2 c), bc1_bench_std_gather);
   ("permute", (fun c => c_avx2 c), bc1_bench_std_permute);
   ("permute_unroll_2", (fun c => c_avx2 c), bc1_bench_std_permute_unroll_2);
   ("shuffle_permute", (fun c => c_avx2 c), bc1_bench_std_shuffle_permute);
   ("permute_512_unroll_2", (fun c => c_avx512f c && c_sse2 c), bc1_bench_std_permute_512_unroll_2);
   ("u32_unroll_2", (fun c => true), bc1_bench_std_u32_unroll_2);
   ("u32_unroll_4", (fun c => true), bc1_bench_std_u32_unroll_4);
   ("u32_unroll_8", (fun c => true), bc1_bench_std_u32_unroll_8);
   ("portable", (fun c => true), bc1_bench_std_portable);
   ("shift", (fun c => true), bc1_bench_std_shift);
   ("shift_unroll_2", (fun c => true), bc1_bench_std_shift_unroll_2);
   ("shift_with_count", (fun c => true), bc1_bench_std_shift_with_count);
   ("shift_with_count_unroll_2", (fun c => true), bc1_bench_std_shift_with_count_unroll_2);
   ("shift_with_count_unroll_4", (fun c => true), bc1_bench_std_shift_with_count_unroll_4);
   ("shift_with_count_unroll_8", (fun c => true), bc1_bench_std_shift_with_count_unroll_8)].

Definition bc1_bench_untransforms : list bench_entry :=
  [("u32_untransform", (fun c => true), bc1_bench_u_std_u32_untransform);
   ("unpck_untransform_unroll_2", (fun c => c_sse2 c), bc1_bench_u_std_unpck_untransform_unroll_2);
   ("permd_untransform_unroll_2", (fun c => c_avx2 c), bc1_bench_u_std_permd_untransform_unroll_2);
   ("permute_512_untransform_unroll_2", (fun c => c_avx512f c && c_sse2 c), bc1_bench_u_std_permute_512_untransform_unroll_2);
   ("unpck_untransform", (fun c => c_sse2 c), bc1_bench_u_std_unpck_untransform);
   ("unpck_untransform_unroll_4", (fun c => c_sse2 c), bc1_bench_u_std_unpck_untransform_unroll_4);
   ("permd_untransform", (fun c => c_avx2 c), bc1_bench_u_std_permd_untransform);
   ("avx2_unpck_untransform", (fun c => c_avx2 c), bc1_bench_u_std_avx2_unpck_untransform);
   ("avx2_unpck_untransform_unroll_2", (fun c => c_avx2 c), bc1_bench_u_std_avx2_unpck_untransform_unroll_2);
   ("permute_512_untransform_unroll_2_intrinsics", (fun c => c_avx512f c && c_sse2 c), bc1_bench_u_std_permute_512_untransform_unroll_2_intrinsics);
   ("u32_untransform_unroll_2", (fun c => true), bc1_bench_u_std_u32_untransform_unroll_2);
   ("u32_untransform_unroll_4", (fun c => true), bc1_bench_u_std_u32_untransform_unroll_4);
   ("u32_untransform_unroll_8", (fun c => true), bc1_bench_u_std_u32_untransform_unroll_8)].

Definition bc2_bench_transforms : list bench_entry :=
  [("u32", (fun c => true), bc2_bench_std_u32);
   ("u32_unroll_2", (fun c => true), bc2_bench_std_u32_unroll_2);
   ("u32_unroll_4", (fun c => true), bc2_bench_std_u32_unroll_4);
   ("avx2_shuffle", (fun c => c_avx2 c), bc2_bench_std_avx2_shuffle);
   ("sse2_shuffle_v2", (fun c => c_sse2 c), bc2_bench_std_sse2_shuffle_v2);
   ("sse2_shuffle_v3", (fun c => c_sse2 c), bc2_bench_std_sse2_shuffle_v3);
   ("shuffle_v1", (fun c => c_sse2 c), bc2_bench_std_shuffle_v1);
   ("shuffle_v1_unroll_2", (fun c => c_sse2 c), bc2_bench_std_shuffle_v1_unroll_2);
   ("permute_512_v2", (fun c => c_avx512f c && c_sse2 c), bc2_bench_std_permute_512_v2);
   ("permute_512", (fun c => c_avx512f c && c_sse2 c), bc2_bench_std_permute_512)].

Definition bc2_bench_untransforms : list bench_entry :=
  [("u32_untransform", (fun c => true), bc2_bench_u_std_u32_untransform);
   ("sse2_shuffle", (fun c => c_sse2 c), bc2_bench_u_std_sse2_shuffle);
   ("avx2_shuffle", (fun c => c_avx2 c && is_x86 c), bc2_bench_u_std_avx2_shuffle);
   ("avx512_shuffle", (fun c => c_avx512f c && is_x86 c), bc2_bench_u_std_avx512_shuffle)].

Definition bc3_bench_transforms : list bench_entry :=
  [("u32_transform", (fun c => true), bc3_bench_std_u32_transform);
   ("u32_avx2_transform", (fun c => c_avx2 c && is_x86 c), bc3_bench_std_u32_avx2_transform);
   ("u32_unroll_2", (fun c => true), bc3_bench_std_u32_unroll_2);
   ("avx512_vbmi_transform", (fun c => c_avx2 c && c_avx512f c && c_avx512vbmi c && c_sse2 c), bc3_bench_std_avx512_vbmi_transform)].

Definition bc3_bench_untransforms : list bench_entry :=
  [("u32_untransform", (fun c => true), bc3_bench_u_std_u32_untransform);
   ("u32_untransform_v2", (fun c => true), bc3_bench_u_std_u32_untransform_v2);
   ("u64_untransform", (fun c => true), bc3_bench_u_std_u64_untransform);
   ("u32_untransform_sse2", (fun c => c_sse2 c), bc3_bench_u_std_u32_untransform_sse2);
   ("u64_untransform_sse2", (fun c => c_sse2 c), bc3_bench_u_std_u64_untransform_sse2);
   ("avx512_untransform", (fun c => c_avx512f c && c_avx512vbmi c), bc3_bench_u_std_avx512_untransform);
   ("avx512_untransform_32", (fun c => c_avx2 c && c_avx512f c && c_avx512vbmi c && c_sse2 c), bc3_bench_u_std_avx512_untransform_32)].

(** The endpoint splitters also ask for a least number of bytes.
    src/core/dxt-lossless-transform-common/src/transforms/split_565_color_endpoints/bench/mod.rs:14-156 *)
Definition split_bench : list (string * (cfg -> bool) * Z * kernel) :=
  [("u32", (fun c => true), 0, common_transforms_split_565_color_endpoints_bench_u32);
   ("u64", (fun c => true), 8, common_transforms_split_565_color_endpoints_bench_u64);
   ("u64_unroll_2", (fun c => true), 16, common_transforms_split_565_color_endpoints_bench_u64_unroll_2);
   ("u64_unroll_4", (fun c => true), 32, common_transforms_split_565_color_endpoints_bench_u64_unroll_4);
   ("u64_unroll_8", (fun c => true), 64, common_transforms_split_565_color_endpoints_bench_u64_unroll_8);
   ("u64_mix", (fun c => true), 8, common_transforms_split_565_color_endpoints_bench_u64_mix);
   ("u64_mix_unroll_2", (fun c => true), 16, common_transforms_split_565_color_endpoints_bench_u64_mix_unroll_2);
   ("u64_mix_unroll_4", (fun c => true), 32, common_transforms_split_565_color_endpoints_bench_u64_mix_unroll_4);
   ("u64_mix_unroll_8", (fun c => true), 64, common_transforms_split_565_color_endpoints_bench_u64_mix_unroll_8);
   ("sse2_shift_impl", (fun c => c_sse2 c), 16, common_transforms_split_565_color_endpoints_bench_sse2_shift_impl);
   ("sse2_shuf_impl", (fun c => c_sse2 c), 32, common_transforms_split_565_color_endpoints_bench_sse2_shuf_impl);
   ("sse2_shuf_unroll2_impl_asm", (fun c => c_sse2 c), 64, common_transforms_split_565_color_endpoints_bench_sse2_shuf_unroll2_impl_asm);
   ("sse2_shuf_unroll2_impl", (fun c => c_sse2 c), 64, common_transforms_split_565_color_endpoints_bench_sse2_shuf_unroll2_impl);
   ("ssse3_pshufb_unroll2_impl", (fun c => c_sse2 c && c_ssse3 c), 32, common_transforms_split_565_color_endpoints_bench_ssse3_pshufb_unroll2_impl);
   ("ssse3_pshufb_unroll4_impl", (fun c => c_sse2 c && c_ssse3 c), 64, common_transforms_split_565_color_endpoints_bench_ssse3_pshufb_unroll4_impl);
   ("avx2_shuf_impl_asm", (fun c => c_avx2 c), 64, common_transforms_split_565_color_endpoints_bench_avx2_shuf_impl_asm);
   ("avx2_shuf_impl", (fun c => c_avx2 c), 64, common_transforms_split_565_color_endpoints_bench_avx2_shuf_impl);
   ("avx2_shuf_impl_unroll_2", (fun c => c_avx2 c), 128, common_transforms_split_565_color_endpoints_bench_avx2_shuf_impl_unroll_2);
   ("avx512_impl_unroll2", (fun c => c_avx512f c && c_avx512vbmi c), 0, common_transforms_split_565_color_endpoints_bench_avx512_impl_unroll2);
   ("avx512_impl", (fun c => c_avx512f c && c_avx512vbmi c), 0, common_transforms_split_565_color_endpoints_bench_avx512_impl)].
