(** Generated by tools/rs2v.py from the kernel sources cited below; do not edit.
    Simplifications: usize arithmetic is exact (lengths are below isize::MAX), see
    Model/Kernel.v for the machine. *)
From Verif Require Import Base.Bytes Base.Res Model.Color565 Model.Ycc Model.Kernel Model.KernelBench Model.GenBc3Std Model.GenBc3Sa.
Open Scope string_scope.
Open Scope list_scope.
Open Scope Z_scope.

(** src/core/dxt-lossless-transform-bc3/src/transform/standard/transform/bench/mod.rs:7-9, fn u32_transform *)
Definition bc3_std_t_bench_u32_transform (c : cfg) (input_ptr : ptr) (output_ptr : ptr) (len : Z) (m : mem) : res mem :=
  do m <- bc3_std_t_portable32_u32 c input_ptr output_ptr len m ;;
  Ok m.

(** src/core/dxt-lossless-transform-bc3/src/transform/standard/transform/bench/mod.rs:12-14, fn u32_avx2_transform *)
Definition bc3_std_t_bench_u32_avx2_transform (c : cfg) (input_ptr : ptr) (output_ptr : ptr) (len : Z) (m : mem) : res mem :=
  do m <- bc3_std_t_avx2_u32_avx2 c input_ptr output_ptr len m ;;
  Ok m.

(** src/core/dxt-lossless-transform-bc3/src/transform/standard/transform/bench/mod.rs:17-19, fn avx512_vbmi_transform *)
Definition bc3_std_t_bench_avx512_vbmi_transform (c : cfg) (input_ptr : ptr) (output_ptr : ptr) (len : Z) (m : mem) : res mem :=
  do m <- bc3_std_t_avx512vbmi_avx512_vbmi c input_ptr output_ptr len m ;;
  Ok m.

(** Loop at src/core/dxt-lossless-transform-bc3/src/transform/standard/transform/bench/portable32.rs:17. *)
Definition bc3_std_t_bench_portable32_u32_unroll_2_loop1 : list instr :=
  [ILoad "alpha_bytes1" "current_input_ptr" 0 2;
    ILoad "alpha_bits1_a" "current_input_ptr" 2 2;
    ILoad "alpha_bits1_b" "current_input_ptr" 4 4;
    ILoad "color_bytes1" "current_input_ptr" 8 4;
    ILoad "index_bytes1" "current_input_ptr" 12 4;
    ILoad "alpha_bytes2" "current_input_ptr" 16 2;
    ILoad "alpha_bits2_a" "current_input_ptr" 18 2;
    ILoad "alpha_bits2_b" "current_input_ptr" 20 4;
    ILoad "color_bytes2" "current_input_ptr" 24 4;
    ILoad "index_bytes2" "current_input_ptr" 28 4;
    IStore "alpha_byte_out_ptr" 0 2 "alpha_bytes1";
    IStore "alpha_bit_out_ptr" 0 2 "alpha_bits1_a";
    IStore "alpha_bit_out_ptr" 2 4 "alpha_bits1_b";
    IStore "color_byte_out_ptr" 0 4 "color_bytes1";
    IStore "index_byte_out_ptr" 0 4 "index_bytes1";
    IStore "alpha_byte_out_ptr" 2 2 "alpha_bytes2";
    IStore "alpha_bit_out_ptr" 6 2 "alpha_bits2_a";
    IStore "alpha_bit_out_ptr" 8 4 "alpha_bits2_b";
    IStore "color_byte_out_ptr" 4 4 "color_bytes2";
    IStore "index_byte_out_ptr" 4 4 "index_bytes2";
    IAdd "alpha_byte_out_ptr" 4;
    IAdd "alpha_bit_out_ptr" 12;
    IAdd "color_byte_out_ptr" 8;
    IAdd "index_byte_out_ptr" 8;
    IAdd "current_input_ptr" 32].

(** src/core/dxt-lossless-transform-bc3/src/transform/standard/transform/bench/portable32.rs:6-64, fn u32_unroll_2 *)
Definition bc3_std_t_bench_portable32_u32_unroll_2 (c : cfg) (input_ptr : ptr) (output_ptr : ptr) (len : Z) (m : mem) : res mem :=
  do _ <- debug_assert (c_debug c) (len mod 16 =? 0) "len . is_multiple_of ( 16 )" ;;
  let alpha_byte_out_ptr := output_ptr in
  do alpha_bit_out_ptr <- ptr_add m output_ptr ((len / 16) * 2) ;;
  do color_byte_out_ptr <- ptr_add m output_ptr ((len / 16) * 8) ;;
  do index_byte_out_ptr <- ptr_add m output_ptr ((len / 16) * 12) ;;
  let current_input_ptr := input_ptr in
  do alpha_byte_end_ptr <- ptr_add m output_ptr (Z.max 0 ((len / 16) * 2 - 16)) ;;
  do s <- while_lt (c_junk c) 0 bc3_std_t_bench_portable32_u32_unroll_2_loop1 "alpha_byte_out_ptr" alpha_byte_end_ptr (St [] [("current_input_ptr", current_input_ptr); ("alpha_byte_out_ptr", alpha_byte_out_ptr); ("alpha_bit_out_ptr", alpha_bit_out_ptr); ("color_byte_out_ptr", color_byte_out_ptr); ("index_byte_out_ptr", index_byte_out_ptr)] m) ;;
  let m := mm s in
  do current_input_ptr <- getp s "current_input_ptr" ;;
  do alpha_byte_out_ptr <- getp s "alpha_byte_out_ptr" ;;
  do alpha_bit_out_ptr <- getp s "alpha_bit_out_ptr" ;;
  do color_byte_out_ptr <- getp s "color_byte_out_ptr" ;;
  do index_byte_out_ptr <- getp s "index_byte_out_ptr" ;;
  do alpha_byte_end_ptr <- ptr_add m output_ptr ((len / 16) * 2) ;;
  do m <- bc3_std_t_portable32_u32_with_separate_endpoints c current_input_ptr alpha_byte_out_ptr alpha_bit_out_ptr color_byte_out_ptr index_byte_out_ptr alpha_byte_end_ptr m ;;
  Ok m.

(** src/core/dxt-lossless-transform-bc3/src/transform/standard/untransform/bench/portable.rs:8-26, fn u32_untransform *)
Definition bc3_std_u_bench_portable_u32_untransform (c : cfg) (input_ptr : ptr) (output_ptr : ptr) (len : Z) (m : mem) : res mem :=
  do _ <- debug_assert (c_debug c) (len mod 16 =? 0) "len . is_multiple_of ( 16 )" ;;
  let alpha_byte_in_ptr := input_ptr in
  do alpha_bit_in_ptr <- ptr_add m input_ptr ((len / 16) * 2) ;;
  do color_byte_in_ptr <- ptr_add m input_ptr ((len / 16) * 8) ;;
  do index_byte_in_ptr <- ptr_add m input_ptr ((len / 16) * 12) ;;
  let current_output_ptr := output_ptr in
  do m <- bc3_std_u_portable32_u32_untransform_with_separate_pointers c alpha_byte_in_ptr alpha_bit_in_ptr color_byte_in_ptr index_byte_in_ptr current_output_ptr len m ;;
  Ok m.

(** src/core/dxt-lossless-transform-bc3/src/transform/standard/untransform/bench/mod.rs:10-12, fn u32_untransform *)
Definition bc3_std_u_bench_u32_untransform (c : cfg) (input_ptr : ptr) (output_ptr : ptr) (len : Z) (m : mem) : res mem :=
  do m <- bc3_std_u_bench_portable_u32_untransform c input_ptr output_ptr len m ;;
  Ok m.

(** src/core/dxt-lossless-transform-bc3/src/transform/standard/untransform/bench/mod.rs:14-16, fn u32_untransform_v2 *)
Definition bc3_std_u_bench_u32_untransform_v2 (c : cfg) (input_ptr : ptr) (output_ptr : ptr) (len : Z) (m : mem) : res mem :=
  do m <- bc3_std_u_portable32_u32_untransform_v2 c input_ptr output_ptr len m ;;
  Ok m.

(** Loop at src/core/dxt-lossless-transform-bc3/src/transform/standard/untransform/bench/portable.rs:49. *)
Definition bc3_std_u_bench_portable_u64_untransform_loop1 : list instr :=
  [ILoad "alpha_bytes" "alpha_byte_in_ptr" 0 4;
    ILoad "color_bytes" "color_byte_in_ptr" 0 8;
    ILoad "index_bytes" "index_byte_in_ptr" 0 8;
    IAdd "alpha_byte_in_ptr" 4;
    IAdd "color_byte_in_ptr" 8;
    IAdd "index_byte_in_ptr" 8;
    IOp "t1" (OBytes 0 2) ["alpha_bytes"];
    IStore "current_output_ptr" 0 2 "t1";
    IOp "t2" (OShr 2) ["alpha_bytes"];
    IOp "t3" (OBytes 0 2) ["t2"];
    IStore "current_output_ptr" 16 2 "t3";
    ILoad "t4" "alpha_bit_in_ptr" 0 2;
    IStore "current_output_ptr" 2 2 "t4";
    ILoad "t5" "alpha_bit_in_ptr" 2 4;
    IStore "current_output_ptr" 4 4 "t5";
    ILoad "t6" "alpha_bit_in_ptr" 6 2;
    IStore "current_output_ptr" 18 2 "t6";
    ILoad "t7" "alpha_bit_in_ptr" 8 4;
    IStore "current_output_ptr" 20 4 "t7";
    IAdd "alpha_bit_in_ptr" 12;
    IOp "t8" (OConst [xff; xff; xff; xff; x00; x00; x00; x00]) [];
    IOp "t9" (OAnd) ["color_bytes"; "t8"];
    IOp "t10" (OConst [xff; xff; xff; xff; x00; x00; x00; x00]) [];
    IOp "t11" (OAnd) ["index_bytes"; "t10"];
    IOp "t12" (OShl 4) ["t11"];
    IOp "color_index_bytes_0" (OOr) ["t9"; "t12"];
    IOp "t13" (OShr 4) ["color_bytes"];
    IOp "t14" (OShr 4) ["index_bytes"];
    IOp "t15" (OShl 4) ["t14"];
    IOp "color_index_bytes_1" (OOr) ["t13"; "t15"];
    IStore "current_output_ptr" 8 8 "color_index_bytes_0";
    IStore "current_output_ptr" 24 8 "color_index_bytes_1";
    IAdd "current_output_ptr" 32].

(** src/core/dxt-lossless-transform-bc3/src/transform/standard/untransform/bench/portable.rs:33-113, fn u64_untransform *)
Definition bc3_std_u_bench_portable_u64_untransform (c : cfg) (input_ptr : ptr) (output_ptr : ptr) (len : Z) (m : mem) : res mem :=
  do _ <- debug_assert (c_debug c) (len mod 16 =? 0) "len . is_multiple_of ( 16 )" ;;
  do aligned_len <- usub len (len mod 32) ;;
  let alpha_byte_in_ptr := input_ptr in
  do alpha_bit_in_ptr <- ptr_add m input_ptr ((len / 16) * 2) ;;
  do color_byte_in_ptr <- ptr_add m input_ptr ((len / 16) * 8) ;;
  do index_byte_in_ptr <- ptr_add m input_ptr ((len / 16) * 12) ;;
  let current_output_ptr := output_ptr in
  do (alpha_bit_in_ptr, alpha_byte_in_ptr, color_byte_in_ptr, current_output_ptr, index_byte_in_ptr, m) <- (
    if (0 <? aligned_len) then
      do alpha_byte_aligned_end_ptr <- ptr_add m input_ptr ((aligned_len / 16) * 2) ;;
      do s <- while_lt (c_junk c) 0 bc3_std_u_bench_portable_u64_untransform_loop1 "alpha_byte_in_ptr" alpha_byte_aligned_end_ptr (St [] [("alpha_byte_in_ptr", alpha_byte_in_ptr); ("color_byte_in_ptr", color_byte_in_ptr); ("index_byte_in_ptr", index_byte_in_ptr); ("current_output_ptr", current_output_ptr); ("alpha_bit_in_ptr", alpha_bit_in_ptr)] m) ;;
      let m := mm s in
      do alpha_byte_in_ptr <- getp s "alpha_byte_in_ptr" ;;
      do color_byte_in_ptr <- getp s "color_byte_in_ptr" ;;
      do index_byte_in_ptr <- getp s "index_byte_in_ptr" ;;
      do current_output_ptr <- getp s "current_output_ptr" ;;
      do alpha_bit_in_ptr <- getp s "alpha_bit_in_ptr" ;;
      Ok (alpha_bit_in_ptr, alpha_byte_in_ptr, color_byte_in_ptr, current_output_ptr, index_byte_in_ptr, m)
    else
      Ok (alpha_bit_in_ptr, alpha_byte_in_ptr, color_byte_in_ptr, current_output_ptr, index_byte_in_ptr, m)
  ) ;;
  do d6 <- usub len aligned_len ;;
  do m <- bc3_std_u_portable32_u32_untransform_with_separate_pointers c alpha_byte_in_ptr alpha_bit_in_ptr color_byte_in_ptr index_byte_in_ptr current_output_ptr d6 m ;;
  Ok m.

(** src/core/dxt-lossless-transform-bc3/src/transform/standard/untransform/bench/mod.rs:18-20, fn u64_untransform *)
Definition bc3_std_u_bench_u64_untransform (c : cfg) (input_ptr : ptr) (output_ptr : ptr) (len : Z) (m : mem) : res mem :=
  do m <- bc3_std_u_bench_portable_u64_untransform c input_ptr output_ptr len m ;;
  Ok m.

(** src/core/dxt-lossless-transform-bc3/src/transform/standard/untransform/bench/mod.rs:23-25, fn u32_untransform_sse2 *)
Definition bc3_std_u_bench_u32_untransform_sse2 (c : cfg) (input_ptr : ptr) (output_ptr : ptr) (len : Z) (m : mem) : res mem :=
  do m <- bc3_std_u_sse2_32_u32_untransform_sse2 c input_ptr output_ptr len m ;;
  Ok m.

(** src/core/dxt-lossless-transform-bc3/src/transform/standard/untransform/bench/mod.rs:28-30, fn u64_untransform_sse2 *)
Definition bc3_std_u_bench_u64_untransform_sse2 (c : cfg) (input_ptr : ptr) (output_ptr : ptr) (len : Z) (m : mem) : res mem :=
  do m <- bc3_std_u_sse2_64_u64_untransform_sse2 c input_ptr output_ptr len m ;;
  Ok m.

(** src/core/dxt-lossless-transform-bc3/src/transform/standard/untransform/bench/mod.rs:33-35, fn avx512_untransform *)
Definition bc3_std_u_bench_avx512_untransform (c : cfg) (input_ptr : ptr) (output_ptr : ptr) (len : Z) (m : mem) : res mem :=
  do m <- bc3_std_u_avx512vbmi_64_avx512_untransform c input_ptr output_ptr len m ;;
  Ok m.

(** src/core/dxt-lossless-transform-bc3/src/transform/standard/untransform/bench/mod.rs:38-40, fn avx512_untransform_32 *)
Definition bc3_std_u_bench_avx512_untransform_32 (c : cfg) (input_ptr : ptr) (output_ptr : ptr) (len : Z) (m : mem) : res mem :=
  do m <- bc3_std_u_avx512vbmi_32_avx512_untransform_32 c input_ptr output_ptr len m ;;
  Ok m.

(** src/core/dxt-lossless-transform-bc3/src/bench/mod.rs:18-20, fn u32_transform *)
Definition bc3_bench_std_u32_transform (c : cfg) (input_ptr : ptr) (output_ptr : ptr) (len : Z) (m : mem) : res mem :=
  do m <- bc3_std_t_bench_u32_transform c input_ptr output_ptr len m ;;
  Ok m.

(** src/core/dxt-lossless-transform-bc3/src/bench/mod.rs:23-27, fn u32_avx2_transform *)
Definition bc3_bench_std_u32_avx2_transform (c : cfg) (input_ptr : ptr) (output_ptr : ptr) (len : Z) (m : mem) : res mem :=
  do m <- bc3_std_t_bench_u32_avx2_transform c input_ptr output_ptr len m ;;
  Ok m.

(** src/core/dxt-lossless-transform-bc3/src/bench/mod.rs:29-33, fn u32_unroll_2 *)
Definition bc3_bench_std_u32_unroll_2 (c : cfg) (input_ptr : ptr) (output_ptr : ptr) (len : Z) (m : mem) : res mem :=
  do m <- bc3_std_t_bench_portable32_u32_unroll_2 c input_ptr output_ptr len m ;;
  Ok m.

(** src/core/dxt-lossless-transform-bc3/src/bench/mod.rs:36-40, fn avx512_vbmi_transform *)
Definition bc3_bench_std_avx512_vbmi_transform (c : cfg) (input_ptr : ptr) (output_ptr : ptr) (len : Z) (m : mem) : res mem :=
  do m <- bc3_std_t_bench_avx512_vbmi_transform c input_ptr output_ptr len m ;;
  Ok m.

(** src/core/dxt-lossless-transform-bc3/src/bench/mod.rs:46-64, fn generic_transform_with_split_alphas *)
Definition bc3_bench_sa_generic_transform_with_split_alphas (c : cfg) (input_ptr : ptr) (alpha0_out : ptr) (alpha1_out : ptr) (alpha_indices_out : ptr) (colors_out : ptr) (color_indices_out : ptr) (block_count : Z) (m : mem) : res mem :=
  do m <- bc3_sa_t_generic_transform_with_split_alphas c input_ptr alpha0_out alpha1_out alpha_indices_out colors_out color_indices_out block_count m ;;
  Ok m.

(** src/core/dxt-lossless-transform-bc3/src/bench/mod.rs:67-85, fn avx2_transform_with_split_alphas *)
Definition bc3_bench_sa_avx2_transform_with_split_alphas (c : cfg) (input_ptr : ptr) (alpha0_out : ptr) (alpha1_out : ptr) (alpha_indices_out : ptr) (colors_out : ptr) (color_indices_out : ptr) (block_count : Z) (m : mem) : res mem :=
  do m <- bc3_sa_t_avx2_transform_with_split_alphas c input_ptr alpha0_out alpha1_out alpha_indices_out colors_out color_indices_out block_count m ;;
  Ok m.

(** src/core/dxt-lossless-transform-bc3/src/bench/mod.rs:88-106, fn avx512_transform_with_split_alphas *)
Definition bc3_bench_sa_avx512_transform_with_split_alphas (c : cfg) (input_ptr : ptr) (alpha0_out : ptr) (alpha1_out : ptr) (alpha_indices_out : ptr) (colors_out : ptr) (color_indices_out : ptr) (block_count : Z) (m : mem) : res mem :=
  do m <- bc3_sa_t_avx512vbmi_transform_with_split_alphas c input_ptr alpha0_out alpha1_out alpha_indices_out colors_out color_indices_out block_count m ;;
  Ok m.

(** src/core/dxt-lossless-transform-bc3/src/bench/mod.rs:118-122, fn u32_untransform *)
Definition bc3_bench_u_std_u32_untransform (c : cfg) (input_ptr : ptr) (output_ptr : ptr) (len : Z) (m : mem) : res mem :=
  do m <- bc3_std_u_bench_u32_untransform c input_ptr output_ptr len m ;;
  Ok m.

(** src/core/dxt-lossless-transform-bc3/src/bench/mod.rs:124-128, fn u32_untransform_v2 *)
Definition bc3_bench_u_std_u32_untransform_v2 (c : cfg) (input_ptr : ptr) (output_ptr : ptr) (len : Z) (m : mem) : res mem :=
  do m <- bc3_std_u_bench_u32_untransform_v2 c input_ptr output_ptr len m ;;
  Ok m.

(** src/core/dxt-lossless-transform-bc3/src/bench/mod.rs:130-134, fn u64_untransform *)
Definition bc3_bench_u_std_u64_untransform (c : cfg) (input_ptr : ptr) (output_ptr : ptr) (len : Z) (m : mem) : res mem :=
  do m <- bc3_std_u_bench_u64_untransform c input_ptr output_ptr len m ;;
  Ok m.

(** src/core/dxt-lossless-transform-bc3/src/bench/mod.rs:138-142, fn u32_untransform_sse2 *)
Definition bc3_bench_u_std_u32_untransform_sse2 (c : cfg) (input_ptr : ptr) (output_ptr : ptr) (len : Z) (m : mem) : res mem :=
  do m <- bc3_std_u_bench_u32_untransform_sse2 c input_ptr output_ptr len m ;;
  Ok m.

(** src/core/dxt-lossless-transform-bc3/src/bench/mod.rs:145-149, fn u64_untransform_sse2 *)
Definition bc3_bench_u_std_u64_untransform_sse2 (c : cfg) (input_ptr : ptr) (output_ptr : ptr) (len : Z) (m : mem) : res mem :=
  do m <- bc3_std_u_bench_u64_untransform_sse2 c input_ptr output_ptr len m ;;
  Ok m.

(** src/core/dxt-lossless-transform-bc3/src/bench/mod.rs:153-157, fn avx512_untransform *)
Definition bc3_bench_u_std_avx512_untransform (c : cfg) (input_ptr : ptr) (output_ptr : ptr) (len : Z) (m : mem) : res mem :=
  do m <- bc3_std_u_bench_avx512_untransform c input_ptr output_ptr len m ;;
  Ok m.

(** src/core/dxt-lossless-transform-bc3/src/bench/mod.rs:160-164, fn avx512_untransform_32 *)
Definition bc3_bench_u_std_avx512_untransform_32 (c : cfg) (input_ptr : ptr) (output_ptr : ptr) (len : Z) (m : mem) : res mem :=
  do m <- bc3_std_u_bench_avx512_untransform_32 c input_ptr output_ptr len m ;;
  Ok m.

(** src/core/dxt-lossless-transform-bc3/src/bench/mod.rs:170-188, fn generic_untransform_with_split_alphas *)
Definition bc3_bench_u_sa_generic_untransform_with_split_alphas (c : cfg) (alpha0_ptr : ptr) (alpha1_ptr : ptr) (alpha_indices_ptr : ptr) (colors_ptr : ptr) (color_indices_ptr : ptr) (output_ptr : ptr) (block_count : Z) (m : mem) : res mem :=
  do m <- bc3_sa_u_generic_untransform_with_split_alphas c alpha0_ptr alpha1_ptr alpha_indices_ptr colors_ptr color_indices_ptr output_ptr block_count m ;;
  Ok m.

(** src/core/dxt-lossless-transform-bc3/src/bench/mod.rs:191-209, fn sse2_untransform_with_split_alphas *)
Definition bc3_bench_u_sa_sse2_untransform_with_split_alphas (c : cfg) (alpha0_ptr : ptr) (alpha1_ptr : ptr) (alpha_indices_ptr : ptr) (colors_ptr : ptr) (color_indices_ptr : ptr) (output_ptr : ptr) (block_count : Z) (m : mem) : res mem :=
  do m <- bc3_sa_u_sse2_untransform_with_split_alphas_sse2 c alpha0_ptr alpha1_ptr alpha_indices_ptr colors_ptr color_indices_ptr output_ptr block_count m ;;
  Ok m.

