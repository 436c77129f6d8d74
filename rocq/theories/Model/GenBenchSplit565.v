(** Generated by tools/rs2v.py from the kernel sources cited below; do not edit.
    Simplifications: usize arithmetic is exact (lengths are below isize::MAX), see
    Model/Kernel.v for the machine. *)
From Verif Require Import Base.Bytes Base.Res Model.Color565 Model.Ycc Model.Kernel Model.KernelBench Model.GenSplit565.
Open Scope string_scope.
Open Scope list_scope.
Open Scope Z_scope.

(** Constants of the loop at src/core/dxt-lossless-transform-common/src/transforms/split_565_color_endpoints/bench/avx2.rs:66 *)
Definition common_transforms_split_565_color_endpoints_bench_avx2_avx2_shuf_impl_loop1_shuffle_mask : list byte := [x02; x03; x06; x07; x00; x01; x04; x05; x0a; x0b; x0e; x0f; x08; x09; x0c; x0d; x02; x03; x06; x07; x00; x01; x04; x05; x0a; x0b; x0e; x0f; x08; x09; x0c; x0d].

(** Loop at src/core/dxt-lossless-transform-common/src/transforms/split_565_color_endpoints/bench/avx2.rs:66. *)
Definition common_transforms_split_565_color_endpoints_bench_avx2_avx2_shuf_impl_loop1 : list instr :=
  [ILoad "chunk1" "input_ptr" 0 32;
    ILoad "chunk2" "input_ptr" 32 32;
    IOp "shuffled1" (OPshufb 2) ["chunk1"; "shuffle_mask"];
    IOp "shuffled2" (OPshufb 2) ["chunk2"; "shuffle_mask"];
    IOp "shuffled1_ps" (OMov) ["shuffled1"];
    IOp "shuffled2_ps" (OMov) ["shuffled2"];
    IOp "color0_combined" (OShufps 2 221) ["shuffled1_ps"; "shuffled2_ps"];
    IOp "color1_combined" (OShufps 2 136) ["shuffled1_ps"; "shuffled2_ps"];
    IOp "shuffled1_pd" (OMov) ["color0_combined"];
    IOp "shuffled2_pd" (OMov) ["color1_combined"];
    IOp "color0_rearranged" (OPermq 216) ["shuffled1_pd"];
    IOp "color1_rearranged" (OPermq 216) ["shuffled2_pd"];
    IStore "output_low" 0 32 "color0_rearranged";
    IStore "output_high" 0 32 "color1_rearranged";
    IAdd "input_ptr" 64;
    IAdd "output_low" 32;
    IAdd "output_high" 32].

(** src/core/dxt-lossless-transform-common/src/transforms/split_565_color_endpoints/bench/avx2.rs:27-104, fn avx2_shuf_impl *)
Definition common_transforms_split_565_color_endpoints_bench_avx2_avx2_shuf_impl (c : cfg) (colors : ptr) (colors_out : ptr) (colors_len_bytes : Z) (m : mem) : res mem :=
  do _ <- cpu_has (c_avx2 c) "avx2" ;;
  do _ <- debug_assert (c_debug c) ((4 <=? colors_len_bytes) && (colors_len_bytes mod 4 =? 0)) "colors_len_bytes >= 4 && colors_len_bytes . is_multiple_of (" ;;
  let input_ptr := colors in
  let output_low := colors_out in
  do output_high <- ptr_add m colors_out (colors_len_bytes / 2) ;;
  do end_ptr <- ptr_add m colors (colors_len_bytes) ;;
  do aligned_end_ptr <- ptr_add m end_ptr (- (64)) ;;
  do s <- while_lt (c_junk c) 0 common_transforms_split_565_color_endpoints_bench_avx2_avx2_shuf_impl_loop1 "input_ptr" aligned_end_ptr (St [("shuffle_mask", common_transforms_split_565_color_endpoints_bench_avx2_avx2_shuf_impl_loop1_shuffle_mask)] [("input_ptr", input_ptr); ("output_low", output_low); ("output_high", output_high)] m) ;;
  let m := mm s in
  do input_ptr <- getp s "input_ptr" ;;
  do output_low <- getp s "output_low" ;;
  do output_high <- getp s "output_high" ;;
  do m <- common_transforms_split_565_color_endpoints_portable32_u32_with_separate_endpoints c end_ptr input_ptr output_low output_high m ;;
  Ok m.

(** Constants of the loop at src/core/dxt-lossless-transform-common/src/transforms/split_565_color_endpoints/bench/avx2.rs:161 *)
Definition common_transforms_split_565_color_endpoints_bench_avx2_avx2_shuf_impl_unroll_2_loop1_shuffle_mask : list byte := [x02; x03; x06; x07; x00; x01; x04; x05; x0a; x0b; x0e; x0f; x08; x09; x0c; x0d; x02; x03; x06; x07; x00; x01; x04; x05; x0a; x0b; x0e; x0f; x08; x09; x0c; x0d].

(** Loop at src/core/dxt-lossless-transform-common/src/transforms/split_565_color_endpoints/bench/avx2.rs:161. *)
Definition common_transforms_split_565_color_endpoints_bench_avx2_avx2_shuf_impl_unroll_2_loop1 : list instr :=
  [ILoad "chunk1_a" "input_ptr" 0 32;
    ILoad "chunk2_a" "input_ptr" 32 32;
    IOp "shuffled1_a" (OPshufb 2) ["chunk1_a"; "shuffle_mask"];
    IOp "shuffled2_a" (OPshufb 2) ["chunk2_a"; "shuffle_mask"];
    IOp "shuffled1_ps_a" (OMov) ["shuffled1_a"];
    IOp "shuffled2_ps_a" (OMov) ["shuffled2_a"];
    IOp "color0_combined_a" (OShufps 2 221) ["shuffled1_ps_a"; "shuffled2_ps_a"];
    IOp "color1_combined_a" (OShufps 2 136) ["shuffled1_ps_a"; "shuffled2_ps_a"];
    IOp "shuffled1_pd_a" (OMov) ["color0_combined_a"];
    IOp "shuffled2_pd_a" (OMov) ["color1_combined_a"];
    IOp "color0_rearranged_a" (OPermq 216) ["shuffled1_pd_a"];
    IOp "color1_rearranged_a" (OPermq 216) ["shuffled2_pd_a"];
    ILoad "chunk1_b" "input_ptr" 64 32;
    ILoad "chunk2_b" "input_ptr" 96 32;
    IOp "shuffled1_b" (OPshufb 2) ["chunk1_b"; "shuffle_mask"];
    IOp "shuffled2_b" (OPshufb 2) ["chunk2_b"; "shuffle_mask"];
    IOp "shuffled1_ps_b" (OMov) ["shuffled1_b"];
    IOp "shuffled2_ps_b" (OMov) ["shuffled2_b"];
    IOp "color0_combined_b" (OShufps 2 221) ["shuffled1_ps_b"; "shuffled2_ps_b"];
    IOp "color1_combined_b" (OShufps 2 136) ["shuffled1_ps_b"; "shuffled2_ps_b"];
    IOp "shuffled1_pd_b" (OMov) ["color0_combined_b"];
    IOp "shuffled2_pd_b" (OMov) ["color1_combined_b"];
    IOp "color0_rearranged_b" (OPermq 216) ["shuffled1_pd_b"];
    IOp "color1_rearranged_b" (OPermq 216) ["shuffled2_pd_b"];
    IStore "output_low" 0 32 "color0_rearranged_a";
    IStore "output_low" 32 32 "color0_rearranged_b";
    IStore "output_high" 0 32 "color1_rearranged_a";
    IStore "output_high" 32 32 "color1_rearranged_b";
    IAdd "input_ptr" 128;
    IAdd "output_low" 64;
    IAdd "output_high" 64].

(** src/core/dxt-lossless-transform-common/src/transforms/split_565_color_endpoints/bench/avx2.rs:122-223, fn avx2_shuf_impl_unroll_2 *)
Definition common_transforms_split_565_color_endpoints_bench_avx2_avx2_shuf_impl_unroll_2 (c : cfg) (colors : ptr) (colors_out : ptr) (colors_len_bytes : Z) (m : mem) : res mem :=
  do _ <- cpu_has (c_avx2 c) "avx2" ;;
  do _ <- debug_assert (c_debug c) ((4 <=? colors_len_bytes) && (colors_len_bytes mod 4 =? 0)) "colors_len_bytes >= 4 && colors_len_bytes . is_multiple_of (" ;;
  let input_ptr := colors in
  let output_low := colors_out in
  do output_high <- ptr_add m colors_out (colors_len_bytes / 2) ;;
  do end_ptr <- ptr_add m colors (colors_len_bytes) ;;
  do aligned_end_ptr <- ptr_add m end_ptr (- (128)) ;;
  do s <- while_lt (c_junk c) 0 common_transforms_split_565_color_endpoints_bench_avx2_avx2_shuf_impl_unroll_2_loop1 "input_ptr" aligned_end_ptr (St [("shuffle_mask", common_transforms_split_565_color_endpoints_bench_avx2_avx2_shuf_impl_unroll_2_loop1_shuffle_mask)] [("input_ptr", input_ptr); ("output_low", output_low); ("output_high", output_high)] m) ;;
  let m := mm s in
  do input_ptr <- getp s "input_ptr" ;;
  do output_low <- getp s "output_low" ;;
  do output_high <- getp s "output_high" ;;
  do m <- common_transforms_split_565_color_endpoints_portable32_u32_with_separate_endpoints c end_ptr input_ptr output_low output_high m ;;
  Ok m.

(** Constants of the loop at src/core/dxt-lossless-transform-common/src/transforms/split_565_color_endpoints/bench/avx512.rs:81 *)
Definition common_transforms_split_565_color_endpoints_bench_avx512_avx512_impl_unroll2_loop1_shuffle_mask_color0 : list byte := [x00; x01; x04; x05; x08; x09; x0c; x0d; x10; x11; x14; x15; x18; x19; x1c; x1d; x20; x21; x24; x25; x28; x29; x2c; x2d; x30; x31; x34; x35; x38; x39; x3c; x3d; x40; x41; x44; x45; x48; x49; x4c; x4d; x50; x51; x54; x55; x58; x59; x5c; x5d; x60; x61; x64; x65; x68; x69; x6c; x6d; x70; x71; x74; x75; x78; x79; x7c; x7d].
Definition common_transforms_split_565_color_endpoints_bench_avx512_avx512_impl_unroll2_loop1_shuffle_mask_color1 : list byte := [x02; x03; x06; x07; x0a; x0b; x0e; x0f; x12; x13; x16; x17; x1a; x1b; x1e; x1f; x22; x23; x26; x27; x2a; x2b; x2e; x2f; x32; x33; x36; x37; x3a; x3b; x3e; x3f; x42; x43; x46; x47; x4a; x4b; x4e; x4f; x52; x53; x56; x57; x5a; x5b; x5e; x5f; x62; x63; x66; x67; x6a; x6b; x6e; x6f; x72; x73; x76; x77; x7a; x7b; x7e; x7f].

(** Loop at src/core/dxt-lossless-transform-common/src/transforms/split_565_color_endpoints/bench/avx512.rs:81. *)
Definition common_transforms_split_565_color_endpoints_bench_avx512_avx512_impl_unroll2_loop1 : list instr :=
  [ILoad "chunk1" "input_ptr" 0 64;
    ILoad "chunk2" "input_ptr" 64 64;
    ILoad "chunk3" "input_ptr" 128 64;
    ILoad "chunk4" "input_ptr" 192 64;
    IAdd "input_ptr" 256;
    IOp "color0_rearranged_0" (OPermT2 1 64) ["chunk1"; "shuffle_mask_color0"; "chunk2"];
    IOp "color1_rearranged_0" (OPermT2 1 64) ["chunk1"; "shuffle_mask_color1"; "chunk2"];
    IOp "color2_rearranged_1" (OPermT2 1 64) ["chunk3"; "shuffle_mask_color0"; "chunk4"];
    IOp "color3_rearranged_1" (OPermT2 1 64) ["chunk3"; "shuffle_mask_color1"; "chunk4"];
    IStore "output_low" 0 64 "color0_rearranged_0";
    IStore "output_low" 64 64 "color2_rearranged_1";
    IAdd "output_low" 128;
    IStore "output_high" 0 64 "color1_rearranged_0";
    IStore "output_high" 64 64 "color3_rearranged_1";
    IAdd "output_high" 128].

(** src/core/dxt-lossless-transform-common/src/transforms/split_565_color_endpoints/bench/avx512.rs:24-112, fn avx512_impl_unroll2 *)
Definition common_transforms_split_565_color_endpoints_bench_avx512_avx512_impl_unroll2 (c : cfg) (colors : ptr) (colors_out : ptr) (colors_len_bytes : Z) (m : mem) : res mem :=
  do _ <- cpu_has (c_avx512f c && c_avx512vbmi c) "avx512f avx512vbmi" ;;
  do _ <- debug_assert (c_debug c) ((4 <=? colors_len_bytes) && (colors_len_bytes mod 4 =? 0)) "colors_len_bytes >= 4 && colors_len_bytes . is_multiple_of (" ;;
  let input_ptr := colors in
  let output_low := colors_out in
  do output_high <- ptr_add m colors_out (colors_len_bytes / 2) ;;
  do aligned_len <- usub colors_len_bytes (colors_len_bytes mod 256) ;;
  do aligned_end_ptr <- ptr_add m colors (aligned_len) ;;
  do s <- while_lt (c_junk c) 0 common_transforms_split_565_color_endpoints_bench_avx512_avx512_impl_unroll2_loop1 "input_ptr" aligned_end_ptr (St [("shuffle_mask_color0", common_transforms_split_565_color_endpoints_bench_avx512_avx512_impl_unroll2_loop1_shuffle_mask_color0); ("shuffle_mask_color1", common_transforms_split_565_color_endpoints_bench_avx512_avx512_impl_unroll2_loop1_shuffle_mask_color1)] [("input_ptr", input_ptr); ("output_low", output_low); ("output_high", output_high)] m) ;;
  let m := mm s in
  do input_ptr <- getp s "input_ptr" ;;
  do output_low <- getp s "output_low" ;;
  do output_high <- getp s "output_high" ;;
  do end_ptr <- ptr_add m colors (colors_len_bytes) ;;
  do m <- common_transforms_split_565_color_endpoints_portable32_u32_with_separate_endpoints c end_ptr input_ptr output_low output_high m ;;
  Ok m.

(** src/core/dxt-lossless-transform-common/src/transforms/split_565_color_endpoints/bench/mod.rs:25-31, fn u32 *)
Definition common_transforms_split_565_color_endpoints_bench_u32 (c : cfg) (colors : ptr) (colors_out : ptr) (colors_len_bytes : Z) (m : mem) : res mem :=
  do m <- common_transforms_split_565_color_endpoints_portable32_u32 c colors colors_out colors_len_bytes m ;;
  Ok m.

(** src/core/dxt-lossless-transform-common/src/transforms/split_565_color_endpoints/bench/mod.rs:33-45, fn u32_with_separate_endpoints *)
Definition common_transforms_split_565_color_endpoints_bench_u32_with_separate_endpoints (c : cfg) (max_input_ptr : ptr) (input : ptr) (output0 : ptr) (output1 : ptr) (m : mem) : res mem :=
  do m <- common_transforms_split_565_color_endpoints_portable32_u32_with_separate_endpoints c max_input_ptr input output0 output1 m ;;
  Ok m.

(** Loop at src/core/dxt-lossless-transform-common/src/transforms/split_565_color_endpoints/bench/portable64.rs:31. *)
Definition common_transforms_split_565_color_endpoints_bench_portable64_u64_loop1 : list instr :=
  [ILoad "color0" "input" 0 8;
    IAdd "input" 8;
    IOp "t2" (OBytes 0 2) ["color0"];
    IStore "output0" 0 2 "t2";
    IOp "t4" (OShr 2) ["color0"];
    IOp "t5" (OBytes 0 2) ["t4"];
    IStore "output1" 0 2 "t5";
    IOp "t7" (OShr 4) ["color0"];
    IOp "t8" (OBytes 0 2) ["t7"];
    IStore "output0" 2 2 "t8";
    IOp "t10" (OShr 6) ["color0"];
    IOp "t11" (OBytes 0 2) ["t10"];
    IStore "output1" 2 2 "t11";
    IAdd "output0" 4;
    IAdd "output1" 4].

(** src/core/dxt-lossless-transform-common/src/transforms/split_565_color_endpoints/bench/portable64.rs:19-55, fn u64 *)
Definition common_transforms_split_565_color_endpoints_bench_portable64_u64 (c : cfg) (colors : ptr) (colors_out : ptr) (colors_len_bytes : Z) (m : mem) : res mem :=
  do _ <- debug_assert (c_debug c) ((4 <=? colors_len_bytes) && (colors_len_bytes mod 4 =? 0)) "colors_len_bytes >= 4 && colors_len_bytes . is_multiple_of (" ;;
  do max_input_ptr <- ptr_add m colors (colors_len_bytes) ;;
  let input := colors in
  let output0 := colors_out in
  do output1 <- ptr_add m colors_out (colors_len_bytes / 2) ;;
  do p3 <- ptr_add m max_input_ptr (- (8)) ;;
  do s <- while_lt (c_junk c) 0 common_transforms_split_565_color_endpoints_bench_portable64_u64_loop1 "input" p3 (St [] [("input", input); ("output0", output0); ("output1", output1)] m) ;;
  let m := mm s in
  do input <- getp s "input" ;;
  do output0 <- getp s "output0" ;;
  do output1 <- getp s "output1" ;;
  do b4 <- ptr_ltb input max_input_ptr ;;
  if b4 then
    let remaining_input := input in
    do m <- common_transforms_split_565_color_endpoints_portable32_u32_with_separate_endpoints c max_input_ptr remaining_input output0 output1 m ;;
    Ok m
  else
    Ok m.

(** src/core/dxt-lossless-transform-common/src/transforms/split_565_color_endpoints/bench/mod.rs:47-49, fn u64 *)
Definition common_transforms_split_565_color_endpoints_bench_u64 (c : cfg) (colors : ptr) (colors_out : ptr) (colors_len_bytes : Z) (m : mem) : res mem :=
  do m <- common_transforms_split_565_color_endpoints_bench_portable64_u64 c colors colors_out colors_len_bytes m ;;
  Ok m.

(** Loop at src/core/dxt-lossless-transform-common/src/transforms/split_565_color_endpoints/bench/portable64.rs:83. *)
Definition common_transforms_split_565_color_endpoints_bench_portable64_u64_unroll_2_loop1 : list instr :=
  [ILoad "color0" "input" 0 8;
    ILoad "color1" "input" 8 8;
    IAdd "input" 16;
    IOp "t2" (OBytes 0 2) ["color0"];
    IStore "output0" 0 2 "t2";
    IOp "t4" (OBytes 0 2) ["color1"];
    IStore "output0" 4 2 "t4";
    IOp "t6" (OShr 2) ["color0"];
    IOp "t7" (OBytes 0 2) ["t6"];
    IStore "output1" 0 2 "t7";
    IOp "t9" (OShr 2) ["color1"];
    IOp "t10" (OBytes 0 2) ["t9"];
    IStore "output1" 4 2 "t10";
    IOp "t12" (OShr 4) ["color0"];
    IOp "t13" (OBytes 0 2) ["t12"];
    IStore "output0" 2 2 "t13";
    IOp "t15" (OShr 4) ["color1"];
    IOp "t16" (OBytes 0 2) ["t15"];
    IStore "output0" 6 2 "t16";
    IOp "t18" (OShr 6) ["color0"];
    IOp "t19" (OBytes 0 2) ["t18"];
    IStore "output1" 2 2 "t19";
    IOp "t21" (OShr 6) ["color1"];
    IOp "t22" (OBytes 0 2) ["t21"];
    IStore "output1" 6 2 "t22";
    IAdd "output0" 8;
    IAdd "output1" 8].

(** src/core/dxt-lossless-transform-common/src/transforms/split_565_color_endpoints/bench/portable64.rs:71-113, fn u64_unroll_2 *)
Definition common_transforms_split_565_color_endpoints_bench_portable64_u64_unroll_2 (c : cfg) (colors : ptr) (colors_out : ptr) (colors_len_bytes : Z) (m : mem) : res mem :=
  do _ <- debug_assert (c_debug c) ((4 <=? colors_len_bytes) && (colors_len_bytes mod 4 =? 0)) "colors_len_bytes >= 4 && colors_len_bytes . is_multiple_of (" ;;
  do max_input_ptr <- ptr_add m colors (colors_len_bytes) ;;
  let input := colors in
  let output0 := colors_out in
  do output1 <- ptr_add m colors_out (colors_len_bytes / 2) ;;
  do p3 <- ptr_add m max_input_ptr (- (16)) ;;
  do s <- while_lt (c_junk c) 0 common_transforms_split_565_color_endpoints_bench_portable64_u64_unroll_2_loop1 "input" p3 (St [] [("input", input); ("output0", output0); ("output1", output1)] m) ;;
  let m := mm s in
  do input <- getp s "input" ;;
  do output0 <- getp s "output0" ;;
  do output1 <- getp s "output1" ;;
  do b4 <- ptr_ltb input max_input_ptr ;;
  if b4 then
    let remaining_input := input in
    do m <- common_transforms_split_565_color_endpoints_portable32_u32_with_separate_endpoints c max_input_ptr remaining_input output0 output1 m ;;
    Ok m
  else
    Ok m.

(** src/core/dxt-lossless-transform-common/src/transforms/split_565_color_endpoints/bench/mod.rs:51-53, fn u64_unroll_2 *)
Definition common_transforms_split_565_color_endpoints_bench_u64_unroll_2 (c : cfg) (colors : ptr) (colors_out : ptr) (colors_len_bytes : Z) (m : mem) : res mem :=
  do m <- common_transforms_split_565_color_endpoints_bench_portable64_u64_unroll_2 c colors colors_out colors_len_bytes m ;;
  Ok m.

(** Loop at src/core/dxt-lossless-transform-common/src/transforms/split_565_color_endpoints/bench/portable64.rs:141. *)
Definition common_transforms_split_565_color_endpoints_bench_portable64_u64_unroll_4_loop1 : list instr :=
  [ILoad "color0" "input" 0 8;
    ILoad "color1" "input" 8 8;
    ILoad "color2" "input" 16 8;
    ILoad "color3" "input" 24 8;
    IAdd "input" 32;
    IOp "t2" (OBytes 0 2) ["color0"];
    IStore "output0" 0 2 "t2";
    IOp "t4" (OBytes 0 2) ["color1"];
    IStore "output0" 4 2 "t4";
    IOp "t6" (OBytes 0 2) ["color2"];
    IStore "output0" 8 2 "t6";
    IOp "t8" (OBytes 0 2) ["color3"];
    IStore "output0" 12 2 "t8";
    IOp "t10" (OShr 2) ["color0"];
    IOp "t11" (OBytes 0 2) ["t10"];
    IStore "output1" 0 2 "t11";
    IOp "t13" (OShr 2) ["color1"];
    IOp "t14" (OBytes 0 2) ["t13"];
    IStore "output1" 4 2 "t14";
    IOp "t16" (OShr 2) ["color2"];
    IOp "t17" (OBytes 0 2) ["t16"];
    IStore "output1" 8 2 "t17";
    IOp "t19" (OShr 2) ["color3"];
    IOp "t20" (OBytes 0 2) ["t19"];
    IStore "output1" 12 2 "t20";
    IOp "t22" (OShr 4) ["color0"];
    IOp "t23" (OBytes 0 2) ["t22"];
    IStore "output0" 2 2 "t23";
    IOp "t25" (OShr 4) ["color1"];
    IOp "t26" (OBytes 0 2) ["t25"];
    IStore "output0" 6 2 "t26";
    IOp "t28" (OShr 4) ["color2"];
    IOp "t29" (OBytes 0 2) ["t28"];
    IStore "output0" 10 2 "t29";
    IOp "t31" (OShr 4) ["color3"];
    IOp "t32" (OBytes 0 2) ["t31"];
    IStore "output0" 14 2 "t32";
    IOp "t34" (OShr 6) ["color0"];
    IOp "t35" (OBytes 0 2) ["t34"];
    IStore "output1" 2 2 "t35";
    IOp "t37" (OShr 6) ["color1"];
    IOp "t38" (OBytes 0 2) ["t37"];
    IStore "output1" 6 2 "t38";
    IOp "t40" (OShr 6) ["color2"];
    IOp "t41" (OBytes 0 2) ["t40"];
    IStore "output1" 10 2 "t41";
    IOp "t43" (OShr 6) ["color3"];
    IOp "t44" (OBytes 0 2) ["t43"];
    IStore "output1" 14 2 "t44";
    IAdd "output0" 16;
    IAdd "output1" 16].

(** src/core/dxt-lossless-transform-common/src/transforms/split_565_color_endpoints/bench/portable64.rs:129-181, fn u64_unroll_4 *)
Definition common_transforms_split_565_color_endpoints_bench_portable64_u64_unroll_4 (c : cfg) (colors : ptr) (colors_out : ptr) (colors_len_bytes : Z) (m : mem) : res mem :=
  do _ <- debug_assert (c_debug c) ((4 <=? colors_len_bytes) && (colors_len_bytes mod 4 =? 0)) "colors_len_bytes >= 4 && colors_len_bytes . is_multiple_of (" ;;
  do max_input_ptr <- ptr_add m colors (colors_len_bytes) ;;
  let input := colors in
  let output0 := colors_out in
  do output1 <- ptr_add m colors_out (colors_len_bytes / 2) ;;
  do p3 <- ptr_add m max_input_ptr (- (32)) ;;
  do s <- while_lt (c_junk c) 0 common_transforms_split_565_color_endpoints_bench_portable64_u64_unroll_4_loop1 "input" p3 (St [] [("input", input); ("output0", output0); ("output1", output1)] m) ;;
  let m := mm s in
  do input <- getp s "input" ;;
  do output0 <- getp s "output0" ;;
  do output1 <- getp s "output1" ;;
  do b4 <- ptr_ltb input max_input_ptr ;;
  if b4 then
    let remaining_input := input in
    do m <- common_transforms_split_565_color_endpoints_portable32_u32_with_separate_endpoints c max_input_ptr remaining_input output0 output1 m ;;
    Ok m
  else
    Ok m.

(** src/core/dxt-lossless-transform-common/src/transforms/split_565_color_endpoints/bench/mod.rs:55-57, fn u64_unroll_4 *)
Definition common_transforms_split_565_color_endpoints_bench_u64_unroll_4 (c : cfg) (colors : ptr) (colors_out : ptr) (colors_len_bytes : Z) (m : mem) : res mem :=
  do m <- common_transforms_split_565_color_endpoints_bench_portable64_u64_unroll_4 c colors colors_out colors_len_bytes m ;;
  Ok m.

(** Loop at src/core/dxt-lossless-transform-common/src/transforms/split_565_color_endpoints/bench/portable64.rs:209. *)
Definition common_transforms_split_565_color_endpoints_bench_portable64_u64_unroll_8_loop1 : list instr :=
  [ILoad "color0" "input" 0 8;
    ILoad "color1" "input" 8 8;
    ILoad "color2" "input" 16 8;
    ILoad "color3" "input" 24 8;
    ILoad "color4" "input" 32 8;
    ILoad "color5" "input" 40 8;
    ILoad "color6" "input" 48 8;
    ILoad "color7" "input" 56 8;
    IAdd "input" 64;
    IOp "t2" (OBytes 0 2) ["color0"];
    IStore "output0" 0 2 "t2";
    IOp "t4" (OBytes 0 2) ["color1"];
    IStore "output0" 4 2 "t4";
    IOp "t6" (OBytes 0 2) ["color2"];
    IStore "output0" 8 2 "t6";
    IOp "t8" (OBytes 0 2) ["color3"];
    IStore "output0" 12 2 "t8";
    IOp "t10" (OBytes 0 2) ["color4"];
    IStore "output0" 16 2 "t10";
    IOp "t12" (OBytes 0 2) ["color5"];
    IStore "output0" 20 2 "t12";
    IOp "t14" (OBytes 0 2) ["color6"];
    IStore "output0" 24 2 "t14";
    IOp "t16" (OBytes 0 2) ["color7"];
    IStore "output0" 28 2 "t16";
    IOp "t18" (OShr 2) ["color0"];
    IOp "t19" (OBytes 0 2) ["t18"];
    IStore "output1" 0 2 "t19";
    IOp "t21" (OShr 2) ["color1"];
    IOp "t22" (OBytes 0 2) ["t21"];
    IStore "output1" 4 2 "t22";
    IOp "t24" (OShr 2) ["color2"];
    IOp "t25" (OBytes 0 2) ["t24"];
    IStore "output1" 8 2 "t25";
    IOp "t27" (OShr 2) ["color3"];
    IOp "t28" (OBytes 0 2) ["t27"];
    IStore "output1" 12 2 "t28";
    IOp "t30" (OShr 2) ["color4"];
    IOp "t31" (OBytes 0 2) ["t30"];
    IStore "output1" 16 2 "t31";
    IOp "t33" (OShr 2) ["color5"];
    IOp "t34" (OBytes 0 2) ["t33"];
    IStore "output1" 20 2 "t34";
    IOp "t36" (OShr 2) ["color6"];
    IOp "t37" (OBytes 0 2) ["t36"];
    IStore "output1" 24 2 "t37";
    IOp "t39" (OShr 2) ["color7"];
    IOp "t40" (OBytes 0 2) ["t39"];
    IStore "output1" 28 2 "t40";
    IOp "t42" (OShr 4) ["color0"];
    IOp "t43" (OBytes 0 2) ["t42"];
    IStore "output0" 2 2 "t43";
    IOp "t45" (OShr 4) ["color1"];
    IOp "t46" (OBytes 0 2) ["t45"];
    IStore "output0" 6 2 "t46";
    IOp "t48" (OShr 4) ["color2"];
    IOp "t49" (OBytes 0 2) ["t48"];
    IStore "output0" 10 2 "t49";
    IOp "t51" (OShr 4) ["color3"];
    IOp "t52" (OBytes 0 2) ["t51"];
    IStore "output0" 14 2 "t52";
    IOp "t54" (OShr 4) ["color4"];
    IOp "t55" (OBytes 0 2) ["t54"];
    IStore "output0" 18 2 "t55";
    IOp "t57" (OShr 4) ["color5"];
    IOp "t58" (OBytes 0 2) ["t57"];
    IStore "output0" 22 2 "t58";
    IOp "t60" (OShr 4) ["color6"];
    IOp "t61" (OBytes 0 2) ["t60"];
    IStore "output0" 26 2 "t61";
    IOp "t63" (OShr 4) ["color7"];
    IOp "t64" (OBytes 0 2) ["t63"];
    IStore "output0" 30 2 "t64";
    IOp "t66" (OShr 6) ["color0"];
    IOp "t67" (OBytes 0 2) ["t66"];
    IStore "output1" 2 2 "t67";
    IOp "t69" (OShr 6) ["color1"];
    IOp "t70" (OBytes 0 2) ["t69"];
    IStore "output1" 6 2 "t70";
    IOp "t72" (OShr 6) ["color2"];
    IOp "t73" (OBytes 0 2) ["t72"];
    IStore "output1" 10 2 "t73";
    IOp "t75" (OShr 6) ["color3"];
    IOp "t76" (OBytes 0 2) ["t75"];
    IStore "output1" 14 2 "t76";
    IOp "t78" (OShr 6) ["color4"];
    IOp "t79" (OBytes 0 2) ["t78"];
    IStore "output1" 18 2 "t79";
    IOp "t81" (OShr 6) ["color5"];
    IOp "t82" (OBytes 0 2) ["t81"];
    IStore "output1" 22 2 "t82";
    IOp "t84" (OShr 6) ["color6"];
    IOp "t85" (OBytes 0 2) ["t84"];
    IStore "output1" 26 2 "t85";
    IOp "t87" (OShr 6) ["color7"];
    IOp "t88" (OBytes 0 2) ["t87"];
    IStore "output1" 30 2 "t88";
    IAdd "output0" 32;
    IAdd "output1" 32].

(** src/core/dxt-lossless-transform-common/src/transforms/split_565_color_endpoints/bench/portable64.rs:197-272, fn u64_unroll_8 *)
Definition common_transforms_split_565_color_endpoints_bench_portable64_u64_unroll_8 (c : cfg) (colors : ptr) (colors_out : ptr) (colors_len_bytes : Z) (m : mem) : res mem :=
  do _ <- debug_assert (c_debug c) ((4 <=? colors_len_bytes) && (colors_len_bytes mod 4 =? 0)) "colors_len_bytes >= 4 && colors_len_bytes . is_multiple_of (" ;;
  do max_input_ptr <- ptr_add m colors (colors_len_bytes) ;;
  let input := colors in
  let output0 := colors_out in
  do output1 <- ptr_add m colors_out (colors_len_bytes / 2) ;;
  do p3 <- ptr_add m max_input_ptr (- (64)) ;;
  do s <- while_lt (c_junk c) 0 common_transforms_split_565_color_endpoints_bench_portable64_u64_unroll_8_loop1 "input" p3 (St [] [("input", input); ("output0", output0); ("output1", output1)] m) ;;
  let m := mm s in
  do input <- getp s "input" ;;
  do output0 <- getp s "output0" ;;
  do output1 <- getp s "output1" ;;
  do b4 <- ptr_ltb input max_input_ptr ;;
  if b4 then
    let remaining_input := input in
    do m <- common_transforms_split_565_color_endpoints_portable32_u32_with_separate_endpoints c max_input_ptr remaining_input output0 output1 m ;;
    Ok m
  else
    Ok m.

(** src/core/dxt-lossless-transform-common/src/transforms/split_565_color_endpoints/bench/mod.rs:59-61, fn u64_unroll_8 *)
Definition common_transforms_split_565_color_endpoints_bench_u64_unroll_8 (c : cfg) (colors : ptr) (colors_out : ptr) (colors_len_bytes : Z) (m : mem) : res mem :=
  do m <- common_transforms_split_565_color_endpoints_bench_portable64_u64_unroll_8 c colors colors_out colors_len_bytes m ;;
  Ok m.

(** Loop at src/core/dxt-lossless-transform-common/src/transforms/split_565_color_endpoints/bench/portable64.rs:300. *)
Definition common_transforms_split_565_color_endpoints_bench_portable64_u64_mix_loop1 : list instr :=
  [ILoad "color0" "input" 0 8;
    IAdd "input" 8;
    IOp "t2" (OBytes 0 2) ["color0"];
    IOp "t4" (OShr 4) ["color0"];
    IOp "t5" (OBytes 0 2) ["t4"];
    IOp "t7" (OZext 4) ["t2"];
    IOp "t8" (OZext 4) ["t5"];
    IOp "t9" (OShl 2) ["t8"];
    IOp "t10" (OOr) ["t7"; "t9"];
    IOp "first_pair" (OMov) ["t10"];
    IOp "t12" (OShr 2) ["color0"];
    IOp "t13" (OBytes 0 2) ["t12"];
    IOp "t15" (OShr 6) ["color0"];
    IOp "t16" (OBytes 0 2) ["t15"];
    IOp "t18" (OZext 4) ["t13"];
    IOp "t19" (OZext 4) ["t16"];
    IOp "t20" (OShl 2) ["t19"];
    IOp "t21" (OOr) ["t18"; "t20"];
    IOp "second_pair" (OMov) ["t21"];
    IStore "output0" 0 4 "first_pair";
    IStore "output1" 0 4 "second_pair";
    IAdd "output0" 4;
    IAdd "output1" 4].

(** src/core/dxt-lossless-transform-common/src/transforms/split_565_color_endpoints/bench/portable64.rs:288-329, fn u64_mix *)
Definition common_transforms_split_565_color_endpoints_bench_portable64_u64_mix (c : cfg) (colors : ptr) (colors_out : ptr) (colors_len_bytes : Z) (m : mem) : res mem :=
  do _ <- debug_assert (c_debug c) ((4 <=? colors_len_bytes) && (colors_len_bytes mod 4 =? 0)) "colors_len_bytes >= 4 && colors_len_bytes . is_multiple_of (" ;;
  do max_input_ptr <- ptr_add m colors (colors_len_bytes) ;;
  let input := colors in
  let output0 := colors_out in
  do output1 <- ptr_add m colors_out (colors_len_bytes / 2) ;;
  do p3 <- ptr_add m max_input_ptr (- (8)) ;;
  do s <- while_lt (c_junk c) 0 common_transforms_split_565_color_endpoints_bench_portable64_u64_mix_loop1 "input" p3 (St [] [("input", input); ("output0", output0); ("output1", output1)] m) ;;
  let m := mm s in
  do input <- getp s "input" ;;
  do output0 <- getp s "output0" ;;
  do output1 <- getp s "output1" ;;
  do b4 <- ptr_ltb input max_input_ptr ;;
  if b4 then
    let remaining_input := input in
    do m <- common_transforms_split_565_color_endpoints_portable32_u32_with_separate_endpoints c max_input_ptr remaining_input output0 output1 m ;;
    Ok m
  else
    Ok m.

(** src/core/dxt-lossless-transform-common/src/transforms/split_565_color_endpoints/bench/mod.rs:63-65, fn u64_mix *)
Definition common_transforms_split_565_color_endpoints_bench_u64_mix (c : cfg) (colors : ptr) (colors_out : ptr) (colors_len_bytes : Z) (m : mem) : res mem :=
  do m <- common_transforms_split_565_color_endpoints_bench_portable64_u64_mix c colors colors_out colors_len_bytes m ;;
  Ok m.

(** Loop at src/core/dxt-lossless-transform-common/src/transforms/split_565_color_endpoints/bench/portable64.rs:362. *)
Definition common_transforms_split_565_color_endpoints_bench_portable64_u64_mix_unroll_2_loop1 : list instr :=
  [ILoad "color0" "input" 0 8;
    ILoad "color1" "input" 8 8;
    IAdd "input" 16;
    IOp "t2" (OBytes 0 2) ["color0"];
    IOp "t4" (OShr 4) ["color0"];
    IOp "t5" (OBytes 0 2) ["t4"];
    IOp "t7" (OBytes 0 2) ["color1"];
    IOp "t9" (OShr 4) ["color1"];
    IOp "t10" (OBytes 0 2) ["t9"];
    IOp "t12" (OZext 8) ["t2"];
    IOp "t13" (OZext 8) ["t5"];
    IOp "t14" (OShl 2) ["t13"];
    IOp "t15" (OOr) ["t12"; "t14"];
    IOp "t16" (OZext 8) ["t7"];
    IOp "t17" (OShl 4) ["t16"];
    IOp "t18" (OOr) ["t15"; "t17"];
    IOp "t19" (OZext 8) ["t10"];
    IOp "t20" (OShl 6) ["t19"];
    IOp "t21" (OOr) ["t18"; "t20"];
    IOp "first_combined" (OMov) ["t21"];
    IOp "t23" (OShr 2) ["color0"];
    IOp "t24" (OBytes 0 2) ["t23"];
    IOp "t26" (OShr 6) ["color0"];
    IOp "t27" (OBytes 0 2) ["t26"];
    IOp "t29" (OShr 2) ["color1"];
    IOp "t30" (OBytes 0 2) ["t29"];
    IOp "t32" (OShr 6) ["color1"];
    IOp "t33" (OBytes 0 2) ["t32"];
    IOp "t35" (OZext 8) ["t24"];
    IOp "t36" (OZext 8) ["t27"];
    IOp "t37" (OShl 2) ["t36"];
    IOp "t38" (OOr) ["t35"; "t37"];
    IOp "t39" (OZext 8) ["t30"];
    IOp "t40" (OShl 4) ["t39"];
    IOp "t41" (OOr) ["t38"; "t40"];
    IOp "t42" (OZext 8) ["t33"];
    IOp "t43" (OShl 6) ["t42"];
    IOp "t44" (OOr) ["t41"; "t43"];
    IOp "second_combined" (OMov) ["t44"];
    IStore "output0" 0 8 "first_combined";
    IStore "output1" 0 8 "second_combined";
    IAdd "output0" 8;
    IAdd "output1" 8].

(** src/core/dxt-lossless-transform-common/src/transforms/split_565_color_endpoints/bench/portable64.rs:346-401, fn u64_mix_unroll_2 *)
Definition common_transforms_split_565_color_endpoints_bench_portable64_u64_mix_unroll_2 (c : cfg) (colors : ptr) (colors_out : ptr) (colors_len_bytes : Z) (m : mem) : res mem :=
  do _ <- debug_assert (c_debug c) ((4 <=? colors_len_bytes) && (colors_len_bytes mod 4 =? 0)) "colors_len_bytes >= 4 && colors_len_bytes . is_multiple_of (" ;;
  do max_input_ptr <- ptr_add m colors (colors_len_bytes) ;;
  let input := colors in
  let output0 := colors_out in
  do output1 <- ptr_add m colors_out (colors_len_bytes / 2) ;;
  do p3 <- ptr_add m max_input_ptr (- (16)) ;;
  do s <- while_lt (c_junk c) 0 common_transforms_split_565_color_endpoints_bench_portable64_u64_mix_unroll_2_loop1 "input" p3 (St [] [("input", input); ("output0", output0); ("output1", output1)] m) ;;
  let m := mm s in
  do input <- getp s "input" ;;
  do output0 <- getp s "output0" ;;
  do output1 <- getp s "output1" ;;
  do b4 <- ptr_ltb input max_input_ptr ;;
  if b4 then
    let remaining_input := input in
    do m <- common_transforms_split_565_color_endpoints_portable32_u32_with_separate_endpoints c max_input_ptr remaining_input output0 output1 m ;;
    Ok m
  else
    Ok m.

(** src/core/dxt-lossless-transform-common/src/transforms/split_565_color_endpoints/bench/mod.rs:67-69, fn u64_mix_unroll_2 *)
Definition common_transforms_split_565_color_endpoints_bench_u64_mix_unroll_2 (c : cfg) (colors : ptr) (colors_out : ptr) (colors_len_bytes : Z) (m : mem) : res mem :=
  do m <- common_transforms_split_565_color_endpoints_bench_portable64_u64_mix_unroll_2 c colors colors_out colors_len_bytes m ;;
  Ok m.

(** Loop at src/core/dxt-lossless-transform-common/src/transforms/split_565_color_endpoints/bench/portable64.rs:434. *)
Definition common_transforms_split_565_color_endpoints_bench_portable64_u64_mix_unroll_4_loop1 : list instr :=
  [ILoad "color0" "input" 0 8;
    ILoad "color1" "input" 8 8;
    ILoad "color2" "input" 16 8;
    ILoad "color3" "input" 24 8;
    IAdd "input" 32;
    IOp "t2" (OBytes 0 2) ["color0"];
    IOp "t4" (OShr 4) ["color0"];
    IOp "t5" (OBytes 0 2) ["t4"];
    IOp "t7" (OBytes 0 2) ["color1"];
    IOp "t9" (OShr 4) ["color1"];
    IOp "t10" (OBytes 0 2) ["t9"];
    IOp "t12" (OZext 8) ["t2"];
    IOp "t13" (OZext 8) ["t5"];
    IOp "t14" (OShl 2) ["t13"];
    IOp "t15" (OOr) ["t12"; "t14"];
    IOp "t16" (OZext 8) ["t7"];
    IOp "t17" (OShl 4) ["t16"];
    IOp "t18" (OOr) ["t15"; "t17"];
    IOp "t19" (OZext 8) ["t10"];
    IOp "t20" (OShl 6) ["t19"];
    IOp "t21" (OOr) ["t18"; "t20"];
    IOp "first_combined0" (OMov) ["t21"];
    IOp "t23" (OBytes 0 2) ["color2"];
    IOp "t25" (OShr 4) ["color2"];
    IOp "t26" (OBytes 0 2) ["t25"];
    IOp "t28" (OBytes 0 2) ["color3"];
    IOp "t30" (OShr 4) ["color3"];
    IOp "t31" (OBytes 0 2) ["t30"];
    IOp "t33" (OZext 8) ["t23"];
    IOp "t34" (OZext 8) ["t26"];
    IOp "t35" (OShl 2) ["t34"];
    IOp "t36" (OOr) ["t33"; "t35"];
    IOp "t37" (OZext 8) ["t28"];
    IOp "t38" (OShl 4) ["t37"];
    IOp "t39" (OOr) ["t36"; "t38"];
    IOp "t40" (OZext 8) ["t31"];
    IOp "t41" (OShl 6) ["t40"];
    IOp "t42" (OOr) ["t39"; "t41"];
    IOp "first_combined1" (OMov) ["t42"];
    IStore "output0" 0 8 "first_combined0";
    IStore "output0" 8 8 "first_combined1";
    IOp "t44" (OShr 2) ["color0"];
    IOp "t45" (OBytes 0 2) ["t44"];
    IOp "t47" (OShr 6) ["color0"];
    IOp "t48" (OBytes 0 2) ["t47"];
    IOp "t50" (OShr 2) ["color1"];
    IOp "t51" (OBytes 0 2) ["t50"];
    IOp "t53" (OShr 6) ["color1"];
    IOp "t54" (OBytes 0 2) ["t53"];
    IOp "t56" (OZext 8) ["t45"];
    IOp "t57" (OZext 8) ["t48"];
    IOp "t58" (OShl 2) ["t57"];
    IOp "t59" (OOr) ["t56"; "t58"];
    IOp "t60" (OZext 8) ["t51"];
    IOp "t61" (OShl 4) ["t60"];
    IOp "t62" (OOr) ["t59"; "t61"];
    IOp "t63" (OZext 8) ["t54"];
    IOp "t64" (OShl 6) ["t63"];
    IOp "t65" (OOr) ["t62"; "t64"];
    IOp "second_combined0" (OMov) ["t65"];
    IOp "t67" (OShr 2) ["color2"];
    IOp "t68" (OBytes 0 2) ["t67"];
    IOp "t70" (OShr 6) ["color2"];
    IOp "t71" (OBytes 0 2) ["t70"];
    IOp "t73" (OShr 2) ["color3"];
    IOp "t74" (OBytes 0 2) ["t73"];
    IOp "t76" (OShr 6) ["color3"];
    IOp "t77" (OBytes 0 2) ["t76"];
    IOp "t79" (OZext 8) ["t68"];
    IOp "t80" (OZext 8) ["t71"];
    IOp "t81" (OShl 2) ["t80"];
    IOp "t82" (OOr) ["t79"; "t81"];
    IOp "t83" (OZext 8) ["t74"];
    IOp "t84" (OShl 4) ["t83"];
    IOp "t85" (OOr) ["t82"; "t84"];
    IOp "t86" (OZext 8) ["t77"];
    IOp "t87" (OShl 6) ["t86"];
    IOp "t88" (OOr) ["t85"; "t87"];
    IOp "second_combined1" (OMov) ["t88"];
    IStore "output1" 0 8 "second_combined0";
    IStore "output1" 8 8 "second_combined1";
    IAdd "output0" 16;
    IAdd "output1" 16].

(** src/core/dxt-lossless-transform-common/src/transforms/split_565_color_endpoints/bench/portable64.rs:418-491, fn u64_mix_unroll_4 *)
Definition common_transforms_split_565_color_endpoints_bench_portable64_u64_mix_unroll_4 (c : cfg) (colors : ptr) (colors_out : ptr) (colors_len_bytes : Z) (m : mem) : res mem :=
  do _ <- debug_assert (c_debug c) ((4 <=? colors_len_bytes) && (colors_len_bytes mod 4 =? 0)) "colors_len_bytes >= 4 && colors_len_bytes . is_multiple_of (" ;;
  do max_input_ptr <- ptr_add m colors (colors_len_bytes) ;;
  let input := colors in
  let output0 := colors_out in
  do output1 <- ptr_add m colors_out (colors_len_bytes / 2) ;;
  do p3 <- ptr_add m max_input_ptr (- (32)) ;;
  do s <- while_lt (c_junk c) 0 common_transforms_split_565_color_endpoints_bench_portable64_u64_mix_unroll_4_loop1 "input" p3 (St [] [("input", input); ("output0", output0); ("output1", output1)] m) ;;
  let m := mm s in
  do input <- getp s "input" ;;
  do output0 <- getp s "output0" ;;
  do output1 <- getp s "output1" ;;
  do b4 <- ptr_ltb input max_input_ptr ;;
  if b4 then
    let remaining_input := input in
    do m <- common_transforms_split_565_color_endpoints_portable32_u32_with_separate_endpoints c max_input_ptr remaining_input output0 output1 m ;;
    Ok m
  else
    Ok m.

(** src/core/dxt-lossless-transform-common/src/transforms/split_565_color_endpoints/bench/mod.rs:71-73, fn u64_mix_unroll_4 *)
Definition common_transforms_split_565_color_endpoints_bench_u64_mix_unroll_4 (c : cfg) (colors : ptr) (colors_out : ptr) (colors_len_bytes : Z) (m : mem) : res mem :=
  do m <- common_transforms_split_565_color_endpoints_bench_portable64_u64_mix_unroll_4 c colors colors_out colors_len_bytes m ;;
  Ok m.

(** Loop at src/core/dxt-lossless-transform-common/src/transforms/split_565_color_endpoints/bench/portable64.rs:524. *)
Definition common_transforms_split_565_color_endpoints_bench_portable64_u64_mix_unroll_8_loop1 : list instr :=
  [ILoad "color0" "input" 0 8;
    ILoad "color1" "input" 8 8;
    ILoad "color2" "input" 16 8;
    ILoad "color3" "input" 24 8;
    ILoad "color4" "input" 32 8;
    ILoad "color5" "input" 40 8;
    ILoad "color6" "input" 48 8;
    ILoad "color7" "input" 56 8;
    IAdd "input" 64;
    IOp "t2" (OBytes 0 2) ["color0"];
    IOp "t4" (OShr 4) ["color0"];
    IOp "t5" (OBytes 0 2) ["t4"];
    IOp "t7" (OBytes 0 2) ["color1"];
    IOp "t9" (OShr 4) ["color1"];
    IOp "t10" (OBytes 0 2) ["t9"];
    IOp "t12" (OZext 8) ["t2"];
    IOp "t13" (OZext 8) ["t5"];
    IOp "t14" (OShl 2) ["t13"];
    IOp "t15" (OOr) ["t12"; "t14"];
    IOp "t16" (OZext 8) ["t7"];
    IOp "t17" (OShl 4) ["t16"];
    IOp "t18" (OOr) ["t15"; "t17"];
    IOp "t19" (OZext 8) ["t10"];
    IOp "t20" (OShl 6) ["t19"];
    IOp "t21" (OOr) ["t18"; "t20"];
    IOp "first_combined0" (OMov) ["t21"];
    IOp "t23" (OBytes 0 2) ["color2"];
    IOp "t25" (OShr 4) ["color2"];
    IOp "t26" (OBytes 0 2) ["t25"];
    IOp "t28" (OBytes 0 2) ["color3"];
    IOp "t30" (OShr 4) ["color3"];
    IOp "t31" (OBytes 0 2) ["t30"];
    IOp "t33" (OZext 8) ["t23"];
    IOp "t34" (OZext 8) ["t26"];
    IOp "t35" (OShl 2) ["t34"];
    IOp "t36" (OOr) ["t33"; "t35"];
    IOp "t37" (OZext 8) ["t28"];
    IOp "t38" (OShl 4) ["t37"];
    IOp "t39" (OOr) ["t36"; "t38"];
    IOp "t40" (OZext 8) ["t31"];
    IOp "t41" (OShl 6) ["t40"];
    IOp "t42" (OOr) ["t39"; "t41"];
    IOp "first_combined1" (OMov) ["t42"];
    IOp "t44" (OBytes 0 2) ["color4"];
    IOp "t46" (OShr 4) ["color4"];
    IOp "t47" (OBytes 0 2) ["t46"];
    IOp "t49" (OBytes 0 2) ["color5"];
    IOp "t51" (OShr 4) ["color5"];
    IOp "t52" (OBytes 0 2) ["t51"];
    IOp "t54" (OZext 8) ["t44"];
    IOp "t55" (OZext 8) ["t47"];
    IOp "t56" (OShl 2) ["t55"];
    IOp "t57" (OOr) ["t54"; "t56"];
    IOp "t58" (OZext 8) ["t49"];
    IOp "t59" (OShl 4) ["t58"];
    IOp "t60" (OOr) ["t57"; "t59"];
    IOp "t61" (OZext 8) ["t52"];
    IOp "t62" (OShl 6) ["t61"];
    IOp "t63" (OOr) ["t60"; "t62"];
    IOp "first_combined2" (OMov) ["t63"];
    IOp "t65" (OBytes 0 2) ["color6"];
    IOp "t67" (OShr 4) ["color6"];
    IOp "t68" (OBytes 0 2) ["t67"];
    IOp "t70" (OBytes 0 2) ["color7"];
    IOp "t72" (OShr 4) ["color7"];
    IOp "t73" (OBytes 0 2) ["t72"];
    IOp "t75" (OZext 8) ["t65"];
    IOp "t76" (OZext 8) ["t68"];
    IOp "t77" (OShl 2) ["t76"];
    IOp "t78" (OOr) ["t75"; "t77"];
    IOp "t79" (OZext 8) ["t70"];
    IOp "t80" (OShl 4) ["t79"];
    IOp "t81" (OOr) ["t78"; "t80"];
    IOp "t82" (OZext 8) ["t73"];
    IOp "t83" (OShl 6) ["t82"];
    IOp "t84" (OOr) ["t81"; "t83"];
    IOp "first_combined3" (OMov) ["t84"];
    IStore "output0" 0 8 "first_combined0";
    IStore "output0" 8 8 "first_combined1";
    IStore "output0" 16 8 "first_combined2";
    IStore "output0" 24 8 "first_combined3";
    IOp "t86" (OShr 2) ["color0"];
    IOp "t87" (OBytes 0 2) ["t86"];
    IOp "t89" (OShr 6) ["color0"];
    IOp "t90" (OBytes 0 2) ["t89"];
    IOp "t92" (OShr 2) ["color1"];
    IOp "t93" (OBytes 0 2) ["t92"];
    IOp "t95" (OShr 6) ["color1"];
    IOp "t96" (OBytes 0 2) ["t95"];
    IOp "t98" (OZext 8) ["t87"];
    IOp "t99" (OZext 8) ["t90"];
    IOp "t100" (OShl 2) ["t99"];
    IOp "t101" (OOr) ["t98"; "t100"];
    IOp "t102" (OZext 8) ["t93"];
    IOp "t103" (OShl 4) ["t102"];
    IOp "t104" (OOr) ["t101"; "t103"];
    IOp "t105" (OZext 8) ["t96"];
    IOp "t106" (OShl 6) ["t105"];
    IOp "t107" (OOr) ["t104"; "t106"];
    IOp "second_combined0" (OMov) ["t107"];
    IOp "t109" (OShr 2) ["color2"];
    IOp "t110" (OBytes 0 2) ["t109"];
    IOp "t112" (OShr 6) ["color2"];
    IOp "t113" (OBytes 0 2) ["t112"];
    IOp "t115" (OShr 2) ["color3"];
    IOp "t116" (OBytes 0 2) ["t115"];
    IOp "t118" (OShr 6) ["color3"];
    IOp "t119" (OBytes 0 2) ["t118"];
    IOp "t121" (OZext 8) ["t110"];
    IOp "t122" (OZext 8) ["t113"];
    IOp "t123" (OShl 2) ["t122"];
    IOp "t124" (OOr) ["t121"; "t123"];
    IOp "t125" (OZext 8) ["t116"];
    IOp "t126" (OShl 4) ["t125"];
    IOp "t127" (OOr) ["t124"; "t126"];
    IOp "t128" (OZext 8) ["t119"];
    IOp "t129" (OShl 6) ["t128"];
    IOp "t130" (OOr) ["t127"; "t129"];
    IOp "second_combined1" (OMov) ["t130"];
    IOp "t132" (OShr 2) ["color4"];
    IOp "t133" (OBytes 0 2) ["t132"];
    IOp "t135" (OShr 6) ["color4"];
    IOp "t136" (OBytes 0 2) ["t135"];
    IOp "t138" (OShr 2) ["color5"];
    IOp "t139" (OBytes 0 2) ["t138"];
    IOp "t141" (OShr 6) ["color5"];
    IOp "t142" (OBytes 0 2) ["t141"];
    IOp "t144" (OZext 8) ["t133"];
    IOp "t145" (OZext 8) ["t136"];
    IOp "t146" (OShl 2) ["t145"];
    IOp "t147" (OOr) ["t144"; "t146"];
    IOp "t148" (OZext 8) ["t139"];
    IOp "t149" (OShl 4) ["t148"];
    IOp "t150" (OOr) ["t147"; "t149"];
    IOp "t151" (OZext 8) ["t142"];
    IOp "t152" (OShl 6) ["t151"];
    IOp "t153" (OOr) ["t150"; "t152"];
    IOp "second_combined2" (OMov) ["t153"];
    IOp "t155" (OShr 2) ["color6"];
    IOp "t156" (OBytes 0 2) ["t155"];
    IOp "t158" (OShr 6) ["color6"];
    IOp "t159" (OBytes 0 2) ["t158"];
    IOp "t161" (OShr 2) ["color7"];
    IOp "t162" (OBytes 0 2) ["t161"];
    IOp "t164" (OShr 6) ["color7"];
    IOp "t165" (OBytes 0 2) ["t164"];
    IOp "t167" (OZext 8) ["t156"];
    IOp "t168" (OZext 8) ["t159"];
    IOp "t169" (OShl 2) ["t168"];
    IOp "t170" (OOr) ["t167"; "t169"];
    IOp "t171" (OZext 8) ["t162"];
    IOp "t172" (OShl 4) ["t171"];
    IOp "t173" (OOr) ["t170"; "t172"];
    IOp "t174" (OZext 8) ["t165"];
    IOp "t175" (OShl 6) ["t174"];
    IOp "t176" (OOr) ["t173"; "t175"];
    IOp "second_combined3" (OMov) ["t176"];
    IStore "output1" 0 8 "second_combined0";
    IStore "output1" 8 8 "second_combined1";
    IStore "output1" 16 8 "second_combined2";
    IStore "output1" 24 8 "second_combined3";
    IAdd "output0" 32;
    IAdd "output1" 32].

(** src/core/dxt-lossless-transform-common/src/transforms/split_565_color_endpoints/bench/portable64.rs:508-617, fn u64_mix_unroll_8 *)
Definition common_transforms_split_565_color_endpoints_bench_portable64_u64_mix_unroll_8 (c : cfg) (colors : ptr) (colors_out : ptr) (colors_len_bytes : Z) (m : mem) : res mem :=
  do _ <- debug_assert (c_debug c) ((4 <=? colors_len_bytes) && (colors_len_bytes mod 4 =? 0)) "colors_len_bytes >= 4 && colors_len_bytes . is_multiple_of (" ;;
  do max_input_ptr <- ptr_add m colors (colors_len_bytes) ;;
  let input := colors in
  let output0 := colors_out in
  do output1 <- ptr_add m colors_out (colors_len_bytes / 2) ;;
  do p3 <- ptr_add m max_input_ptr (- (64)) ;;
  do s <- while_lt (c_junk c) 0 common_transforms_split_565_color_endpoints_bench_portable64_u64_mix_unroll_8_loop1 "input" p3 (St [] [("input", input); ("output0", output0); ("output1", output1)] m) ;;
  let m := mm s in
  do input <- getp s "input" ;;
  do output0 <- getp s "output0" ;;
  do output1 <- getp s "output1" ;;
  do b4 <- ptr_ltb input max_input_ptr ;;
  if b4 then
    let remaining_input := input in
    do m <- common_transforms_split_565_color_endpoints_portable32_u32_with_separate_endpoints c max_input_ptr remaining_input output0 output1 m ;;
    Ok m
  else
    Ok m.

(** src/core/dxt-lossless-transform-common/src/transforms/split_565_color_endpoints/bench/mod.rs:75-77, fn u64_mix_unroll_8 *)
Definition common_transforms_split_565_color_endpoints_bench_u64_mix_unroll_8 (c : cfg) (colors : ptr) (colors_out : ptr) (colors_len_bytes : Z) (m : mem) : res mem :=
  do m <- common_transforms_split_565_color_endpoints_bench_portable64_u64_mix_unroll_8 c colors colors_out colors_len_bytes m ;;
  Ok m.

(** Loop at src/core/dxt-lossless-transform-common/src/transforms/split_565_color_endpoints/bench/sse2.rs:42. *)
Definition common_transforms_split_565_color_endpoints_bench_sse2_sse2_shift_impl_loop1 : list instr :=
  [ILoad "color_chunk" "input_ptr" 0 16;
    IOp "color_copy" (OMov) ["color_chunk"];
    IOp "t1" (OConst [x80; x80; x00; x01; x80; x80; x04; x05; x80; x80; x08; x09; x80; x80; x0c; x0d]) [];
    IOp "shifted_left" (OPshufb 1) ["color_copy"; "t1"];
    IOp "low_parts" (OMov) ["shifted_left"];
    IOp "t6" (OConst [x02; x03; x06; x07; x0a; x0b; x0e; x0f; x80; x80; x80; x80; x80; x80; x80; x80]) [];
    IOp "t2" (OPshufb 1) ["low_parts"; "t6"];
    IOp "t3" (OBytes 0 8) ["t2"];
    IOp "t4" (OPshufb 1) ["low_parts"; "t6"];
    IOp "t5" (OBytes 0 8) ["t4"];
    IOp "packed_low" (OConcat) ["t3"; "t5"];
    IOp "high_parts" (OMov) ["color_chunk"];
    IOp "t11" (OConst [x02; x03; x06; x07; x0a; x0b; x0e; x0f; x80; x80; x80; x80; x80; x80; x80; x80]) [];
    IOp "t7" (OPshufb 1) ["high_parts"; "t11"];
    IOp "t8" (OBytes 0 8) ["t7"];
    IOp "t9" (OPshufb 1) ["high_parts"; "t11"];
    IOp "t10" (OBytes 0 8) ["t9"];
    IOp "packed_high" (OConcat) ["t8"; "t10"];
    IOp "t12" (OBytes 0 8) ["packed_low"];
    IStore "output0_ptr" 0 8 "t12";
    IOp "t13" (OBytes 0 8) ["packed_high"];
    IStore "output1_ptr" 0 8 "t13";
    IAdd "input_ptr" 16;
    IAdd "output0_ptr" 8;
    IAdd "output1_ptr" 8].

(** src/core/dxt-lossless-transform-common/src/transforms/split_565_color_endpoints/bench/sse2.rs:23-83, fn sse2_shift_impl *)
Definition common_transforms_split_565_color_endpoints_bench_sse2_sse2_shift_impl (c : cfg) (colors : ptr) (colors_out : ptr) (colors_len_bytes : Z) (m : mem) : res mem :=
  do _ <- cpu_has (c_sse2 c) "sse2" ;;
  do _ <- debug_assert (c_debug c) ((4 <=? colors_len_bytes) && (colors_len_bytes mod 4 =? 0)) "colors_len_bytes >= 4 && colors_len_bytes . is_multiple_of (" ;;
  let input_ptr := colors in
  let output0_ptr := colors_out in
  do output1_ptr <- ptr_add m colors_out (colors_len_bytes / 2) ;;
  do end_ptr <- ptr_add m colors (colors_len_bytes) ;;
  do aligned_end_ptr <- ptr_add m end_ptr (- (16)) ;;
  do s <- while_lt (c_junk c) 0 common_transforms_split_565_color_endpoints_bench_sse2_sse2_shift_impl_loop1 "input_ptr" aligned_end_ptr (St [] [("input_ptr", input_ptr); ("output0_ptr", output0_ptr); ("output1_ptr", output1_ptr)] m) ;;
  let m := mm s in
  do input_ptr <- getp s "input_ptr" ;;
  do output0_ptr <- getp s "output0_ptr" ;;
  do output1_ptr <- getp s "output1_ptr" ;;
  do m <- common_transforms_split_565_color_endpoints_portable32_u32_with_separate_endpoints c end_ptr input_ptr output0_ptr output1_ptr m ;;
  Ok m.

(** src/core/dxt-lossless-transform-common/src/transforms/split_565_color_endpoints/bench/mod.rs:81-83, fn sse2_shift_impl *)
Definition common_transforms_split_565_color_endpoints_bench_sse2_shift_impl (c : cfg) (colors : ptr) (colors_out : ptr) (colors_len_bytes : Z) (m : mem) : res mem :=
  do m <- common_transforms_split_565_color_endpoints_bench_sse2_sse2_shift_impl c colors colors_out colors_len_bytes m ;;
  Ok m.

(** Loop at src/core/dxt-lossless-transform-common/src/transforms/split_565_color_endpoints/bench/sse2.rs:121. *)
Definition common_transforms_split_565_color_endpoints_bench_sse2_sse2_shuf_impl_loop1 : list instr :=
  [ILoad "chunk0" "input_ptr" 0 16;
    ILoad "chunk1" "input_ptr" 16 16;
    IOp "shuffled0_low" (OPshuflw 1 216) ["chunk0"];
    IOp "shuffled0" (OPshufhw 1 216) ["shuffled0_low"];
    IOp "shuffled1_low" (OPshuflw 1 216) ["chunk1"];
    IOp "shuffled1" (OPshufhw 1 216) ["shuffled1_low"];
    IOp "interleaved_u32s_0" (OShufps 1 216) ["shuffled0"; "shuffled0"];
    IOp "interleaved_u32s_1" (OShufps 1 216) ["shuffled1"; "shuffled1"];
    IOp "colors0" (OShufps 1 68) ["interleaved_u32s_0"; "interleaved_u32s_1"];
    IOp "colors1" (OShufps 1 238) ["interleaved_u32s_0"; "interleaved_u32s_1"];
    IStore "output_low" 0 16 "colors0";
    IStore "output_high" 0 16 "colors1";
    IAdd "input_ptr" 32;
    IAdd "output_low" 16;
    IAdd "output_high" 16].

(** src/core/dxt-lossless-transform-common/src/transforms/split_565_color_endpoints/bench/sse2.rs:102-166, fn sse2_shuf_impl *)
Definition common_transforms_split_565_color_endpoints_bench_sse2_sse2_shuf_impl (c : cfg) (colors : ptr) (colors_out : ptr) (colors_len_bytes : Z) (m : mem) : res mem :=
  do _ <- cpu_has (c_sse2 c) "sse2" ;;
  do _ <- debug_assert (c_debug c) ((4 <=? colors_len_bytes) && (colors_len_bytes mod 4 =? 0)) "colors_len_bytes >= 4 && colors_len_bytes . is_multiple_of (" ;;
  let input_ptr := colors in
  let output_low := colors_out in
  do output_high <- ptr_add m colors_out (colors_len_bytes / 2) ;;
  do end_ptr <- ptr_add m colors (colors_len_bytes) ;;
  do aligned_end_ptr <- ptr_add m end_ptr (- (32)) ;;
  do s <- while_lt (c_junk c) 0 common_transforms_split_565_color_endpoints_bench_sse2_sse2_shuf_impl_loop1 "input_ptr" aligned_end_ptr (St [] [("input_ptr", input_ptr); ("output_low", output_low); ("output_high", output_high)] m) ;;
  let m := mm s in
  do input_ptr <- getp s "input_ptr" ;;
  do output_low <- getp s "output_low" ;;
  do output_high <- getp s "output_high" ;;
  do m <- common_transforms_split_565_color_endpoints_portable32_u32_with_separate_endpoints c end_ptr input_ptr output_low output_high m ;;
  Ok m.

(** src/core/dxt-lossless-transform-common/src/transforms/split_565_color_endpoints/bench/mod.rs:86-88, fn sse2_shuf_impl *)
Definition common_transforms_split_565_color_endpoints_bench_sse2_shuf_impl (c : cfg) (colors : ptr) (colors_out : ptr) (colors_len_bytes : Z) (m : mem) : res mem :=
  do m <- common_transforms_split_565_color_endpoints_bench_sse2_sse2_shuf_impl c colors colors_out colors_len_bytes m ;;
  Ok m.

(** src/core/dxt-lossless-transform-common/src/transforms/split_565_color_endpoints/bench/mod.rs:91-97, fn sse2_shuf_unroll2_impl_asm *)
Definition common_transforms_split_565_color_endpoints_bench_sse2_shuf_unroll2_impl_asm (c : cfg) (colors : ptr) (colors_out : ptr) (colors_len_bytes : Z) (m : mem) : res mem :=
  do m <- common_transforms_split_565_color_endpoints_sse2_sse2_shuf_unroll2_impl_asm c colors colors_out colors_len_bytes m ;;
  Ok m.

(** Loop at src/core/dxt-lossless-transform-common/src/transforms/split_565_color_endpoints/bench/sse2.rs:204. *)
Definition common_transforms_split_565_color_endpoints_bench_sse2_sse2_shuf_unroll2_impl_loop1 : list instr :=
  [ILoad "chunk0" "input_ptr" 0 16;
    ILoad "chunk1" "input_ptr" 16 16;
    ILoad "chunk2" "input_ptr" 32 16;
    ILoad "chunk3" "input_ptr" 48 16;
    IOp "shuffled0_low" (OPshuflw 1 216) ["chunk0"];
    IOp "shuffled0" (OPshufhw 1 216) ["shuffled0_low"];
    IOp "shuffled1_low" (OPshuflw 1 216) ["chunk1"];
    IOp "shuffled1" (OPshufhw 1 216) ["shuffled1_low"];
    IOp "shuffled2_low" (OPshuflw 1 216) ["chunk2"];
    IOp "shuffled2" (OPshufhw 1 216) ["shuffled2_low"];
    IOp "shuffled3_low" (OPshuflw 1 216) ["chunk3"];
    IOp "shuffled3" (OPshufhw 1 216) ["shuffled3_low"];
    IOp "interleaved_u32s_0" (OShufps 1 216) ["shuffled0"; "shuffled0"];
    IOp "interleaved_u32s_1" (OShufps 1 216) ["shuffled1"; "shuffled1"];
    IOp "interleaved_u32s_2" (OShufps 1 216) ["shuffled2"; "shuffled2"];
    IOp "interleaved_u32s_3" (OShufps 1 216) ["shuffled3"; "shuffled3"];
    IOp "colors0" (OShufps 1 68) ["interleaved_u32s_0"; "interleaved_u32s_1"];
    IOp "colors1" (OShufps 1 68) ["interleaved_u32s_2"; "interleaved_u32s_3"];
    IOp "colors0_2" (OShufps 1 238) ["interleaved_u32s_0"; "interleaved_u32s_1"];
    IOp "colors1_2" (OShufps 1 238) ["interleaved_u32s_2"; "interleaved_u32s_3"];
    IStore "output_low" 0 16 "colors0";
    IStore "output_low" 16 16 "colors1";
    IStore "output_high" 0 16 "colors0_2";
    IStore "output_high" 16 16 "colors1_2";
    IAdd "input_ptr" 64;
    IAdd "output_low" 32;
    IAdd "output_high" 32].

(** src/core/dxt-lossless-transform-common/src/transforms/split_565_color_endpoints/bench/sse2.rs:185-279, fn sse2_shuf_unroll2_impl *)
Definition common_transforms_split_565_color_endpoints_bench_sse2_sse2_shuf_unroll2_impl (c : cfg) (colors : ptr) (colors_out : ptr) (colors_len_bytes : Z) (m : mem) : res mem :=
  do _ <- cpu_has (c_sse2 c) "sse2" ;;
  do _ <- debug_assert (c_debug c) ((4 <=? colors_len_bytes) && (colors_len_bytes mod 4 =? 0)) "colors_len_bytes >= 4 && colors_len_bytes . is_multiple_of (" ;;
  let input_ptr := colors in
  let output_low := colors_out in
  do output_high <- ptr_add m colors_out (colors_len_bytes / 2) ;;
  do end_ptr <- ptr_add m colors (colors_len_bytes) ;;
  do aligned_end_ptr <- ptr_add m end_ptr (- (64)) ;;
  do s <- while_lt (c_junk c) 0 common_transforms_split_565_color_endpoints_bench_sse2_sse2_shuf_unroll2_impl_loop1 "input_ptr" aligned_end_ptr (St [] [("input_ptr", input_ptr); ("output_low", output_low); ("output_high", output_high)] m) ;;
  let m := mm s in
  do input_ptr <- getp s "input_ptr" ;;
  do output_low <- getp s "output_low" ;;
  do output_high <- getp s "output_high" ;;
  do m <- common_transforms_split_565_color_endpoints_portable32_u32_with_separate_endpoints c end_ptr input_ptr output_low output_high m ;;
  Ok m.

(** src/core/dxt-lossless-transform-common/src/transforms/split_565_color_endpoints/bench/mod.rs:100-106, fn sse2_shuf_unroll2_impl *)
Definition common_transforms_split_565_color_endpoints_bench_sse2_shuf_unroll2_impl (c : cfg) (colors : ptr) (colors_out : ptr) (colors_len_bytes : Z) (m : mem) : res mem :=
  do m <- common_transforms_split_565_color_endpoints_bench_sse2_sse2_shuf_unroll2_impl c colors colors_out colors_len_bytes m ;;
  Ok m.

(** Constants of the loop at src/core/dxt-lossless-transform-common/src/transforms/split_565_color_endpoints/bench/ssse3.rs:51 *)
Definition common_transforms_split_565_color_endpoints_bench_ssse3_ssse3_pshufb_unroll2_impl_loop1_shuffle_mask : list byte := [x00; x01; x04; x05; x08; x09; x0c; x0d; x02; x03; x06; x07; x0a; x0b; x0e; x0f].

(** Loop at src/core/dxt-lossless-transform-common/src/transforms/split_565_color_endpoints/bench/ssse3.rs:51. *)
Definition common_transforms_split_565_color_endpoints_bench_ssse3_ssse3_pshufb_unroll2_impl_loop1 : list instr :=
  [ILoad "chunk0" "input_ptr" 0 16;
    ILoad "chunk1" "input_ptr" 16 16;
    IOp "shuffled0" (OPshufb 1) ["chunk0"; "shuffle_mask"];
    IOp "shuffled1" (OPshufb 1) ["chunk1"; "shuffle_mask"];
    IOp "temp0" (OMov) ["shuffled0"];
    IOp "temp1" (OMov) ["shuffled1"];
    IOp "colors0" (OShufps 1 68) ["temp0"; "temp1"];
    IOp "colors1" (OShufps 1 238) ["temp0"; "temp1"];
    IStore "output_low" 0 16 "colors0";
    IStore "output_high" 0 16 "colors1";
    IAdd "input_ptr" 32;
    IAdd "output_low" 16;
    IAdd "output_high" 16].

(** src/core/dxt-lossless-transform-common/src/transforms/split_565_color_endpoints/bench/ssse3.rs:24-84, fn ssse3_pshufb_unroll2_impl *)
Definition common_transforms_split_565_color_endpoints_bench_ssse3_ssse3_pshufb_unroll2_impl (c : cfg) (colors : ptr) (colors_out : ptr) (colors_len_bytes : Z) (m : mem) : res mem :=
  do _ <- cpu_has (c_sse2 c && c_ssse3 c) "sse2 ssse3" ;;
  do _ <- debug_assert (c_debug c) ((4 <=? colors_len_bytes) && (colors_len_bytes mod 4 =? 0)) "colors_len_bytes >= 4 && colors_len_bytes . is_multiple_of (" ;;
  let input_ptr := colors in
  let output_low := colors_out in
  do output_high <- ptr_add m colors_out (colors_len_bytes / 2) ;;
  do end_ptr <- ptr_add m colors (colors_len_bytes) ;;
  do aligned_end_ptr <- ptr_add m end_ptr (- (32)) ;;
  do s <- while_lt (c_junk c) 0 common_transforms_split_565_color_endpoints_bench_ssse3_ssse3_pshufb_unroll2_impl_loop1 "input_ptr" aligned_end_ptr (St [("shuffle_mask", common_transforms_split_565_color_endpoints_bench_ssse3_ssse3_pshufb_unroll2_impl_loop1_shuffle_mask)] [("input_ptr", input_ptr); ("output_low", output_low); ("output_high", output_high)] m) ;;
  let m := mm s in
  do input_ptr <- getp s "input_ptr" ;;
  do output_low <- getp s "output_low" ;;
  do output_high <- getp s "output_high" ;;
  do m <- common_transforms_split_565_color_endpoints_portable32_u32_with_separate_endpoints c end_ptr input_ptr output_low output_high m ;;
  Ok m.

(** src/core/dxt-lossless-transform-common/src/transforms/split_565_color_endpoints/bench/mod.rs:110-116, fn ssse3_pshufb_unroll2_impl *)
Definition common_transforms_split_565_color_endpoints_bench_ssse3_pshufb_unroll2_impl (c : cfg) (colors : ptr) (colors_out : ptr) (colors_len_bytes : Z) (m : mem) : res mem :=
  do m <- common_transforms_split_565_color_endpoints_bench_ssse3_ssse3_pshufb_unroll2_impl c colors colors_out colors_len_bytes m ;;
  Ok m.

(** Constants of the loop at src/core/dxt-lossless-transform-common/src/transforms/split_565_color_endpoints/bench/ssse3.rs:131 *)
Definition common_transforms_split_565_color_endpoints_bench_ssse3_ssse3_pshufb_unroll4_impl_loop1_shuffle_mask : list byte := [x00; x01; x04; x05; x08; x09; x0c; x0d; x02; x03; x06; x07; x0a; x0b; x0e; x0f].

(** Loop at src/core/dxt-lossless-transform-common/src/transforms/split_565_color_endpoints/bench/ssse3.rs:131. *)
Definition common_transforms_split_565_color_endpoints_bench_ssse3_ssse3_pshufb_unroll4_impl_loop1 : list instr :=
  [ILoad "chunk0" "input_ptr" 0 16;
    ILoad "chunk1" "input_ptr" 16 16;
    ILoad "chunk2" "input_ptr" 32 16;
    ILoad "chunk3" "input_ptr" 48 16;
    IOp "shuffled0" (OPshufb 1) ["chunk0"; "shuffle_mask"];
    IOp "shuffled1" (OPshufb 1) ["chunk1"; "shuffle_mask"];
    IOp "shuffled2" (OPshufb 1) ["chunk2"; "shuffle_mask"];
    IOp "shuffled3" (OPshufb 1) ["chunk3"; "shuffle_mask"];
    IOp "temp0" (OMov) ["shuffled0"];
    IOp "temp1" (OMov) ["shuffled1"];
    IOp "temp2" (OMov) ["shuffled2"];
    IOp "temp3" (OMov) ["shuffled3"];
    IOp "colors0" (OShufps 1 68) ["temp0"; "temp1"];
    IOp "colors1" (OShufps 1 68) ["temp2"; "temp3"];
    IOp "colors0_2" (OShufps 1 238) ["temp0"; "temp1"];
    IOp "colors1_2" (OShufps 1 238) ["temp2"; "temp3"];
    IStore "output_low" 0 16 "colors0";
    IStore "output_low" 16 16 "colors1";
    IStore "output_high" 0 16 "colors0_2";
    IStore "output_high" 16 16 "colors1_2";
    IAdd "input_ptr" 64;
    IAdd "output_low" 32;
    IAdd "output_high" 32].

(** src/core/dxt-lossless-transform-common/src/transforms/split_565_color_endpoints/bench/ssse3.rs:103-183, fn ssse3_pshufb_unroll4_impl *)
Definition common_transforms_split_565_color_endpoints_bench_ssse3_ssse3_pshufb_unroll4_impl (c : cfg) (colors : ptr) (colors_out : ptr) (colors_len_bytes : Z) (m : mem) : res mem :=
  do _ <- cpu_has (c_sse2 c && c_ssse3 c) "sse2 ssse3" ;;
  do _ <- debug_assert (c_debug c) ((4 <=? colors_len_bytes) && (colors_len_bytes mod 4 =? 0)) "colors_len_bytes >= 4 && colors_len_bytes . is_multiple_of (" ;;
  let input_ptr := colors in
  let output_low := colors_out in
  do output_high <- ptr_add m colors_out (colors_len_bytes / 2) ;;
  do end_ptr <- ptr_add m colors (colors_len_bytes) ;;
  do aligned_end_ptr <- ptr_add m end_ptr (- (64)) ;;
  do s <- while_lt (c_junk c) 0 common_transforms_split_565_color_endpoints_bench_ssse3_ssse3_pshufb_unroll4_impl_loop1 "input_ptr" aligned_end_ptr (St [("shuffle_mask", common_transforms_split_565_color_endpoints_bench_ssse3_ssse3_pshufb_unroll4_impl_loop1_shuffle_mask)] [("input_ptr", input_ptr); ("output_low", output_low); ("output_high", output_high)] m) ;;
  let m := mm s in
  do input_ptr <- getp s "input_ptr" ;;
  do output_low <- getp s "output_low" ;;
  do output_high <- getp s "output_high" ;;
  do m <- common_transforms_split_565_color_endpoints_portable32_u32_with_separate_endpoints c end_ptr input_ptr output_low output_high m ;;
  Ok m.

(** src/core/dxt-lossless-transform-common/src/transforms/split_565_color_endpoints/bench/mod.rs:119-125, fn ssse3_pshufb_unroll4_impl *)
Definition common_transforms_split_565_color_endpoints_bench_ssse3_pshufb_unroll4_impl (c : cfg) (colors : ptr) (colors_out : ptr) (colors_len_bytes : Z) (m : mem) : res mem :=
  do m <- common_transforms_split_565_color_endpoints_bench_ssse3_ssse3_pshufb_unroll4_impl c colors colors_out colors_len_bytes m ;;
  Ok m.

(** src/core/dxt-lossless-transform-common/src/transforms/split_565_color_endpoints/bench/mod.rs:129-131, fn avx2_shuf_impl_asm *)
Definition common_transforms_split_565_color_endpoints_bench_avx2_shuf_impl_asm (c : cfg) (colors : ptr) (colors_out : ptr) (colors_len_bytes : Z) (m : mem) : res mem :=
  do m <- common_transforms_split_565_color_endpoints_avx2_avx2_shuf_impl_asm c colors colors_out colors_len_bytes m ;;
  Ok m.

(** src/core/dxt-lossless-transform-common/src/transforms/split_565_color_endpoints/bench/mod.rs:134-136, fn avx2_shuf_impl *)
Definition common_transforms_split_565_color_endpoints_bench_avx2_shuf_impl (c : cfg) (colors : ptr) (colors_out : ptr) (colors_len_bytes : Z) (m : mem) : res mem :=
  do m <- common_transforms_split_565_color_endpoints_bench_avx2_avx2_shuf_impl c colors colors_out colors_len_bytes m ;;
  Ok m.

(** src/core/dxt-lossless-transform-common/src/transforms/split_565_color_endpoints/bench/mod.rs:139-145, fn avx2_shuf_impl_unroll_2 *)
Definition common_transforms_split_565_color_endpoints_bench_avx2_shuf_impl_unroll_2 (c : cfg) (colors : ptr) (colors_out : ptr) (colors_len_bytes : Z) (m : mem) : res mem :=
  do m <- common_transforms_split_565_color_endpoints_bench_avx2_avx2_shuf_impl_unroll_2 c colors colors_out colors_len_bytes m ;;
  Ok m.

(** src/core/dxt-lossless-transform-common/src/transforms/split_565_color_endpoints/bench/mod.rs:149-151, fn avx512_impl_unroll2 *)
Definition common_transforms_split_565_color_endpoints_bench_avx512_impl_unroll2 (c : cfg) (colors : ptr) (colors_out : ptr) (colors_len_bytes : Z) (m : mem) : res mem :=
  do m <- common_transforms_split_565_color_endpoints_bench_avx512_avx512_impl_unroll2 c colors colors_out colors_len_bytes m ;;
  Ok m.

(** src/core/dxt-lossless-transform-common/src/transforms/split_565_color_endpoints/bench/mod.rs:154-156, fn avx512_impl *)
Definition common_transforms_split_565_color_endpoints_bench_avx512_impl (c : cfg) (colors : ptr) (colors_out : ptr) (colors_len_bytes : Z) (m : mem) : res mem :=
  do m <- common_transforms_split_565_color_endpoints_avx512_avx512_impl c colors colors_out colors_len_bytes m ;;
  Ok m.

