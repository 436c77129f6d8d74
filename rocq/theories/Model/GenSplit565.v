(** Generated by tools/rs2v.py from the kernel sources cited below; do not edit.
    Simplifications: usize arithmetic is exact (lengths are below isize::MAX), see
    Model/Kernel.v for the machine. *)
From Verif Require Import Base.Bytes Base.Res Model.Color565 Model.Ycc Model.Kernel.
Open Scope string_scope.
Open Scope list_scope.
Open Scope Z_scope.

(** Loop at src/core/dxt-lossless-transform-common/src/transforms/split_565_color_endpoints/portable32.rs:55. *)
Definition common_transforms_split_565_color_endpoints_portable32_u32_with_separate_endpoints_loop1 : list instr :=
  [ILoad "color0" "input" 0 4;
    IAdd "input" 4;
    IOp "t2" (OBytes 0 2) ["color0"];
    IStore "output0" 0 2 "t2";
    IAdd "output0" 2;
    IOp "t4" (OShr 2) ["color0"];
    IOp "t5" (OBytes 0 2) ["t4"];
    IStore "output1" 0 2 "t5";
    IAdd "output1" 2].

(** src/core/dxt-lossless-transform-common/src/transforms/split_565_color_endpoints/portable32.rs:49-64, fn u32_with_separate_endpoints *)
Definition common_transforms_split_565_color_endpoints_portable32_u32_with_separate_endpoints (c : cfg) (max_input_ptr : ptr) (input : ptr) (output0 : ptr) (output1 : ptr) (m : mem) : res mem :=
  do s <- while_lt (c_junk c) 0 common_transforms_split_565_color_endpoints_portable32_u32_with_separate_endpoints_loop1 "input" max_input_ptr (St [] [("input", input); ("output0", output0); ("output1", output1)] m) ;;
  let m := mm s in
  do input <- getp s "input" ;;
  do output0 <- getp s "output0" ;;
  do output1 <- getp s "output1" ;;
  Ok m.

(** Constants of the loop at src/core/dxt-lossless-transform-common/src/transforms/split_565_color_endpoints/avx512.rs:77 *)
Definition common_transforms_split_565_color_endpoints_avx512_avx512_impl_loop1_shuffle_mask_color0 : list byte := [x00; x01; x04; x05; x08; x09; x0c; x0d; x10; x11; x14; x15; x18; x19; x1c; x1d; x20; x21; x24; x25; x28; x29; x2c; x2d; x30; x31; x34; x35; x38; x39; x3c; x3d; x40; x41; x44; x45; x48; x49; x4c; x4d; x50; x51; x54; x55; x58; x59; x5c; x5d; x60; x61; x64; x65; x68; x69; x6c; x6d; x70; x71; x74; x75; x78; x79; x7c; x7d].
Definition common_transforms_split_565_color_endpoints_avx512_avx512_impl_loop1_shuffle_mask_color1 : list byte := [x02; x03; x06; x07; x0a; x0b; x0e; x0f; x12; x13; x16; x17; x1a; x1b; x1e; x1f; x22; x23; x26; x27; x2a; x2b; x2e; x2f; x32; x33; x36; x37; x3a; x3b; x3e; x3f; x42; x43; x46; x47; x4a; x4b; x4e; x4f; x52; x53; x56; x57; x5a; x5b; x5e; x5f; x62; x63; x66; x67; x6a; x6b; x6e; x6f; x72; x73; x76; x77; x7a; x7b; x7e; x7f].

(** Loop at src/core/dxt-lossless-transform-common/src/transforms/split_565_color_endpoints/avx512.rs:77. *)
Definition common_transforms_split_565_color_endpoints_avx512_avx512_impl_loop1 : list instr :=
  [ILoad "chunk1" "input_ptr" 0 64;
    ILoad "chunk2" "input_ptr" 64 64;
    IAdd "input_ptr" 128;
    IOp "color0_rearranged_0" (OPermT2 1 64) ["chunk1"; "shuffle_mask_color0"; "chunk2"];
    IOp "color1_rearranged_0" (OPermT2 1 64) ["chunk1"; "shuffle_mask_color1"; "chunk2"];
    IStore "output_low" 0 64 "color0_rearranged_0";
    IStore "output_high" 0 64 "color1_rearranged_0";
    IAdd "output_low" 64;
    IAdd "output_high" 64].

(** src/core/dxt-lossless-transform-common/src/transforms/split_565_color_endpoints/avx512.rs:24-101, fn avx512_impl *)
Definition common_transforms_split_565_color_endpoints_avx512_avx512_impl (c : cfg) (colors : ptr) (colors_out : ptr) (colors_len_bytes : Z) (m : mem) : res mem :=
  do _ <- cpu_has (c_avx512f c && c_avx512vbmi c) "avx512f avx512vbmi" ;;
  do _ <- debug_assert (c_debug c) ((4 <=? colors_len_bytes) && (colors_len_bytes mod 4 =? 0)) "colors_len_bytes >= 4 && colors_len_bytes . is_multiple_of (" ;;
  let input_ptr := colors in
  let output_low := colors_out in
  do output_high <- ptr_add m colors_out (colors_len_bytes / 2) ;;
  do aligned_len <- usub colors_len_bytes (colors_len_bytes mod 128) ;;
  do aligned_end_ptr <- ptr_add m colors (aligned_len) ;;
  do s <- while_lt (c_junk c) 0 common_transforms_split_565_color_endpoints_avx512_avx512_impl_loop1 "input_ptr" aligned_end_ptr (St [("shuffle_mask_color0", common_transforms_split_565_color_endpoints_avx512_avx512_impl_loop1_shuffle_mask_color0); ("shuffle_mask_color1", common_transforms_split_565_color_endpoints_avx512_avx512_impl_loop1_shuffle_mask_color1)] [("input_ptr", input_ptr); ("output_low", output_low); ("output_high", output_high)] m) ;;
  let m := mm s in
  do input_ptr <- getp s "input_ptr" ;;
  do output_low <- getp s "output_low" ;;
  do output_high <- getp s "output_high" ;;
  do end_ptr <- ptr_add m colors (colors_len_bytes) ;;
  do m <- common_transforms_split_565_color_endpoints_portable32_u32_with_separate_endpoints c end_ptr input_ptr output_low output_high m ;;
  Ok m.

(** Constants of the loop at src/core/dxt-lossless-transform-common/src/transforms/split_565_color_endpoints/avx2.rs:62 *)
Definition common_transforms_split_565_color_endpoints_avx2_avx2_shuf_impl_asm_loop1_shuffle_mask : list byte := [x02; x03; x06; x07; x00; x01; x04; x05; x0a; x0b; x0e; x0f; x08; x09; x0c; x0d; x02; x03; x06; x07; x00; x01; x04; x05; x0a; x0b; x0e; x0f; x08; x09; x0c; x0d].

(** Loop at src/core/dxt-lossless-transform-common/src/transforms/split_565_color_endpoints/avx2.rs:62. *)
Definition common_transforms_split_565_color_endpoints_avx2_avx2_shuf_impl_asm_loop1 : list instr :=
  [ILoad "ymm1" "src_ptr" 0 32;
    ILoad "ymm2" "src_ptr" 32 32;
    IAddAsm "src_ptr" 64;
    IOp "ymm1" (OPshufb 2) ["ymm1"; "shuffle_mask"];
    IOp "ymm2" (OPshufb 2) ["ymm2"; "shuffle_mask"];
    IOp "ymm3" (OShufps 2 221) ["ymm1"; "ymm2"];
    IOp "ymm1" (OShufps 2 136) ["ymm1"; "ymm2"];
    IOp "ymm3" (OPermq 216) ["ymm3"];
    IOp "ymm1" (OPermq 216) ["ymm1"];
    IStore "out_low" 0 32 "ymm3";
    IStore "out_high" 0 32 "ymm1";
    IAddAsm "out_low" 32;
    IAddAsm "out_high" 32].

(** src/core/dxt-lossless-transform-common/src/transforms/split_565_color_endpoints/avx2.rs:24-118, fn avx2_shuf_impl_asm *)
Definition common_transforms_split_565_color_endpoints_avx2_avx2_shuf_impl_asm (c : cfg) (colors : ptr) (colors_out : ptr) (colors_len_bytes : Z) (m : mem) : res mem :=
  do _ <- cpu_has (c_avx2 c) "avx2" ;;
  do _ <- debug_assert (c_debug c) ((4 <=? colors_len_bytes) && (colors_len_bytes mod 4 =? 0)) "colors_len_bytes >= 4 && colors_len_bytes . is_multiple_of (" ;;
  let input_ptr := colors in
  let output_low := colors_out in
  do output_high <- ptr_add m colors_out (colors_len_bytes / 2) ;;
  do end_ptr <- ptr_add m colors (colors_len_bytes) ;;
  do aligned_end_ptr <- ptr_add m end_ptr (- (64)) ;;
  do b4 <- ptr_ltb input_ptr aligned_end_ptr ;;
  do (input_ptr, output_high, output_low, m) <- (
    if b4 then
      do s <- asm_jb (c_junk c) 0 common_transforms_split_565_color_endpoints_avx2_avx2_shuf_impl_asm_loop1 "src_ptr" aligned_end_ptr (St [("shuffle_mask", common_transforms_split_565_color_endpoints_avx2_avx2_shuf_impl_asm_loop1_shuffle_mask)] [("src_ptr", input_ptr); ("out_low", output_low); ("out_high", output_high)] m) ;;
      let m := mm s in
      do input_ptr <- getp s "src_ptr" ;;
      do output_low <- getp s "out_low" ;;
      do output_high <- getp s "out_high" ;;
      Ok (input_ptr, output_high, output_low, m)
    else
      Ok (input_ptr, output_high, output_low, m)
  ) ;;
  do m <- common_transforms_split_565_color_endpoints_portable32_u32_with_separate_endpoints c end_ptr input_ptr output_low output_high m ;;
  Ok m.

(** Loop at src/core/dxt-lossless-transform-common/src/transforms/split_565_color_endpoints/sse2.rs:41. *)
Definition common_transforms_split_565_color_endpoints_sse2_sse2_shuf_unroll2_impl_asm_loop1 : list instr :=
  [ILoad "xmm0" "src_ptr" 0 16;
    ILoad "xmm1" "src_ptr" 16 16;
    ILoad "xmm3" "src_ptr" 48 16;
    ILoad "xmm2" "src_ptr" 32 16;
    IAddAsm "src_ptr" 64;
    IOp "xmm0" (OPshuflw 1 216) ["xmm0"];
    IOp "xmm1" (OPshuflw 1 216) ["xmm1"];
    IOp "xmm3" (OPshuflw 1 216) ["xmm3"];
    IOp "xmm0" (OPshufhw 1 39) ["xmm0"];
    IOp "xmm1" (OPshufhw 1 39) ["xmm1"];
    IOp "xmm3" (OPshufhw 1 39) ["xmm3"];
    IOp "xmm0" (OPshufd 1 108) ["xmm0"];
    IOp "xmm1" (OPshufd 1 108) ["xmm1"];
    IOp "xmm3" (OPshufd 1 108) ["xmm3"];
    IOp "xmm4" (OPshufhw 1 30) ["xmm0"];
    IOp "xmm5" (OPshufhw 1 30) ["xmm1"];
    IOp "xmm0" (OPshuflw 1 180) ["xmm0"];
    IOp "xmm1" (OPshuflw 1 180) ["xmm1"];
    IOp "xmm0" (OUnpackLo 8 1) ["xmm0"; "xmm1"];
    IOp "xmm1" (OPshuflw 1 216) ["xmm2"];
    IOp "xmm5" (OMovhlps) ["xmm5"; "xmm4"];
    IOp "xmm4" (OPshufhw 1 30) ["xmm3"];
    IOp "xmm3" (OPshuflw 1 180) ["xmm3"];
    IOp "xmm1" (OPshufhw 1 39) ["xmm1"];
    IStore "out_low" 0 16 "xmm0";
    IOp "xmm1" (OPshufd 1 108) ["xmm1"];
    IOp "xmm2" (OPshufhw 1 30) ["xmm1"];
    IOp "xmm1" (OPshuflw 1 180) ["xmm1"];
    IOp "xmm1" (OUnpackLo 8 1) ["xmm1"; "xmm3"];
    IOp "xmm4" (OMovhlps) ["xmm4"; "xmm2"];
    IStore "out_low" 16 16 "xmm1";
    IStore "out_high" 0 16 "xmm5";
    IStore "out_high" 16 16 "xmm4";
    IAddAsm "out_low" 32;
    IAddAsm "out_high" 32].

(** src/core/dxt-lossless-transform-common/src/transforms/split_565_color_endpoints/sse2.rs:21-119, fn sse2_shuf_unroll2_impl_asm *)
Definition common_transforms_split_565_color_endpoints_sse2_sse2_shuf_unroll2_impl_asm (c : cfg) (colors : ptr) (colors_out : ptr) (colors_len_bytes : Z) (m : mem) : res mem :=
  do _ <- cpu_has (c_sse2 c) "sse2" ;;
  do _ <- debug_assert (c_debug c) ((4 <=? colors_len_bytes) && (colors_len_bytes mod 4 =? 0)) "colors_len_bytes >= 4 && colors_len_bytes . is_multiple_of (" ;;
  let input_ptr := colors in
  let output_low := colors_out in
  do output_high <- ptr_add m colors_out (colors_len_bytes / 2) ;;
  do end_ptr <- ptr_add m colors (colors_len_bytes) ;;
  do aligned_end_ptr <- ptr_add m end_ptr (- (64)) ;;
  do b4 <- ptr_ltb input_ptr aligned_end_ptr ;;
  do (input_ptr, output_high, output_low, m) <- (
    if b4 then
      do s <- asm_jb (c_junk c) 0 common_transforms_split_565_color_endpoints_sse2_sse2_shuf_unroll2_impl_asm_loop1 "src_ptr" aligned_end_ptr (St [] [("src_ptr", input_ptr); ("out_low", output_low); ("out_high", output_high)] m) ;;
      let m := mm s in
      do input_ptr <- getp s "src_ptr" ;;
      do output_low <- getp s "out_low" ;;
      do output_high <- getp s "out_high" ;;
      Ok (input_ptr, output_high, output_low, m)
    else
      Ok (input_ptr, output_high, output_low, m)
  ) ;;
  do m <- common_transforms_split_565_color_endpoints_portable32_u32_with_separate_endpoints c end_ptr input_ptr output_low output_high m ;;
  Ok m.

(** src/core/dxt-lossless-transform-common/src/transforms/split_565_color_endpoints/portable32.rs:18-31, fn u32 *)
Definition common_transforms_split_565_color_endpoints_portable32_u32 (c : cfg) (colors : ptr) (colors_out : ptr) (colors_len_bytes : Z) (m : mem) : res mem :=
  do _ <- debug_assert (c_debug c) ((4 <=? colors_len_bytes) && (colors_len_bytes mod 4 =? 0)) "colors_len_bytes >= 4 && colors_len_bytes . is_multiple_of (" ;;
  do max_input_ptr <- ptr_add m colors (colors_len_bytes) ;;
  let input := colors in
  let output0 := colors_out in
  do output1 <- ptr_add m colors_out (colors_len_bytes / 2) ;;
  do m <- common_transforms_split_565_color_endpoints_portable32_u32_with_separate_endpoints c max_input_ptr input output0 output1 m ;;
  Ok m.

(** src/core/dxt-lossless-transform-common/src/transforms/split_565_color_endpoints/mod.rs:45-89, fn split_color_endpoints_x86 *)
Definition common_transforms_split_565_color_endpoints_split_color_endpoints_x86 (c : cfg) (colors : ptr) (colors_out : ptr) (colors_len_bytes : Z) (m : mem) : res mem :=
  if negb (c_static c) then
    if has_avx512vbmi c then
      do m <- common_transforms_split_565_color_endpoints_avx512_avx512_impl c colors colors_out colors_len_bytes m ;;
      Ok m
    else
      if has_avx2 c then
        do m <- common_transforms_split_565_color_endpoints_avx2_avx2_shuf_impl_asm c colors colors_out colors_len_bytes m ;;
        Ok m
      else
        if has_sse2 c then
          do m <- common_transforms_split_565_color_endpoints_sse2_sse2_shuf_unroll2_impl_asm c colors colors_out colors_len_bytes m ;;
          Ok m
        else
          do m <- common_transforms_split_565_color_endpoints_portable32_u32 c colors colors_out colors_len_bytes m ;;
          Ok m
  else
    if c_avx512vbmi c then
      do m <- common_transforms_split_565_color_endpoints_avx512_avx512_impl c colors colors_out colors_len_bytes m ;;
      Ok m
    else
      if c_avx2 c then
        do m <- common_transforms_split_565_color_endpoints_avx2_avx2_shuf_impl_asm c colors colors_out colors_len_bytes m ;;
        Ok m
      else
        if c_sse2 c then
          do m <- common_transforms_split_565_color_endpoints_sse2_sse2_shuf_unroll2_impl_asm c colors colors_out colors_len_bytes m ;;
          Ok m
        else
          do m <- common_transforms_split_565_color_endpoints_portable32_u32 c colors colors_out colors_len_bytes m ;;
          Ok m.

(** src/core/dxt-lossless-transform-common/src/transforms/split_565_color_endpoints/mod.rs:110-130, fn split_color_endpoints *)
Definition common_transforms_split_565_color_endpoints_split_color_endpoints (c : cfg) (colors : ptr) (colors_out : ptr) (colors_len_bytes : Z) (m : mem) : res mem :=
  do _ <- debug_assert (c_debug c) ((4 <=? colors_len_bytes) && (colors_len_bytes mod 4 =? 0)) "colors_len_bytes >= 4 && colors_len_bytes . is_multiple_of (" ;;
  if is_x86 c then
    do m <- common_transforms_split_565_color_endpoints_split_color_endpoints_x86 c colors colors_out colors_len_bytes m ;;
    Ok m
  else
    do m <- common_transforms_split_565_color_endpoints_portable32_u32 c colors colors_out colors_len_bytes m ;;
    Ok m.

