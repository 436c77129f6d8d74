(** Generated by tools/rs2v.py from the kernel sources cited below; do not edit.
    Simplifications: usize arithmetic is exact (lengths are below isize::MAX), see
    Model/Kernel.v for the machine. *)
From Verif Require Import Base.Bytes Base.Res Model.Color565 Model.Ycc Model.Kernel Model.KernelBench Model.GenBc2Std.
Open Scope string_scope.
Open Scope list_scope.
Open Scope Z_scope.

(** Constants of the loop at src/core/dxt-lossless-transform-bc2/src/transform/standard/transform/bench/avx512.rs:52 *)
Definition bc2_std_t_bench_avx512_permute_512_with_separate_pointers_loop1_perm_alpha : list byte := [x00; x00; x00; x00; x00; x00; x00; x00; x02; x00; x00; x00; x00; x00; x00; x00; x04; x00; x00; x00; x00; x00; x00; x00; x06; x00; x00; x00; x00; x00; x00; x00; x08; x00; x00; x00; x00; x00; x00; x00; x0a; x00; x00; x00; x00; x00; x00; x00; x0c; x00; x00; x00; x00; x00; x00; x00; x0e; x00; x00; x00; x00; x00; x00; x00].
Definition bc2_std_t_bench_avx512_permute_512_with_separate_pointers_loop1_perm_colors : list byte := [x02; x00; x00; x00; x06; x00; x00; x00; x0a; x00; x00; x00; x0e; x00; x00; x00; x12; x00; x00; x00; x16; x00; x00; x00; x1a; x00; x00; x00; x1e; x00; x00; x00; x00; x00; x00; x00; x00; x00; x00; x00; x00; x00; x00; x00; x00; x00; x00; x00; x00; x00; x00; x00; x00; x00; x00; x00; x00; x00; x00; x00; x00; x00; x00; x00].
Definition bc2_std_t_bench_avx512_permute_512_with_separate_pointers_loop1_perm_indices : list byte := [x03; x00; x00; x00; x07; x00; x00; x00; x0b; x00; x00; x00; x0f; x00; x00; x00; x13; x00; x00; x00; x17; x00; x00; x00; x1b; x00; x00; x00; x1f; x00; x00; x00; x00; x00; x00; x00; x00; x00; x00; x00; x00; x00; x00; x00; x00; x00; x00; x00; x00; x00; x00; x00; x00; x00; x00; x00; x00; x00; x00; x00; x00; x00; x00; x00].

(** Loop at src/core/dxt-lossless-transform-bc2/src/transform/standard/transform/bench/avx512.rs:52. *)
Definition bc2_std_t_bench_avx512_permute_512_with_separate_pointers_loop1 : list instr :=
  [ILoad "zmm4" "input_ptr" 0 64;
    ILoad "zmm5" "input_ptr" 64 64;
    IOp "zmm3" (OMov) ["zmm4"];
    IOp "zmm3" (OPermT2 8 8) ["zmm3"; "perm_alpha"; "zmm5"];
    IAddAsm "input_ptr" 128;
    IOp "zmm6" (OMov) ["zmm4"];
    IOp "zmm6" (OPermT2 4 16) ["zmm6"; "perm_colors"; "zmm5"];
    IOp "zmm4" (OPermT2 4 16) ["zmm4"; "perm_indices"; "zmm5"];
    IStore "alphas_ptr" 0 64 "zmm3";
    IStore "colors_ptr" 0 64 "zmm6";
    IStore "indices_ptr" 0 64 "zmm4";
    IAddAsm "alphas_ptr" 64;
    IAddAsm "colors_ptr" 32;
    IAddAsm "indices_ptr" 32].

(** src/core/dxt-lossless-transform-bc2/src/transform/standard/transform/bench/avx512.rs:21-103, fn permute_512_with_separate_pointers *)
Definition bc2_std_t_bench_avx512_permute_512_with_separate_pointers (c : cfg) (input_ptr : ptr) (alphas_ptr : ptr) (colors_ptr : ptr) (indices_ptr : ptr) (len : Z) (m : mem) : res mem :=
  do _ <- cpu_has (c_sse2 c && c_avx512f c) "sse2 avx512f" ;;
  do _ <- debug_assert (c_debug c) (len mod 16 =? 0) "len . is_multiple_of ( 16 )" ;;
  do aligned_len <- usub len (len mod 128) ;;
  let aligned_len := Z.max 0 (aligned_len - 128) in
  do (alphas_ptr, colors_ptr, indices_ptr, input_ptr, m) <- (
    if (0 <? aligned_len) then
      do aligned_end <- ptr_add m input_ptr (aligned_len) ;;
      do s <- asm_jb (c_junk c) 0 bc2_std_t_bench_avx512_permute_512_with_separate_pointers_loop1 "input_ptr" aligned_end (St [("perm_alpha", bc2_std_t_bench_avx512_permute_512_with_separate_pointers_loop1_perm_alpha); ("perm_colors", bc2_std_t_bench_avx512_permute_512_with_separate_pointers_loop1_perm_colors); ("perm_indices", bc2_std_t_bench_avx512_permute_512_with_separate_pointers_loop1_perm_indices)] [("input_ptr", input_ptr); ("alphas_ptr", alphas_ptr); ("colors_ptr", colors_ptr); ("indices_ptr", indices_ptr)] m) ;;
      let m := mm s in
      do input_ptr <- getp s "input_ptr" ;;
      do alphas_ptr <- getp s "alphas_ptr" ;;
      do colors_ptr <- getp s "colors_ptr" ;;
      do indices_ptr <- getp s "indices_ptr" ;;
      Ok (alphas_ptr, colors_ptr, indices_ptr, input_ptr, m)
    else
      Ok (alphas_ptr, colors_ptr, indices_ptr, input_ptr, m)
  ) ;;
  do remaining <- usub len aligned_len ;;
  if (0 <? remaining) then
    do m <- bc2_std_t_portable32_u32_with_separate_pointers c input_ptr alphas_ptr colors_ptr indices_ptr remaining m ;;
    Ok m
  else
    Ok m.

(** src/core/dxt-lossless-transform-bc2/src/transform/standard/transform/bench/avx512.rs:111-125, fn permute_512 *)
Definition bc2_std_t_bench_avx512_permute_512 (c : cfg) (input_ptr : ptr) (output_ptr : ptr) (len : Z) (m : mem) : res mem :=
  do _ <- cpu_has (c_avx512f c) "avx512f" ;;
  do _ <- debug_assert (c_debug c) (len mod 16 =? 0) "len . is_multiple_of ( 16 )" ;;
  let alphas_ptr := output_ptr in
  do colors_ptr <- ptr_add m output_ptr (len / 2) ;;
  do indices_ptr <- ptr_add m colors_ptr (len / 4) ;;
  do m <- bc2_std_t_bench_avx512_permute_512_with_separate_pointers c input_ptr alphas_ptr colors_ptr indices_ptr len m ;;
  Ok m.

(** Constants of the loop at src/core/dxt-lossless-transform-bc2/src/transform/standard/transform/bench/avx512.rs:164 *)
Definition bc2_std_t_bench_avx512_permute_512_intrinsics_loop1_perm_alpha : list byte := [x00; x00; x00; x00; x00; x00; x00; x00; x02; x00; x00; x00; x00; x00; x00; x00; x04; x00; x00; x00; x00; x00; x00; x00; x06; x00; x00; x00; x00; x00; x00; x00; x08; x00; x00; x00; x00; x00; x00; x00; x0a; x00; x00; x00; x00; x00; x00; x00; x0c; x00; x00; x00; x00; x00; x00; x00; x0e; x00; x00; x00; x00; x00; x00; x00].
Definition bc2_std_t_bench_avx512_permute_512_intrinsics_loop1_perm_colors : list byte := [x02; x00; x00; x00; x06; x00; x00; x00; x0a; x00; x00; x00; x0e; x00; x00; x00; x12; x00; x00; x00; x16; x00; x00; x00; x1a; x00; x00; x00; x1e; x00; x00; x00; x00; x00; x00; x00; x00; x00; x00; x00; x00; x00; x00; x00; x00; x00; x00; x00; x00; x00; x00; x00; x00; x00; x00; x00; x00; x00; x00; x00; x00; x00; x00; x00].
Definition bc2_std_t_bench_avx512_permute_512_intrinsics_loop1_perm_indices : list byte := [x03; x00; x00; x00; x07; x00; x00; x00; x0b; x00; x00; x00; x0f; x00; x00; x00; x13; x00; x00; x00; x17; x00; x00; x00; x1b; x00; x00; x00; x1f; x00; x00; x00; x00; x00; x00; x00; x00; x00; x00; x00; x00; x00; x00; x00; x00; x00; x00; x00; x00; x00; x00; x00; x00; x00; x00; x00; x00; x00; x00; x00; x00; x00; x00; x00].

(** Loop at src/core/dxt-lossless-transform-bc2/src/transform/standard/transform/bench/avx512.rs:164. *)
Definition bc2_std_t_bench_avx512_permute_512_intrinsics_loop1 : list instr :=
  [ILoad "zmm4" "input_ptr" 0 64;
    ILoad "zmm5" "input_ptr" 64 64;
    IOp "zmm3" (OMov) ["zmm4"];
    IOp "zmm3" (OPermT2 8 8) ["zmm3"; "perm_alpha"; "zmm5"];
    IAdd "input_ptr" 128;
    IOp "zmm6" (OMov) ["zmm4"];
    IOp "zmm6" (OPermT2 4 16) ["zmm6"; "perm_colors"; "zmm5"];
    IOp "zmm4_indices" (OPermT2 4 16) ["zmm4"; "perm_indices"; "zmm5"];
    IStore "alpha_ptr" 0 64 "zmm3";
    IStore "colors_ptr" 0 64 "zmm6";
    IStore "indices_ptr" 0 64 "zmm4_indices";
    IAdd "alpha_ptr" 64;
    IAdd "colors_ptr" 32;
    IAdd "indices_ptr" 32].

(** src/core/dxt-lossless-transform-bc2/src/transform/standard/transform/bench/avx512.rs:134-206, fn permute_512_intrinsics *)
Definition bc2_std_t_bench_avx512_permute_512_intrinsics (c : cfg) (input_ptr : ptr) (output_ptr : ptr) (len : Z) (m : mem) : res mem :=
  do _ <- cpu_has (c_sse2 c && c_avx512f c) "sse2 avx512f" ;;
  do _ <- debug_assert (c_debug c) (len mod 16 =? 0) "len . is_multiple_of ( 16 )" ;;
  do aligned_len <- usub len (len mod 128) ;;
  let alpha_ptr := output_ptr in
  let aligned_len := Z.max 0 (aligned_len - 128) in
  do colors_ptr <- ptr_add m alpha_ptr (len / 2) ;;
  do indices_ptr <- ptr_add m colors_ptr (len / 4) ;;
  do (alpha_ptr, colors_ptr, indices_ptr, input_ptr, m) <- (
    if (0 <? aligned_len) then
      do aligned_end <- ptr_add m input_ptr (aligned_len) ;;
      do s <- while_lt (c_junk c) 0 bc2_std_t_bench_avx512_permute_512_intrinsics_loop1 "input_ptr" aligned_end (St [("perm_alpha", bc2_std_t_bench_avx512_permute_512_intrinsics_loop1_perm_alpha); ("perm_colors", bc2_std_t_bench_avx512_permute_512_intrinsics_loop1_perm_colors); ("perm_indices", bc2_std_t_bench_avx512_permute_512_intrinsics_loop1_perm_indices)] [("input_ptr", input_ptr); ("alpha_ptr", alpha_ptr); ("colors_ptr", colors_ptr); ("indices_ptr", indices_ptr)] m) ;;
      let m := mm s in
      do input_ptr <- getp s "input_ptr" ;;
      do alpha_ptr <- getp s "alpha_ptr" ;;
      do colors_ptr <- getp s "colors_ptr" ;;
      do indices_ptr <- getp s "indices_ptr" ;;
      Ok (alpha_ptr, colors_ptr, indices_ptr, input_ptr, m)
    else
      Ok (alpha_ptr, colors_ptr, indices_ptr, input_ptr, m)
  ) ;;
  do remaining <- usub len aligned_len ;;
  if (0 <? remaining) then
    do m <- bc2_std_t_portable32_u32_with_separate_pointers c input_ptr alpha_ptr colors_ptr indices_ptr remaining m ;;
    Ok m
  else
    Ok m.

(** src/core/dxt-lossless-transform-bc2/src/transform/standard/transform/bench/mod.rs:21-23, fn sse2_shuffle_v3 *)
Definition bc2_std_t_bench_sse2_shuffle_v3 (c : cfg) (input_ptr : ptr) (output_ptr : ptr) (len : Z) (m : mem) : res mem :=
  do m <- bc2_std_t_sse2_shuffle_v3 c input_ptr output_ptr len m ;;
  Ok m.

(** src/core/dxt-lossless-transform-bc2/src/transform/standard/transform/bench/mod.rs:26-28, fn sse2_shuffle_v2 *)
Definition bc2_std_t_bench_sse2_shuffle_v2 (c : cfg) (input_ptr : ptr) (output_ptr : ptr) (len : Z) (m : mem) : res mem :=
  do m <- bc2_std_t_sse2_shuffle_v2 c input_ptr output_ptr len m ;;
  Ok m.

(** src/core/dxt-lossless-transform-bc2/src/transform/standard/transform/bench/mod.rs:31-33, fn avx2_shuffle *)
Definition bc2_std_t_bench_avx2_shuffle (c : cfg) (input_ptr : ptr) (output_ptr : ptr) (len : Z) (m : mem) : res mem :=
  do m <- bc2_std_t_avx2_shuffle c input_ptr output_ptr len m ;;
  Ok m.

(** src/core/dxt-lossless-transform-bc2/src/transform/standard/transform/bench/mod.rs:35-37, fn u32 *)
Definition bc2_std_t_bench_u32 (c : cfg) (input_ptr : ptr) (output_ptr : ptr) (len : Z) (m : mem) : res mem :=
  do m <- bc2_std_t_portable32_u32 c input_ptr output_ptr len m ;;
  Ok m.

(** Loop at src/core/dxt-lossless-transform-bc2/src/transform/standard/transform/bench/portable32.rs:16. *)
Definition bc2_std_t_bench_portable32_u32_unroll_2_loop1 : list instr :=
  [ILoad "alpha_value1" "input_ptr" 0 8;
    ILoad "color_value1" "input_ptr" 8 4;
    ILoad "index_value1" "input_ptr" 12 4;
    ILoad "alpha_value2" "input_ptr" 16 8;
    ILoad "color_value2" "input_ptr" 24 4;
    ILoad "index_value2" "input_ptr" 28 4;
    IAdd "input_ptr" 32;
    IStore "alphas_ptr" 0 8 "alpha_value1";
    IStore "colours_ptr" 0 4 "color_value1";
    IStore "indices_ptr" 0 4 "index_value1";
    IStore "alphas_ptr" 8 8 "alpha_value2";
    IStore "colours_ptr" 4 4 "color_value2";
    IStore "indices_ptr" 4 4 "index_value2";
    IAdd "alphas_ptr" 16;
    IAdd "colours_ptr" 8;
    IAdd "indices_ptr" 8].

(** Loop at src/core/dxt-lossless-transform-bc2/src/transform/standard/transform/bench/portable32.rs:46. *)
Definition bc2_std_t_bench_portable32_u32_unroll_2_loop2 : list instr :=
  [ILoad "alpha_value" "input_ptr" 0 8;
    ILoad "color_value" "input_ptr" 8 4;
    ILoad "index_value" "input_ptr" 12 4;
    IAdd "input_ptr" 16;
    IStore "alphas_ptr" 0 8 "alpha_value";
    IStore "colours_ptr" 0 4 "color_value";
    IStore "indices_ptr" 0 4 "index_value";
    IAdd "alphas_ptr" 8;
    IAdd "colours_ptr" 4;
    IAdd "indices_ptr" 4].

(** src/core/dxt-lossless-transform-bc2/src/transform/standard/transform/bench/portable32.rs:5-62, fn u32_unroll_2 *)
Definition bc2_std_t_bench_portable32_u32_unroll_2 (c : cfg) (input_ptr : ptr) (output_ptr : ptr) (len : Z) (m : mem) : res mem :=
  do _ <- debug_assert (c_debug c) (len mod 16 =? 0) "len . is_multiple_of ( 16 )" ;;
  let alphas_ptr := output_ptr in
  do colours_ptr <- ptr_add m output_ptr (len / 2) ;;
  do indices_ptr <- ptr_add m output_ptr ((len / 2) + (len / 4)) ;;
  do max_ptr <- ptr_add m input_ptr (len) ;;
  do max_aligned_input <- ptr_add m input_ptr (Z.max 0 (len - 32)) ;;
  do s <- while_lt (c_junk c) 0 bc2_std_t_bench_portable32_u32_unroll_2_loop1 "input_ptr" max_aligned_input (St [] [("input_ptr", input_ptr); ("alphas_ptr", alphas_ptr); ("colours_ptr", colours_ptr); ("indices_ptr", indices_ptr)] m) ;;
  let m := mm s in
  do input_ptr <- getp s "input_ptr" ;;
  do alphas_ptr <- getp s "alphas_ptr" ;;
  do colours_ptr <- getp s "colours_ptr" ;;
  do indices_ptr <- getp s "indices_ptr" ;;
  do s <- while_lt (c_junk c) 0 bc2_std_t_bench_portable32_u32_unroll_2_loop2 "input_ptr" max_ptr (St [] [("input_ptr", input_ptr); ("alphas_ptr", alphas_ptr); ("colours_ptr", colours_ptr); ("indices_ptr", indices_ptr)] m) ;;
  let m := mm s in
  do input_ptr <- getp s "input_ptr" ;;
  do alphas_ptr <- getp s "alphas_ptr" ;;
  do colours_ptr <- getp s "colours_ptr" ;;
  do indices_ptr <- getp s "indices_ptr" ;;
  Ok m.

(** src/core/dxt-lossless-transform-bc2/src/transform/standard/transform/bench/mod.rs:39-41, fn u32_unroll_2 *)
Definition bc2_std_t_bench_u32_unroll_2 (c : cfg) (input_ptr : ptr) (output_ptr : ptr) (len : Z) (m : mem) : res mem :=
  do m <- bc2_std_t_bench_portable32_u32_unroll_2 c input_ptr output_ptr len m ;;
  Ok m.

(** Loop at src/core/dxt-lossless-transform-bc2/src/transform/standard/transform/bench/portable32.rs:79. *)
Definition bc2_std_t_bench_portable32_u32_unroll_4_loop1 : list instr :=
  [ILoad "alpha_value1" "input_ptr" 0 8;
    ILoad "color_value1" "input_ptr" 8 4;
    ILoad "index_value1" "input_ptr" 12 4;
    ILoad "alpha_value2" "input_ptr" 16 8;
    ILoad "color_value2" "input_ptr" 24 4;
    ILoad "index_value2" "input_ptr" 28 4;
    ILoad "alpha_value3" "input_ptr" 32 8;
    ILoad "color_value3" "input_ptr" 40 4;
    ILoad "index_value3" "input_ptr" 44 4;
    ILoad "alpha_value4" "input_ptr" 48 8;
    ILoad "color_value4" "input_ptr" 56 4;
    ILoad "index_value4" "input_ptr" 60 4;
    IAdd "input_ptr" 64;
    IStore "alphas_ptr" 0 8 "alpha_value1";
    IStore "colours_ptr" 0 4 "color_value1";
    IStore "indices_ptr" 0 4 "index_value1";
    IStore "alphas_ptr" 8 8 "alpha_value2";
    IStore "colours_ptr" 4 4 "color_value2";
    IStore "indices_ptr" 4 4 "index_value2";
    IStore "alphas_ptr" 16 8 "alpha_value3";
    IStore "colours_ptr" 8 4 "color_value3";
    IStore "indices_ptr" 8 4 "index_value3";
    IStore "alphas_ptr" 24 8 "alpha_value4";
    IStore "colours_ptr" 12 4 "color_value4";
    IStore "indices_ptr" 12 4 "index_value4";
    IAdd "alphas_ptr" 32;
    IAdd "colours_ptr" 16;
    IAdd "indices_ptr" 16].

(** Loop at src/core/dxt-lossless-transform-bc2/src/transform/standard/transform/bench/portable32.rs:126. *)
Definition bc2_std_t_bench_portable32_u32_unroll_4_loop2 : list instr :=
  [ILoad "alpha_value" "input_ptr" 0 8;
    ILoad "color_value" "input_ptr" 8 4;
    ILoad "index_value" "input_ptr" 12 4;
    IAdd "input_ptr" 16;
    IStore "alphas_ptr" 0 8 "alpha_value";
    IStore "colours_ptr" 0 4 "color_value";
    IStore "indices_ptr" 0 4 "index_value";
    IAdd "alphas_ptr" 8;
    IAdd "colours_ptr" 4;
    IAdd "indices_ptr" 4].

(** src/core/dxt-lossless-transform-bc2/src/transform/standard/transform/bench/portable32.rs:68-142, fn u32_unroll_4 *)
Definition bc2_std_t_bench_portable32_u32_unroll_4 (c : cfg) (input_ptr : ptr) (output_ptr : ptr) (len : Z) (m : mem) : res mem :=
  do _ <- debug_assert (c_debug c) (len mod 16 =? 0) "len . is_multiple_of ( 16 )" ;;
  let alphas_ptr := output_ptr in
  do colours_ptr <- ptr_add m output_ptr (len / 2) ;;
  do indices_ptr <- ptr_add m output_ptr ((len / 2) + (len / 4)) ;;
  do max_ptr <- ptr_add m input_ptr (len) ;;
  do max_aligned_input <- ptr_add m input_ptr (Z.max 0 (len - 64)) ;;
  do s <- while_lt (c_junk c) 0 bc2_std_t_bench_portable32_u32_unroll_4_loop1 "input_ptr" max_aligned_input (St [] [("input_ptr", input_ptr); ("alphas_ptr", alphas_ptr); ("colours_ptr", colours_ptr); ("indices_ptr", indices_ptr)] m) ;;
  let m := mm s in
  do input_ptr <- getp s "input_ptr" ;;
  do alphas_ptr <- getp s "alphas_ptr" ;;
  do colours_ptr <- getp s "colours_ptr" ;;
  do indices_ptr <- getp s "indices_ptr" ;;
  do s <- while_lt (c_junk c) 0 bc2_std_t_bench_portable32_u32_unroll_4_loop2 "input_ptr" max_ptr (St [] [("input_ptr", input_ptr); ("alphas_ptr", alphas_ptr); ("colours_ptr", colours_ptr); ("indices_ptr", indices_ptr)] m) ;;
  let m := mm s in
  do input_ptr <- getp s "input_ptr" ;;
  do alphas_ptr <- getp s "alphas_ptr" ;;
  do colours_ptr <- getp s "colours_ptr" ;;
  do indices_ptr <- getp s "indices_ptr" ;;
  Ok m.

(** src/core/dxt-lossless-transform-bc2/src/transform/standard/transform/bench/mod.rs:43-45, fn u32_unroll_4 *)
Definition bc2_std_t_bench_u32_unroll_4 (c : cfg) (input_ptr : ptr) (output_ptr : ptr) (len : Z) (m : mem) : res mem :=
  do m <- bc2_std_t_bench_portable32_u32_unroll_4 c input_ptr output_ptr len m ;;
  Ok m.

(** src/core/dxt-lossless-transform-bc2/src/transform/standard/transform/bench/mod.rs:48-50, fn permute_512_v2 *)
Definition bc2_std_t_bench_permute_512_v2 (c : cfg) (input_ptr : ptr) (output_ptr : ptr) (len : Z) (m : mem) : res mem :=
  do m <- bc2_std_t_avx512_permute_512_v2 c input_ptr output_ptr len m ;;
  Ok m.

(** Loop at src/core/dxt-lossless-transform-bc2/src/transform/standard/transform/bench/sse2.rs:20. *)
Definition bc2_std_t_bench_sse2_shuffle_v1_loop1 : list instr :=
  [ILoad "xmm0" "input_ptr" 0 16;
    ILoad "xmm1" "input_ptr" 16 16;
    IAddAsm "input_ptr" 32;
    IOp "xmm2" (OMov) ["xmm0"];
    IOp "xmm0" (OUnpackLo 8 1) ["xmm0"; "xmm1"];
    IOp "xmm2" (OShufps 1 238) ["xmm2"; "xmm1"];
    IOp "xmm2" (OShufps 1 216) ["xmm2"; "xmm2"];
    IStore "alpha_ptr" 0 16 "xmm0";
    IAddAsm "alpha_ptr" 16;
    IOp "t1" (OBytes 0 8) ["xmm2"];
    IStore "colors_ptr" 0 8 "t1";
    IAddAsm "colors_ptr" 8;
    IOp "t2" (OBytes 8 8) ["xmm2"];
    IStore "indices_ptr" 0 8 "t2";
    IAddAsm "indices_ptr" 8].

(** src/core/dxt-lossless-transform-bc2/src/transform/standard/transform/bench/sse2.rs:10-85, fn shuffle_v1 *)
Definition bc2_std_t_bench_sse2_shuffle_v1 (c : cfg) (input_ptr : ptr) (output_ptr : ptr) (len : Z) (m : mem) : res mem :=
  do _ <- cpu_has (c_sse2 c) "sse2" ;;
  do _ <- debug_assert (c_debug c) (len mod 16 =? 0) "len . is_multiple_of ( 16 )" ;;
  do aligned_len <- usub len (len mod 32) ;;
  do colors_ptr <- ptr_add m output_ptr (len / 2) ;;
  do indices_ptr <- ptr_add m colors_ptr (len / 4) ;;
  do (colors_ptr, indices_ptr, input_ptr, output_ptr, m) <- (
    if (0 <? aligned_len) then
      do end_ <- ptr_add m input_ptr (aligned_len) ;;
      do s <- asm_jb (c_junk c) 0 bc2_std_t_bench_sse2_shuffle_v1_loop1 "input_ptr" end_ (St [] [("input_ptr", input_ptr); ("alpha_ptr", output_ptr); ("colors_ptr", colors_ptr); ("indices_ptr", indices_ptr)] m) ;;
      let m := mm s in
      do input_ptr <- getp s "input_ptr" ;;
      do output_ptr <- getp s "alpha_ptr" ;;
      do colors_ptr <- getp s "colors_ptr" ;;
      do indices_ptr <- getp s "indices_ptr" ;;
      Ok (colors_ptr, indices_ptr, input_ptr, output_ptr, m)
    else
      Ok (colors_ptr, indices_ptr, input_ptr, output_ptr, m)
  ) ;;
  do remaining <- usub len aligned_len ;;
  if (0 <? remaining) then
    do m <- bc2_std_t_portable32_u32_with_separate_pointers c input_ptr output_ptr colors_ptr indices_ptr remaining m ;;
    Ok m
  else
    Ok m.

(** Loop at src/core/dxt-lossless-transform-bc2/src/transform/standard/transform/bench/sse2.rs:102. *)
Definition bc2_std_t_bench_sse2_shuffle_v1_unroll_2_loop1 : list instr :=
  [ILoad "xmm0" "input_ptr" 0 16;
    ILoad "xmm1" "input_ptr" 16 16;
    ILoad "xmm3" "input_ptr" 32 16;
    ILoad "xmm4" "input_ptr" 48 16;
    IAddAsm "input_ptr" 64;
    IOp "xmm2" (OMov) ["xmm0"];
    IOp "xmm0" (OUnpackLo 8 1) ["xmm0"; "xmm1"];
    IOp "xmm5" (OMov) ["xmm3"];
    IOp "xmm3" (OUnpackLo 8 1) ["xmm3"; "xmm4"];
    IOp "xmm2" (OShufps 1 238) ["xmm2"; "xmm1"];
    IOp "xmm2" (OShufps 1 216) ["xmm2"; "xmm2"];
    IOp "xmm5" (OShufps 1 238) ["xmm5"; "xmm4"];
    IOp "xmm5" (OShufps 1 216) ["xmm5"; "xmm5"];
    IStore "alpha_ptr" 0 16 "xmm0";
    IStore "alpha_ptr" 16 16 "xmm3";
    IAddAsm "alpha_ptr" 32;
    IOp "t1" (OBytes 0 8) ["xmm2"];
    IStore "colors_ptr" 0 8 "t1";
    IOp "t2" (OBytes 0 8) ["xmm5"];
    IStore "colors_ptr" 8 8 "t2";
    IAddAsm "colors_ptr" 16;
    IOp "t3" (OBytes 8 8) ["xmm2"];
    IStore "indices_ptr" 0 8 "t3";
    IOp "t4" (OBytes 8 8) ["xmm5"];
    IStore "indices_ptr" 8 8 "t4";
    IAddAsm "indices_ptr" 16].

(** src/core/dxt-lossless-transform-bc2/src/transform/standard/transform/bench/sse2.rs:93-174, fn shuffle_v1_unroll_2 *)
Definition bc2_std_t_bench_sse2_shuffle_v1_unroll_2 (c : cfg) (input_ptr : ptr) (output_ptr : ptr) (len : Z) (m : mem) : res mem :=
  do _ <- cpu_has (c_sse2 c) "sse2" ;;
  do _ <- debug_assert (c_debug c) (len mod 16 =? 0) "len . is_multiple_of ( 16 )" ;;
  do aligned_len <- usub len (len mod 64) ;;
  do colors_ptr <- ptr_add m output_ptr (len / 2) ;;
  do indices_ptr <- ptr_add m colors_ptr (len / 4) ;;
  do (colors_ptr, indices_ptr, input_ptr, output_ptr, m) <- (
    if (0 <? aligned_len) then
      do end_ <- ptr_add m input_ptr (aligned_len) ;;
      do s <- asm_jb (c_junk c) 0 bc2_std_t_bench_sse2_shuffle_v1_unroll_2_loop1 "input_ptr" end_ (St [] [("input_ptr", input_ptr); ("alpha_ptr", output_ptr); ("colors_ptr", colors_ptr); ("indices_ptr", indices_ptr)] m) ;;
      let m := mm s in
      do input_ptr <- getp s "input_ptr" ;;
      do output_ptr <- getp s "alpha_ptr" ;;
      do colors_ptr <- getp s "colors_ptr" ;;
      do indices_ptr <- getp s "indices_ptr" ;;
      Ok (colors_ptr, indices_ptr, input_ptr, output_ptr, m)
    else
      Ok (colors_ptr, indices_ptr, input_ptr, output_ptr, m)
  ) ;;
  do remaining <- usub len aligned_len ;;
  if (0 <? remaining) then
    do m <- bc2_std_t_portable32_u32_with_separate_pointers c input_ptr output_ptr colors_ptr indices_ptr remaining m ;;
    Ok m
  else
    Ok m.

(** src/core/dxt-lossless-transform-bc2/src/bench/mod.rs:17-19, fn u32 *)
Definition bc2_bench_std_u32 (c : cfg) (input_ptr : ptr) (output_ptr : ptr) (len : Z) (m : mem) : res mem :=
  do m <- bc2_std_t_bench_u32 c input_ptr output_ptr len m ;;
  Ok m.

(** src/core/dxt-lossless-transform-bc2/src/bench/mod.rs:21-23, fn u32_unroll_2 *)
Definition bc2_bench_std_u32_unroll_2 (c : cfg) (input_ptr : ptr) (output_ptr : ptr) (len : Z) (m : mem) : res mem :=
  do m <- bc2_std_t_bench_u32_unroll_2 c input_ptr output_ptr len m ;;
  Ok m.

(** src/core/dxt-lossless-transform-bc2/src/bench/mod.rs:25-27, fn u32_unroll_4 *)
Definition bc2_bench_std_u32_unroll_4 (c : cfg) (input_ptr : ptr) (output_ptr : ptr) (len : Z) (m : mem) : res mem :=
  do m <- bc2_std_t_bench_u32_unroll_4 c input_ptr output_ptr len m ;;
  Ok m.

(** src/core/dxt-lossless-transform-bc2/src/bench/mod.rs:30-32, fn avx2_shuffle *)
Definition bc2_bench_std_avx2_shuffle (c : cfg) (input_ptr : ptr) (output_ptr : ptr) (len : Z) (m : mem) : res mem :=
  do m <- bc2_std_t_bench_avx2_shuffle c input_ptr output_ptr len m ;;
  Ok m.

(** src/core/dxt-lossless-transform-bc2/src/bench/mod.rs:35-39, fn sse2_shuffle_v2 *)
Definition bc2_bench_std_sse2_shuffle_v2 (c : cfg) (input_ptr : ptr) (output_ptr : ptr) (len : Z) (m : mem) : res mem :=
  do m <- bc2_std_t_bench_sse2_shuffle_v2 c input_ptr output_ptr len m ;;
  Ok m.

(** src/core/dxt-lossless-transform-bc2/src/bench/mod.rs:42-46, fn sse2_shuffle_v3 *)
Definition bc2_bench_std_sse2_shuffle_v3 (c : cfg) (input_ptr : ptr) (output_ptr : ptr) (len : Z) (m : mem) : res mem :=
  do m <- bc2_std_t_bench_sse2_shuffle_v3 c input_ptr output_ptr len m ;;
  Ok m.

(** src/core/dxt-lossless-transform-bc2/src/bench/mod.rs:50-52, fn shuffle_v1 *)
Definition bc2_bench_std_shuffle_v1 (c : cfg) (input_ptr : ptr) (output_ptr : ptr) (len : Z) (m : mem) : res mem :=
  do m <- bc2_std_t_bench_sse2_shuffle_v1 c input_ptr output_ptr len m ;;
  Ok m.

(** src/core/dxt-lossless-transform-bc2/src/bench/mod.rs:55-59, fn shuffle_v1_unroll_2 *)
Definition bc2_bench_std_shuffle_v1_unroll_2 (c : cfg) (input_ptr : ptr) (output_ptr : ptr) (len : Z) (m : mem) : res mem :=
  do m <- bc2_std_t_bench_sse2_shuffle_v1_unroll_2 c input_ptr output_ptr len m ;;
  Ok m.

(** src/core/dxt-lossless-transform-bc2/src/bench/mod.rs:63-65, fn permute_512_v2 *)
Definition bc2_bench_std_permute_512_v2 (c : cfg) (input_ptr : ptr) (output_ptr : ptr) (len : Z) (m : mem) : res mem :=
  do m <- bc2_std_t_bench_permute_512_v2 c input_ptr output_ptr len m ;;
  Ok m.

(** src/core/dxt-lossless-transform-bc2/src/bench/mod.rs:69-71, fn permute_512 *)
Definition bc2_bench_std_permute_512 (c : cfg) (input_ptr : ptr) (output_ptr : ptr) (len : Z) (m : mem) : res mem :=
  do m <- bc2_std_t_bench_avx512_permute_512 c input_ptr output_ptr len m ;;
  Ok m.

(** src/core/dxt-lossless-transform-bc2/src/transform/standard/untransform/mod.rs:84-86, fn u32_untransform *)
Definition bc2_std_u_bench_u32_untransform (c : cfg) (input_ptr : ptr) (output_ptr : ptr) (len : Z) (m : mem) : res mem :=
  do m <- bc2_std_u_portable32_u32_untransform c input_ptr output_ptr len m ;;
  Ok m.

(** src/core/dxt-lossless-transform-bc2/src/bench/mod.rs:83-87, fn u32_untransform *)
Definition bc2_bench_u_std_u32_untransform (c : cfg) (input_ptr : ptr) (output_ptr : ptr) (len : Z) (m : mem) : res mem :=
  do m <- bc2_std_u_bench_u32_untransform c input_ptr output_ptr len m ;;
  Ok m.

(** src/core/dxt-lossless-transform-bc2/src/transform/standard/untransform/mod.rs:89-91, fn sse2_shuffle *)
Definition bc2_std_u_bench_sse2_shuffle (c : cfg) (input_ptr : ptr) (output_ptr : ptr) (len : Z) (m : mem) : res mem :=
  do m <- bc2_std_u_sse2_shuffle c input_ptr output_ptr len m ;;
  Ok m.

(** src/core/dxt-lossless-transform-bc2/src/bench/mod.rs:91-93, fn sse2_shuffle *)
Definition bc2_bench_u_std_sse2_shuffle (c : cfg) (input_ptr : ptr) (output_ptr : ptr) (len : Z) (m : mem) : res mem :=
  do m <- bc2_std_u_bench_sse2_shuffle c input_ptr output_ptr len m ;;
  Ok m.

(** src/core/dxt-lossless-transform-bc2/src/transform/standard/untransform/mod.rs:94-96, fn avx2_shuffle *)
Definition bc2_std_u_bench_avx2_shuffle (c : cfg) (input_ptr : ptr) (output_ptr : ptr) (len : Z) (m : mem) : res mem :=
  do m <- (if is_x64 c then bc2_std_u_avx2_avx2_shuffle_x64 c input_ptr output_ptr len m else bc2_std_u_avx2_avx2_shuffle_i686 c input_ptr output_ptr len m) ;;
  Ok m.

(** src/core/dxt-lossless-transform-bc2/src/bench/mod.rs:97-99, fn avx2_shuffle *)
Definition bc2_bench_u_std_avx2_shuffle (c : cfg) (input_ptr : ptr) (output_ptr : ptr) (len : Z) (m : mem) : res mem :=
  do m <- bc2_std_u_bench_avx2_shuffle c input_ptr output_ptr len m ;;
  Ok m.

(** src/core/dxt-lossless-transform-bc2/src/transform/standard/untransform/mod.rs:99-101, fn avx512_shuffle *)
Definition bc2_std_u_bench_avx512_shuffle (c : cfg) (input_ptr : ptr) (output_ptr : ptr) (len : Z) (m : mem) : res mem :=
  do m <- bc2_std_u_avx512_avx512_shuffle c input_ptr output_ptr len m ;;
  Ok m.

(** src/core/dxt-lossless-transform-bc2/src/bench/mod.rs:103-107, fn avx512_shuffle *)
Definition bc2_bench_u_std_avx512_shuffle (c : cfg) (input_ptr : ptr) (output_ptr : ptr) (len : Z) (m : mem) : res mem :=
  do m <- bc2_std_u_bench_avx512_shuffle c input_ptr output_ptr len m ;;
  Ok m.

