(** Generated by tools/rs2v.py from the kernel sources cited below; do not edit.
    Simplifications: usize arithmetic is exact (lengths are below isize::MAX), see
    Model/Kernel.v for the machine. *)
From Verif Require Import Base.Bytes Base.Res Model.Color565 Model.Ycc Model.Kernel Model.KernelBench Model.GenBc1Std.
Open Scope string_scope.
Open Scope list_scope.
Open Scope Z_scope.

(** Constants of the loop at src/core/dxt-lossless-transform-bc1/src/transform/standard/transform/bench/avx2.rs:19 *)
Definition bc1_std_t_bench_avx2_permute_loop1_ymm0 : list byte := [x00; x00; x00; x00; x02; x00; x00; x00; x04; x00; x00; x00; x06; x00; x00; x00; x01; x00; x00; x00; x03; x00; x00; x00; x05; x00; x00; x00; x07; x00; x00; x00].

(** Loop at src/core/dxt-lossless-transform-bc1/src/transform/standard/transform/bench/avx2.rs:19. *)
Definition bc1_std_t_bench_avx2_permute_loop1 : list instr :=
  [ILoad "ymm1" "src_ptr" 0 32;
    ILoad "ymm2" "src_ptr" 32 32;
    IAddAsm "src_ptr" 64;
    IOp "ymm3" (OPermVar 4 8) ["ymm0"; "ymm1"];
    IOp "ymm4" (OPermVar 4 8) ["ymm0"; "ymm2"];
    IOp "ymm5" (OPerm2i128 32) ["ymm3"; "ymm4"];
    IOp "ymm6" (OPerm2i128 49) ["ymm3"; "ymm4"];
    IStore "colors_ptr" 0 32 "ymm5";
    IStore "indices_ptr" 0 32 "ymm6";
    IAddAsm "colors_ptr" 32;
    IAddAsm "indices_ptr" 32].

(** src/core/dxt-lossless-transform-bc1/src/transform/standard/transform/bench/avx2.rs:10-85, fn permute *)
Definition bc1_std_t_bench_avx2_permute (c : cfg) (input_ptr : ptr) (output_ptr : ptr) (len : Z) (m : mem) : res mem :=
  do _ <- cpu_has (c_avx2 c) "avx2" ;;
  do _ <- debug_assert (c_debug c) (len mod 8 =? 0) "len . is_multiple_of ( 8 )" ;;
  do aligned_len <- usub len (len mod 64) ;;
  do indices_ptr <- ptr_add m output_ptr (len / 2) ;;
  do (indices_ptr, input_ptr, output_ptr, m) <- (
    if (0 <? aligned_len) then
      do aligned_end <- ptr_add m input_ptr (aligned_len) ;;
      do s <- asm_jb (c_junk c) 0 bc1_std_t_bench_avx2_permute_loop1 "src_ptr" aligned_end (St [("ymm0", bc1_std_t_bench_avx2_permute_loop1_ymm0)] [("src_ptr", input_ptr); ("colors_ptr", output_ptr); ("indices_ptr", indices_ptr)] m) ;;
      let m := mm s in
      do input_ptr <- getp s "src_ptr" ;;
      do output_ptr <- getp s "colors_ptr" ;;
      do indices_ptr <- getp s "indices_ptr" ;;
      Ok (indices_ptr, input_ptr, output_ptr, m)
    else
      Ok (indices_ptr, input_ptr, output_ptr, m)
  ) ;;
  do remaining <- usub len aligned_len ;;
  if (0 <? remaining) then
    do m <- bc1_std_t_portable32_u32_with_separate_pointers c input_ptr output_ptr indices_ptr remaining m ;;
    Ok m
  else
    Ok m.

(** Constants of the loop at src/core/dxt-lossless-transform-bc1/src/transform/standard/transform/bench/avx2.rs:106 *)
Definition bc1_std_t_bench_avx2_permute_unroll_2_loop1_ymm0 : list byte := [x00; x00; x00; x00; x02; x00; x00; x00; x04; x00; x00; x00; x06; x00; x00; x00; x01; x00; x00; x00; x03; x00; x00; x00; x05; x00; x00; x00; x07; x00; x00; x00].

(** Loop at src/core/dxt-lossless-transform-bc1/src/transform/standard/transform/bench/avx2.rs:106. *)
Definition bc1_std_t_bench_avx2_permute_unroll_2_loop1 : list instr :=
  [ILoad "ymm1" "src_ptr" 0 32;
    ILoad "ymm2" "src_ptr" 32 32;
    ILoad "ymm3" "src_ptr" 64 32;
    ILoad "ymm4" "src_ptr" 96 32;
    IAddAsm "src_ptr" 128;
    IOp "ymm5" (OPermVar 4 8) ["ymm0"; "ymm1"];
    IOp "ymm6" (OPermVar 4 8) ["ymm0"; "ymm2"];
    IOp "ymm1" (OPermVar 4 8) ["ymm0"; "ymm3"];
    IOp "ymm2" (OPermVar 4 8) ["ymm0"; "ymm4"];
    IOp "ymm3" (OPerm2i128 32) ["ymm5"; "ymm6"];
    IOp "ymm4" (OPerm2i128 49) ["ymm5"; "ymm6"];
    IOp "ymm5" (OPerm2i128 32) ["ymm1"; "ymm2"];
    IOp "ymm6" (OPerm2i128 49) ["ymm1"; "ymm2"];
    IStore "colors_ptr" 0 32 "ymm3";
    IStore "colors_ptr" 32 32 "ymm5";
    IAddAsm "colors_ptr" 64;
    IStore "indices_ptr" 0 32 "ymm4";
    IStore "indices_ptr" 32 32 "ymm6";
    IAddAsm "indices_ptr" 64].

(** src/core/dxt-lossless-transform-bc1/src/transform/standard/transform/bench/avx2.rs:93-176, fn permute_unroll_2 *)
Definition bc1_std_t_bench_avx2_permute_unroll_2 (c : cfg) (input_ptr : ptr) (output_ptr : ptr) (len : Z) (m : mem) : res mem :=
  do _ <- cpu_has (c_avx2 c) "avx2" ;;
  do _ <- debug_assert (c_debug c) (len mod 8 =? 0) "len . is_multiple_of ( 8 )" ;;
  do aligned_len <- usub len (len mod 128) ;;
  do indices_ptr <- ptr_add m output_ptr (len / 2) ;;
  do (indices_ptr, input_ptr, output_ptr, m) <- (
    if (0 <? aligned_len) then
      do aligned_end <- ptr_add m input_ptr (aligned_len) ;;
      do s <- asm_jb (c_junk c) 0 bc1_std_t_bench_avx2_permute_unroll_2_loop1 "src_ptr" aligned_end (St [("ymm0", bc1_std_t_bench_avx2_permute_unroll_2_loop1_ymm0)] [("src_ptr", input_ptr); ("colors_ptr", output_ptr); ("indices_ptr", indices_ptr)] m) ;;
      let m := mm s in
      do input_ptr <- getp s "src_ptr" ;;
      do output_ptr <- getp s "colors_ptr" ;;
      do indices_ptr <- getp s "indices_ptr" ;;
      Ok (indices_ptr, input_ptr, output_ptr, m)
    else
      Ok (indices_ptr, input_ptr, output_ptr, m)
  ) ;;
  do remaining <- usub len aligned_len ;;
  if (0 <? remaining) then
    do m <- bc1_std_t_portable32_u32_with_separate_pointers c input_ptr output_ptr indices_ptr remaining m ;;
    Ok m
  else
    Ok m.

(** Constants of the loop at src/core/dxt-lossless-transform-bc1/src/transform/standard/transform/bench/avx2.rs:193 *)
Definition bc1_std_t_bench_avx2_gather_loop1_ymm0 : list byte := [x00; x00; x00; x00; x02; x00; x00; x00; x04; x00; x00; x00; x06; x00; x00; x00; x08; x00; x00; x00; x0a; x00; x00; x00; x0c; x00; x00; x00; x0e; x00; x00; x00].
Definition bc1_std_t_bench_avx2_gather_loop1_ymm1 : list byte := [x01; x00; x00; x00; x03; x00; x00; x00; x05; x00; x00; x00; x07; x00; x00; x00; x09; x00; x00; x00; x0b; x00; x00; x00; x0d; x00; x00; x00; x0f; x00; x00; x00].

(** Loop at src/core/dxt-lossless-transform-bc1/src/transform/standard/transform/bench/avx2.rs:193. *)
Definition bc1_std_t_bench_avx2_gather_loop1 : list instr :=
  [IOp "ymm2" (OConst [xff; xff; xff; xff; xff; xff; xff; xff; xff; xff; xff; xff; xff; xff; xff; xff; xff; xff; xff; xff; xff; xff; xff; xff; xff; xff; xff; xff; xff; xff; xff; xff]) [];
    ILoad "t1" "src_ptr" 0 4;
    ILoad "t2" "src_ptr" 8 4;
    IOp "t3" (OConcat) ["t1"; "t2"];
    ILoad "t4" "src_ptr" 16 4;
    IOp "t5" (OConcat) ["t3"; "t4"];
    ILoad "t6" "src_ptr" 24 4;
    IOp "t7" (OConcat) ["t5"; "t6"];
    ILoad "t8" "src_ptr" 32 4;
    IOp "t9" (OConcat) ["t7"; "t8"];
    ILoad "t10" "src_ptr" 40 4;
    IOp "t11" (OConcat) ["t9"; "t10"];
    ILoad "t12" "src_ptr" 48 4;
    IOp "t13" (OConcat) ["t11"; "t12"];
    ILoad "t14" "src_ptr" 56 4;
    IOp "ymm3" (OConcat) ["t13"; "t14"];
    IOp "ymm2" (OConst [x00; x00; x00; x00; x00; x00; x00; x00; x00; x00; x00; x00; x00; x00; x00; x00; x00; x00; x00; x00; x00; x00; x00; x00; x00; x00; x00; x00; x00; x00; x00; x00]) [];
    IOp "ymm2" (OConst [xff; xff; xff; xff; xff; xff; xff; xff; xff; xff; xff; xff; xff; xff; xff; xff; xff; xff; xff; xff; xff; xff; xff; xff; xff; xff; xff; xff; xff; xff; xff; xff]) [];
    ILoad "t15" "src_ptr" 4 4;
    ILoad "t16" "src_ptr" 12 4;
    IOp "t17" (OConcat) ["t15"; "t16"];
    ILoad "t18" "src_ptr" 20 4;
    IOp "t19" (OConcat) ["t17"; "t18"];
    ILoad "t20" "src_ptr" 28 4;
    IOp "t21" (OConcat) ["t19"; "t20"];
    ILoad "t22" "src_ptr" 36 4;
    IOp "t23" (OConcat) ["t21"; "t22"];
    ILoad "t24" "src_ptr" 44 4;
    IOp "t25" (OConcat) ["t23"; "t24"];
    ILoad "t26" "src_ptr" 52 4;
    IOp "t27" (OConcat) ["t25"; "t26"];
    ILoad "t28" "src_ptr" 60 4;
    IOp "ymm4" (OConcat) ["t27"; "t28"];
    IOp "ymm2" (OConst [x00; x00; x00; x00; x00; x00; x00; x00; x00; x00; x00; x00; x00; x00; x00; x00; x00; x00; x00; x00; x00; x00; x00; x00; x00; x00; x00; x00; x00; x00; x00; x00]) [];
    IAddAsm "src_ptr" 64;
    IStore "colors_ptr" 0 32 "ymm3";
    IAddAsm "colors_ptr" 32;
    IStore "indices_ptr" 0 32 "ymm4";
    IAddAsm "indices_ptr" 32].

(** src/core/dxt-lossless-transform-bc1/src/transform/standard/transform/bench/avx2.rs:184-250, fn gather *)
Definition bc1_std_t_bench_avx2_gather (c : cfg) (input_ptr : ptr) (output_ptr : ptr) (len : Z) (m : mem) : res mem :=
  do _ <- cpu_has (c_avx2 c) "avx2" ;;
  do _ <- debug_assert (c_debug c) (len mod 8 =? 0) "len . is_multiple_of ( 8 )" ;;
  do aligned_len <- usub len (len mod 128) ;;
  do indices_ptr <- ptr_add m output_ptr (len / 2) ;;
  do (indices_ptr, input_ptr, output_ptr, m) <- (
    if (0 <? aligned_len) then
      do aligned_end <- ptr_add m input_ptr (aligned_len) ;;
      do s <- asm_jb (c_junk c) 0 bc1_std_t_bench_avx2_gather_loop1 "src_ptr" aligned_end (St [("ymm0", bc1_std_t_bench_avx2_gather_loop1_ymm0); ("ymm1", bc1_std_t_bench_avx2_gather_loop1_ymm1)] [("src_ptr", input_ptr); ("colors_ptr", output_ptr); ("indices_ptr", indices_ptr)] m) ;;
      let m := mm s in
      do input_ptr <- getp s "src_ptr" ;;
      do output_ptr <- getp s "colors_ptr" ;;
      do indices_ptr <- getp s "indices_ptr" ;;
      Ok (indices_ptr, input_ptr, output_ptr, m)
    else
      Ok (indices_ptr, input_ptr, output_ptr, m)
  ) ;;
  do remaining <- usub len aligned_len ;;
  if (0 <? remaining) then
    do m <- bc1_std_t_portable32_u32_with_separate_pointers c input_ptr output_ptr indices_ptr remaining m ;;
    Ok m
  else
    Ok m.

(** Loop at src/core/dxt-lossless-transform-bc1/src/transform/standard/transform/bench/avx2.rs:271. *)
Definition bc1_std_t_bench_avx2_shuffle_permute_loop1 : list instr :=
  [ILoad "ymm0" "src_ptr" 0 32;
    ILoad "ymm1" "src_ptr" 32 32;
    IAddAsm "src_ptr" 64;
    IOp "ymm2" (OShufps 2 136) ["ymm0"; "ymm1"];
    IOp "ymm2" (OPermq 216) ["ymm2"];
    IOp "ymm3" (OShufps 2 221) ["ymm0"; "ymm1"];
    IOp "ymm3" (OPermq 216) ["ymm3"];
    IStore "colors_ptr" 0 32 "ymm2";
    IStore "indices_ptr" 0 32 "ymm3";
    IAddAsm "colors_ptr" 32;
    IAddAsm "indices_ptr" 32].

(** src/core/dxt-lossless-transform-bc1/src/transform/standard/transform/bench/avx2.rs:258-325, fn shuffle_permute *)
Definition bc1_std_t_bench_avx2_shuffle_permute (c : cfg) (input_ptr : ptr) (output_ptr : ptr) (len : Z) (m : mem) : res mem :=
  do _ <- cpu_has (c_avx2 c) "avx2" ;;
  do _ <- debug_assert (c_debug c) (len mod 8 =? 0) "len . is_multiple_of ( 8 )" ;;
  do aligned_len <- usub len (len mod 64) ;;
  do indices_ptr <- ptr_add m output_ptr (len / 2) ;;
  do (indices_ptr, input_ptr, output_ptr, m) <- (
    if (0 <? aligned_len) then
      do aligned_end <- ptr_add m input_ptr (aligned_len) ;;
      do s <- asm_jb (c_junk c) 0 bc1_std_t_bench_avx2_shuffle_permute_loop1 "src_ptr" aligned_end (St [] [("src_ptr", input_ptr); ("colors_ptr", output_ptr); ("indices_ptr", indices_ptr)] m) ;;
      let m := mm s in
      do input_ptr <- getp s "src_ptr" ;;
      do output_ptr <- getp s "colors_ptr" ;;
      do indices_ptr <- getp s "indices_ptr" ;;
      Ok (indices_ptr, input_ptr, output_ptr, m)
    else
      Ok (indices_ptr, input_ptr, output_ptr, m)
  ) ;;
  do remaining <- usub len aligned_len ;;
  if (0 <? remaining) then
    do m <- bc1_std_t_portable32_u32_with_separate_pointers c input_ptr output_ptr indices_ptr remaining m ;;
    Ok m
  else
    Ok m.

(** Constants of the loop at src/core/dxt-lossless-transform-bc1/src/transform/standard/transform/bench/avx512f.rs:60 *)
Definition bc1_std_t_bench_avx512f_permute_512_unroll_2_with_separate_pointers_loop1_perm_colors : list byte := [x00; x00; x00; x00; x02; x00; x00; x00; x04; x00; x00; x00; x06; x00; x00; x00; x08; x00; x00; x00; x0a; x00; x00; x00; x0c; x00; x00; x00; x0e; x00; x00; x00; x10; x00; x00; x00; x12; x00; x00; x00; x14; x00; x00; x00; x16; x00; x00; x00; x18; x00; x00; x00; x1a; x00; x00; x00; x1c; x00; x00; x00; x1e; x00; x00; x00].
Definition bc1_std_t_bench_avx512f_permute_512_unroll_2_with_separate_pointers_loop1_perm_indices : list byte := [x01; x00; x00; x00; x03; x00; x00; x00; x05; x00; x00; x00; x07; x00; x00; x00; x09; x00; x00; x00; x0b; x00; x00; x00; x0d; x00; x00; x00; x0f; x00; x00; x00; x11; x00; x00; x00; x13; x00; x00; x00; x15; x00; x00; x00; x17; x00; x00; x00; x19; x00; x00; x00; x1b; x00; x00; x00; x1d; x00; x00; x00; x1f; x00; x00; x00].

(** Loop at src/core/dxt-lossless-transform-bc1/src/transform/standard/transform/bench/avx512f.rs:60. *)
Definition bc1_std_t_bench_avx512f_permute_512_unroll_2_with_separate_pointers_loop1 : list instr :=
  [ILoad "zmm2" "src_ptr" 0 64;
    ILoad "zmm3" "src_ptr" 64 64;
    ILoad "zmm4" "src_ptr" 128 64;
    ILoad "zmm5" "src_ptr" 192 64;
    IAddAsm "src_ptr" 256;
    IOp "zmm6" (OMov) ["zmm2"];
    IOp "zmm6" (OPermT2 4 16) ["zmm6"; "perm_colors"; "zmm3"];
    IOp "zmm2" (OPermT2 4 16) ["zmm2"; "perm_indices"; "zmm3"];
    IOp "zmm3" (OMov) ["zmm4"];
    IOp "zmm3" (OPermT2 4 16) ["zmm3"; "perm_colors"; "zmm5"];
    IOp "zmm4" (OPermT2 4 16) ["zmm4"; "perm_indices"; "zmm5"];
    IStore "colors_ptr" 0 64 "zmm6";
    IStore "colors_ptr" 64 64 "zmm3";
    IAddAsm "colors_ptr" 128;
    IStore "indices_ptr" 0 64 "zmm2";
    IStore "indices_ptr" 64 64 "zmm4";
    IAddAsm "indices_ptr" 128].

(** src/core/dxt-lossless-transform-bc1/src/transform/standard/transform/bench/avx512f.rs:41-119, fn permute_512_unroll_2_with_separate_pointers *)
Definition bc1_std_t_bench_avx512f_permute_512_unroll_2_with_separate_pointers (c : cfg) (input_ptr : ptr) (colors_ptr : ptr) (indices_ptr : ptr) (len : Z) (m : mem) : res mem :=
  do _ <- cpu_has (c_sse2 c && c_avx512f c) "sse2 avx512f" ;;
  do _ <- debug_assert (c_debug c) (len mod 8 =? 0) "len . is_multiple_of ( 8 )" ;;
  do aligned_len <- usub len (len mod 256) ;;
  do (colors_ptr, indices_ptr, input_ptr, m) <- (
    if (0 <? aligned_len) then
      do aligned_end_input <- ptr_add m input_ptr (aligned_len) ;;
      do s <- asm_jb (c_junk c) 0 bc1_std_t_bench_avx512f_permute_512_unroll_2_with_separate_pointers_loop1 "src_ptr" aligned_end_input (St [("perm_colors", bc1_std_t_bench_avx512f_permute_512_unroll_2_with_separate_pointers_loop1_perm_colors); ("perm_indices", bc1_std_t_bench_avx512f_permute_512_unroll_2_with_separate_pointers_loop1_perm_indices)] [("src_ptr", input_ptr); ("colors_ptr", colors_ptr); ("indices_ptr", indices_ptr)] m) ;;
      let m := mm s in
      do input_ptr <- getp s "src_ptr" ;;
      do colors_ptr <- getp s "colors_ptr" ;;
      do indices_ptr <- getp s "indices_ptr" ;;
      Ok (colors_ptr, indices_ptr, input_ptr, m)
    else
      Ok (colors_ptr, indices_ptr, input_ptr, m)
  ) ;;
  do remaining <- usub len aligned_len ;;
  if (0 <? remaining) then
    do m <- bc1_std_t_portable32_u32_with_separate_pointers c input_ptr colors_ptr indices_ptr remaining m ;;
    Ok m
  else
    Ok m.

(** src/core/dxt-lossless-transform-bc1/src/transform/standard/transform/bench/avx512f.rs:21-28, fn permute_512_unroll_2 *)
Definition bc1_std_t_bench_avx512f_permute_512_unroll_2 (c : cfg) (input_ptr : ptr) (output_ptr : ptr) (len : Z) (m : mem) : res mem :=
  do _ <- cpu_has (c_avx512f c) "avx512f" ;;
  do _ <- debug_assert (c_debug c) (len mod 8 =? 0) "len . is_multiple_of ( 8 )" ;;
  let colors_ptr := output_ptr in
  do indices_ptr <- ptr_add m output_ptr (len / 2) ;;
  do m <- bc1_std_t_bench_avx512f_permute_512_unroll_2_with_separate_pointers c input_ptr colors_ptr indices_ptr len m ;;
  Ok m.

(** src/core/dxt-lossless-transform-bc1/src/transform/standard/transform/bench/mod.rs:18-20, fn shufps_unroll_4 *)
Definition bc1_std_t_bench_shufps_unroll_4 (c : cfg) (input_ptr : ptr) (output_ptr : ptr) (len : Z) (m : mem) : res mem :=
  do m <- bc1_std_t_sse2_shufps_unroll_4 c input_ptr output_ptr len m ;;
  Ok m.

(** src/core/dxt-lossless-transform-bc1/src/transform/standard/transform/bench/mod.rs:23-29, fn shuffle_permute_unroll_2 *)
Definition bc1_std_t_bench_shuffle_permute_unroll_2 (c : cfg) (input_ptr : ptr) (output_ptr : ptr) (len : Z) (m : mem) : res mem :=
  do m <- bc1_std_t_avx2_shuffle_permute_unroll_2 c input_ptr output_ptr len m ;;
  Ok m.

(** src/core/dxt-lossless-transform-bc1/src/transform/standard/transform/bench/mod.rs:31-33, fn u32 *)
Definition bc1_std_t_bench_u32 (c : cfg) (input_ptr : ptr) (output_ptr : ptr) (len : Z) (m : mem) : res mem :=
  do m <- bc1_std_t_portable32_u32 c input_ptr output_ptr len m ;;
  Ok m.

(** src/core/dxt-lossless-transform-bc1/src/transform/standard/transform/bench/mod.rs:36-38, fn permute_512 *)
Definition bc1_std_t_bench_permute_512 (c : cfg) (input_ptr : ptr) (output_ptr : ptr) (len : Z) (m : mem) : res mem :=
  do m <- bc1_std_t_avx512f_permute_512 c input_ptr output_ptr len m ;;
  Ok m.

(** Loop at src/core/dxt-lossless-transform-bc1/src/transform/standard/transform/bench/portable32.rs:19. *)
Definition bc1_std_t_bench_portable32_u32_unroll_2_loop1 : list instr :=
  [ILoad "color_value1" "input_ptr" 0 4;
    ILoad "index_value1" "input_ptr" 4 4;
    ILoad "color_value2" "input_ptr" 8 4;
    ILoad "index_value2" "input_ptr" 12 4;
    IAdd "input_ptr" 16;
    IStore "colours_ptr" 0 4 "color_value1";
    IStore "indices_ptr" 0 4 "index_value1";
    IStore "colours_ptr" 4 4 "color_value2";
    IStore "indices_ptr" 4 4 "index_value2";
    IAdd "colours_ptr" 8;
    IAdd "indices_ptr" 8].

(** Loop at src/core/dxt-lossless-transform-bc1/src/transform/standard/transform/bench/portable32.rs:41. *)
Definition bc1_std_t_bench_portable32_u32_unroll_2_loop2 : list instr :=
  [ILoad "color_value" "input_ptr" 0 4;
    ILoad "index_value" "input_ptr" 4 4;
    IAdd "input_ptr" 8;
    IStore "colours_ptr" 0 4 "color_value";
    IStore "indices_ptr" 0 4 "index_value";
    IAdd "colours_ptr" 4;
    IAdd "indices_ptr" 4].

(** src/core/dxt-lossless-transform-bc1/src/transform/standard/transform/bench/portable32.rs:8-54, fn u32_unroll_2 *)
Definition bc1_std_t_bench_portable32_u32_unroll_2 (c : cfg) (input_ptr : ptr) (output_ptr : ptr) (len : Z) (m : mem) : res mem :=
  do _ <- debug_assert (c_debug c) (len mod 8 =? 0) "len . is_multiple_of ( 8 )" ;;
  do max_aligned_ptr <- ptr_add m input_ptr ((len / 16) * 16) ;;
  do max_ptr <- ptr_add m input_ptr (len) ;;
  let colours_ptr := output_ptr in
  do indices_ptr <- ptr_add m output_ptr (len / 2) ;;
  do s <- while_lt (c_junk c) 0 bc1_std_t_bench_portable32_u32_unroll_2_loop1 "input_ptr" max_aligned_ptr (St [] [("input_ptr", input_ptr); ("colours_ptr", colours_ptr); ("indices_ptr", indices_ptr)] m) ;;
  let m := mm s in
  do input_ptr <- getp s "input_ptr" ;;
  do colours_ptr <- getp s "colours_ptr" ;;
  do indices_ptr <- getp s "indices_ptr" ;;
  do s <- while_lt (c_junk c) 0 bc1_std_t_bench_portable32_u32_unroll_2_loop2 "input_ptr" max_ptr (St [] [("input_ptr", input_ptr); ("colours_ptr", colours_ptr); ("indices_ptr", indices_ptr)] m) ;;
  let m := mm s in
  do input_ptr <- getp s "input_ptr" ;;
  do colours_ptr <- getp s "colours_ptr" ;;
  do indices_ptr <- getp s "indices_ptr" ;;
  Ok m.

(** Loop at src/core/dxt-lossless-transform-bc1/src/transform/standard/transform/bench/portable32.rs:72. *)
Definition bc1_std_t_bench_portable32_u32_unroll_4_loop1 : list instr :=
  [ILoad "color_value1" "input_ptr" 0 4;
    ILoad "index_value1" "input_ptr" 4 4;
    ILoad "color_value2" "input_ptr" 8 4;
    ILoad "index_value2" "input_ptr" 12 4;
    ILoad "color_value3" "input_ptr" 16 4;
    ILoad "index_value3" "input_ptr" 20 4;
    ILoad "color_value4" "input_ptr" 24 4;
    ILoad "index_value4" "input_ptr" 28 4;
    IAdd "input_ptr" 32;
    IStore "colours_ptr" 0 4 "color_value1";
    IStore "indices_ptr" 0 4 "index_value1";
    IStore "colours_ptr" 4 4 "color_value2";
    IStore "indices_ptr" 4 4 "index_value2";
    IStore "colours_ptr" 8 4 "color_value3";
    IStore "indices_ptr" 8 4 "index_value3";
    IStore "colours_ptr" 12 4 "color_value4";
    IStore "indices_ptr" 12 4 "index_value4";
    IAdd "colours_ptr" 16;
    IAdd "indices_ptr" 16].

(** Loop at src/core/dxt-lossless-transform-bc1/src/transform/standard/transform/bench/portable32.rs:105. *)
Definition bc1_std_t_bench_portable32_u32_unroll_4_loop2 : list instr :=
  [ILoad "color_value" "input_ptr" 0 4;
    ILoad "index_value" "input_ptr" 4 4;
    IAdd "input_ptr" 8;
    IStore "colours_ptr" 0 4 "color_value";
    IStore "indices_ptr" 0 4 "index_value";
    IAdd "colours_ptr" 4;
    IAdd "indices_ptr" 4].

(** src/core/dxt-lossless-transform-bc1/src/transform/standard/transform/bench/portable32.rs:61-118, fn u32_unroll_4 *)
Definition bc1_std_t_bench_portable32_u32_unroll_4 (c : cfg) (input_ptr : ptr) (output_ptr : ptr) (len : Z) (m : mem) : res mem :=
  do _ <- debug_assert (c_debug c) (len mod 8 =? 0) "len . is_multiple_of ( 8 )" ;;
  do max_aligned_ptr <- ptr_add m input_ptr ((len / 32) * 32) ;;
  do max_ptr <- ptr_add m input_ptr (len) ;;
  let colours_ptr := output_ptr in
  do indices_ptr <- ptr_add m output_ptr (len / 2) ;;
  do s <- while_lt (c_junk c) 0 bc1_std_t_bench_portable32_u32_unroll_4_loop1 "input_ptr" max_aligned_ptr (St [] [("input_ptr", input_ptr); ("colours_ptr", colours_ptr); ("indices_ptr", indices_ptr)] m) ;;
  let m := mm s in
  do input_ptr <- getp s "input_ptr" ;;
  do colours_ptr <- getp s "colours_ptr" ;;
  do indices_ptr <- getp s "indices_ptr" ;;
  do s <- while_lt (c_junk c) 0 bc1_std_t_bench_portable32_u32_unroll_4_loop2 "input_ptr" max_ptr (St [] [("input_ptr", input_ptr); ("colours_ptr", colours_ptr); ("indices_ptr", indices_ptr)] m) ;;
  let m := mm s in
  do input_ptr <- getp s "input_ptr" ;;
  do colours_ptr <- getp s "colours_ptr" ;;
  do indices_ptr <- getp s "indices_ptr" ;;
  Ok m.

(** Loop at src/core/dxt-lossless-transform-bc1/src/transform/standard/transform/bench/portable32.rs:136. *)
Definition bc1_std_t_bench_portable32_u32_unroll_8_loop1 : list instr :=
  [ILoad "color_value1" "input_ptr" 0 4;
    ILoad "index_value1" "input_ptr" 4 4;
    ILoad "color_value2" "input_ptr" 8 4;
    ILoad "index_value2" "input_ptr" 12 4;
    ILoad "color_value3" "input_ptr" 16 4;
    ILoad "index_value3" "input_ptr" 20 4;
    ILoad "color_value4" "input_ptr" 24 4;
    ILoad "index_value4" "input_ptr" 28 4;
    ILoad "color_value5" "input_ptr" 32 4;
    ILoad "index_value5" "input_ptr" 36 4;
    ILoad "color_value6" "input_ptr" 40 4;
    ILoad "index_value6" "input_ptr" 44 4;
    ILoad "color_value7" "input_ptr" 48 4;
    ILoad "index_value7" "input_ptr" 52 4;
    ILoad "color_value8" "input_ptr" 56 4;
    ILoad "index_value8" "input_ptr" 60 4;
    IAdd "input_ptr" 64;
    IStore "colours_ptr" 0 4 "color_value1";
    IStore "indices_ptr" 0 4 "index_value1";
    IStore "colours_ptr" 4 4 "color_value2";
    IStore "indices_ptr" 4 4 "index_value2";
    IStore "colours_ptr" 8 4 "color_value3";
    IStore "indices_ptr" 8 4 "index_value3";
    IStore "colours_ptr" 12 4 "color_value4";
    IStore "indices_ptr" 12 4 "index_value4";
    IStore "colours_ptr" 16 4 "color_value5";
    IStore "indices_ptr" 16 4 "index_value5";
    IStore "colours_ptr" 20 4 "color_value6";
    IStore "indices_ptr" 20 4 "index_value6";
    IStore "colours_ptr" 24 4 "color_value7";
    IStore "indices_ptr" 24 4 "index_value7";
    IStore "colours_ptr" 28 4 "color_value8";
    IStore "indices_ptr" 28 4 "index_value8";
    IAdd "colours_ptr" 32;
    IAdd "indices_ptr" 32].

(** Loop at src/core/dxt-lossless-transform-bc1/src/transform/standard/transform/bench/portable32.rs:193. *)
Definition bc1_std_t_bench_portable32_u32_unroll_8_loop2 : list instr :=
  [ILoad "color_value" "input_ptr" 0 4;
    ILoad "index_value" "input_ptr" 4 4;
    IAdd "input_ptr" 8;
    IStore "colours_ptr" 0 4 "color_value";
    IStore "indices_ptr" 0 4 "index_value";
    IAdd "colours_ptr" 4;
    IAdd "indices_ptr" 4].

(** src/core/dxt-lossless-transform-bc1/src/transform/standard/transform/bench/portable32.rs:125-206, fn u32_unroll_8 *)
Definition bc1_std_t_bench_portable32_u32_unroll_8 (c : cfg) (input_ptr : ptr) (output_ptr : ptr) (len : Z) (m : mem) : res mem :=
  do _ <- debug_assert (c_debug c) (len mod 8 =? 0) "len . is_multiple_of ( 8 )" ;;
  do max_aligned_ptr <- ptr_add m input_ptr ((len / 64) * 64) ;;
  do max_ptr <- ptr_add m input_ptr (len) ;;
  let colours_ptr := output_ptr in
  do indices_ptr <- ptr_add m output_ptr (len / 2) ;;
  do s <- while_lt (c_junk c) 0 bc1_std_t_bench_portable32_u32_unroll_8_loop1 "input_ptr" max_aligned_ptr (St [] [("input_ptr", input_ptr); ("colours_ptr", colours_ptr); ("indices_ptr", indices_ptr)] m) ;;
  let m := mm s in
  do input_ptr <- getp s "input_ptr" ;;
  do colours_ptr <- getp s "colours_ptr" ;;
  do indices_ptr <- getp s "indices_ptr" ;;
  do s <- while_lt (c_junk c) 0 bc1_std_t_bench_portable32_u32_unroll_8_loop2 "input_ptr" max_ptr (St [] [("input_ptr", input_ptr); ("colours_ptr", colours_ptr); ("indices_ptr", indices_ptr)] m) ;;
  let m := mm s in
  do input_ptr <- getp s "input_ptr" ;;
  do colours_ptr <- getp s "colours_ptr" ;;
  do indices_ptr <- getp s "indices_ptr" ;;
  Ok m.

(** Loop at src/core/dxt-lossless-transform-bc1/src/transform/standard/transform/bench/portable64.rs:57. *)
Definition bc1_std_t_bench_portable64_shift_loop1 : list instr :=
  [ILoad "curr" "input_ptr" 0 8;
    IAdd "input_ptr" 8;
    IOp "t2" (OBytes 0 4) ["curr"];
    IOp "color_value" (OMov) ["t2"];
    IOp "t4" (OShr 4) ["curr"];
    IOp "t5" (OBytes 0 4) ["t4"];
    IOp "index_value" (OMov) ["t5"];
    IStore "colours_ptr" 0 4 "color_value";
    IAdd "colours_ptr" 4;
    IStore "indices_ptr" 0 4 "index_value";
    IAdd "indices_ptr" 4].

(** src/core/dxt-lossless-transform-bc1/src/transform/standard/transform/bench/portable64.rs:47-71, fn shift *)
Definition bc1_std_t_bench_portable64_shift (c : cfg) (input_ptr : ptr) (output_ptr : ptr) (len : Z) (m : mem) : res mem :=
  do _ <- debug_assert (c_debug c) (len mod 8 =? 0) "len . is_multiple_of ( 8 )" ;;
  do max_ptr <- ptr_add m input_ptr (len) ;;
  let colours_ptr := output_ptr in
  do indices_ptr <- ptr_add m output_ptr (len / 2) ;;
  do s <- while_lt (c_junk c) 0 bc1_std_t_bench_portable64_shift_loop1 "input_ptr" max_ptr (St [] [("input_ptr", input_ptr); ("colours_ptr", colours_ptr); ("indices_ptr", indices_ptr)] m) ;;
  let m := mm s in
  do input_ptr <- getp s "input_ptr" ;;
  do colours_ptr <- getp s "colours_ptr" ;;
  do indices_ptr <- getp s "indices_ptr" ;;
  Ok m.

(** src/core/dxt-lossless-transform-bc1/src/transform/standard/transform/bench/portable64.rs:35-40, fn portable *)
Definition bc1_std_t_bench_portable64_portable (c : cfg) (input_ptr : ptr) (output_ptr : ptr) (len : Z) (m : mem) : res mem :=
  do _ <- debug_assert (c_debug c) (len mod 8 =? 0) "len . is_multiple_of ( 8 )" ;;
  do m <- bc1_std_t_bench_portable64_shift c input_ptr output_ptr len m ;;
  Ok m.

(** Loop at src/core/dxt-lossless-transform-bc1/src/transform/standard/transform/bench/portable64.rs:90. *)
Definition bc1_std_t_bench_portable64_shift_unroll_2_loop1 : list instr :=
  [ILoad "curr1" "input_ptr" 0 8;
    ILoad "curr2" "input_ptr" 8 8;
    IAdd "input_ptr" 16;
    IOp "t2" (OBytes 0 4) ["curr1"];
    IOp "color1" (OMov) ["t2"];
    IOp "t4" (OBytes 0 4) ["curr2"];
    IOp "color2" (OMov) ["t4"];
    IOp "t6" (OShr 4) ["curr1"];
    IOp "t7" (OBytes 0 4) ["t6"];
    IOp "index1" (OMov) ["t7"];
    IOp "t9" (OShr 4) ["curr2"];
    IOp "t10" (OBytes 0 4) ["t9"];
    IOp "index2" (OMov) ["t10"];
    IStore "colours_ptr" 0 4 "color1";
    IStore "colours_ptr" 4 4 "color2";
    IAdd "colours_ptr" 8;
    IStore "indices_ptr" 0 4 "index1";
    IStore "indices_ptr" 4 4 "index2";
    IAdd "indices_ptr" 8].

(** Loop at src/core/dxt-lossless-transform-bc1/src/transform/standard/transform/bench/portable64.rs:114. *)
Definition bc1_std_t_bench_portable64_shift_unroll_2_loop2 : list instr :=
  [ILoad "curr" "input_ptr" 0 8;
    IAdd "input_ptr" 8;
    IOp "t2" (OBytes 0 4) ["curr"];
    IOp "color_value" (OMov) ["t2"];
    IOp "t4" (OShr 4) ["curr"];
    IOp "t5" (OBytes 0 4) ["t4"];
    IOp "index_value" (OMov) ["t5"];
    IStore "colours_ptr" 0 4 "color_value";
    IAdd "colours_ptr" 4;
    IStore "indices_ptr" 0 4 "index_value";
    IAdd "indices_ptr" 4].

(** src/core/dxt-lossless-transform-bc1/src/transform/standard/transform/bench/portable64.rs:78-128, fn shift_unroll_2 *)
Definition bc1_std_t_bench_portable64_shift_unroll_2 (c : cfg) (input_ptr : ptr) (output_ptr : ptr) (len : Z) (m : mem) : res mem :=
  do _ <- debug_assert (c_debug c) (len mod 8 =? 0) "len . is_multiple_of ( 8 )" ;;
  do max_aligned_ptr <- ptr_add m input_ptr ((len / 16) * 16) ;;
  do max_ptr <- ptr_add m input_ptr (len) ;;
  let colours_ptr := output_ptr in
  do indices_ptr <- ptr_add m output_ptr (len / 2) ;;
  do s <- while_lt (c_junk c) 0 bc1_std_t_bench_portable64_shift_unroll_2_loop1 "input_ptr" max_aligned_ptr (St [] [("input_ptr", input_ptr); ("colours_ptr", colours_ptr); ("indices_ptr", indices_ptr)] m) ;;
  let m := mm s in
  do input_ptr <- getp s "input_ptr" ;;
  do colours_ptr <- getp s "colours_ptr" ;;
  do indices_ptr <- getp s "indices_ptr" ;;
  do s <- while_lt (c_junk c) 0 bc1_std_t_bench_portable64_shift_unroll_2_loop2 "input_ptr" max_ptr (St [] [("input_ptr", input_ptr); ("colours_ptr", colours_ptr); ("indices_ptr", indices_ptr)] m) ;;
  let m := mm s in
  do input_ptr <- getp s "input_ptr" ;;
  do colours_ptr <- getp s "colours_ptr" ;;
  do indices_ptr <- getp s "indices_ptr" ;;
  Ok m.

(** Loop at src/core/dxt-lossless-transform-bc1/src/transform/standard/transform/bench/portable64.rs:147. *)
Definition bc1_std_t_bench_portable64_shift_unroll_4_loop1 : list instr :=
  [ILoad "curr1" "input_ptr" 0 8;
    ILoad "curr2" "input_ptr" 8 8;
    ILoad "curr3" "input_ptr" 16 8;
    ILoad "curr4" "input_ptr" 24 8;
    IAdd "input_ptr" 32;
    IOp "t2" (OBytes 0 4) ["curr1"];
    IOp "color1" (OMov) ["t2"];
    IOp "t4" (OBytes 0 4) ["curr2"];
    IOp "color2" (OMov) ["t4"];
    IOp "t6" (OBytes 0 4) ["curr3"];
    IOp "color3" (OMov) ["t6"];
    IOp "t8" (OBytes 0 4) ["curr4"];
    IOp "color4" (OMov) ["t8"];
    IOp "t10" (OShr 4) ["curr1"];
    IOp "t11" (OBytes 0 4) ["t10"];
    IOp "index1" (OMov) ["t11"];
    IOp "t13" (OShr 4) ["curr2"];
    IOp "t14" (OBytes 0 4) ["t13"];
    IOp "index2" (OMov) ["t14"];
    IOp "t16" (OShr 4) ["curr3"];
    IOp "t17" (OBytes 0 4) ["t16"];
    IOp "index3" (OMov) ["t17"];
    IOp "t19" (OShr 4) ["curr4"];
    IOp "t20" (OBytes 0 4) ["t19"];
    IOp "index4" (OMov) ["t20"];
    IStore "colours_ptr" 0 4 "color1";
    IStore "colours_ptr" 4 4 "color2";
    IStore "colours_ptr" 8 4 "color3";
    IStore "colours_ptr" 12 4 "color4";
    IAdd "colours_ptr" 16;
    IStore "indices_ptr" 0 4 "index1";
    IStore "indices_ptr" 4 4 "index2";
    IStore "indices_ptr" 8 4 "index3";
    IStore "indices_ptr" 12 4 "index4";
    IAdd "indices_ptr" 16].

(** Loop at src/core/dxt-lossless-transform-bc1/src/transform/standard/transform/bench/portable64.rs:181. *)
Definition bc1_std_t_bench_portable64_shift_unroll_4_loop2 : list instr :=
  [ILoad "curr" "input_ptr" 0 8;
    IAdd "input_ptr" 8;
    IOp "t2" (OBytes 0 4) ["curr"];
    IOp "color_value" (OMov) ["t2"];
    IOp "t4" (OShr 4) ["curr"];
    IOp "t5" (OBytes 0 4) ["t4"];
    IOp "index_value" (OMov) ["t5"];
    IStore "colours_ptr" 0 4 "color_value";
    IAdd "colours_ptr" 4;
    IStore "indices_ptr" 0 4 "index_value";
    IAdd "indices_ptr" 4].

(** src/core/dxt-lossless-transform-bc1/src/transform/standard/transform/bench/portable64.rs:135-195, fn shift_unroll_4 *)
Definition bc1_std_t_bench_portable64_shift_unroll_4 (c : cfg) (input_ptr : ptr) (output_ptr : ptr) (len : Z) (m : mem) : res mem :=
  do _ <- debug_assert (c_debug c) (len mod 8 =? 0) "len . is_multiple_of ( 8 )" ;;
  do max_aligned_ptr <- ptr_add m input_ptr ((len / 32) * 32) ;;
  do max_ptr <- ptr_add m input_ptr (len) ;;
  let colours_ptr := output_ptr in
  do indices_ptr <- ptr_add m output_ptr (len / 2) ;;
  do s <- while_lt2 (c_junk c) 0 bc1_std_t_bench_portable64_shift_unroll_4_loop1 "input_ptr" 24 max_ptr max_aligned_ptr (St [] [("input_ptr", input_ptr); ("colours_ptr", colours_ptr); ("indices_ptr", indices_ptr)] m) ;;
  let m := mm s in
  do input_ptr <- getp s "input_ptr" ;;
  do colours_ptr <- getp s "colours_ptr" ;;
  do indices_ptr <- getp s "indices_ptr" ;;
  do s <- while_lt (c_junk c) 0 bc1_std_t_bench_portable64_shift_unroll_4_loop2 "input_ptr" max_ptr (St [] [("input_ptr", input_ptr); ("colours_ptr", colours_ptr); ("indices_ptr", indices_ptr)] m) ;;
  let m := mm s in
  do input_ptr <- getp s "input_ptr" ;;
  do colours_ptr <- getp s "colours_ptr" ;;
  do indices_ptr <- getp s "indices_ptr" ;;
  Ok m.

(** Loop at src/core/dxt-lossless-transform-bc1/src/transform/standard/transform/bench/portable64.rs:214. *)
Definition bc1_std_t_bench_portable64_shift_unroll_8_loop1 : list instr :=
  [ILoad "curr1" "input_ptr" 0 8;
    ILoad "curr2" "input_ptr" 8 8;
    ILoad "curr3" "input_ptr" 16 8;
    ILoad "curr4" "input_ptr" 24 8;
    ILoad "curr5" "input_ptr" 32 8;
    ILoad "curr6" "input_ptr" 40 8;
    ILoad "curr7" "input_ptr" 48 8;
    ILoad "curr8" "input_ptr" 56 8;
    IAdd "input_ptr" 64;
    IOp "t2" (OBytes 0 4) ["curr1"];
    IOp "color1" (OMov) ["t2"];
    IOp "t4" (OBytes 0 4) ["curr2"];
    IOp "color2" (OMov) ["t4"];
    IOp "t6" (OBytes 0 4) ["curr3"];
    IOp "color3" (OMov) ["t6"];
    IOp "t8" (OBytes 0 4) ["curr4"];
    IOp "color4" (OMov) ["t8"];
    IOp "t10" (OBytes 0 4) ["curr5"];
    IOp "color5" (OMov) ["t10"];
    IOp "t12" (OBytes 0 4) ["curr6"];
    IOp "color6" (OMov) ["t12"];
    IOp "t14" (OBytes 0 4) ["curr7"];
    IOp "color7" (OMov) ["t14"];
    IOp "t16" (OBytes 0 4) ["curr8"];
    IOp "color8" (OMov) ["t16"];
    IOp "t18" (OShr 4) ["curr1"];
    IOp "t19" (OBytes 0 4) ["t18"];
    IOp "index1" (OMov) ["t19"];
    IOp "t21" (OShr 4) ["curr2"];
    IOp "t22" (OBytes 0 4) ["t21"];
    IOp "index2" (OMov) ["t22"];
    IOp "t24" (OShr 4) ["curr3"];
    IOp "t25" (OBytes 0 4) ["t24"];
    IOp "index3" (OMov) ["t25"];
    IOp "t27" (OShr 4) ["curr4"];
    IOp "t28" (OBytes 0 4) ["t27"];
    IOp "index4" (OMov) ["t28"];
    IOp "t30" (OShr 4) ["curr5"];
    IOp "t31" (OBytes 0 4) ["t30"];
    IOp "index5" (OMov) ["t31"];
    IOp "t33" (OShr 4) ["curr6"];
    IOp "t34" (OBytes 0 4) ["t33"];
    IOp "index6" (OMov) ["t34"];
    IOp "t36" (OShr 4) ["curr7"];
    IOp "t37" (OBytes 0 4) ["t36"];
    IOp "index7" (OMov) ["t37"];
    IOp "t39" (OShr 4) ["curr8"];
    IOp "t40" (OBytes 0 4) ["t39"];
    IOp "index8" (OMov) ["t40"];
    IStore "colours_ptr" 0 4 "color1";
    IStore "colours_ptr" 4 4 "color2";
    IStore "colours_ptr" 8 4 "color3";
    IStore "colours_ptr" 12 4 "color4";
    IStore "colours_ptr" 16 4 "color5";
    IStore "colours_ptr" 20 4 "color6";
    IStore "colours_ptr" 24 4 "color7";
    IStore "colours_ptr" 28 4 "color8";
    IAdd "colours_ptr" 32;
    IStore "indices_ptr" 0 4 "index1";
    IStore "indices_ptr" 4 4 "index2";
    IStore "indices_ptr" 8 4 "index3";
    IStore "indices_ptr" 12 4 "index4";
    IStore "indices_ptr" 16 4 "index5";
    IStore "indices_ptr" 20 4 "index6";
    IStore "indices_ptr" 24 4 "index7";
    IStore "indices_ptr" 28 4 "index8";
    IAdd "indices_ptr" 32].

(** Loop at src/core/dxt-lossless-transform-bc1/src/transform/standard/transform/bench/portable64.rs:269. *)
Definition bc1_std_t_bench_portable64_shift_unroll_8_loop2 : list instr :=
  [ILoad "curr" "input_ptr" 0 8;
    IAdd "input_ptr" 8;
    IOp "t2" (OBytes 0 4) ["curr"];
    IOp "color_value" (OMov) ["t2"];
    IOp "t4" (OShr 4) ["curr"];
    IOp "t5" (OBytes 0 4) ["t4"];
    IOp "index_value" (OMov) ["t5"];
    IStore "colours_ptr" 0 4 "color_value";
    IAdd "colours_ptr" 4;
    IStore "indices_ptr" 0 4 "index_value";
    IAdd "indices_ptr" 4].

(** src/core/dxt-lossless-transform-bc1/src/transform/standard/transform/bench/portable64.rs:202-283, fn shift_unroll_8 *)
Definition bc1_std_t_bench_portable64_shift_unroll_8 (c : cfg) (input_ptr : ptr) (output_ptr : ptr) (len : Z) (m : mem) : res mem :=
  do _ <- debug_assert (c_debug c) (len mod 8 =? 0) "len . is_multiple_of ( 8 )" ;;
  do max_aligned_ptr <- ptr_add m input_ptr ((len / 64) * 64) ;;
  do max_ptr <- ptr_add m input_ptr (len) ;;
  let colours_ptr := output_ptr in
  do indices_ptr <- ptr_add m output_ptr (len / 2) ;;
  do s <- while_lt2 (c_junk c) 0 bc1_std_t_bench_portable64_shift_unroll_8_loop1 "input_ptr" 56 max_ptr max_aligned_ptr (St [] [("input_ptr", input_ptr); ("colours_ptr", colours_ptr); ("indices_ptr", indices_ptr)] m) ;;
  let m := mm s in
  do input_ptr <- getp s "input_ptr" ;;
  do colours_ptr <- getp s "colours_ptr" ;;
  do indices_ptr <- getp s "indices_ptr" ;;
  do s <- while_lt (c_junk c) 0 bc1_std_t_bench_portable64_shift_unroll_8_loop2 "input_ptr" max_ptr (St [] [("input_ptr", input_ptr); ("colours_ptr", colours_ptr); ("indices_ptr", indices_ptr)] m) ;;
  let m := mm s in
  do input_ptr <- getp s "input_ptr" ;;
  do colours_ptr <- getp s "colours_ptr" ;;
  do indices_ptr <- getp s "indices_ptr" ;;
  Ok m.

(** Loop at src/core/dxt-lossless-transform-bc1/src/transform/standard/transform/bench/portable64.rs:300. *)
Definition bc1_std_t_bench_portable64_shift_with_count_loop1 : list instr :=
  [ILoad "curr" "input_ptr" 0 8;
    IOp "t2" (OBytes 0 4) ["curr"];
    IOp "color_value" (OMov) ["t2"];
    IOp "t4" (OShr 4) ["curr"];
    IOp "t5" (OBytes 0 4) ["t4"];
    IOp "index_value" (OMov) ["t5"];
    IStore "colours_ptr" 0 4 "color_value";
    IStore "indices_ptr" 0 4 "index_value";
    IAdd "input_ptr" 8;
    IAdd "colours_ptr" 4;
    IAdd "indices_ptr" 4].

(** src/core/dxt-lossless-transform-bc1/src/transform/standard/transform/bench/portable64.rs:290-316, fn shift_with_count *)
Definition bc1_std_t_bench_portable64_shift_with_count (c : cfg) (input_ptr : ptr) (output_ptr : ptr) (len : Z) (m : mem) : res mem :=
  do _ <- debug_assert (c_debug c) (len mod 8 =? 0) "len . is_multiple_of ( 8 )" ;;
  let num_elements := len / 8 in
  let colours_ptr := output_ptr in
  do indices_ptr <- ptr_add m output_ptr (len / 2) ;;
  do s <- times (c_junk c) 0 bc1_std_t_bench_portable64_shift_with_count_loop1 num_elements (St [] [("input_ptr", input_ptr); ("colours_ptr", colours_ptr); ("indices_ptr", indices_ptr)] m) ;;
  let m := mm s in
  do input_ptr <- getp s "input_ptr" ;;
  do colours_ptr <- getp s "colours_ptr" ;;
  do indices_ptr <- getp s "indices_ptr" ;;
  Ok m.

(** Loop at src/core/dxt-lossless-transform-bc1/src/transform/standard/transform/bench/portable64.rs:339. *)
Definition bc1_std_t_bench_portable64_shift_with_count_unroll_2_loop1 : list instr :=
  [ILoad "curr1" "input_ptr" 0 8;
    ILoad "curr2" "input_ptr" 8 8;
    IOp "t2" (OBytes 0 4) ["curr1"];
    IOp "color1" (OMov) ["t2"];
    IOp "t4" (OBytes 0 4) ["curr2"];
    IOp "color2" (OMov) ["t4"];
    IStore "colours_ptr" 0 4 "color1";
    IStore "colours_ptr" 4 4 "color2";
    IOp "t6" (OShr 4) ["curr1"];
    IOp "t7" (OBytes 0 4) ["t6"];
    IOp "index1" (OMov) ["t7"];
    IOp "t9" (OShr 4) ["curr2"];
    IOp "t10" (OBytes 0 4) ["t9"];
    IOp "index2" (OMov) ["t10"];
    IStore "indices_ptr" 0 4 "index1";
    IStore "indices_ptr" 4 4 "index2";
    IAdd "input_ptr" 16;
    IAdd "colours_ptr" 8;
    IAdd "indices_ptr" 8].

(** Loop at src/core/dxt-lossless-transform-bc1/src/transform/standard/transform/bench/portable64.rs:372. *)
Definition bc1_std_t_bench_portable64_shift_with_count_unroll_2_once2 : list instr :=
  [ILoad "curr" "input_ptr" 0 8;
    IOp "t2" (OBytes 0 4) ["curr"];
    IOp "color_value" (OMov) ["t2"];
    IOp "t4" (OShr 4) ["curr"];
    IOp "t5" (OBytes 0 4) ["t4"];
    IOp "index_value" (OMov) ["t5"];
    IStore "colours_ptr" 0 4 "color_value";
    IStore "indices_ptr" 0 4 "index_value"].

(** src/core/dxt-lossless-transform-bc1/src/transform/standard/transform/bench/portable64.rs:323-382, fn shift_with_count_unroll_2 *)
Definition bc1_std_t_bench_portable64_shift_with_count_unroll_2 (c : cfg) (input_ptr : ptr) (output_ptr : ptr) (len : Z) (m : mem) : res mem :=
  do _ <- debug_assert (c_debug c) (len mod 8 =? 0) "len . is_multiple_of ( 8 )" ;;
  let full_chunks := len / 16 in
  let remaining_bytes := len mod 16 in
  let colours_ptr := output_ptr in
  do indices_ptr <- ptr_add m output_ptr (len / 2) ;;
  let num_elements := full_chunks in
  do s <- times (c_junk c) 0 bc1_std_t_bench_portable64_shift_with_count_unroll_2_loop1 num_elements (St [] [("input_ptr", input_ptr); ("colours_ptr", colours_ptr); ("indices_ptr", indices_ptr)] m) ;;
  let m := mm s in
  do input_ptr <- getp s "input_ptr" ;;
  do colours_ptr <- getp s "colours_ptr" ;;
  do indices_ptr <- getp s "indices_ptr" ;;
  if (0 <? remaining_bytes) then
    do _ <- debug_assert (c_debug c) (remaining_bytes =? 8) "remaining_bytes , 8" ;;
    do s <- times (c_junk c) 0 bc1_std_t_bench_portable64_shift_with_count_unroll_2_once2 1 (St [] [("input_ptr", input_ptr); ("colours_ptr", colours_ptr); ("indices_ptr", indices_ptr)] m) ;;
    let m := mm s in
    Ok m
  else
    Ok m.

(** Loop at src/core/dxt-lossless-transform-bc1/src/transform/standard/transform/bench/portable64.rs:405. *)
Definition bc1_std_t_bench_portable64_shift_with_count_unroll_4_loop1 : list instr :=
  [ILoad "curr1" "input_ptr" 0 8;
    ILoad "curr2" "input_ptr" 8 8;
    ILoad "curr3" "input_ptr" 16 8;
    ILoad "curr4" "input_ptr" 24 8;
    IOp "t2" (OBytes 0 4) ["curr1"];
    IOp "color1" (OMov) ["t2"];
    IOp "t4" (OBytes 0 4) ["curr2"];
    IOp "color2" (OMov) ["t4"];
    IOp "t6" (OBytes 0 4) ["curr3"];
    IOp "color3" (OMov) ["t6"];
    IOp "t8" (OBytes 0 4) ["curr4"];
    IOp "color4" (OMov) ["t8"];
    IStore "colours_ptr" 0 4 "color1";
    IStore "colours_ptr" 4 4 "color2";
    IStore "colours_ptr" 8 4 "color3";
    IStore "colours_ptr" 12 4 "color4";
    IOp "t10" (OShr 4) ["curr1"];
    IOp "t11" (OBytes 0 4) ["t10"];
    IOp "index1" (OMov) ["t11"];
    IOp "t13" (OShr 4) ["curr2"];
    IOp "t14" (OBytes 0 4) ["t13"];
    IOp "index2" (OMov) ["t14"];
    IOp "t16" (OShr 4) ["curr3"];
    IOp "t17" (OBytes 0 4) ["t16"];
    IOp "index3" (OMov) ["t17"];
    IOp "t19" (OShr 4) ["curr4"];
    IOp "t20" (OBytes 0 4) ["t19"];
    IOp "index4" (OMov) ["t20"];
    IStore "indices_ptr" 0 4 "index1";
    IStore "indices_ptr" 4 4 "index2";
    IStore "indices_ptr" 8 4 "index3";
    IStore "indices_ptr" 12 4 "index4";
    IAdd "input_ptr" 32;
    IAdd "colours_ptr" 16;
    IAdd "indices_ptr" 16].

(** Loop at src/core/dxt-lossless-transform-bc1/src/transform/standard/transform/bench/portable64.rs:445. *)
Definition bc1_std_t_bench_portable64_shift_with_count_unroll_4_loop2 : list instr :=
  [ILoad "curr" "input_ptr" 0 8;
    IAdd "input_ptr" 8;
    IOp "t2" (OBytes 0 4) ["curr"];
    IOp "color_value" (OMov) ["t2"];
    IOp "t4" (OShr 4) ["curr"];
    IOp "t5" (OBytes 0 4) ["t4"];
    IOp "index_value" (OMov) ["t5"];
    IStore "colours_ptr" 0 4 "color_value";
    IAdd "colours_ptr" 4;
    IStore "indices_ptr" 0 4 "index_value";
    IAdd "indices_ptr" 4].

(** src/core/dxt-lossless-transform-bc1/src/transform/standard/transform/bench/portable64.rs:389-460, fn shift_with_count_unroll_4 *)
Definition bc1_std_t_bench_portable64_shift_with_count_unroll_4 (c : cfg) (input_ptr : ptr) (output_ptr : ptr) (len : Z) (m : mem) : res mem :=
  do _ <- debug_assert (c_debug c) (len mod 8 =? 0) "len . is_multiple_of ( 8 )" ;;
  let full_chunks := len / 32 in
  let remaining_bytes := len mod 32 in
  let colours_ptr := output_ptr in
  do indices_ptr <- ptr_add m output_ptr (len / 2) ;;
  let num_elements := full_chunks in
  do s <- times (c_junk c) 0 bc1_std_t_bench_portable64_shift_with_count_unroll_4_loop1 num_elements (St [] [("input_ptr", input_ptr); ("colours_ptr", colours_ptr); ("indices_ptr", indices_ptr)] m) ;;
  let m := mm s in
  do input_ptr <- getp s "input_ptr" ;;
  do colours_ptr <- getp s "colours_ptr" ;;
  do indices_ptr <- getp s "indices_ptr" ;;
  let remaining_chunks := remaining_bytes / 8 in
  do s <- times (c_junk c) 0 bc1_std_t_bench_portable64_shift_with_count_unroll_4_loop2 remaining_chunks (St [] [("input_ptr", input_ptr); ("colours_ptr", colours_ptr); ("indices_ptr", indices_ptr)] m) ;;
  let m := mm s in
  do input_ptr <- getp s "input_ptr" ;;
  do colours_ptr <- getp s "colours_ptr" ;;
  do indices_ptr <- getp s "indices_ptr" ;;
  Ok m.

(** Loop at src/core/dxt-lossless-transform-bc1/src/transform/standard/transform/bench/portable64.rs:483. *)
Definition bc1_std_t_bench_portable64_shift_with_count_unroll_8_loop1 : list instr :=
  [ILoad "curr1" "input_ptr" 0 8;
    ILoad "curr2" "input_ptr" 8 8;
    ILoad "curr3" "input_ptr" 16 8;
    ILoad "curr4" "input_ptr" 24 8;
    ILoad "curr5" "input_ptr" 32 8;
    ILoad "curr6" "input_ptr" 40 8;
    ILoad "curr7" "input_ptr" 48 8;
    ILoad "curr8" "input_ptr" 56 8;
    IOp "t2" (OBytes 0 4) ["curr1"];
    IOp "color1" (OMov) ["t2"];
    IOp "t4" (OBytes 0 4) ["curr2"];
    IOp "color2" (OMov) ["t4"];
    IOp "t6" (OBytes 0 4) ["curr3"];
    IOp "color3" (OMov) ["t6"];
    IOp "t8" (OBytes 0 4) ["curr4"];
    IOp "color4" (OMov) ["t8"];
    IOp "t10" (OBytes 0 4) ["curr5"];
    IOp "color5" (OMov) ["t10"];
    IOp "t12" (OBytes 0 4) ["curr6"];
    IOp "color6" (OMov) ["t12"];
    IOp "t14" (OBytes 0 4) ["curr7"];
    IOp "color7" (OMov) ["t14"];
    IOp "t16" (OBytes 0 4) ["curr8"];
    IOp "color8" (OMov) ["t16"];
    IStore "colours_ptr" 0 4 "color1";
    IStore "colours_ptr" 4 4 "color2";
    IStore "colours_ptr" 8 4 "color3";
    IStore "colours_ptr" 12 4 "color4";
    IStore "colours_ptr" 16 4 "color5";
    IStore "colours_ptr" 20 4 "color6";
    IStore "colours_ptr" 24 4 "color7";
    IStore "colours_ptr" 28 4 "color8";
    IOp "t18" (OShr 4) ["curr1"];
    IOp "t19" (OBytes 0 4) ["t18"];
    IOp "index1" (OMov) ["t19"];
    IOp "t21" (OShr 4) ["curr2"];
    IOp "t22" (OBytes 0 4) ["t21"];
    IOp "index2" (OMov) ["t22"];
    IOp "t24" (OShr 4) ["curr3"];
    IOp "t25" (OBytes 0 4) ["t24"];
    IOp "index3" (OMov) ["t25"];
    IOp "t27" (OShr 4) ["curr4"];
    IOp "t28" (OBytes 0 4) ["t27"];
    IOp "index4" (OMov) ["t28"];
    IOp "t30" (OShr 4) ["curr5"];
    IOp "t31" (OBytes 0 4) ["t30"];
    IOp "index5" (OMov) ["t31"];
    IOp "t33" (OShr 4) ["curr6"];
    IOp "t34" (OBytes 0 4) ["t33"];
    IOp "index6" (OMov) ["t34"];
    IOp "t36" (OShr 4) ["curr7"];
    IOp "t37" (OBytes 0 4) ["t36"];
    IOp "index7" (OMov) ["t37"];
    IOp "t39" (OShr 4) ["curr8"];
    IOp "t40" (OBytes 0 4) ["t39"];
    IOp "index8" (OMov) ["t40"];
    IStore "indices_ptr" 0 4 "index1";
    IStore "indices_ptr" 4 4 "index2";
    IStore "indices_ptr" 8 4 "index3";
    IStore "indices_ptr" 12 4 "index4";
    IStore "indices_ptr" 16 4 "index5";
    IStore "indices_ptr" 20 4 "index6";
    IStore "indices_ptr" 24 4 "index7";
    IStore "indices_ptr" 28 4 "index8";
    IAdd "input_ptr" 64;
    IAdd "colours_ptr" 32;
    IAdd "indices_ptr" 32].

(** Loop at src/core/dxt-lossless-transform-bc1/src/transform/standard/transform/bench/portable64.rs:543. *)
Definition bc1_std_t_bench_portable64_shift_with_count_unroll_8_loop2 : list instr :=
  [ILoad "curr" "input_ptr" 0 8;
    IAdd "input_ptr" 8;
    IOp "t2" (OBytes 0 4) ["curr"];
    IOp "color_value" (OMov) ["t2"];
    IOp "t4" (OShr 4) ["curr"];
    IOp "t5" (OBytes 0 4) ["t4"];
    IOp "index_value" (OMov) ["t5"];
    IStore "colours_ptr" 0 4 "color_value";
    IAdd "colours_ptr" 4;
    IStore "indices_ptr" 0 4 "index_value";
    IAdd "indices_ptr" 4].

(** src/core/dxt-lossless-transform-bc1/src/transform/standard/transform/bench/portable64.rs:467-558, fn shift_with_count_unroll_8 *)
Definition bc1_std_t_bench_portable64_shift_with_count_unroll_8 (c : cfg) (input_ptr : ptr) (output_ptr : ptr) (len : Z) (m : mem) : res mem :=
  do _ <- debug_assert (c_debug c) (len mod 8 =? 0) "len . is_multiple_of ( 8 )" ;;
  let full_chunks := len / 64 in
  let remaining_bytes := len mod 64 in
  let colours_ptr := output_ptr in
  do indices_ptr <- ptr_add m output_ptr (len / 2) ;;
  let num_elements := full_chunks in
  do s <- times (c_junk c) 0 bc1_std_t_bench_portable64_shift_with_count_unroll_8_loop1 num_elements (St [] [("input_ptr", input_ptr); ("colours_ptr", colours_ptr); ("indices_ptr", indices_ptr)] m) ;;
  let m := mm s in
  do input_ptr <- getp s "input_ptr" ;;
  do colours_ptr <- getp s "colours_ptr" ;;
  do indices_ptr <- getp s "indices_ptr" ;;
  let remaining_chunks := remaining_bytes / 8 in
  do s <- times (c_junk c) 0 bc1_std_t_bench_portable64_shift_with_count_unroll_8_loop2 remaining_chunks (St [] [("input_ptr", input_ptr); ("colours_ptr", colours_ptr); ("indices_ptr", indices_ptr)] m) ;;
  let m := mm s in
  do input_ptr <- getp s "input_ptr" ;;
  do colours_ptr <- getp s "colours_ptr" ;;
  do indices_ptr <- getp s "indices_ptr" ;;
  Ok m.

(** Loop at src/core/dxt-lossless-transform-bc1/src/transform/standard/transform/bench/sse2.rs:23. *)
Definition bc1_std_t_bench_sse2_punpckhqdq_unroll_4_loop1 : list instr :=
  [ILoad "xmm0" "src_ptr" 0 16;
    ILoad "xmm1" "src_ptr" 16 16;
    ILoad "xmm2" "src_ptr" 32 16;
    ILoad "xmm3" "src_ptr" 48 16;
    IAddAsm "src_ptr" 64;
    IOp "xmm0" (OPshufd 1 216) ["xmm0"];
    IOp "xmm1" (OPshufd 1 216) ["xmm1"];
    IOp "xmm2" (OPshufd 1 216) ["xmm2"];
    IOp "xmm3" (OPshufd 1 216) ["xmm3"];
    IOp "xmm4" (OMov) ["xmm0"];
    IOp "xmm5" (OMov) ["xmm2"];
    IOp "xmm0" (OUnpackHi 8 1) ["xmm0"; "xmm1"];
    IOp "xmm2" (OUnpackHi 8 1) ["xmm2"; "xmm3"];
    IOp "xmm4" (OUnpackLo 8 1) ["xmm4"; "xmm1"];
    IOp "xmm5" (OUnpackLo 8 1) ["xmm5"; "xmm3"];
    IStore "colors_ptr" 0 16 "xmm4";
    IStore "colors_ptr" 16 16 "xmm5";
    IAddAsm "colors_ptr" 32;
    IStore "indices_ptr" 0 16 "xmm0";
    IStore "indices_ptr" 16 16 "xmm2";
    IAddAsm "indices_ptr" 32].

(** src/core/dxt-lossless-transform-bc1/src/transform/standard/transform/bench/sse2.rs:10-88, fn punpckhqdq_unroll_4 *)
Definition bc1_std_t_bench_sse2_punpckhqdq_unroll_4 (c : cfg) (input_ptr : ptr) (output_ptr : ptr) (len : Z) (m : mem) : res mem :=
  do _ <- cpu_has (c_sse2 c) "sse2" ;;
  do _ <- debug_assert (c_debug c) (len mod 8 =? 0) "len . is_multiple_of ( 8 )" ;;
  do aligned_len <- usub len (len mod 64) ;;
  do indices_ptr <- ptr_add m output_ptr (len / 2) ;;
  do aligned_end <- ptr_add m input_ptr (aligned_len) ;;
  do (aligned_end, indices_ptr, input_ptr, output_ptr, m) <- (
    if (0 <? aligned_len) then
      do s <- asm_jb (c_junk c) 0 bc1_std_t_bench_sse2_punpckhqdq_unroll_4_loop1 "src_ptr" aligned_end (St [] [("src_ptr", input_ptr); ("colors_ptr", output_ptr); ("indices_ptr", indices_ptr)] m) ;;
      let m := mm s in
      do input_ptr <- getp s "src_ptr" ;;
      do output_ptr <- getp s "colors_ptr" ;;
      do indices_ptr <- getp s "indices_ptr" ;;
      Ok (aligned_end, indices_ptr, input_ptr, output_ptr, m)
    else
      Ok (aligned_end, indices_ptr, input_ptr, output_ptr, m)
  ) ;;
  do remaining <- usub len aligned_len ;;
  if (0 <? remaining) then
    do m <- bc1_std_t_portable32_u32_with_separate_pointers c input_ptr output_ptr indices_ptr remaining m ;;
    Ok m
  else
    Ok m.

(** Loop at src/core/dxt-lossless-transform-bc1/src/transform/standard/transform/bench/sse2.rs:109. *)
Definition bc1_std_t_bench_sse2_punpckhqdq_unroll_2_loop1 : list instr :=
  [ILoad "xmm0" "src_ptr" 0 16;
    ILoad "xmm1" "src_ptr" 16 16;
    IAddAsm "src_ptr" 32;
    IOp "xmm0" (OPshufd 1 216) ["xmm0"];
    IOp "xmm1" (OPshufd 1 216) ["xmm1"];
    IOp "xmm2" (OMov) ["xmm0"];
    IOp "xmm2" (OUnpackLo 8 1) ["xmm2"; "xmm1"];
    IOp "xmm0" (OUnpackHi 8 1) ["xmm0"; "xmm1"];
    IStore "colors_ptr" 0 16 "xmm2";
    IAddAsm "colors_ptr" 16;
    IStore "indices_ptr" 0 16 "xmm0";
    IAddAsm "indices_ptr" 16].

(** src/core/dxt-lossless-transform-bc1/src/transform/standard/transform/bench/sse2.rs:96-162, fn punpckhqdq_unroll_2 *)
Definition bc1_std_t_bench_sse2_punpckhqdq_unroll_2 (c : cfg) (input_ptr : ptr) (output_ptr : ptr) (len : Z) (m : mem) : res mem :=
  do _ <- cpu_has (c_sse2 c) "sse2" ;;
  do _ <- debug_assert (c_debug c) (len mod 8 =? 0) "len . is_multiple_of ( 8 )" ;;
  do aligned_len <- usub len (len mod 32) ;;
  do indices_ptr <- ptr_add m output_ptr (len / 2) ;;
  do aligned_end <- ptr_add m input_ptr (aligned_len) ;;
  do (aligned_end, indices_ptr, input_ptr, output_ptr, m) <- (
    if (0 <? aligned_len) then
      do s <- asm_jb (c_junk c) 0 bc1_std_t_bench_sse2_punpckhqdq_unroll_2_loop1 "src_ptr" aligned_end (St [] [("src_ptr", input_ptr); ("colors_ptr", output_ptr); ("indices_ptr", indices_ptr)] m) ;;
      let m := mm s in
      do input_ptr <- getp s "src_ptr" ;;
      do output_ptr <- getp s "colors_ptr" ;;
      do indices_ptr <- getp s "indices_ptr" ;;
      Ok (aligned_end, indices_ptr, input_ptr, output_ptr, m)
    else
      Ok (aligned_end, indices_ptr, input_ptr, output_ptr, m)
  ) ;;
  do remaining <- usub len aligned_len ;;
  if (0 <? remaining) then
    do m <- bc1_std_t_portable32_u32_with_separate_pointers c input_ptr output_ptr indices_ptr remaining m ;;
    Ok m
  else
    Ok m.

(** Loop at src/core/dxt-lossless-transform-bc1/src/transform/standard/transform/bench/sse2.rs:183. *)
Definition bc1_std_t_bench_sse2_shufps_unroll_2_loop1 : list instr :=
  [ILoad "xmm0" "src_ptr" 0 16;
    ILoad "xmm1" "src_ptr" 16 16;
    IAddAsm "src_ptr" 32;
    IOp "xmm2" (OMov) ["xmm0"];
    IOp "xmm2" (OShufps 1 136) ["xmm2"; "xmm1"];
    IOp "xmm0" (OShufps 1 221) ["xmm0"; "xmm1"];
    IStore "colors_ptr" 0 16 "xmm2";
    IAddAsm "colors_ptr" 16;
    IStore "indices_ptr" 0 16 "xmm0";
    IAddAsm "indices_ptr" 16].

(** src/core/dxt-lossless-transform-bc1/src/transform/standard/transform/bench/sse2.rs:170-230, fn shufps_unroll_2 *)
Definition bc1_std_t_bench_sse2_shufps_unroll_2 (c : cfg) (input_ptr : ptr) (output_ptr : ptr) (len : Z) (m : mem) : res mem :=
  do _ <- cpu_has (c_sse2 c) "sse2" ;;
  do _ <- debug_assert (c_debug c) (len mod 8 =? 0) "len . is_multiple_of ( 8 )" ;;
  do aligned_len <- usub len (len mod 32) ;;
  do indices_ptr <- ptr_add m output_ptr (len / 2) ;;
  do aligned_end <- ptr_add m input_ptr (aligned_len) ;;
  do (aligned_end, indices_ptr, input_ptr, output_ptr, m) <- (
    if (0 <? aligned_len) then
      do s <- asm_jb (c_junk c) 0 bc1_std_t_bench_sse2_shufps_unroll_2_loop1 "src_ptr" aligned_end (St [] [("src_ptr", input_ptr); ("colors_ptr", output_ptr); ("indices_ptr", indices_ptr)] m) ;;
      let m := mm s in
      do input_ptr <- getp s "src_ptr" ;;
      do output_ptr <- getp s "colors_ptr" ;;
      do indices_ptr <- getp s "indices_ptr" ;;
      Ok (aligned_end, indices_ptr, input_ptr, output_ptr, m)
    else
      Ok (aligned_end, indices_ptr, input_ptr, output_ptr, m)
  ) ;;
  do remaining <- usub len aligned_len ;;
  if (0 <? remaining) then
    do m <- bc1_std_t_portable32_u32_with_separate_pointers c input_ptr output_ptr indices_ptr remaining m ;;
    Ok m
  else
    Ok m.

(** Loop at src/core/dxt-lossless-transform-bc1/src/transform/standard/untransform/bench/avx2.rs:23. *)
Definition bc1_std_u_bench_avx2_permd_untransform_loop1 : list instr :=
  [ILoad "t1" "colors_ptr" 0 32;
    IOp "ymm0" (OPermq 216) ["t1"];
    IAddAsm "colors_ptr" 32;
    ILoad "t2" "indices_ptr" 0 32;
    IOp "ymm1" (OPermq 216) ["t2"];
    IAddAsm "indices_ptr" 32;
    IOp "ymm2" (OUnpackLo 4 2) ["ymm0"; "ymm1"];
    IOp "ymm3" (OUnpackHi 4 2) ["ymm0"; "ymm1"];
    IStore "dst_ptr" 0 32 "ymm2";
    IStore "dst_ptr" 32 32 "ymm3";
    IAddAsm "dst_ptr" 64].

(** src/core/dxt-lossless-transform-bc1/src/transform/standard/untransform/bench/avx2.rs:10-136, fn permd_untransform *)
Definition bc1_std_u_bench_avx2_permd_untransform (c : cfg) (input_ptr : ptr) (output_ptr : ptr) (len : Z) (m : mem) : res mem :=
  do _ <- cpu_has (c_avx2 c) "avx2" ;;
  do _ <- debug_assert (c_debug c) (len mod 8 =? 0) "len . is_multiple_of ( 8 )" ;;
  do aligned_len <- usub len (len mod 64) ;;
  do indices_ptr <- ptr_add m input_ptr (len / 2) ;;
  do colors_aligned_end <- ptr_add m input_ptr (aligned_len / 2) ;;
  do (indices_ptr, input_ptr, output_ptr, m) <- (
    if (0 <? aligned_len) then
      do s <- asm_jb (c_junk c) 0 bc1_std_u_bench_avx2_permd_untransform_loop1 "colors_ptr" colors_aligned_end (St [] [("colors_ptr", input_ptr); ("indices_ptr", indices_ptr); ("dst_ptr", output_ptr)] m) ;;
      let m := mm s in
      do input_ptr <- getp s "colors_ptr" ;;
      do indices_ptr <- getp s "indices_ptr" ;;
      do output_ptr <- getp s "dst_ptr" ;;
      Ok (indices_ptr, input_ptr, output_ptr, m)
    else
      Ok (indices_ptr, input_ptr, output_ptr, m)
  ) ;;
  do remaining <- usub len aligned_len ;;
  if (0 <? remaining) then
    do m <- bc1_std_u_portable32_u32_untransform_with_separate_pointers c input_ptr indices_ptr output_ptr remaining m ;;
    Ok m
  else
    Ok m.

(** Loop at src/core/dxt-lossless-transform-bc1/src/transform/standard/untransform/bench/avx2.rs:157. *)
Definition bc1_std_u_bench_avx2_unpck_untransform_loop1 : list instr :=
  [ILoad "ymm0" "colors_ptr" 0 32;
    IAddAsm "colors_ptr" 32;
    ILoad "ymm1" "indices_ptr" 0 32;
    IAddAsm "indices_ptr" 32;
    IOp "ymm2" (OUnpackHi 4 2) ["ymm0"; "ymm1"];
    IOp "ymm0" (OUnpackLo 4 2) ["ymm0"; "ymm1"];
    IOp "ymm1" (OPerm2i128 32) ["ymm0"; "ymm2"];
    IOp "ymm0" (OPerm2i128 49) ["ymm0"; "ymm2"];
    IStore "dst_ptr" 0 32 "ymm1";
    IStore "dst_ptr" 32 32 "ymm0";
    IAddAsm "dst_ptr" 64].

(** src/core/dxt-lossless-transform-bc1/src/transform/standard/untransform/bench/avx2.rs:144-205, fn unpck_untransform *)
Definition bc1_std_u_bench_avx2_unpck_untransform (c : cfg) (input_ptr : ptr) (output_ptr : ptr) (len : Z) (m : mem) : res mem :=
  do _ <- cpu_has (c_avx2 c) "avx2" ;;
  do _ <- debug_assert (c_debug c) (len mod 8 =? 0) "len . is_multiple_of ( 8 )" ;;
  do aligned_len <- usub len (len mod 64) ;;
  do indices_ptr <- ptr_add m input_ptr (len / 2) ;;
  do colors_aligned_end <- ptr_add m input_ptr (aligned_len / 2) ;;
  do (indices_ptr, input_ptr, output_ptr, m) <- (
    if (0 <? aligned_len) then
      do s <- asm_jb (c_junk c) 0 bc1_std_u_bench_avx2_unpck_untransform_loop1 "colors_ptr" colors_aligned_end (St [] [("colors_ptr", input_ptr); ("indices_ptr", indices_ptr); ("dst_ptr", output_ptr)] m) ;;
      let m := mm s in
      do input_ptr <- getp s "colors_ptr" ;;
      do indices_ptr <- getp s "indices_ptr" ;;
      do output_ptr <- getp s "dst_ptr" ;;
      Ok (indices_ptr, input_ptr, output_ptr, m)
    else
      Ok (indices_ptr, input_ptr, output_ptr, m)
  ) ;;
  do remaining <- usub len aligned_len ;;
  if (0 <? remaining) then
    do m <- bc1_std_u_portable32_u32_untransform_with_separate_pointers c input_ptr indices_ptr output_ptr remaining m ;;
    Ok m
  else
    Ok m.

(** Loop at src/core/dxt-lossless-transform-bc1/src/transform/standard/untransform/bench/avx2.rs:226. *)
Definition bc1_std_u_bench_avx2_unpck_untransform_unroll_2_loop1 : list instr :=
  [ILoad "ymm0" "colors_ptr" 0 32;
    ILoad "ymm3" "colors_ptr" 32 32;
    IAddAsm "colors_ptr" 64;
    ILoad "ymm1" "indices_ptr" 0 32;
    ILoad "ymm4" "indices_ptr" 32 32;
    IAddAsm "indices_ptr" 64;
    IOp "ymm2" (OUnpackHi 4 2) ["ymm0"; "ymm1"];
    IOp "ymm0" (OUnpackLo 4 2) ["ymm0"; "ymm1"];
    IOp "ymm1" (OPerm2i128 32) ["ymm0"; "ymm2"];
    IOp "ymm0" (OPerm2i128 49) ["ymm0"; "ymm2"];
    IOp "ymm5" (OUnpackHi 4 2) ["ymm3"; "ymm4"];
    IOp "ymm3" (OUnpackLo 4 2) ["ymm3"; "ymm4"];
    IOp "ymm4" (OPerm2i128 32) ["ymm3"; "ymm5"];
    IOp "ymm3" (OPerm2i128 49) ["ymm3"; "ymm5"];
    IStore "dst_ptr" 0 32 "ymm1";
    IStore "dst_ptr" 32 32 "ymm0";
    IStore "dst_ptr" 64 32 "ymm4";
    IStore "dst_ptr" 96 32 "ymm3";
    IAddAsm "dst_ptr" 128].

(** src/core/dxt-lossless-transform-bc1/src/transform/standard/untransform/bench/avx2.rs:213-289, fn unpck_untransform_unroll_2 *)
Definition bc1_std_u_bench_avx2_unpck_untransform_unroll_2 (c : cfg) (input_ptr : ptr) (output_ptr : ptr) (len : Z) (m : mem) : res mem :=
  do _ <- cpu_has (c_avx2 c) "avx2" ;;
  do _ <- debug_assert (c_debug c) (len mod 8 =? 0) "len . is_multiple_of ( 8 )" ;;
  do aligned_len <- usub len (len mod 128) ;;
  do indices_ptr <- ptr_add m input_ptr (len / 2) ;;
  do colors_aligned_end <- ptr_add m input_ptr (aligned_len / 2) ;;
  do (indices_ptr, input_ptr, output_ptr, m) <- (
    if (0 <? aligned_len) then
      do s <- asm_jb (c_junk c) 0 bc1_std_u_bench_avx2_unpck_untransform_unroll_2_loop1 "colors_ptr" colors_aligned_end (St [] [("colors_ptr", input_ptr); ("indices_ptr", indices_ptr); ("dst_ptr", output_ptr)] m) ;;
      let m := mm s in
      do input_ptr <- getp s "colors_ptr" ;;
      do indices_ptr <- getp s "indices_ptr" ;;
      do output_ptr <- getp s "dst_ptr" ;;
      Ok (indices_ptr, input_ptr, output_ptr, m)
    else
      Ok (indices_ptr, input_ptr, output_ptr, m)
  ) ;;
  do remaining <- usub len aligned_len ;;
  if (0 <? remaining) then
    do m <- bc1_std_u_portable32_u32_untransform_with_separate_pointers c input_ptr indices_ptr output_ptr remaining m ;;
    Ok m
  else
    Ok m.

(** Constants of the loop at src/core/dxt-lossless-transform-bc1/src/transform/standard/untransform/bench/avx512f.rs:63 *)
Definition bc1_std_u_bench_avx512f_permute_512_untransform_unroll_2_with_components_intrinsics_loop1_perm_low : list byte := [x00; x00; x00; x00; x10; x00; x00; x00; x01; x00; x00; x00; x11; x00; x00; x00; x02; x00; x00; x00; x12; x00; x00; x00; x03; x00; x00; x00; x13; x00; x00; x00; x04; x00; x00; x00; x14; x00; x00; x00; x05; x00; x00; x00; x15; x00; x00; x00; x06; x00; x00; x00; x16; x00; x00; x00; x07; x00; x00; x00; x17; x00; x00; x00].
Definition bc1_std_u_bench_avx512f_permute_512_untransform_unroll_2_with_components_intrinsics_loop1_perm_high : list byte := [x08; x00; x00; x00; x18; x00; x00; x00; x09; x00; x00; x00; x19; x00; x00; x00; x0a; x00; x00; x00; x1a; x00; x00; x00; x0b; x00; x00; x00; x1b; x00; x00; x00; x0c; x00; x00; x00; x1c; x00; x00; x00; x0d; x00; x00; x00; x1d; x00; x00; x00; x0e; x00; x00; x00; x1e; x00; x00; x00; x0f; x00; x00; x00; x1f; x00; x00; x00].

(** Loop at src/core/dxt-lossless-transform-bc1/src/transform/standard/untransform/bench/avx512f.rs:63. *)
Definition bc1_std_u_bench_avx512f_permute_512_untransform_unroll_2_with_components_intrinsics_loop1 : list instr :=
  [ILoad "colors_0" "colors_ptr" 0 64;
    ILoad "colors_1" "colors_ptr" 64 64;
    IAdd "colors_ptr" 128;
    ILoad "indices_0" "indices_ptr" 0 64;
    ILoad "indices_1" "indices_ptr" 64 64;
    IAdd "indices_ptr" 128;
    IOp "output_0" (OPermT2 4 16) ["colors_0"; "perm_low"; "indices_0"];
    IOp "output_1" (OPermT2 4 16) ["colors_0"; "perm_high"; "indices_0"];
    IOp "output_2" (OPermT2 4 16) ["colors_1"; "perm_low"; "indices_1"];
    IOp "output_3" (OPermT2 4 16) ["colors_1"; "perm_high"; "indices_1"];
    IStore "output_ptr" 0 64 "output_0";
    IStore "output_ptr" 64 64 "output_1";
    IStore "output_ptr" 128 64 "output_2";
    IStore "output_ptr" 192 64 "output_3";
    IAdd "output_ptr" 256].

(** src/core/dxt-lossless-transform-bc1/src/transform/standard/untransform/bench/avx512f.rs:40-99, fn permute_512_untransform_unroll_2_with_components_intrinsics *)
Definition bc1_std_u_bench_avx512f_permute_512_untransform_unroll_2_with_components_intrinsics (c : cfg) (output_ptr : ptr) (len : Z) (indices_ptr : ptr) (colors_ptr : ptr) (m : mem) : res mem :=
  do _ <- cpu_has (c_sse2 c && c_avx512f c) "sse2 avx512f" ;;
  do _ <- debug_assert (c_debug c) (len mod 8 =? 0) "len . is_multiple_of ( 8 ) , 'len must be divisible by 8'" ;;
  do aligned_len <- usub len (len mod 256) ;;
  do colors_aligned_end <- ptr_add m colors_ptr (aligned_len / 2) ;;
  do (colors_ptr, indices_ptr, output_ptr, m) <- (
    if (0 <? aligned_len) then
      do s <- while_lt (c_junk c) 0 bc1_std_u_bench_avx512f_permute_512_untransform_unroll_2_with_components_intrinsics_loop1 "colors_ptr" colors_aligned_end (St [("perm_low", bc1_std_u_bench_avx512f_permute_512_untransform_unroll_2_with_components_intrinsics_loop1_perm_low); ("perm_high", bc1_std_u_bench_avx512f_permute_512_untransform_unroll_2_with_components_intrinsics_loop1_perm_high)] [("colors_ptr", colors_ptr); ("indices_ptr", indices_ptr); ("output_ptr", output_ptr)] m) ;;
      let m := mm s in
      do colors_ptr <- getp s "colors_ptr" ;;
      do indices_ptr <- getp s "indices_ptr" ;;
      do output_ptr <- getp s "output_ptr" ;;
      Ok (colors_ptr, indices_ptr, output_ptr, m)
    else
      Ok (colors_ptr, indices_ptr, output_ptr, m)
  ) ;;
  do remaining <- usub len aligned_len ;;
  if (0 <? remaining) then
    do m <- bc1_std_u_portable32_u32_untransform_with_separate_pointers c colors_ptr indices_ptr output_ptr remaining m ;;
    Ok m
  else
    Ok m.

(** src/core/dxt-lossless-transform-bc1/src/transform/standard/untransform/bench/avx512f.rs:15-31, fn permute_512_untransform_unroll_2_intrinsics *)
Definition bc1_std_u_bench_avx512f_permute_512_untransform_unroll_2_intrinsics (c : cfg) (input_ptr : ptr) (output_ptr : ptr) (len : Z) (m : mem) : res mem :=
  do _ <- cpu_has (c_avx512f c) "avx512f" ;;
  do _ <- debug_assert (c_debug c) (len mod 8 =? 0) "len . is_multiple_of ( 8 )" ;;
  do indices_ptr <- ptr_add m input_ptr (len / 2) ;;
  let colors_ptr := input_ptr in
  do m <- bc1_std_u_bench_avx512f_permute_512_untransform_unroll_2_with_components_intrinsics c output_ptr len indices_ptr colors_ptr m ;;
  Ok m.

(** src/core/dxt-lossless-transform-bc1/src/transform/standard/untransform/bench/mod.rs:16-18, fn u32_untransform *)
Definition bc1_std_u_bench_u32_untransform (c : cfg) (input_ptr : ptr) (output_ptr : ptr) (len : Z) (m : mem) : res mem :=
  do m <- bc1_std_u_portable32_u32_untransform c input_ptr output_ptr len m ;;
  Ok m.

(** src/core/dxt-lossless-transform-bc1/src/transform/standard/untransform/bench/mod.rs:21-27, fn unpck_untransform_unroll_2 *)
Definition bc1_std_u_bench_unpck_untransform_unroll_2 (c : cfg) (input_ptr : ptr) (output_ptr : ptr) (len : Z) (m : mem) : res mem :=
  do m <- bc1_std_u_sse2_unpck_untransform_unroll_2 c input_ptr output_ptr len m ;;
  Ok m.

(** src/core/dxt-lossless-transform-bc1/src/transform/standard/untransform/bench/mod.rs:30-36, fn permd_untransform_unroll_2 *)
Definition bc1_std_u_bench_permd_untransform_unroll_2 (c : cfg) (input_ptr : ptr) (output_ptr : ptr) (len : Z) (m : mem) : res mem :=
  do m <- bc1_std_u_avx2_permd_untransform_unroll_2 c input_ptr output_ptr len m ;;
  Ok m.

(** src/core/dxt-lossless-transform-bc1/src/transform/standard/untransform/bench/mod.rs:39-45, fn permute_512_untransform_unroll_2 *)
Definition bc1_std_u_bench_permute_512_untransform_unroll_2 (c : cfg) (input_ptr : ptr) (output_ptr : ptr) (len : Z) (m : mem) : res mem :=
  do m <- bc1_std_u_avx512f_permute_512_untransform_unroll_2 c input_ptr output_ptr len m ;;
  Ok m.

(** Loop at src/core/dxt-lossless-transform-bc1/src/transform/standard/untransform/bench/portable32.rs:21. *)
Definition bc1_std_u_bench_portable32_u32_untransform_unroll_2_loop1 : list instr :=
  [ILoad "index_value1" "indices_ptr" 0 4;
    ILoad "index_value2" "indices_ptr" 4 4;
    IAdd "indices_ptr" 8;
    ILoad "color_value1" "colours_ptr" 0 4;
    ILoad "color_value2" "colours_ptr" 4 4;
    IAdd "colours_ptr" 8;
    IStore "output_ptr" 0 4 "color_value1";
    IStore "output_ptr" 4 4 "index_value1";
    IStore "output_ptr" 8 4 "color_value2";
    IStore "output_ptr" 12 4 "index_value2";
    IAdd "output_ptr" 16].

(** Loop at src/core/dxt-lossless-transform-bc1/src/transform/standard/untransform/bench/portable32.rs:43. *)
Definition bc1_std_u_bench_portable32_u32_untransform_unroll_2_loop2 : list instr :=
  [ILoad "index_value" "indices_ptr" 0 4;
    IAdd "indices_ptr" 4;
    ILoad "color_value" "colours_ptr" 0 4;
    IAdd "colours_ptr" 4;
    IStore "output_ptr" 0 4 "color_value";
    IStore "output_ptr" 4 4 "index_value";
    IAdd "output_ptr" 8].

(** src/core/dxt-lossless-transform-bc1/src/transform/standard/untransform/bench/portable32.rs:8-58, fn u32_untransform_unroll_2 *)
Definition bc1_std_u_bench_portable32_u32_untransform_unroll_2 (c : cfg) (input_ptr : ptr) (output_ptr : ptr) (len : Z) (m : mem) : res mem :=
  do _ <- debug_assert (c_debug c) (len mod 8 =? 0) "len . is_multiple_of ( 8 )" ;;
  let colours_ptr := input_ptr in
  do indices_ptr <- ptr_add m input_ptr (len / 2) ;;
  do max_aligned_input <- ptr_add m input_ptr (Z.max 0 (len - 8)) ;;
  do s <- while_lt (c_junk c) 0 bc1_std_u_bench_portable32_u32_untransform_unroll_2_loop1 "indices_ptr" max_aligned_input (St [] [("indices_ptr", indices_ptr); ("colours_ptr", colours_ptr); ("output_ptr", output_ptr)] m) ;;
  let m := mm s in
  do indices_ptr <- getp s "indices_ptr" ;;
  do colours_ptr <- getp s "colours_ptr" ;;
  do output_ptr <- getp s "output_ptr" ;;
  do max_input <- ptr_add m input_ptr (len) ;;
  do s <- while_lt (c_junk c) 0 bc1_std_u_bench_portable32_u32_untransform_unroll_2_loop2 "indices_ptr" max_input (St [] [("indices_ptr", indices_ptr); ("colours_ptr", colours_ptr); ("output_ptr", output_ptr)] m) ;;
  let m := mm s in
  do indices_ptr <- getp s "indices_ptr" ;;
  do colours_ptr <- getp s "colours_ptr" ;;
  do output_ptr <- getp s "output_ptr" ;;
  Ok m.

(** Loop at src/core/dxt-lossless-transform-bc1/src/transform/standard/untransform/bench/portable32.rs:78. *)
Definition bc1_std_u_bench_portable32_u32_untransform_unroll_4_loop1 : list instr :=
  [ILoad "index_value1" "indices_ptr" 0 4;
    ILoad "index_value2" "indices_ptr" 4 4;
    ILoad "index_value3" "indices_ptr" 8 4;
    ILoad "index_value4" "indices_ptr" 12 4;
    IAdd "indices_ptr" 16;
    ILoad "color_value1" "colours_ptr" 0 4;
    ILoad "color_value2" "colours_ptr" 4 4;
    ILoad "color_value3" "colours_ptr" 8 4;
    ILoad "color_value4" "colours_ptr" 12 4;
    IAdd "colours_ptr" 16;
    IStore "output_ptr" 0 4 "color_value1";
    IStore "output_ptr" 4 4 "index_value1";
    IStore "output_ptr" 8 4 "color_value2";
    IStore "output_ptr" 12 4 "index_value2";
    IStore "output_ptr" 16 4 "color_value3";
    IStore "output_ptr" 20 4 "index_value3";
    IStore "output_ptr" 24 4 "color_value4";
    IStore "output_ptr" 28 4 "index_value4";
    IAdd "output_ptr" 32].

(** Loop at src/core/dxt-lossless-transform-bc1/src/transform/standard/untransform/bench/portable32.rs:110. *)
Definition bc1_std_u_bench_portable32_u32_untransform_unroll_4_loop2 : list instr :=
  [ILoad "index_value" "indices_ptr" 0 4;
    IAdd "indices_ptr" 4;
    ILoad "color_value" "colours_ptr" 0 4;
    IAdd "colours_ptr" 4;
    IStore "output_ptr" 0 4 "color_value";
    IStore "output_ptr" 4 4 "index_value";
    IAdd "output_ptr" 8].

(** src/core/dxt-lossless-transform-bc1/src/transform/standard/untransform/bench/portable32.rs:65-125, fn u32_untransform_unroll_4 *)
Definition bc1_std_u_bench_portable32_u32_untransform_unroll_4 (c : cfg) (input_ptr : ptr) (output_ptr : ptr) (len : Z) (m : mem) : res mem :=
  do _ <- debug_assert (c_debug c) (len mod 8 =? 0) "len . is_multiple_of ( 8 )" ;;
  let colours_ptr := input_ptr in
  do indices_ptr <- ptr_add m input_ptr (len / 2) ;;
  do max_aligned_input <- ptr_add m input_ptr (Z.max 0 (len - 24)) ;;
  do s <- while_lt (c_junk c) 0 bc1_std_u_bench_portable32_u32_untransform_unroll_4_loop1 "indices_ptr" max_aligned_input (St [] [("indices_ptr", indices_ptr); ("colours_ptr", colours_ptr); ("output_ptr", output_ptr)] m) ;;
  let m := mm s in
  do indices_ptr <- getp s "indices_ptr" ;;
  do colours_ptr <- getp s "colours_ptr" ;;
  do output_ptr <- getp s "output_ptr" ;;
  do max_input <- ptr_add m input_ptr (len) ;;
  do s <- while_lt (c_junk c) 0 bc1_std_u_bench_portable32_u32_untransform_unroll_4_loop2 "indices_ptr" max_input (St [] [("indices_ptr", indices_ptr); ("colours_ptr", colours_ptr); ("output_ptr", output_ptr)] m) ;;
  let m := mm s in
  do indices_ptr <- getp s "indices_ptr" ;;
  do colours_ptr <- getp s "colours_ptr" ;;
  do output_ptr <- getp s "output_ptr" ;;
  Ok m.

(** Loop at src/core/dxt-lossless-transform-bc1/src/transform/standard/untransform/bench/portable32.rs:145. *)
Definition bc1_std_u_bench_portable32_u32_untransform_unroll_8_loop1 : list instr :=
  [ILoad "index_value1" "indices_ptr" 0 4;
    ILoad "index_value2" "indices_ptr" 4 4;
    ILoad "index_value3" "indices_ptr" 8 4;
    ILoad "index_value4" "indices_ptr" 12 4;
    ILoad "index_value5" "indices_ptr" 16 4;
    ILoad "index_value6" "indices_ptr" 20 4;
    ILoad "index_value7" "indices_ptr" 24 4;
    ILoad "index_value8" "indices_ptr" 28 4;
    IAdd "indices_ptr" 32;
    ILoad "color_value1" "colours_ptr" 0 4;
    ILoad "color_value2" "colours_ptr" 4 4;
    ILoad "color_value3" "colours_ptr" 8 4;
    ILoad "color_value4" "colours_ptr" 12 4;
    ILoad "color_value5" "colours_ptr" 16 4;
    ILoad "color_value6" "colours_ptr" 20 4;
    ILoad "color_value7" "colours_ptr" 24 4;
    ILoad "color_value8" "colours_ptr" 28 4;
    IAdd "colours_ptr" 32;
    IStore "output_ptr" 0 4 "color_value1";
    IStore "output_ptr" 4 4 "index_value1";
    IStore "output_ptr" 8 4 "color_value2";
    IStore "output_ptr" 12 4 "index_value2";
    IStore "output_ptr" 16 4 "color_value3";
    IStore "output_ptr" 20 4 "index_value3";
    IStore "output_ptr" 24 4 "color_value4";
    IStore "output_ptr" 28 4 "index_value4";
    IStore "output_ptr" 32 4 "color_value5";
    IStore "output_ptr" 36 4 "index_value5";
    IStore "output_ptr" 40 4 "color_value6";
    IStore "output_ptr" 44 4 "index_value6";
    IStore "output_ptr" 48 4 "color_value7";
    IStore "output_ptr" 52 4 "index_value7";
    IStore "output_ptr" 56 4 "color_value8";
    IStore "output_ptr" 60 4 "index_value8";
    IAdd "output_ptr" 64].

(** Loop at src/core/dxt-lossless-transform-bc1/src/transform/standard/untransform/bench/portable32.rs:197. *)
Definition bc1_std_u_bench_portable32_u32_untransform_unroll_8_loop2 : list instr :=
  [ILoad "index_value" "indices_ptr" 0 4;
    IAdd "indices_ptr" 4;
    ILoad "color_value" "colours_ptr" 0 4;
    IAdd "colours_ptr" 4;
    IStore "output_ptr" 0 4 "color_value";
    IStore "output_ptr" 4 4 "index_value";
    IAdd "output_ptr" 8].

(** src/core/dxt-lossless-transform-bc1/src/transform/standard/untransform/bench/portable32.rs:132-212, fn u32_untransform_unroll_8 *)
Definition bc1_std_u_bench_portable32_u32_untransform_unroll_8 (c : cfg) (input_ptr : ptr) (output_ptr : ptr) (len : Z) (m : mem) : res mem :=
  do _ <- debug_assert (c_debug c) (len mod 8 =? 0) "len . is_multiple_of ( 8 )" ;;
  let colours_ptr := input_ptr in
  do indices_ptr <- ptr_add m input_ptr (len / 2) ;;
  do max_aligned_input <- ptr_add m input_ptr (Z.max 0 (len - 56)) ;;
  do s <- while_lt (c_junk c) 0 bc1_std_u_bench_portable32_u32_untransform_unroll_8_loop1 "indices_ptr" max_aligned_input (St [] [("indices_ptr", indices_ptr); ("colours_ptr", colours_ptr); ("output_ptr", output_ptr)] m) ;;
  let m := mm s in
  do indices_ptr <- getp s "indices_ptr" ;;
  do colours_ptr <- getp s "colours_ptr" ;;
  do output_ptr <- getp s "output_ptr" ;;
  do max_input <- ptr_add m input_ptr (len) ;;
  do s <- while_lt (c_junk c) 0 bc1_std_u_bench_portable32_u32_untransform_unroll_8_loop2 "indices_ptr" max_input (St [] [("indices_ptr", indices_ptr); ("colours_ptr", colours_ptr); ("output_ptr", output_ptr)] m) ;;
  let m := mm s in
  do indices_ptr <- getp s "indices_ptr" ;;
  do colours_ptr <- getp s "colours_ptr" ;;
  do output_ptr <- getp s "output_ptr" ;;
  Ok m.

(** Loop at src/core/dxt-lossless-transform-bc1/src/transform/standard/untransform/bench/sse2.rs:23. *)
Definition bc1_std_u_bench_sse2_unpck_untransform_loop1 : list instr :=
  [ILoad "xmm0" "colors_ptr" 0 16;
    IAddAsm "colors_ptr" 16;
    ILoad "xmm1" "indices_ptr" 0 16;
    IAddAsm "indices_ptr" 16;
    IOp "xmm2" (OMov) ["xmm0"];
    IOp "xmm0" (OUnpackLo 4 1) ["xmm0"; "xmm1"];
    IOp "xmm2" (OUnpackHi 4 1) ["xmm2"; "xmm1"];
    IStore "dst_ptr" 0 16 "xmm0";
    IStore "dst_ptr" 16 16 "xmm2";
    IAddAsm "dst_ptr" 32].

(** src/core/dxt-lossless-transform-bc1/src/transform/standard/untransform/bench/sse2.rs:10-68, fn unpck_untransform *)
Definition bc1_std_u_bench_sse2_unpck_untransform (c : cfg) (input_ptr : ptr) (output_ptr : ptr) (len : Z) (m : mem) : res mem :=
  do _ <- cpu_has (c_sse2 c) "sse2" ;;
  do _ <- debug_assert (c_debug c) (len mod 8 =? 0) "len . is_multiple_of ( 8 )" ;;
  do aligned_len <- usub len (len mod 32) ;;
  do indices_ptr <- ptr_add m input_ptr (len / 2) ;;
  do colors_aligned_end <- ptr_add m input_ptr (aligned_len / 2) ;;
  do (indices_ptr, input_ptr, output_ptr, m) <- (
    if (0 <? aligned_len) then
      do s <- asm_jb (c_junk c) 0 bc1_std_u_bench_sse2_unpck_untransform_loop1 "colors_ptr" colors_aligned_end (St [] [("colors_ptr", input_ptr); ("indices_ptr", indices_ptr); ("dst_ptr", output_ptr)] m) ;;
      let m := mm s in
      do input_ptr <- getp s "colors_ptr" ;;
      do indices_ptr <- getp s "indices_ptr" ;;
      do output_ptr <- getp s "dst_ptr" ;;
      Ok (indices_ptr, input_ptr, output_ptr, m)
    else
      Ok (indices_ptr, input_ptr, output_ptr, m)
  ) ;;
  do remaining <- usub len aligned_len ;;
  if (0 <? remaining) then
    do m <- bc1_std_u_portable32_u32_untransform_with_separate_pointers c input_ptr indices_ptr output_ptr remaining m ;;
    Ok m
  else
    Ok m.

(** Loop at src/core/dxt-lossless-transform-bc1/src/transform/standard/untransform/bench/sse2.rs:90. *)
Definition bc1_std_u_bench_sse2_unpck_untransform_unroll_4_loop1 : list instr :=
  [ILoad "xmm0" "colors_ptr" 0 16;
    ILoad "xmm3" "colors_ptr" 16 16;
    ILoad "xmm6" "colors_ptr" 32 16;
    ILoad "xmm9" "colors_ptr" 48 16;
    IAddAsm "colors_ptr" 64;
    ILoad "xmm1" "indices_ptr" 0 16;
    ILoad "xmm4" "indices_ptr" 16 16;
    ILoad "xmm7" "indices_ptr" 32 16;
    ILoad "xmm10" "indices_ptr" 48 16;
    IAddAsm "indices_ptr" 64;
    IOp "xmm2" (OMov) ["xmm0"];
    IOp "xmm5" (OMov) ["xmm3"];
    IOp "xmm8" (OMov) ["xmm6"];
    IOp "xmm11" (OMov) ["xmm9"];
    IOp "xmm0" (OUnpackLo 4 1) ["xmm0"; "xmm1"];
    IOp "xmm2" (OUnpackHi 4 1) ["xmm2"; "xmm1"];
    IOp "xmm3" (OUnpackLo 4 1) ["xmm3"; "xmm4"];
    IOp "xmm5" (OUnpackHi 4 1) ["xmm5"; "xmm4"];
    IOp "xmm6" (OUnpackLo 4 1) ["xmm6"; "xmm7"];
    IOp "xmm8" (OUnpackHi 4 1) ["xmm8"; "xmm7"];
    IOp "xmm9" (OUnpackLo 4 1) ["xmm9"; "xmm10"];
    IOp "xmm11" (OUnpackHi 4 1) ["xmm11"; "xmm10"];
    IStore "dst_ptr" 0 16 "xmm0";
    IStore "dst_ptr" 16 16 "xmm2";
    IStore "dst_ptr" 32 16 "xmm3";
    IStore "dst_ptr" 48 16 "xmm5";
    IStore "dst_ptr" 64 16 "xmm6";
    IStore "dst_ptr" 80 16 "xmm8";
    IStore "dst_ptr" 96 16 "xmm9";
    IStore "dst_ptr" 112 16 "xmm11";
    IAddAsm "dst_ptr" 128].

(** src/core/dxt-lossless-transform-bc1/src/transform/standard/untransform/bench/sse2.rs:77-169, fn unpck_untransform_unroll_4 *)
Definition bc1_std_u_bench_sse2_unpck_untransform_unroll_4 (c : cfg) (input_ptr : ptr) (output_ptr : ptr) (len : Z) (m : mem) : res mem :=
  do _ <- cpu_has (c_sse2 c) "sse2" ;;
  do _ <- debug_assert (c_debug c) (len mod 8 =? 0) "len . is_multiple_of ( 8 )" ;;
  do aligned_len <- usub len (len mod 128) ;;
  do indices_ptr <- ptr_add m input_ptr (len / 2) ;;
  do colors_aligned_end <- ptr_add m input_ptr (aligned_len / 2) ;;
  do (indices_ptr, input_ptr, output_ptr, m) <- (
    if (0 <? aligned_len) then
      do s <- asm_jb (c_junk c) 0 bc1_std_u_bench_sse2_unpck_untransform_unroll_4_loop1 "colors_ptr" colors_aligned_end (St [] [("colors_ptr", input_ptr); ("indices_ptr", indices_ptr); ("dst_ptr", output_ptr)] m) ;;
      let m := mm s in
      do input_ptr <- getp s "colors_ptr" ;;
      do indices_ptr <- getp s "indices_ptr" ;;
      do output_ptr <- getp s "dst_ptr" ;;
      Ok (indices_ptr, input_ptr, output_ptr, m)
    else
      Ok (indices_ptr, input_ptr, output_ptr, m)
  ) ;;
  do remaining <- usub len aligned_len ;;
  if (0 <? remaining) then
    do m <- bc1_std_u_portable32_u32_untransform_with_separate_pointers c input_ptr indices_ptr output_ptr remaining m ;;
    Ok m
  else
    Ok m.

(** src/core/dxt-lossless-transform-bc1/src/bench/mod.rs:18-22, fn shufps_unroll_4 *)
Definition bc1_bench_std_shufps_unroll_4 (c : cfg) (input_ptr : ptr) (output_ptr : ptr) (len : Z) (m : mem) : res mem :=
  do m <- bc1_std_t_bench_shufps_unroll_4 c input_ptr output_ptr len m ;;
  Ok m.

(** src/core/dxt-lossless-transform-bc1/src/bench/mod.rs:25-33, fn shuffle_permute_unroll_2 *)
Definition bc1_bench_std_shuffle_permute_unroll_2 (c : cfg) (input_ptr : ptr) (output_ptr : ptr) (len : Z) (m : mem) : res mem :=
  do m <- bc1_std_t_bench_shuffle_permute_unroll_2 c input_ptr output_ptr len m ;;
  Ok m.

(** src/core/dxt-lossless-transform-bc1/src/bench/mod.rs:35-37, fn u32 *)
Definition bc1_bench_std_u32 (c : cfg) (input_ptr : ptr) (output_ptr : ptr) (len : Z) (m : mem) : res mem :=
  do m <- bc1_std_t_bench_u32 c input_ptr output_ptr len m ;;
  Ok m.

(** src/core/dxt-lossless-transform-bc1/src/bench/mod.rs:40-42, fn permute_512 *)
Definition bc1_bench_std_permute_512 (c : cfg) (input_ptr : ptr) (output_ptr : ptr) (len : Z) (m : mem) : res mem :=
  do m <- bc1_std_t_bench_permute_512 c input_ptr output_ptr len m ;;
  Ok m.

(** src/core/dxt-lossless-transform-bc1/src/bench/mod.rs:46-50, fn punpckhqdq_unroll_2 *)
Definition bc1_bench_std_punpckhqdq_unroll_2 (c : cfg) (input_ptr : ptr) (output_ptr : ptr) (len : Z) (m : mem) : res mem :=
  do m <- bc1_std_t_bench_sse2_punpckhqdq_unroll_2 c input_ptr output_ptr len m ;;
  Ok m.

(** src/core/dxt-lossless-transform-bc1/src/bench/mod.rs:53-57, fn punpckhqdq_unroll_4 *)
Definition bc1_bench_std_punpckhqdq_unroll_4 (c : cfg) (input_ptr : ptr) (output_ptr : ptr) (len : Z) (m : mem) : res mem :=
  do m <- bc1_std_t_bench_sse2_punpckhqdq_unroll_4 c input_ptr output_ptr len m ;;
  Ok m.

(** src/core/dxt-lossless-transform-bc1/src/bench/mod.rs:60-64, fn shufps_unroll_2 *)
Definition bc1_bench_std_shufps_unroll_2 (c : cfg) (input_ptr : ptr) (output_ptr : ptr) (len : Z) (m : mem) : res mem :=
  do m <- bc1_std_t_bench_sse2_shufps_unroll_2 c input_ptr output_ptr len m ;;
  Ok m.

(** src/core/dxt-lossless-transform-bc1/src/bench/mod.rs:68-70, fn gather *)
Definition bc1_bench_std_gather (c : cfg) (input_ptr : ptr) (output_ptr : ptr) (len : Z) (m : mem) : res mem :=
  do m <- bc1_std_t_bench_avx2_gather c input_ptr output_ptr len m ;;
  Ok m.

(** src/core/dxt-lossless-transform-bc1/src/bench/mod.rs:73-75, fn permute *)
Definition bc1_bench_std_permute (c : cfg) (input_ptr : ptr) (output_ptr : ptr) (len : Z) (m : mem) : res mem :=
  do m <- bc1_std_t_bench_avx2_permute c input_ptr output_ptr len m ;;
  Ok m.

(** src/core/dxt-lossless-transform-bc1/src/bench/mod.rs:78-82, fn permute_unroll_2 *)
Definition bc1_bench_std_permute_unroll_2 (c : cfg) (input_ptr : ptr) (output_ptr : ptr) (len : Z) (m : mem) : res mem :=
  do m <- bc1_std_t_bench_avx2_permute_unroll_2 c input_ptr output_ptr len m ;;
  Ok m.

(** src/core/dxt-lossless-transform-bc1/src/bench/mod.rs:85-89, fn shuffle_permute *)
Definition bc1_bench_std_shuffle_permute (c : cfg) (input_ptr : ptr) (output_ptr : ptr) (len : Z) (m : mem) : res mem :=
  do m <- bc1_std_t_bench_avx2_shuffle_permute c input_ptr output_ptr len m ;;
  Ok m.

(** src/core/dxt-lossless-transform-bc1/src/bench/mod.rs:93-97, fn permute_512_unroll_2 *)
Definition bc1_bench_std_permute_512_unroll_2 (c : cfg) (input_ptr : ptr) (output_ptr : ptr) (len : Z) (m : mem) : res mem :=
  do m <- bc1_std_t_bench_avx512f_permute_512_unroll_2 c input_ptr output_ptr len m ;;
  Ok m.

(** src/core/dxt-lossless-transform-bc1/src/bench/mod.rs:100-109, fn permute_512_unroll_2_with_separate_pointers *)
Definition bc1_bench_std_permute_512_unroll_2_with_separate_pointers (c : cfg) (input_ptr : ptr) (colors_ptr : ptr) (indices_ptr : ptr) (len : Z) (m : mem) : res mem :=
  do m <- bc1_std_t_bench_avx512f_permute_512_unroll_2_with_separate_pointers c input_ptr colors_ptr indices_ptr len m ;;
  Ok m.

(** src/core/dxt-lossless-transform-bc1/src/bench/mod.rs:112-116, fn u32_unroll_2 *)
Definition bc1_bench_std_u32_unroll_2 (c : cfg) (input_ptr : ptr) (output_ptr : ptr) (len : Z) (m : mem) : res mem :=
  do m <- bc1_std_t_bench_portable32_u32_unroll_2 c input_ptr output_ptr len m ;;
  Ok m.

(** src/core/dxt-lossless-transform-bc1/src/bench/mod.rs:118-122, fn u32_unroll_4 *)
Definition bc1_bench_std_u32_unroll_4 (c : cfg) (input_ptr : ptr) (output_ptr : ptr) (len : Z) (m : mem) : res mem :=
  do m <- bc1_std_t_bench_portable32_u32_unroll_4 c input_ptr output_ptr len m ;;
  Ok m.

(** src/core/dxt-lossless-transform-bc1/src/bench/mod.rs:124-128, fn u32_unroll_8 *)
Definition bc1_bench_std_u32_unroll_8 (c : cfg) (input_ptr : ptr) (output_ptr : ptr) (len : Z) (m : mem) : res mem :=
  do m <- bc1_std_t_bench_portable32_u32_unroll_8 c input_ptr output_ptr len m ;;
  Ok m.

(** src/core/dxt-lossless-transform-bc1/src/bench/mod.rs:131-135, fn portable *)
Definition bc1_bench_std_portable (c : cfg) (input_ptr : ptr) (output_ptr : ptr) (len : Z) (m : mem) : res mem :=
  do m <- bc1_std_t_bench_portable64_portable c input_ptr output_ptr len m ;;
  Ok m.

(** src/core/dxt-lossless-transform-bc1/src/bench/mod.rs:137-141, fn shift *)
Definition bc1_bench_std_shift (c : cfg) (input_ptr : ptr) (output_ptr : ptr) (len : Z) (m : mem) : res mem :=
  do m <- bc1_std_t_bench_portable64_shift c input_ptr output_ptr len m ;;
  Ok m.

(** src/core/dxt-lossless-transform-bc1/src/bench/mod.rs:143-147, fn shift_unroll_2 *)
Definition bc1_bench_std_shift_unroll_2 (c : cfg) (input_ptr : ptr) (output_ptr : ptr) (len : Z) (m : mem) : res mem :=
  do m <- bc1_std_t_bench_portable64_shift_unroll_2 c input_ptr output_ptr len m ;;
  Ok m.

(** src/core/dxt-lossless-transform-bc1/src/bench/mod.rs:149-153, fn shift_unroll_4 *)
Definition bc1_bench_std_shift_unroll_4 (c : cfg) (input_ptr : ptr) (output_ptr : ptr) (len : Z) (m : mem) : res mem :=
  do m <- bc1_std_t_bench_portable64_shift_unroll_4 c input_ptr output_ptr len m ;;
  Ok m.

(** src/core/dxt-lossless-transform-bc1/src/bench/mod.rs:155-159, fn shift_unroll_8 *)
Definition bc1_bench_std_shift_unroll_8 (c : cfg) (input_ptr : ptr) (output_ptr : ptr) (len : Z) (m : mem) : res mem :=
  do m <- bc1_std_t_bench_portable64_shift_unroll_8 c input_ptr output_ptr len m ;;
  Ok m.

(** src/core/dxt-lossless-transform-bc1/src/bench/mod.rs:161-165, fn shift_with_count *)
Definition bc1_bench_std_shift_with_count (c : cfg) (input_ptr : ptr) (output_ptr : ptr) (len : Z) (m : mem) : res mem :=
  do m <- bc1_std_t_bench_portable64_shift_with_count c input_ptr output_ptr len m ;;
  Ok m.

(** src/core/dxt-lossless-transform-bc1/src/bench/mod.rs:167-175, fn shift_with_count_unroll_2 *)
Definition bc1_bench_std_shift_with_count_unroll_2 (c : cfg) (input_ptr : ptr) (output_ptr : ptr) (len : Z) (m : mem) : res mem :=
  do m <- bc1_std_t_bench_portable64_shift_with_count_unroll_2 c input_ptr output_ptr len m ;;
  Ok m.

(** src/core/dxt-lossless-transform-bc1/src/bench/mod.rs:177-185, fn shift_with_count_unroll_4 *)
Definition bc1_bench_std_shift_with_count_unroll_4 (c : cfg) (input_ptr : ptr) (output_ptr : ptr) (len : Z) (m : mem) : res mem :=
  do m <- bc1_std_t_bench_portable64_shift_with_count_unroll_4 c input_ptr output_ptr len m ;;
  Ok m.

(** src/core/dxt-lossless-transform-bc1/src/bench/mod.rs:187-195, fn shift_with_count_unroll_8 *)
Definition bc1_bench_std_shift_with_count_unroll_8 (c : cfg) (input_ptr : ptr) (output_ptr : ptr) (len : Z) (m : mem) : res mem :=
  do m <- bc1_std_t_bench_portable64_shift_with_count_unroll_8 c input_ptr output_ptr len m ;;
  Ok m.

(** src/core/dxt-lossless-transform-bc1/src/bench/mod.rs:207-211, fn u32_untransform *)
Definition bc1_bench_u_std_u32_untransform (c : cfg) (input_ptr : ptr) (output_ptr : ptr) (len : Z) (m : mem) : res mem :=
  do m <- bc1_std_u_bench_u32_untransform c input_ptr output_ptr len m ;;
  Ok m.

(** src/core/dxt-lossless-transform-bc1/src/bench/mod.rs:214-222, fn unpck_untransform_unroll_2 *)
Definition bc1_bench_u_std_unpck_untransform_unroll_2 (c : cfg) (input_ptr : ptr) (output_ptr : ptr) (len : Z) (m : mem) : res mem :=
  do m <- bc1_std_u_bench_unpck_untransform_unroll_2 c input_ptr output_ptr len m ;;
  Ok m.

(** src/core/dxt-lossless-transform-bc1/src/bench/mod.rs:225-233, fn permd_untransform_unroll_2 *)
Definition bc1_bench_u_std_permd_untransform_unroll_2 (c : cfg) (input_ptr : ptr) (output_ptr : ptr) (len : Z) (m : mem) : res mem :=
  do m <- bc1_std_u_bench_permd_untransform_unroll_2 c input_ptr output_ptr len m ;;
  Ok m.

(** src/core/dxt-lossless-transform-bc1/src/bench/mod.rs:236-244, fn permute_512_untransform_unroll_2 *)
Definition bc1_bench_u_std_permute_512_untransform_unroll_2 (c : cfg) (input_ptr : ptr) (output_ptr : ptr) (len : Z) (m : mem) : res mem :=
  do m <- bc1_std_u_bench_permute_512_untransform_unroll_2 c input_ptr output_ptr len m ;;
  Ok m.

(** src/core/dxt-lossless-transform-bc1/src/bench/mod.rs:248-252, fn unpck_untransform *)
Definition bc1_bench_u_std_unpck_untransform (c : cfg) (input_ptr : ptr) (output_ptr : ptr) (len : Z) (m : mem) : res mem :=
  do m <- bc1_std_u_bench_sse2_unpck_untransform c input_ptr output_ptr len m ;;
  Ok m.

(** src/core/dxt-lossless-transform-bc1/src/bench/mod.rs:255-263, fn unpck_untransform_unroll_4 *)
Definition bc1_bench_u_std_unpck_untransform_unroll_4 (c : cfg) (input_ptr : ptr) (output_ptr : ptr) (len : Z) (m : mem) : res mem :=
  do m <- bc1_std_u_bench_sse2_unpck_untransform_unroll_4 c input_ptr output_ptr len m ;;
  Ok m.

(** src/core/dxt-lossless-transform-bc1/src/bench/mod.rs:267-271, fn permd_untransform *)
Definition bc1_bench_u_std_permd_untransform (c : cfg) (input_ptr : ptr) (output_ptr : ptr) (len : Z) (m : mem) : res mem :=
  do m <- bc1_std_u_bench_avx2_permd_untransform c input_ptr output_ptr len m ;;
  Ok m.

(** src/core/dxt-lossless-transform-bc1/src/bench/mod.rs:274-282, fn avx2_unpck_untransform *)
Definition bc1_bench_u_std_avx2_unpck_untransform (c : cfg) (input_ptr : ptr) (output_ptr : ptr) (len : Z) (m : mem) : res mem :=
  do m <- bc1_std_u_bench_avx2_unpck_untransform c input_ptr output_ptr len m ;;
  Ok m.

(** src/core/dxt-lossless-transform-bc1/src/bench/mod.rs:285-293, fn avx2_unpck_untransform_unroll_2 *)
Definition bc1_bench_u_std_avx2_unpck_untransform_unroll_2 (c : cfg) (input_ptr : ptr) (output_ptr : ptr) (len : Z) (m : mem) : res mem :=
  do m <- bc1_std_u_bench_avx2_unpck_untransform_unroll_2 c input_ptr output_ptr len m ;;
  Ok m.

(** src/core/dxt-lossless-transform-bc1/src/bench/mod.rs:297-303, fn permute_512_untransform_unroll_2_intrinsics *)
Definition bc1_bench_u_std_permute_512_untransform_unroll_2_intrinsics (c : cfg) (input_ptr : ptr) (output_ptr : ptr) (len : Z) (m : mem) : res mem :=
  do m <- bc1_std_u_bench_avx512f_permute_512_untransform_unroll_2_intrinsics c input_ptr output_ptr len m ;;
  Ok m.

(** src/core/dxt-lossless-transform-bc1/src/bench/mod.rs:306-315, fn permute_512_untransform_unroll_2_with_components_intrinsics *)
Definition bc1_bench_u_std_permute_512_untransform_unroll_2_with_components_intrinsics (c : cfg) (output_ptr : ptr) (len : Z) (indices_ptr : ptr) (colors_ptr : ptr) (m : mem) : res mem :=
  do m <- bc1_std_u_bench_avx512f_permute_512_untransform_unroll_2_with_components_intrinsics c output_ptr len indices_ptr colors_ptr m ;;
  Ok m.

(** src/core/dxt-lossless-transform-bc1/src/bench/mod.rs:318-326, fn u32_untransform_unroll_2 *)
Definition bc1_bench_u_std_u32_untransform_unroll_2 (c : cfg) (input_ptr : ptr) (output_ptr : ptr) (len : Z) (m : mem) : res mem :=
  do m <- bc1_std_u_bench_portable32_u32_untransform_unroll_2 c input_ptr output_ptr len m ;;
  Ok m.

(** src/core/dxt-lossless-transform-bc1/src/bench/mod.rs:328-336, fn u32_untransform_unroll_4 *)
Definition bc1_bench_u_std_u32_untransform_unroll_4 (c : cfg) (input_ptr : ptr) (output_ptr : ptr) (len : Z) (m : mem) : res mem :=
  do m <- bc1_std_u_bench_portable32_u32_untransform_unroll_4 c input_ptr output_ptr len m ;;
  Ok m.

(** src/core/dxt-lossless-transform-bc1/src/bench/mod.rs:338-346, fn u32_untransform_unroll_8 *)
Definition bc1_bench_u_std_u32_untransform_unroll_8 (c : cfg) (input_ptr : ptr) (output_ptr : ptr) (len : Z) (m : mem) : res mem :=
  do m <- bc1_std_u_bench_portable32_u32_untransform_unroll_8 c input_ptr output_ptr len m ;;
  Ok m.

