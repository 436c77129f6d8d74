(** Generated by tools/rs2v.py from the kernel sources cited below; do not edit.
    Simplifications: usize arithmetic is exact (lengths are below isize::MAX), see
    Model/Kernel.v for the machine. *)
From Verif Require Import Base.Bytes Base.Res Model.Color565 Model.Ycc Model.Kernel.
Open Scope string_scope.
Open Scope list_scope.
Open Scope Z_scope.

(** Loop at src/core/dxt-lossless-transform-bc2/src/transform/standard/transform/portable32.rs:40. *)
Definition bc2_std_t_portable32_u32_with_separate_pointers_loop1 : list instr :=
  [ILoad "alpha_value" "input_ptr" 0 8;
    ILoad "color_value" "input_ptr" 8 4;
    ILoad "index_value" "input_ptr" 12 4;
    IAdd "input_ptr" 16;
    IStore "alphas_ptr" 0 8 "alpha_value";
    IStore "colours_ptr" 0 4 "color_value";
    IStore "indices_ptr" 0 4 "index_value";
    IAdd "alphas_ptr" 8;
    IAdd "colours_ptr" 4;
    IAdd "indices_ptr" 4].

(** src/core/dxt-lossless-transform-bc2/src/transform/standard/transform/portable32.rs:28-56, fn u32_with_separate_pointers *)
Definition bc2_std_t_portable32_u32_with_separate_pointers (c : cfg) (input_ptr : ptr) (alphas_ptr : ptr) (colours_ptr : ptr) (indices_ptr : ptr) (len : Z) (m : mem) : res mem :=
  do _ <- debug_assert (c_debug c) (len mod 16 =? 0) "len . is_multiple_of ( 16 )" ;;
  do max_ptr <- ptr_add m input_ptr (len) ;;
  do s <- while_lt (c_junk c) 0 bc2_std_t_portable32_u32_with_separate_pointers_loop1 "input_ptr" max_ptr (St [] [("input_ptr", input_ptr); ("alphas_ptr", alphas_ptr); ("colours_ptr", colours_ptr); ("indices_ptr", indices_ptr)] m) ;;
  let m := mm s in
  do input_ptr <- getp s "input_ptr" ;;
  do alphas_ptr <- getp s "alphas_ptr" ;;
  do colours_ptr <- getp s "colours_ptr" ;;
  do indices_ptr <- getp s "indices_ptr" ;;
  Ok m.

(** Constants of the loop at src/core/dxt-lossless-transform-bc2/src/transform/standard/transform/avx512.rs:147 *)
Definition bc2_std_t_avx512_permute_512_v2_with_separate_pointers_loop1_perm_alpha : list byte := [x00; x00; x00; x00; x00; x00; x00; x00; x02; x00; x00; x00; x00; x00; x00; x00; x04; x00; x00; x00; x00; x00; x00; x00; x06; x00; x00; x00; x00; x00; x00; x00; x08; x00; x00; x00; x00; x00; x00; x00; x0a; x00; x00; x00; x00; x00; x00; x00; x0c; x00; x00; x00; x00; x00; x00; x00; x0e; x00; x00; x00; x00; x00; x00; x00].
Definition bc2_std_t_avx512_permute_512_v2_with_separate_pointers_loop1_perm_colors : list byte := [x00; x00; x00; x00; x04; x00; x00; x00; x08; x00; x00; x00; x0c; x00; x00; x00; x02; x00; x00; x00; x06; x00; x00; x00; x0a; x00; x00; x00; x0e; x00; x00; x00; x10; x00; x00; x00; x14; x00; x00; x00; x18; x00; x00; x00; x1c; x00; x00; x00; x12; x00; x00; x00; x16; x00; x00; x00; x1a; x00; x00; x00; x1e; x00; x00; x00].
Definition bc2_std_t_avx512_permute_512_v2_with_separate_pointers_loop1_perm_indices : list byte := [x01; x00; x00; x00; x05; x00; x00; x00; x09; x00; x00; x00; x0d; x00; x00; x00; x03; x00; x00; x00; x07; x00; x00; x00; x0b; x00; x00; x00; x0f; x00; x00; x00; x11; x00; x00; x00; x15; x00; x00; x00; x19; x00; x00; x00; x1d; x00; x00; x00; x13; x00; x00; x00; x17; x00; x00; x00; x1b; x00; x00; x00; x1f; x00; x00; x00].

(** Loop at src/core/dxt-lossless-transform-bc2/src/transform/standard/transform/avx512.rs:147. *)
Definition bc2_std_t_avx512_permute_512_v2_with_separate_pointers_loop1 : list instr :=
  [ILoad "zmm3" "input_ptr" 0 64;
    ILoad "zmm4" "input_ptr" 64 64;
    ILoad "zmm5" "input_ptr" 128 64;
    ILoad "zmm6" "input_ptr" 192 64;
    IAddAsm "input_ptr" 256;
    IOp "zmm7" (OUnpackHi 8 4) ["zmm3"; "zmm4"];
    IOp "zmm3" (OPermT2 8 8) ["zmm3"; "perm_alpha"; "zmm4"];
    IOp "zmm4" (OUnpackHi 8 4) ["zmm5"; "zmm6"];
    IOp "zmm5" (OPermT2 8 8) ["zmm5"; "perm_alpha"; "zmm6"];
    IOp "zmm6" (OMov) ["zmm7"];
    IOp "zmm6" (OPermT2 4 16) ["zmm6"; "perm_colors"; "zmm4"];
    IOp "zmm7" (OPermT2 4 16) ["zmm7"; "perm_indices"; "zmm4"];
    IStore "alphas_ptr" 0 64 "zmm3";
    IStore "alphas_ptr" 64 64 "zmm5";
    IAddAsm "alphas_ptr" 128;
    IStore "colors_ptr" 0 64 "zmm6";
    IStore "indices_ptr" 0 64 "zmm7";
    IAddAsm "colors_ptr" 64;
    IAddAsm "indices_ptr" 64].

(** src/core/dxt-lossless-transform-bc2/src/transform/standard/transform/avx512.rs:115-206, fn permute_512_v2_with_separate_pointers *)
Definition bc2_std_t_avx512_permute_512_v2_with_separate_pointers (c : cfg) (input_ptr : ptr) (alphas_ptr : ptr) (colors_ptr : ptr) (indices_ptr : ptr) (len : Z) (m : mem) : res mem :=
  do _ <- cpu_has (c_sse2 c && c_avx512f c) "sse2 avx512f" ;;
  do _ <- debug_assert (c_debug c) (len mod 16 =? 0) "len . is_multiple_of ( 16 )" ;;
  do aligned_len <- usub len (len mod 256) ;;
  do (alphas_ptr, colors_ptr, indices_ptr, input_ptr, m) <- (
    if (0 <? aligned_len) then
      do aligned_end <- ptr_add m input_ptr (aligned_len) ;;
      do s <- asm_jb (c_junk c) 0 bc2_std_t_avx512_permute_512_v2_with_separate_pointers_loop1 "input_ptr" aligned_end (St [("perm_alpha", bc2_std_t_avx512_permute_512_v2_with_separate_pointers_loop1_perm_alpha); ("perm_colors", bc2_std_t_avx512_permute_512_v2_with_separate_pointers_loop1_perm_colors); ("perm_indices", bc2_std_t_avx512_permute_512_v2_with_separate_pointers_loop1_perm_indices)] [("input_ptr", input_ptr); ("alphas_ptr", alphas_ptr); ("colors_ptr", colors_ptr); ("indices_ptr", indices_ptr)] m) ;;
      let m := mm s in
      do input_ptr <- getp s "input_ptr" ;;
      do alphas_ptr <- getp s "alphas_ptr" ;;
      do colors_ptr <- getp s "colors_ptr" ;;
      do indices_ptr <- getp s "indices_ptr" ;;
      Ok (alphas_ptr, colors_ptr, indices_ptr, input_ptr, m)
    else
      Ok (alphas_ptr, colors_ptr, indices_ptr, input_ptr, m)
  ) ;;
  do remaining <- usub len aligned_len ;;
  if (0 <? remaining) then
    do m <- bc2_std_t_portable32_u32_with_separate_pointers c input_ptr alphas_ptr colors_ptr indices_ptr remaining m ;;
    Ok m
  else
    Ok m.

(** src/core/dxt-lossless-transform-bc2/src/transform/standard/transform/avx512.rs:214-228, fn permute_512_v2 *)
Definition bc2_std_t_avx512_permute_512_v2 (c : cfg) (input_ptr : ptr) (output_ptr : ptr) (len : Z) (m : mem) : res mem :=
  do _ <- cpu_has (c_avx512f c) "avx512f" ;;
  do _ <- debug_assert (c_debug c) (len mod 16 =? 0) "len . is_multiple_of ( 16 )" ;;
  let alphas_ptr := output_ptr in
  do colors_ptr <- ptr_add m output_ptr (len / 2) ;;
  do indices_ptr <- ptr_add m colors_ptr (len / 4) ;;
  do m <- bc2_std_t_avx512_permute_512_v2_with_separate_pointers c input_ptr alphas_ptr colors_ptr indices_ptr len m ;;
  Ok m.

(** Constants of the loop at src/core/dxt-lossless-transform-bc2/src/transform/standard/transform/avx2.rs:39 *)
Definition bc2_std_t_avx2_shuffle_with_separate_pointers_loop1_permute_mask : list byte := [x00; x00; x00; x00; x04; x00; x00; x00; x01; x00; x00; x00; x05; x00; x00; x00; x02; x00; x00; x00; x06; x00; x00; x00; x03; x00; x00; x00; x07; x00; x00; x00].

(** Loop at src/core/dxt-lossless-transform-bc2/src/transform/standard/transform/avx2.rs:39. *)
Definition bc2_std_t_avx2_shuffle_with_separate_pointers_loop1 : list instr :=
  [ILoad "ymm0" "input_ptr" 0 32;
    ILoad "ymm1" "input_ptr" 32 32;
    ILoad "ymm3" "input_ptr" 64 32;
    ILoad "ymm4" "input_ptr" 96 32;
    IAddAsm "input_ptr" 128;
    IOp "ymm2" (OMov) ["ymm0"];
    IOp "ymm5" (OMov) ["ymm3"];
    IOp "ymm0" (OUnpackLo 8 2) ["ymm1"; "ymm0"];
    IOp "ymm3" (OUnpackLo 8 2) ["ymm4"; "ymm3"];
    IOp "ymm0" (OPermq 141) ["ymm0"];
    IOp "ymm3" (OPermq 141) ["ymm3"];
    IOp "ymm2" (OShufps 2 238) ["ymm2"; "ymm1"];
    IOp "ymm5" (OShufps 2 238) ["ymm5"; "ymm4"];
    IOp "ymm1" (OMov) ["ymm2"];
    IOp "ymm2" (OShufps 2 136) ["ymm2"; "ymm5"];
    IOp "ymm1" (OShufps 2 221) ["ymm1"; "ymm5"];
    IOp "ymm2" (OPermVar 4 8) ["permute_mask"; "ymm2"];
    IOp "ymm1" (OPermVar 4 8) ["permute_mask"; "ymm1"];
    IStore "alpha_ptr" 0 32 "ymm0";
    IStore "alpha_ptr" 32 32 "ymm3";
    IAddAsm "alpha_ptr" 64;
    IStore "colors_ptr" 0 32 "ymm2";
    IAddAsm "colors_ptr" 32;
    IStore "indices_ptr" 0 32 "ymm1";
    IAddAsm "indices_ptr" 32].

(** src/core/dxt-lossless-transform-bc2/src/transform/standard/transform/avx2.rs:22-162, fn shuffle_with_separate_pointers *)
Definition bc2_std_t_avx2_shuffle_with_separate_pointers (c : cfg) (input_ptr : ptr) (alphas_ptr : ptr) (colors_ptr : ptr) (indices_ptr : ptr) (len : Z) (m : mem) : res mem :=
  do _ <- cpu_has (c_avx2 c) "avx2" ;;
  do _ <- debug_assert (c_debug c) (len mod 16 =? 0) "len . is_multiple_of ( 16 )" ;;
  do aligned_len <- usub len (len mod 128) ;;
  do (alphas_ptr, colors_ptr, indices_ptr, input_ptr, m) <- (
    if (0 <? aligned_len) then
      do aligned_end <- ptr_add m input_ptr (aligned_len) ;;
      do s <- asm_jb (c_junk c) 0 bc2_std_t_avx2_shuffle_with_separate_pointers_loop1 "input_ptr" aligned_end (St [("permute_mask", bc2_std_t_avx2_shuffle_with_separate_pointers_loop1_permute_mask)] [("input_ptr", input_ptr); ("alpha_ptr", alphas_ptr); ("colors_ptr", colors_ptr); ("indices_ptr", indices_ptr)] m) ;;
      let m := mm s in
      do input_ptr <- getp s "input_ptr" ;;
      do alphas_ptr <- getp s "alpha_ptr" ;;
      do colors_ptr <- getp s "colors_ptr" ;;
      do indices_ptr <- getp s "indices_ptr" ;;
      Ok (alphas_ptr, colors_ptr, indices_ptr, input_ptr, m)
    else
      Ok (alphas_ptr, colors_ptr, indices_ptr, input_ptr, m)
  ) ;;
  do remaining <- usub len aligned_len ;;
  if (0 <? remaining) then
    do m <- bc2_std_t_portable32_u32_with_separate_pointers c input_ptr alphas_ptr colors_ptr indices_ptr remaining m ;;
    Ok m
  else
    Ok m.

(** src/core/dxt-lossless-transform-bc2/src/transform/standard/transform/avx2.rs:170-176, fn shuffle *)
Definition bc2_std_t_avx2_shuffle (c : cfg) (input_ptr : ptr) (output_ptr : ptr) (len : Z) (m : mem) : res mem :=
  do _ <- cpu_has (c_avx2 c) "avx2" ;;
  let alphas_ptr := output_ptr in
  do colors_ptr <- ptr_add m output_ptr (len / 2) ;;
  do indices_ptr <- ptr_add m output_ptr ((len / 2) + (len / 4)) ;;
  do m <- bc2_std_t_avx2_shuffle_with_separate_pointers c input_ptr alphas_ptr colors_ptr indices_ptr len m ;;
  Ok m.

(** Loop at src/core/dxt-lossless-transform-bc2/src/transform/standard/transform/sse2.rs:61. *)
Definition bc2_std_t_sse2_shuffle_v3_with_separate_pointers_loop1 : list instr :=
  [ILoad "xmm0" "input_ptr" 0 16;
    ILoad "xmm1" "input_ptr" 16 16;
    ILoad "xmm3" "input_ptr" 32 16;
    ILoad "xmm4" "input_ptr" 48 16;
    ILoad "xmm8" "input_ptr" 64 16;
    ILoad "xmm9" "input_ptr" 80 16;
    ILoad "xmm10" "input_ptr" 96 16;
    ILoad "xmm11" "input_ptr" 112 16;
    IAddAsm "input_ptr" 128;
    IOp "xmm2" (OMov) ["xmm0"];
    IOp "xmm5" (OMov) ["xmm3"];
    IOp "xmm12" (OMov) ["xmm8"];
    IOp "xmm13" (OMov) ["xmm10"];
    IOp "xmm0" (OUnpackLo 8 1) ["xmm0"; "xmm1"];
    IOp "xmm3" (OUnpackLo 8 1) ["xmm3"; "xmm4"];
    IOp "xmm8" (OUnpackLo 8 1) ["xmm8"; "xmm9"];
    IOp "xmm10" (OUnpackLo 8 1) ["xmm10"; "xmm11"];
    IOp "xmm2" (OShufps 1 238) ["xmm2"; "xmm1"];
    IOp "xmm5" (OShufps 1 238) ["xmm5"; "xmm4"];
    IOp "xmm12" (OShufps 1 238) ["xmm12"; "xmm9"];
    IOp "xmm13" (OShufps 1 238) ["xmm13"; "xmm11"];
    IOp "xmm1" (OMov) ["xmm2"];
    IOp "xmm9" (OMov) ["xmm12"];
    IOp "xmm2" (OShufps 1 136) ["xmm2"; "xmm5"];
    IOp "xmm1" (OShufps 1 221) ["xmm1"; "xmm5"];
    IOp "xmm12" (OShufps 1 136) ["xmm12"; "xmm13"];
    IOp "xmm9" (OShufps 1 221) ["xmm9"; "xmm13"];
    IStore "alphas_ptr" 0 16 "xmm0";
    IStore "alphas_ptr" 16 16 "xmm3";
    IStore "alphas_ptr" 32 16 "xmm8";
    IStore "alphas_ptr" 48 16 "xmm10";
    IAddAsm "alphas_ptr" 64;
    IStore "colors_ptr" 0 16 "xmm2";
    IStore "colors_ptr" 16 16 "xmm12";
    IAddAsm "colors_ptr" 32;
    IStore "indices_ptr" 0 16 "xmm1";
    IStore "indices_ptr" 16 16 "xmm9";
    IAddAsm "indices_ptr" 32].

(** src/core/dxt-lossless-transform-bc2/src/transform/standard/transform/sse2.rs:47-147, fn shuffle_v3_with_separate_pointers *)
Definition bc2_std_t_sse2_shuffle_v3_with_separate_pointers (c : cfg) (input_ptr : ptr) (alphas_ptr : ptr) (colors_ptr : ptr) (indices_ptr : ptr) (len : Z) (m : mem) : res mem :=
  do _ <- cpu_has (c_sse2 c) "sse2" ;;
  do _ <- debug_assert (c_debug c) (len mod 16 =? 0) "len . is_multiple_of ( 16 )" ;;
  do aligned_len <- usub len (len mod 128) ;;
  do (alphas_ptr, colors_ptr, indices_ptr, input_ptr, m) <- (
    if (0 <? aligned_len) then
      do end_ <- ptr_add m input_ptr (aligned_len) ;;
      do s <- asm_jb (c_junk c) 0 bc2_std_t_sse2_shuffle_v3_with_separate_pointers_loop1 "input_ptr" end_ (St [] [("input_ptr", input_ptr); ("alphas_ptr", alphas_ptr); ("colors_ptr", colors_ptr); ("indices_ptr", indices_ptr)] m) ;;
      let m := mm s in
      do input_ptr <- getp s "input_ptr" ;;
      do alphas_ptr <- getp s "alphas_ptr" ;;
      do colors_ptr <- getp s "colors_ptr" ;;
      do indices_ptr <- getp s "indices_ptr" ;;
      Ok (alphas_ptr, colors_ptr, indices_ptr, input_ptr, m)
    else
      Ok (alphas_ptr, colors_ptr, indices_ptr, input_ptr, m)
  ) ;;
  do remaining <- usub len aligned_len ;;
  if (0 <? remaining) then
    do m <- bc2_std_t_portable32_u32_with_separate_pointers c input_ptr alphas_ptr colors_ptr indices_ptr remaining m ;;
    Ok m
  else
    Ok m.

(** src/core/dxt-lossless-transform-bc2/src/transform/standard/transform/sse2.rs:28-36, fn shuffle_v3 *)
Definition bc2_std_t_sse2_shuffle_v3 (c : cfg) (input_ptr : ptr) (output_ptr : ptr) (len : Z) (m : mem) : res mem :=
  do _ <- cpu_has (c_sse2 c) "sse2" ;;
  do _ <- debug_assert (c_debug c) (len mod 16 =? 0) "len . is_multiple_of ( 16 )" ;;
  let alphas_ptr := output_ptr in
  do colors_ptr <- ptr_add m output_ptr (len / 2) ;;
  do indices_ptr <- ptr_add m output_ptr ((len / 2) + (len / 4)) ;;
  do m <- bc2_std_t_sse2_shuffle_v3_with_separate_pointers c input_ptr alphas_ptr colors_ptr indices_ptr len m ;;
  Ok m.

(** Loop at src/core/dxt-lossless-transform-bc2/src/transform/standard/transform/sse2.rs:171. *)
Definition bc2_std_t_sse2_shuffle_v2_with_separate_pointers_loop1 : list instr :=
  [ILoad "xmm0" "input_ptr" 0 16;
    ILoad "xmm1" "input_ptr" 16 16;
    ILoad "xmm3" "input_ptr" 32 16;
    ILoad "xmm4" "input_ptr" 48 16;
    IAddAsm "input_ptr" 64;
    IOp "xmm2" (OMov) ["xmm0"];
    IOp "xmm5" (OMov) ["xmm3"];
    IOp "xmm0" (OUnpackLo 8 1) ["xmm0"; "xmm1"];
    IOp "xmm3" (OUnpackLo 8 1) ["xmm3"; "xmm4"];
    IOp "xmm2" (OShufps 1 238) ["xmm2"; "xmm1"];
    IOp "xmm5" (OShufps 1 238) ["xmm5"; "xmm4"];
    IOp "xmm1" (OMov) ["xmm2"];
    IOp "xmm2" (OShufps 1 136) ["xmm2"; "xmm5"];
    IOp "xmm1" (OShufps 1 221) ["xmm1"; "xmm5"];
    IStore "alphas_ptr" 0 16 "xmm0";
    IStore "alphas_ptr" 16 16 "xmm3";
    IAddAsm "alphas_ptr" 32;
    IStore "colors_ptr" 0 16 "xmm2";
    IAddAsm "colors_ptr" 16;
    IStore "indices_ptr" 0 16 "xmm1";
    IAddAsm "indices_ptr" 16].

(** src/core/dxt-lossless-transform-bc2/src/transform/standard/transform/sse2.rs:158-236, fn shuffle_v2_with_separate_pointers *)
Definition bc2_std_t_sse2_shuffle_v2_with_separate_pointers (c : cfg) (input_ptr : ptr) (alphas_ptr : ptr) (colors_ptr : ptr) (indices_ptr : ptr) (len : Z) (m : mem) : res mem :=
  do _ <- cpu_has (c_sse2 c) "sse2" ;;
  do _ <- debug_assert (c_debug c) (len mod 16 =? 0) "len . is_multiple_of ( 16 )" ;;
  do aligned_len <- usub len (len mod 64) ;;
  do (alphas_ptr, colors_ptr, indices_ptr, input_ptr, m) <- (
    if (0 <? aligned_len) then
      do end_ <- ptr_add m input_ptr (aligned_len) ;;
      do s <- asm_jb (c_junk c) 0 bc2_std_t_sse2_shuffle_v2_with_separate_pointers_loop1 "input_ptr" end_ (St [] [("input_ptr", input_ptr); ("alphas_ptr", alphas_ptr); ("colors_ptr", colors_ptr); ("indices_ptr", indices_ptr)] m) ;;
      let m := mm s in
      do input_ptr <- getp s "input_ptr" ;;
      do alphas_ptr <- getp s "alphas_ptr" ;;
      do colors_ptr <- getp s "colors_ptr" ;;
      do indices_ptr <- getp s "indices_ptr" ;;
      Ok (alphas_ptr, colors_ptr, indices_ptr, input_ptr, m)
    else
      Ok (alphas_ptr, colors_ptr, indices_ptr, input_ptr, m)
  ) ;;
  do remaining <- usub len aligned_len ;;
  if (0 <? remaining) then
    do m <- bc2_std_t_portable32_u32_with_separate_pointers c input_ptr alphas_ptr colors_ptr indices_ptr remaining m ;;
    Ok m
  else
    Ok m.

(** src/core/dxt-lossless-transform-bc2/src/transform/standard/transform/sse2.rs:11-19, fn shuffle_v2 *)
Definition bc2_std_t_sse2_shuffle_v2 (c : cfg) (input_ptr : ptr) (output_ptr : ptr) (len : Z) (m : mem) : res mem :=
  do _ <- cpu_has (c_sse2 c) "sse2" ;;
  do _ <- debug_assert (c_debug c) (len mod 16 =? 0) "len . is_multiple_of ( 16 )" ;;
  let alphas_ptr := output_ptr in
  do colors_ptr <- ptr_add m output_ptr (len / 2) ;;
  do indices_ptr <- ptr_add m output_ptr ((len / 2) + (len / 4)) ;;
  do m <- bc2_std_t_sse2_shuffle_v2_with_separate_pointers c input_ptr alphas_ptr colors_ptr indices_ptr len m ;;
  Ok m.

(** src/core/dxt-lossless-transform-bc2/src/transform/standard/transform/portable32.rs:6-17, fn u32 *)
Definition bc2_std_t_portable32_u32 (c : cfg) (input_ptr : ptr) (output_ptr : ptr) (len : Z) (m : mem) : res mem :=
  do _ <- debug_assert (c_debug c) (len mod 16 =? 0) "len . is_multiple_of ( 16 )" ;;
  let alphas_ptr := output_ptr in
  do colours_ptr <- ptr_add m output_ptr (len / 2) ;;
  do indices_ptr <- ptr_add m output_ptr ((len / 2) + (len / 4)) ;;
  do m <- bc2_std_t_portable32_u32_with_separate_pointers c input_ptr alphas_ptr colours_ptr indices_ptr len m ;;
  Ok m.

(** src/core/dxt-lossless-transform-bc2/src/transform/standard/transform/mod.rs:41-97, fn transform_x86 *)
Definition bc2_std_t_transform_x86 (c : cfg) (input_ptr : ptr) (output_ptr : ptr) (len : Z) (m : mem) : res mem :=
  if negb (c_static c) then
    if has_avx512f c then
      do m <- bc2_std_t_avx512_permute_512_v2 c input_ptr output_ptr len m ;;
      Ok m
    else
      if has_avx2 c then
        do m <- bc2_std_t_avx2_shuffle c input_ptr output_ptr len m ;;
        Ok m
      else
        if is_x64 c then
          if has_sse2 c then
            do m <- bc2_std_t_sse2_shuffle_v3 c input_ptr output_ptr len m ;;
            Ok m
          else
            if is_i686 c then
              if has_sse2 c then
                do m <- bc2_std_t_sse2_shuffle_v2 c input_ptr output_ptr len m ;;
                Ok m
              else
                do m <- bc2_std_t_portable32_u32 c input_ptr output_ptr len m ;;
                Ok m
            else
              do m <- bc2_std_t_portable32_u32 c input_ptr output_ptr len m ;;
              Ok m
        else
          if is_i686 c then
            if has_sse2 c then
              do m <- bc2_std_t_sse2_shuffle_v2 c input_ptr output_ptr len m ;;
              Ok m
            else
              do m <- bc2_std_t_portable32_u32 c input_ptr output_ptr len m ;;
              Ok m
          else
            do m <- bc2_std_t_portable32_u32 c input_ptr output_ptr len m ;;
            Ok m
  else
    if c_avx512f c then
      do m <- bc2_std_t_avx512_permute_512_v2 c input_ptr output_ptr len m ;;
      Ok m
    else
      if c_avx2 c then
        do m <- bc2_std_t_avx2_shuffle c input_ptr output_ptr len m ;;
        Ok m
      else
        if is_x64 c then
          if c_sse2 c then
            do m <- bc2_std_t_sse2_shuffle_v3 c input_ptr output_ptr len m ;;
            Ok m
          else
            if is_i686 c then
              if c_sse2 c then
                do m <- bc2_std_t_sse2_shuffle_v2 c input_ptr output_ptr len m ;;
                Ok m
              else
                do m <- bc2_std_t_portable32_u32 c input_ptr output_ptr len m ;;
                Ok m
            else
              do m <- bc2_std_t_portable32_u32 c input_ptr output_ptr len m ;;
              Ok m
        else
          if is_i686 c then
            if c_sse2 c then
              do m <- bc2_std_t_sse2_shuffle_v2 c input_ptr output_ptr len m ;;
              Ok m
            else
              do m <- bc2_std_t_portable32_u32 c input_ptr output_ptr len m ;;
              Ok m
          else
            do m <- bc2_std_t_portable32_u32 c input_ptr output_ptr len m ;;
            Ok m.

(** src/core/dxt-lossless-transform-bc2/src/transform/standard/transform/mod.rs:25-37, fn transform *)
Definition bc2_std_t_transform (c : cfg) (input_ptr : ptr) (output_ptr : ptr) (len : Z) (m : mem) : res mem :=
  do _ <- debug_assert (c_debug c) (len mod 16 =? 0) "len . is_multiple_of ( 16 )" ;;
  if is_x86 c then
    do m <- bc2_std_t_transform_x86 c input_ptr output_ptr len m ;;
    Ok m
  else
    do m <- bc2_std_t_portable32_u32 c input_ptr output_ptr len m ;;
    Ok m.

(** Loop at src/core/dxt-lossless-transform-bc2/src/transform/standard/untransform/portable32.rs:38. *)
Definition bc2_std_u_portable32_u32_untransform_with_separate_pointers_loop1 : list instr :=
  [ILoad "alpha_value" "alphas_ptr" 0 8;
    IAdd "alphas_ptr" 8;
    ILoad "color_value" "colours_ptr" 0 4;
    IAdd "colours_ptr" 4;
    ILoad "index_value" "indices_ptr" 0 4;
    IAdd "indices_ptr" 4;
    IStore "output_ptr" 0 8 "alpha_value";
    IStore "output_ptr" 8 4 "color_value";
    IStore "output_ptr" 12 4 "index_value";
    IAdd "output_ptr" 16].

(** src/core/dxt-lossless-transform-bc2/src/transform/standard/untransform/portable32.rs:26-55, fn u32_untransform_with_separate_pointers *)
Definition bc2_std_u_portable32_u32_untransform_with_separate_pointers (c : cfg) (alphas_ptr : ptr) (colours_ptr : ptr) (indices_ptr : ptr) (output_ptr : ptr) (len : Z) (m : mem) : res mem :=
  do _ <- debug_assert (c_debug c) (len mod 16 =? 0) "len . is_multiple_of ( 16 )" ;;
  do max_input <- ptr_add m alphas_ptr (len / 2) ;;
  do s <- while_lt (c_junk c) 0 bc2_std_u_portable32_u32_untransform_with_separate_pointers_loop1 "alphas_ptr" max_input (St [] [("alphas_ptr", alphas_ptr); ("colours_ptr", colours_ptr); ("indices_ptr", indices_ptr); ("output_ptr", output_ptr)] m) ;;
  let m := mm s in
  do alphas_ptr <- getp s "alphas_ptr" ;;
  do colours_ptr <- getp s "colours_ptr" ;;
  do indices_ptr <- getp s "indices_ptr" ;;
  do output_ptr <- getp s "output_ptr" ;;
  Ok m.

(** Constants of the loop at src/core/dxt-lossless-transform-bc2/src/transform/standard/untransform/avx512.rs:137 *)
Definition bc2_std_u_avx512_avx512_shuffle_with_components_intrinsics_loop1_perm_color_index_low : list byte := [x00; x00; x00; x00; x10; x00; x00; x00; x01; x00; x00; x00; x11; x00; x00; x00; x02; x00; x00; x00; x12; x00; x00; x00; x03; x00; x00; x00; x13; x00; x00; x00; x04; x00; x00; x00; x14; x00; x00; x00; x05; x00; x00; x00; x15; x00; x00; x00; x06; x00; x00; x00; x16; x00; x00; x00; x07; x00; x00; x00; x17; x00; x00; x00].
Definition bc2_std_u_avx512_avx512_shuffle_with_components_intrinsics_loop1_perm_color_index_high : list byte := [x08; x00; x00; x00; x18; x00; x00; x00; x09; x00; x00; x00; x19; x00; x00; x00; x0a; x00; x00; x00; x1a; x00; x00; x00; x0b; x00; x00; x00; x1b; x00; x00; x00; x0c; x00; x00; x00; x1c; x00; x00; x00; x0d; x00; x00; x00; x1d; x00; x00; x00; x0e; x00; x00; x00; x1e; x00; x00; x00; x0f; x00; x00; x00; x1f; x00; x00; x00].
Definition bc2_std_u_avx512_avx512_shuffle_with_components_intrinsics_loop1_perm_block_low : list byte := [x00; x00; x00; x00; x00; x00; x00; x00; x08; x00; x00; x00; x00; x00; x00; x00; x01; x00; x00; x00; x00; x00; x00; x00; x09; x00; x00; x00; x00; x00; x00; x00; x02; x00; x00; x00; x00; x00; x00; x00; x0a; x00; x00; x00; x00; x00; x00; x00; x03; x00; x00; x00; x00; x00; x00; x00; x0b; x00; x00; x00; x00; x00; x00; x00].
Definition bc2_std_u_avx512_avx512_shuffle_with_components_intrinsics_loop1_perm_block_high : list byte := [x04; x00; x00; x00; x00; x00; x00; x00; x0c; x00; x00; x00; x00; x00; x00; x00; x05; x00; x00; x00; x00; x00; x00; x00; x0d; x00; x00; x00; x00; x00; x00; x00; x06; x00; x00; x00; x00; x00; x00; x00; x0e; x00; x00; x00; x00; x00; x00; x00; x07; x00; x00; x00; x00; x00; x00; x00; x0f; x00; x00; x00; x00; x00; x00; x00].

(** Loop at src/core/dxt-lossless-transform-bc2/src/transform/standard/untransform/avx512.rs:137. *)
Definition bc2_std_u_avx512_avx512_shuffle_with_components_intrinsics_loop1 : list instr :=
  [ILoad "alpha_0" "alpha_ptr" 0 64;
    ILoad "alpha_1" "alpha_ptr" 64 64;
    ILoad "colors" "colors_ptr" 0 64;
    ILoad "indices" "indices_ptr" 0 64;
    IAdd "alpha_ptr" 128;
    IAdd "colors_ptr" 64;
    IAdd "indices_ptr" 64;
    IOp "colors_indices_0" (OPermT2 4 16) ["colors"; "perm_color_index_low"; "indices"];
    IOp "colors_indices_1" (OPermT2 4 16) ["colors"; "perm_color_index_high"; "indices"];
    IOp "output_0" (OPermT2 8 8) ["alpha_0"; "perm_block_low"; "colors_indices_0"];
    IOp "output_1" (OPermT2 8 8) ["alpha_0"; "perm_block_high"; "colors_indices_0"];
    IOp "output_2" (OPermT2 8 8) ["alpha_1"; "perm_block_low"; "colors_indices_1"];
    IOp "output_3" (OPermT2 8 8) ["alpha_1"; "perm_block_high"; "colors_indices_1"];
    IStore "output_ptr" 0 64 "output_0";
    IStore "output_ptr" 64 64 "output_1";
    IStore "output_ptr" 128 64 "output_2";
    IStore "output_ptr" 192 64 "output_3";
    IAdd "output_ptr" 256].

(** src/core/dxt-lossless-transform-bc2/src/transform/standard/untransform/avx512.rs:61-182, fn avx512_shuffle_with_components_intrinsics *)
Definition bc2_std_u_avx512_avx512_shuffle_with_components_intrinsics (c : cfg) (output_ptr : ptr) (len : Z) (alpha_ptr : ptr) (colors_ptr : ptr) (indices_ptr : ptr) (m : mem) : res mem :=
  do _ <- cpu_has (c_avx512f c) "avx512f" ;;
  do _ <- debug_assert (c_debug c) (len mod 16 =? 0) "len . is_multiple_of ( 16 )" ;;
  do aligned_len <- usub len (len mod 256) ;;
  do alpha_ptr_aligned_end <- ptr_add m alpha_ptr (aligned_len / 2) ;;
  do (alpha_ptr, colors_ptr, indices_ptr, output_ptr, m) <- (
    if (0 <? aligned_len) then
      do s <- while_lt (c_junk c) 0 bc2_std_u_avx512_avx512_shuffle_with_components_intrinsics_loop1 "alpha_ptr" alpha_ptr_aligned_end (St [("perm_color_index_low", bc2_std_u_avx512_avx512_shuffle_with_components_intrinsics_loop1_perm_color_index_low); ("perm_color_index_high", bc2_std_u_avx512_avx512_shuffle_with_components_intrinsics_loop1_perm_color_index_high); ("perm_block_low", bc2_std_u_avx512_avx512_shuffle_with_components_intrinsics_loop1_perm_block_low); ("perm_block_high", bc2_std_u_avx512_avx512_shuffle_with_components_intrinsics_loop1_perm_block_high)] [("alpha_ptr", alpha_ptr); ("colors_ptr", colors_ptr); ("indices_ptr", indices_ptr); ("output_ptr", output_ptr)] m) ;;
      let m := mm s in
      do alpha_ptr <- getp s "alpha_ptr" ;;
      do colors_ptr <- getp s "colors_ptr" ;;
      do indices_ptr <- getp s "indices_ptr" ;;
      do output_ptr <- getp s "output_ptr" ;;
      Ok (alpha_ptr, colors_ptr, indices_ptr, output_ptr, m)
    else
      Ok (alpha_ptr, colors_ptr, indices_ptr, output_ptr, m)
  ) ;;
  do remaining_len <- usub len aligned_len ;;
  if (0 <? remaining_len) then
    do m <- bc2_std_u_portable32_u32_untransform_with_separate_pointers c alpha_ptr colors_ptr indices_ptr output_ptr remaining_len m ;;
    Ok m
  else
    Ok m.

(** Constants of the loop at src/core/dxt-lossless-transform-bc2/src/transform/standard/untransform/avx512.rs:271 *)
Definition bc2_std_u_avx512_avx512_shuffle_with_components_loop1_perm_color_index_low : list byte := [x00; x00; x00; x00; x10; x00; x00; x00; x01; x00; x00; x00; x11; x00; x00; x00; x02; x00; x00; x00; x12; x00; x00; x00; x03; x00; x00; x00; x13; x00; x00; x00; x04; x00; x00; x00; x14; x00; x00; x00; x05; x00; x00; x00; x15; x00; x00; x00; x06; x00; x00; x00; x16; x00; x00; x00; x07; x00; x00; x00; x17; x00; x00; x00].
Definition bc2_std_u_avx512_avx512_shuffle_with_components_loop1_perm_color_index_high : list byte := [x08; x00; x00; x00; x18; x00; x00; x00; x09; x00; x00; x00; x19; x00; x00; x00; x0a; x00; x00; x00; x1a; x00; x00; x00; x0b; x00; x00; x00; x1b; x00; x00; x00; x0c; x00; x00; x00; x1c; x00; x00; x00; x0d; x00; x00; x00; x1d; x00; x00; x00; x0e; x00; x00; x00; x1e; x00; x00; x00; x0f; x00; x00; x00; x1f; x00; x00; x00].
Definition bc2_std_u_avx512_avx512_shuffle_with_components_loop1_perm_block_low : list byte := [x00; x00; x00; x00; x00; x00; x00; x00; x08; x00; x00; x00; x00; x00; x00; x00; x01; x00; x00; x00; x00; x00; x00; x00; x09; x00; x00; x00; x00; x00; x00; x00; x02; x00; x00; x00; x00; x00; x00; x00; x0a; x00; x00; x00; x00; x00; x00; x00; x03; x00; x00; x00; x00; x00; x00; x00; x0b; x00; x00; x00; x00; x00; x00; x00].
Definition bc2_std_u_avx512_avx512_shuffle_with_components_loop1_perm_block_high : list byte := [x04; x00; x00; x00; x00; x00; x00; x00; x0c; x00; x00; x00; x00; x00; x00; x00; x05; x00; x00; x00; x00; x00; x00; x00; x0d; x00; x00; x00; x00; x00; x00; x00; x06; x00; x00; x00; x00; x00; x00; x00; x0e; x00; x00; x00; x00; x00; x00; x00; x07; x00; x00; x00; x00; x00; x00; x00; x0f; x00; x00; x00; x00; x00; x00; x00].

(** Loop at src/core/dxt-lossless-transform-bc2/src/transform/standard/untransform/avx512.rs:271. *)
Definition bc2_std_u_avx512_avx512_shuffle_with_components_loop1 : list instr :=
  [ILoad "zmm6" "colors_ptr" 0 64;
    ILoad "zmm7" "indices_ptr" 0 64;
    ILoad "zmm4" "alpha_ptr" 0 64;
    ILoad "zmm5" "alpha_ptr" 64 64;
    IAddAsm "alpha_ptr" 128;
    IAddAsm "colors_ptr" 64;
    IAddAsm "indices_ptr" 64;
    IOp "zmm8" (OMov) ["zmm6"];
    IOp "zmm8" (OPermT2 4 16) ["zmm8"; "perm_color_index_low"; "zmm7"];
    IOp "zmm6" (OPermT2 4 16) ["zmm6"; "perm_color_index_high"; "zmm7"];
    IOp "zmm7" (OMov) ["zmm4"];
    IOp "zmm7" (OPermT2 8 8) ["zmm7"; "perm_block_low"; "zmm8"];
    IOp "zmm4" (OPermT2 8 8) ["zmm4"; "perm_block_high"; "zmm8"];
    IOp "zmm8" (OMov) ["zmm5"];
    IOp "zmm8" (OPermT2 8 8) ["zmm8"; "perm_block_low"; "zmm6"];
    IOp "zmm5" (OPermT2 8 8) ["zmm5"; "perm_block_high"; "zmm6"];
    IStore "dst_ptr" 0 64 "zmm7";
    IStore "dst_ptr" 64 64 "zmm4";
    IStore "dst_ptr" 128 64 "zmm8";
    IStore "dst_ptr" 192 64 "zmm5";
    IAddAsm "dst_ptr" 256].

(** src/core/dxt-lossless-transform-bc2/src/transform/standard/untransform/avx512.rs:195-340, fn avx512_shuffle_with_components *)
Definition bc2_std_u_avx512_avx512_shuffle_with_components (c : cfg) (output_ptr : ptr) (len : Z) (alpha_ptr : ptr) (colors_ptr : ptr) (indices_ptr : ptr) (m : mem) : res mem :=
  do _ <- cpu_has (c_avx512f c) "avx512f" ;;
  do _ <- debug_assert (c_debug c) (len mod 16 =? 0) "len . is_multiple_of ( 16 )" ;;
  do aligned_len <- usub len (len mod 256) ;;
  do alpha_ptr_aligned_end <- ptr_add m alpha_ptr (aligned_len / 2) ;;
  do (alpha_ptr, colors_ptr, indices_ptr, output_ptr, m) <- (
    if (0 <? aligned_len) then
      do s <- asm_jb (c_junk c) 0 bc2_std_u_avx512_avx512_shuffle_with_components_loop1 "alpha_ptr" alpha_ptr_aligned_end (St [("perm_color_index_low", bc2_std_u_avx512_avx512_shuffle_with_components_loop1_perm_color_index_low); ("perm_color_index_high", bc2_std_u_avx512_avx512_shuffle_with_components_loop1_perm_color_index_high); ("perm_block_low", bc2_std_u_avx512_avx512_shuffle_with_components_loop1_perm_block_low); ("perm_block_high", bc2_std_u_avx512_avx512_shuffle_with_components_loop1_perm_block_high)] [("colors_ptr", colors_ptr); ("indices_ptr", indices_ptr); ("alpha_ptr", alpha_ptr); ("dst_ptr", output_ptr)] m) ;;
      let m := mm s in
      do colors_ptr <- getp s "colors_ptr" ;;
      do indices_ptr <- getp s "indices_ptr" ;;
      do alpha_ptr <- getp s "alpha_ptr" ;;
      do output_ptr <- getp s "dst_ptr" ;;
      Ok (alpha_ptr, colors_ptr, indices_ptr, output_ptr, m)
    else
      Ok (alpha_ptr, colors_ptr, indices_ptr, output_ptr, m)
  ) ;;
  do remaining <- usub len aligned_len ;;
  if (0 <? remaining) then
    do m <- bc2_std_u_avx512_avx512_shuffle_with_components_intrinsics c output_ptr remaining alpha_ptr colors_ptr indices_ptr m ;;
    Ok m
  else
    Ok m.

(** src/core/dxt-lossless-transform-bc2/src/transform/standard/untransform/avx512.rs:18-29, fn avx512_shuffle *)
Definition bc2_std_u_avx512_avx512_shuffle (c : cfg) (input_ptr : ptr) (output_ptr : ptr) (len : Z) (m : mem) : res mem :=
  do _ <- cpu_has (c_avx512f c) "avx512f" ;;
  do _ <- debug_assert (c_debug c) (len mod 16 =? 0) "len . is_multiple_of ( 16 )" ;;
  let alpha_ptr := input_ptr in
  do colors_ptr <- ptr_add m alpha_ptr (len / 2) ;;
  do indices_ptr <- ptr_add m colors_ptr (len / 4) ;;
  if is_x64 c then
    do m <- bc2_std_u_avx512_avx512_shuffle_with_components c output_ptr len alpha_ptr colors_ptr indices_ptr m ;;
    if is_i686 c then
      do m <- bc2_std_u_avx512_avx512_shuffle_with_components_intrinsics c output_ptr len alpha_ptr colors_ptr indices_ptr m ;;
      Ok m
    else
      Ok m
  else
    if is_i686 c then
      do m <- bc2_std_u_avx512_avx512_shuffle_with_components_intrinsics c output_ptr len alpha_ptr colors_ptr indices_ptr m ;;
      Ok m
    else
      Ok m.

(** Constants of the loop at src/core/dxt-lossless-transform-bc2/src/transform/standard/untransform/avx2.rs:249 *)
Definition bc2_std_u_avx2_avx2_shuffle_with_components_i686_loop1_ymm6 : list byte := [x00; x00; x00; x00; x01; x00; x00; x00; x04; x00; x00; x00; x05; x00; x00; x00; x02; x00; x00; x00; x03; x00; x00; x00; x06; x00; x00; x00; x07; x00; x00; x00].
Definition bc2_std_u_avx2_avx2_shuffle_with_components_i686_loop1_ymm7 : list byte := [x00; x00; x00; x00; x04; x00; x00; x00; x02; x00; x00; x00; x06; x00; x00; x00; x01; x00; x00; x00; x05; x00; x00; x00; x03; x00; x00; x00; x07; x00; x00; x00].

(** Loop at src/core/dxt-lossless-transform-bc2/src/transform/standard/untransform/avx2.rs:249. *)
Definition bc2_std_u_avx2_avx2_shuffle_with_components_i686_loop1 : list instr :=
  [ILoad "t1" "alpha_ptr" 0 32;
    IOp "ymm0" (OPermVar 4 8) ["ymm6"; "t1"];
    ILoad "t2" "alpha_ptr" 32 32;
    IOp "ymm1" (OPermVar 4 8) ["ymm6"; "t2"];
    IAddAsm "alpha_ptr" 64;
    ILoad "ymm2" "colors_ptr" 0 32;
    IAddAsm "colors_ptr" 32;
    ILoad "ymm3" "indices_ptr" 0 32;
    IAddAsm "indices_ptr" 32;
    IOp "ymm4" (OPerm2i128 32) ["ymm2"; "ymm3"];
    IOp "ymm5" (OPerm2i128 49) ["ymm2"; "ymm3"];
    IOp "ymm4" (OPermVar 4 8) ["ymm7"; "ymm4"];
    IOp "ymm5" (OPermVar 4 8) ["ymm7"; "ymm5"];
    IOp "ymm2" (OUnpackLo 8 2) ["ymm0"; "ymm4"];
    IOp "ymm3" (OUnpackHi 8 2) ["ymm0"; "ymm4"];
    IStore "output_ptr" 0 32 "ymm2";
    IStore "output_ptr" 32 32 "ymm3";
    IOp "ymm2" (OUnpackLo 8 2) ["ymm1"; "ymm5"];
    IOp "ymm3" (OUnpackHi 8 2) ["ymm1"; "ymm5"];
    IStore "output_ptr" 64 32 "ymm2";
    IStore "output_ptr" 96 32 "ymm3";
    IAddAsm "output_ptr" 128].

(** src/core/dxt-lossless-transform-bc2/src/transform/standard/untransform/avx2.rs:232-385, fn avx2_shuffle_with_components *)
Definition bc2_std_u_avx2_avx2_shuffle_with_components_i686 (c : cfg) (output_ptr : ptr) (len : Z) (alpha_ptr : ptr) (colors_ptr : ptr) (indices_ptr : ptr) (m : mem) : res mem :=
  do _ <- cpu_has (c_avx2 c) "avx2" ;;
  do aligned_len <- usub len (len mod 128) ;;
  do alpha_ptr_aligned_end <- ptr_add m alpha_ptr (aligned_len / 2) ;;
  do (alpha_ptr, colors_ptr, indices_ptr, output_ptr, m) <- (
    if (0 <? aligned_len) then
      do s <- asm_jb (c_junk c) 0 bc2_std_u_avx2_avx2_shuffle_with_components_i686_loop1 "alpha_ptr" alpha_ptr_aligned_end (St [("ymm6", bc2_std_u_avx2_avx2_shuffle_with_components_i686_loop1_ymm6); ("ymm7", bc2_std_u_avx2_avx2_shuffle_with_components_i686_loop1_ymm7)] [("alpha_ptr", alpha_ptr); ("colors_ptr", colors_ptr); ("indices_ptr", indices_ptr); ("output_ptr", output_ptr)] m) ;;
      let m := mm s in
      do alpha_ptr <- getp s "alpha_ptr" ;;
      do colors_ptr <- getp s "colors_ptr" ;;
      do indices_ptr <- getp s "indices_ptr" ;;
      do output_ptr <- getp s "output_ptr" ;;
      Ok (alpha_ptr, colors_ptr, indices_ptr, output_ptr, m)
    else
      Ok (alpha_ptr, colors_ptr, indices_ptr, output_ptr, m)
  ) ;;
  do remaining_len <- usub len aligned_len ;;
  if (0 <? remaining_len) then
    do m <- bc2_std_u_portable32_u32_untransform_with_separate_pointers c alpha_ptr colors_ptr indices_ptr output_ptr remaining_len m ;;
    Ok m
  else
    Ok m.

(** src/core/dxt-lossless-transform-bc2/src/transform/standard/untransform/avx2.rs:215-221, fn avx2_shuffle *)
Definition bc2_std_u_avx2_avx2_shuffle_i686 (c : cfg) (input_ptr : ptr) (output_ptr : ptr) (len : Z) (m : mem) : res mem :=
  do _ <- cpu_has (c_avx2 c) "avx2" ;;
  let alpha_ptr := input_ptr in
  do colors_ptr <- ptr_add m alpha_ptr (len / 2) ;;
  do indices_ptr <- ptr_add m colors_ptr (len / 4) ;;
  do m <- bc2_std_u_avx2_avx2_shuffle_with_components_i686 c output_ptr len alpha_ptr colors_ptr indices_ptr m ;;
  Ok m.

(** Constants of the loop at src/core/dxt-lossless-transform-bc2/src/transform/standard/untransform/avx2.rs:58 *)
Definition bc2_std_u_avx2_avx2_shuffle_with_components_x64_loop1_ymm8 : list byte := [x00; x00; x00; x00; x01; x00; x00; x00; x04; x00; x00; x00; x05; x00; x00; x00; x02; x00; x00; x00; x03; x00; x00; x00; x06; x00; x00; x00; x07; x00; x00; x00].
Definition bc2_std_u_avx2_avx2_shuffle_with_components_x64_loop1_ymm9 : list byte := [x00; x00; x00; x00; x04; x00; x00; x00; x02; x00; x00; x00; x06; x00; x00; x00; x01; x00; x00; x00; x05; x00; x00; x00; x03; x00; x00; x00; x07; x00; x00; x00].

(** Loop at src/core/dxt-lossless-transform-bc2/src/transform/standard/untransform/avx2.rs:58. *)
Definition bc2_std_u_avx2_avx2_shuffle_with_components_x64_loop1 : list instr :=
  [ILoad "t1" "alpha_ptr" 0 32;
    IOp "ymm0" (OPermVar 4 8) ["ymm8"; "t1"];
    ILoad "t2" "alpha_ptr" 32 32;
    IOp "ymm1" (OPermVar 4 8) ["ymm8"; "t2"];
    IAddAsm "alpha_ptr" 64;
    ILoad "ymm2" "colors_ptr" 0 32;
    IAddAsm "colors_ptr" 32;
    ILoad "ymm3" "indices_ptr" 0 32;
    IAddAsm "indices_ptr" 32;
    IOp "ymm4" (OPerm2i128 32) ["ymm2"; "ymm3"];
    IOp "ymm5" (OPerm2i128 49) ["ymm2"; "ymm3"];
    IOp "ymm4" (OPermVar 4 8) ["ymm9"; "ymm4"];
    IOp "ymm5" (OPermVar 4 8) ["ymm9"; "ymm5"];
    IOp "ymm2" (OUnpackLo 8 2) ["ymm0"; "ymm4"];
    IOp "ymm3" (OUnpackHi 8 2) ["ymm0"; "ymm4"];
    IOp "ymm6" (OUnpackLo 8 2) ["ymm1"; "ymm5"];
    IOp "ymm7" (OUnpackHi 8 2) ["ymm1"; "ymm5"];
    IStore "output_ptr" 0 32 "ymm2";
    IStore "output_ptr" 32 32 "ymm3";
    IStore "output_ptr" 64 32 "ymm6";
    IStore "output_ptr" 96 32 "ymm7";
    IAddAsm "output_ptr" 128].

(** src/core/dxt-lossless-transform-bc2/src/transform/standard/untransform/avx2.rs:40-206, fn avx2_shuffle_with_components *)
Definition bc2_std_u_avx2_avx2_shuffle_with_components_x64 (c : cfg) (output_ptr : ptr) (len : Z) (alpha_ptr : ptr) (colors_ptr : ptr) (indices_ptr : ptr) (m : mem) : res mem :=
  do _ <- cpu_has (c_avx2 c) "avx2" ;;
  do _ <- debug_assert (c_debug c) (len mod 16 =? 0) "len . is_multiple_of ( 16 )" ;;
  do aligned_len <- usub len (len mod 128) ;;
  do alpha_ptr_aligned_end <- ptr_add m alpha_ptr (aligned_len / 2) ;;
  do (alpha_ptr, colors_ptr, indices_ptr, output_ptr, m) <- (
    if (0 <? aligned_len) then
      do s <- asm_jb (c_junk c) 0 bc2_std_u_avx2_avx2_shuffle_with_components_x64_loop1 "alpha_ptr" alpha_ptr_aligned_end (St [("ymm8", bc2_std_u_avx2_avx2_shuffle_with_components_x64_loop1_ymm8); ("ymm9", bc2_std_u_avx2_avx2_shuffle_with_components_x64_loop1_ymm9)] [("alpha_ptr", alpha_ptr); ("colors_ptr", colors_ptr); ("indices_ptr", indices_ptr); ("output_ptr", output_ptr)] m) ;;
      let m := mm s in
      do alpha_ptr <- getp s "alpha_ptr" ;;
      do colors_ptr <- getp s "colors_ptr" ;;
      do indices_ptr <- getp s "indices_ptr" ;;
      do output_ptr <- getp s "output_ptr" ;;
      Ok (alpha_ptr, colors_ptr, indices_ptr, output_ptr, m)
    else
      Ok (alpha_ptr, colors_ptr, indices_ptr, output_ptr, m)
  ) ;;
  do remaining_len <- usub len aligned_len ;;
  if (0 <? remaining_len) then
    do m <- bc2_std_u_portable32_u32_untransform_with_separate_pointers c alpha_ptr colors_ptr indices_ptr output_ptr remaining_len m ;;
    Ok m
  else
    Ok m.

(** src/core/dxt-lossless-transform-bc2/src/transform/standard/untransform/avx2.rs:22-29, fn avx2_shuffle *)
Definition bc2_std_u_avx2_avx2_shuffle_x64 (c : cfg) (input_ptr : ptr) (output_ptr : ptr) (len : Z) (m : mem) : res mem :=
  do _ <- cpu_has (c_avx2 c) "avx2" ;;
  do _ <- debug_assert (c_debug c) (len mod 16 =? 0) "len . is_multiple_of ( 16 )" ;;
  let alpha_ptr := input_ptr in
  do colors_ptr <- ptr_add m alpha_ptr (len / 2) ;;
  do indices_ptr <- ptr_add m colors_ptr (len / 4) ;;
  do m <- bc2_std_u_avx2_avx2_shuffle_with_components_x64 c output_ptr len alpha_ptr colors_ptr indices_ptr m ;;
  Ok m.

(** Loop at src/core/dxt-lossless-transform-bc2/src/transform/standard/untransform/sse2.rs:45. *)
Definition bc2_std_u_sse2_shuffle_with_components_loop1 : list instr :=
  [ILoad "xmm0" "alpha_ptr" 0 16;
    ILoad "xmm1" "alpha_ptr" 16 16;
    IAddAsm "alpha_ptr" 32;
    ILoad "xmm2" "colors_ptr" 0 16;
    IAddAsm "colors_ptr" 16;
    ILoad "xmm3" "indices_ptr" 0 16;
    IAddAsm "indices_ptr" 16;
    IOp "xmm6" (OMov) ["xmm2"];
    IOp "xmm7" (OMov) ["xmm2"];
    IOp "xmm6" (OUnpackLo 4 1) ["xmm6"; "xmm3"];
    IOp "xmm7" (OUnpackHi 4 1) ["xmm7"; "xmm3"];
    IOp "xmm4" (OMov) ["xmm0"];
    IOp "xmm5" (OMov) ["xmm1"];
    IOp "xmm0" (OUnpackLo 8 1) ["xmm0"; "xmm6"];
    IOp "xmm1" (OUnpackLo 8 1) ["xmm1"; "xmm7"];
    IOp "xmm4" (OUnpackHi 8 1) ["xmm4"; "xmm6"];
    IOp "xmm5" (OUnpackHi 8 1) ["xmm5"; "xmm7"];
    IStore "output_ptr" 0 16 "xmm0";
    IStore "output_ptr" 16 16 "xmm4";
    IStore "output_ptr" 32 16 "xmm1";
    IStore "output_ptr" 48 16 "xmm5";
    IAddAsm "output_ptr" 64].

(** src/core/dxt-lossless-transform-bc2/src/transform/standard/untransform/sse2.rs:28-135, fn shuffle_with_components *)
Definition bc2_std_u_sse2_shuffle_with_components (c : cfg) (output_ptr : ptr) (len : Z) (alpha_ptr : ptr) (colors_ptr : ptr) (indices_ptr : ptr) (m : mem) : res mem :=
  do _ <- cpu_has (c_sse2 c) "sse2" ;;
  do _ <- debug_assert (c_debug c) (len mod 16 =? 0) "len . is_multiple_of ( 16 ) , 'BC2 shuffle expects `len` to " ;;
  do aligned_len <- usub len (len mod 64) ;;
  do alpha_ptr_aligned_end <- ptr_add m alpha_ptr (aligned_len / 2) ;;
  do (alpha_ptr, colors_ptr, indices_ptr, output_ptr, m) <- (
    if (0 <? aligned_len) then
      do s <- asm_jb (c_junk c) 0 bc2_std_u_sse2_shuffle_with_components_loop1 "alpha_ptr" alpha_ptr_aligned_end (St [] [("alpha_ptr", alpha_ptr); ("colors_ptr", colors_ptr); ("indices_ptr", indices_ptr); ("output_ptr", output_ptr)] m) ;;
      let m := mm s in
      do alpha_ptr <- getp s "alpha_ptr" ;;
      do colors_ptr <- getp s "colors_ptr" ;;
      do indices_ptr <- getp s "indices_ptr" ;;
      do output_ptr <- getp s "output_ptr" ;;
      Ok (alpha_ptr, colors_ptr, indices_ptr, output_ptr, m)
    else
      Ok (alpha_ptr, colors_ptr, indices_ptr, output_ptr, m)
  ) ;;
  do remaining_len <- usub len aligned_len ;;
  if (0 <? remaining_len) then
    do m <- bc2_std_u_portable32_u32_untransform_with_separate_pointers c alpha_ptr colors_ptr indices_ptr output_ptr remaining_len m ;;
    Ok m
  else
    Ok m.

(** src/core/dxt-lossless-transform-bc2/src/transform/standard/untransform/sse2.rs:10-18, fn shuffle *)
Definition bc2_std_u_sse2_shuffle (c : cfg) (input_ptr : ptr) (output_ptr : ptr) (len : Z) (m : mem) : res mem :=
  do _ <- cpu_has (c_sse2 c) "sse2" ;;
  do _ <- debug_assert (c_debug c) (len mod 16 =? 0) "len . is_multiple_of ( 16 )" ;;
  let alpha_ptr := input_ptr in
  do colors_ptr <- ptr_add m input_ptr (len / 2) ;;
  do indices_ptr <- ptr_add m input_ptr ((len / 2) + (len / 4)) ;;
  do m <- bc2_std_u_sse2_shuffle_with_components c output_ptr len alpha_ptr colors_ptr indices_ptr m ;;
  Ok m.

(** src/core/dxt-lossless-transform-bc2/src/transform/standard/untransform/portable32.rs:8-17, fn u32_untransform *)
Definition bc2_std_u_portable32_u32_untransform (c : cfg) (input_ptr : ptr) (output_ptr : ptr) (len : Z) (m : mem) : res mem :=
  do _ <- debug_assert (c_debug c) (len mod 16 =? 0) "len . is_multiple_of ( 16 )" ;;
  let alphas_ptr := input_ptr in
  do colours_ptr <- ptr_add m input_ptr (len / 2) ;;
  do indices_ptr <- ptr_add m colours_ptr (len / 4) ;;
  do m <- bc2_std_u_portable32_u32_untransform_with_separate_pointers c alphas_ptr colours_ptr indices_ptr output_ptr len m ;;
  Ok m.

(** src/core/dxt-lossless-transform-bc2/src/transform/standard/untransform/mod.rs:14-53, fn untransform_x86 *)
Definition bc2_std_u_untransform_x86 (c : cfg) (input_ptr : ptr) (output_ptr : ptr) (len : Z) (m : mem) : res mem :=
  if negb (c_static c) then
    if has_avx512f c then
      do m <- bc2_std_u_avx512_avx512_shuffle c input_ptr output_ptr len m ;;
      Ok m
    else
      if has_avx2 c then
        do m <- (if is_x64 c then bc2_std_u_avx2_avx2_shuffle_x64 c input_ptr output_ptr len m else bc2_std_u_avx2_avx2_shuffle_i686 c input_ptr output_ptr len m) ;;
        Ok m
      else
        if has_sse2 c then
          do m <- bc2_std_u_sse2_shuffle c input_ptr output_ptr len m ;;
          Ok m
        else
          do m <- bc2_std_u_portable32_u32_untransform c input_ptr output_ptr len m ;;
          Ok m
  else
    if c_avx512f c then
      do m <- bc2_std_u_avx512_avx512_shuffle c input_ptr output_ptr len m ;;
      Ok m
    else
      if c_avx2 c then
        do m <- (if is_x64 c then bc2_std_u_avx2_avx2_shuffle_x64 c input_ptr output_ptr len m else bc2_std_u_avx2_avx2_shuffle_i686 c input_ptr output_ptr len m) ;;
        Ok m
      else
        if c_sse2 c then
          do m <- bc2_std_u_sse2_shuffle c input_ptr output_ptr len m ;;
          Ok m
        else
          do m <- bc2_std_u_portable32_u32_untransform c input_ptr output_ptr len m ;;
          Ok m.

(** src/core/dxt-lossless-transform-bc2/src/transform/standard/untransform/mod.rs:65-77, fn untransform *)
Definition bc2_std_u_untransform (c : cfg) (input_ptr : ptr) (output_ptr : ptr) (len : Z) (m : mem) : res mem :=
  do _ <- debug_assert (c_debug c) (len mod 16 =? 0) "len . is_multiple_of ( 16 )" ;;
  if is_x86 c then
    do m <- bc2_std_u_untransform_x86 c input_ptr output_ptr len m ;;
    Ok m
  else
    do m <- bc2_std_u_portable32_u32_untransform c input_ptr output_ptr len m ;;
    Ok m.

