(** Generated by tools/rs2v.py from the kernel sources cited below; do not edit.
    Simplifications: usize arithmetic is exact (lengths are below isize::MAX), see
    Model/Kernel.v for the machine. *)
From Verif Require Import Base.Bytes Base.Res Model.Color565 Model.Ycc Model.Kernel.
Open Scope string_scope.
Open Scope list_scope.
Open Scope Z_scope.

(** Loop at src/core/dxt-lossless-transform-bc1/src/transform/standard/transform/portable32.rs:34. *)
Definition bc1_std_t_portable32_u32_with_separate_pointers_loop1 : list instr :=
  [ILoad "color_value" "input_ptr" 0 4;
    ILoad "index_value" "input_ptr" 4 4;
    IAdd "input_ptr" 8;
    IStore "colours_out" 0 4 "color_value";
    IStore "indices_out" 0 4 "index_value";
    IAdd "colours_out" 4;
    IAdd "indices_out" 4].

(** src/core/dxt-lossless-transform-bc1/src/transform/standard/transform/portable32.rs:25-47, fn u32_with_separate_pointers *)
Definition bc1_std_t_portable32_u32_with_separate_pointers (c : cfg) (input_ptr : ptr) (colours_out : ptr) (indices_out : ptr) (len : Z) (m : mem) : res mem :=
  do _ <- debug_assert (c_debug c) (len mod 8 =? 0) "len . is_multiple_of ( 8 )" ;;
  do max_ptr <- ptr_add m input_ptr (len) ;;
  do s <- while_lt (c_junk c) 0 bc1_std_t_portable32_u32_with_separate_pointers_loop1 "input_ptr" max_ptr (St [] [("input_ptr", input_ptr); ("colours_out", colours_out); ("indices_out", indices_out)] m) ;;
  let m := mm s in
  do input_ptr <- getp s "input_ptr" ;;
  do colours_out <- getp s "colours_out" ;;
  do indices_out <- getp s "indices_out" ;;
  Ok m.

(** Constants of the loop at src/core/dxt-lossless-transform-bc1/src/transform/standard/transform/avx512f.rs:59 *)
Definition bc1_std_t_avx512f_permute_512_with_separate_pointers_loop1_perm_colors : list byte := [x00; x00; x00; x00; x02; x00; x00; x00; x04; x00; x00; x00; x06; x00; x00; x00; x08; x00; x00; x00; x0a; x00; x00; x00; x0c; x00; x00; x00; x0e; x00; x00; x00; x10; x00; x00; x00; x12; x00; x00; x00; x14; x00; x00; x00; x16; x00; x00; x00; x18; x00; x00; x00; x1a; x00; x00; x00; x1c; x00; x00; x00; x1e; x00; x00; x00].
Definition bc1_std_t_avx512f_permute_512_with_separate_pointers_loop1_perm_indices : list byte := [x01; x00; x00; x00; x03; x00; x00; x00; x05; x00; x00; x00; x07; x00; x00; x00; x09; x00; x00; x00; x0b; x00; x00; x00; x0d; x00; x00; x00; x0f; x00; x00; x00; x11; x00; x00; x00; x13; x00; x00; x00; x15; x00; x00; x00; x17; x00; x00; x00; x19; x00; x00; x00; x1b; x00; x00; x00; x1d; x00; x00; x00; x1f; x00; x00; x00].

(** Loop at src/core/dxt-lossless-transform-bc1/src/transform/standard/transform/avx512f.rs:59. *)
Definition bc1_std_t_avx512f_permute_512_with_separate_pointers_loop1 : list instr :=
  [ILoad "zmm2" "src_ptr" 0 64;
    ILoad "zmm3" "src_ptr" 64 64;
    IAddAsm "src_ptr" 128;
    IOp "zmm6" (OMov) ["zmm2"];
    IOp "zmm6" (OPermT2 4 16) ["zmm6"; "perm_colors"; "zmm3"];
    IOp "zmm2" (OPermT2 4 16) ["zmm2"; "perm_indices"; "zmm3"];
    IStore "colors_ptr" 0 64 "zmm6";
    IAddAsm "colors_ptr" 64;
    IStore "indices_ptr" 0 64 "zmm2";
    IAddAsm "indices_ptr" 64].

(** src/core/dxt-lossless-transform-bc1/src/transform/standard/transform/avx512f.rs:40-106, fn permute_512_with_separate_pointers *)
Definition bc1_std_t_avx512f_permute_512_with_separate_pointers (c : cfg) (input_ptr : ptr) (colors_out : ptr) (indices_out : ptr) (len : Z) (m : mem) : res mem :=
  do _ <- cpu_has (c_sse2 c && c_avx512f c) "sse2 avx512f" ;;
  do _ <- debug_assert (c_debug c) (len mod 8 =? 0) "len . is_multiple_of ( 8 )" ;;
  do aligned_len <- usub len (len mod 128) ;;
  do (colors_out, indices_out, input_ptr, m) <- (
    if (0 <? aligned_len) then
      do aligned_end_input <- ptr_add m input_ptr (aligned_len) ;;
      do s <- asm_jb (c_junk c) 0 bc1_std_t_avx512f_permute_512_with_separate_pointers_loop1 "src_ptr" aligned_end_input (St [("perm_colors", bc1_std_t_avx512f_permute_512_with_separate_pointers_loop1_perm_colors); ("perm_indices", bc1_std_t_avx512f_permute_512_with_separate_pointers_loop1_perm_indices)] [("src_ptr", input_ptr); ("colors_ptr", colors_out); ("indices_ptr", indices_out)] m) ;;
      let m := mm s in
      do input_ptr <- getp s "src_ptr" ;;
      do colors_out <- getp s "colors_ptr" ;;
      do indices_out <- getp s "indices_ptr" ;;
      Ok (colors_out, indices_out, input_ptr, m)
    else
      Ok (colors_out, indices_out, input_ptr, m)
  ) ;;
  do remaining <- usub len aligned_len ;;
  do m <- bc1_std_t_portable32_u32_with_separate_pointers c input_ptr colors_out indices_out remaining m ;;
  Ok m.

(** src/core/dxt-lossless-transform-bc1/src/transform/standard/transform/avx512f.rs:20-27, fn permute_512 *)
Definition bc1_std_t_avx512f_permute_512 (c : cfg) (input_ptr : ptr) (output_ptr : ptr) (len : Z) (m : mem) : res mem :=
  do _ <- cpu_has (c_avx512f c) "avx512f" ;;
  do _ <- debug_assert (c_debug c) (len mod 8 =? 0) "len . is_multiple_of ( 8 )" ;;
  let colors_ptr := output_ptr in
  do indices_ptr <- ptr_add m output_ptr (len / 2) ;;
  do m <- bc1_std_t_avx512f_permute_512_with_separate_pointers c input_ptr colors_ptr indices_ptr len m ;;
  Ok m.

(** Loop at src/core/dxt-lossless-transform-bc1/src/transform/standard/transform/avx2.rs:43. *)
Definition bc1_std_t_avx2_shuffle_permute_unroll_2_with_separate_pointers_loop1 : list instr :=
  [ILoad "ymm0" "src_ptr" 0 32;
    ILoad "ymm1" "src_ptr" 32 32;
    ILoad "ymm4" "src_ptr" 64 32;
    ILoad "ymm5" "src_ptr" 96 32;
    IAddAsm "src_ptr" 128;
    IOp "ymm2" (OShufps 2 136) ["ymm0"; "ymm1"];
    IOp "ymm2" (OPermq 216) ["ymm2"];
    IOp "ymm3" (OShufps 2 221) ["ymm0"; "ymm1"];
    IOp "ymm3" (OPermq 216) ["ymm3"];
    IOp "ymm6" (OShufps 2 136) ["ymm4"; "ymm5"];
    IOp "ymm6" (OPermq 216) ["ymm6"];
    IOp "ymm7" (OShufps 2 221) ["ymm4"; "ymm5"];
    IOp "ymm7" (OPermq 216) ["ymm7"];
    IStore "colors_ptr" 0 32 "ymm2";
    IStore "indices_ptr" 0 32 "ymm3";
    IStore "colors_ptr" 32 32 "ymm6";
    IStore "indices_ptr" 32 32 "ymm7";
    IAddAsm "colors_ptr" 64;
    IAddAsm "indices_ptr" 64].

(** src/core/dxt-lossless-transform-bc1/src/transform/standard/transform/avx2.rs:30-100, fn shuffle_permute_unroll_2_with_separate_pointers *)
Definition bc1_std_t_avx2_shuffle_permute_unroll_2_with_separate_pointers (c : cfg) (input_ptr : ptr) (colors_out : ptr) (indices_out : ptr) (len : Z) (m : mem) : res mem :=
  do _ <- cpu_has (c_avx2 c) "avx2" ;;
  do _ <- debug_assert (c_debug c) (len mod 8 =? 0) "len . is_multiple_of ( 8 )" ;;
  do aligned_len <- usub len (len mod 128) ;;
  do (colors_out, indices_out, input_ptr, m) <- (
    if (0 <? aligned_len) then
      do aligned_end <- ptr_add m input_ptr (aligned_len) ;;
      do s <- asm_jb (c_junk c) 0 bc1_std_t_avx2_shuffle_permute_unroll_2_with_separate_pointers_loop1 "src_ptr" aligned_end (St [] [("src_ptr", input_ptr); ("colors_ptr", colors_out); ("indices_ptr", indices_out)] m) ;;
      let m := mm s in
      do input_ptr <- getp s "src_ptr" ;;
      do colors_out <- getp s "colors_ptr" ;;
      do indices_out <- getp s "indices_ptr" ;;
      Ok (colors_out, indices_out, input_ptr, m)
    else
      Ok (colors_out, indices_out, input_ptr, m)
  ) ;;
  do remaining <- usub len aligned_len ;;
  do m <- bc1_std_t_portable32_u32_with_separate_pointers c input_ptr colors_out indices_out remaining m ;;
  Ok m.

(** src/core/dxt-lossless-transform-bc1/src/transform/standard/transform/avx2.rs:10-20, fn shuffle_permute_unroll_2 *)
Definition bc1_std_t_avx2_shuffle_permute_unroll_2 (c : cfg) (input_ptr : ptr) (output_ptr : ptr) (len : Z) (m : mem) : res mem :=
  do _ <- cpu_has (c_avx2 c) "avx2" ;;
  let colors_ptr := output_ptr in
  do indices_ptr <- ptr_add m output_ptr (len / 2) ;;
  do m <- bc1_std_t_avx2_shuffle_permute_unroll_2_with_separate_pointers c input_ptr colors_ptr indices_ptr len m ;;
  Ok m.

(** Loop at src/core/dxt-lossless-transform-bc1/src/transform/standard/transform/sse2.rs:41. *)
Definition bc1_std_t_sse2_shufps_unroll_4_with_separate_pointers_loop1 : list instr :=
  [ILoad "xmm0" "src_ptr" 0 16;
    ILoad "xmm1" "src_ptr" 16 16;
    ILoad "xmm2" "src_ptr" 32 16;
    ILoad "xmm3" "src_ptr" 48 16;
    IAddAsm "src_ptr" 64;
    IOp "xmm4" (OMov) ["xmm0"];
    IOp "xmm5" (OMov) ["xmm2"];
    IOp "xmm0" (OShufps 1 221) ["xmm0"; "xmm1"];
    IOp "xmm2" (OShufps 1 221) ["xmm2"; "xmm3"];
    IOp "xmm4" (OShufps 1 136) ["xmm4"; "xmm1"];
    IOp "xmm5" (OShufps 1 136) ["xmm5"; "xmm3"];
    IStore "indices_ptr" 0 16 "xmm0";
    IStore "indices_ptr" 16 16 "xmm2";
    IAddAsm "indices_ptr" 32;
    IStore "colors_ptr" 0 16 "xmm4";
    IStore "colors_ptr" 16 16 "xmm5";
    IAddAsm "colors_ptr" 32].

(** src/core/dxt-lossless-transform-bc1/src/transform/standard/transform/sse2.rs:28-92, fn shufps_unroll_4_with_separate_pointers *)
Definition bc1_std_t_sse2_shufps_unroll_4_with_separate_pointers (c : cfg) (input_ptr : ptr) (colors_out : ptr) (indices_out : ptr) (len : Z) (m : mem) : res mem :=
  do _ <- cpu_has (c_sse2 c) "sse2" ;;
  do _ <- debug_assert (c_debug c) (len mod 8 =? 0) "len . is_multiple_of ( 8 )" ;;
  do aligned_len <- usub len (len mod 64) ;;
  do aligned_end <- ptr_add m input_ptr (aligned_len) ;;
  do (aligned_end, colors_out, indices_out, input_ptr, m) <- (
    if (0 <? aligned_len) then
      do s <- asm_jb (c_junk c) 0 bc1_std_t_sse2_shufps_unroll_4_with_separate_pointers_loop1 "src_ptr" aligned_end (St [] [("src_ptr", input_ptr); ("indices_ptr", indices_out); ("colors_ptr", colors_out)] m) ;;
      let m := mm s in
      do input_ptr <- getp s "src_ptr" ;;
      do indices_out <- getp s "indices_ptr" ;;
      do colors_out <- getp s "colors_ptr" ;;
      Ok (aligned_end, colors_out, indices_out, input_ptr, m)
    else
      Ok (aligned_end, colors_out, indices_out, input_ptr, m)
  ) ;;
  do remaining <- usub len aligned_len ;;
  do m <- bc1_std_t_portable32_u32_with_separate_pointers c input_ptr colors_out indices_out remaining m ;;
  Ok m.

(** src/core/dxt-lossless-transform-bc1/src/transform/standard/transform/sse2.rs:10-19, fn shufps_unroll_4 *)
Definition bc1_std_t_sse2_shufps_unroll_4 (c : cfg) (input_ptr : ptr) (output_ptr : ptr) (len : Z) (m : mem) : res mem :=
  do _ <- cpu_has (c_sse2 c) "sse2" ;;
  let colors_ptr := output_ptr in
  do indices_ptr <- ptr_add m output_ptr (len / 2) ;;
  do m <- bc1_std_t_sse2_shufps_unroll_4_with_separate_pointers c input_ptr colors_ptr indices_ptr len m ;;
  Ok m.

(** src/core/dxt-lossless-transform-bc1/src/transform/standard/transform/portable32.rs:8-16, fn u32 *)
Definition bc1_std_t_portable32_u32 (c : cfg) (input_ptr : ptr) (output_ptr : ptr) (len : Z) (m : mem) : res mem :=
  do _ <- debug_assert (c_debug c) (len mod 8 =? 0) "len . is_multiple_of ( 8 )" ;;
  let colours_ptr := output_ptr in
  do indices_ptr <- ptr_add m output_ptr (len / 2) ;;
  do m <- bc1_std_t_portable32_u32_with_separate_pointers c input_ptr colours_ptr indices_ptr len m ;;
  Ok m.

(** src/core/dxt-lossless-transform-bc1/src/transform/standard/transform/mod.rs:77-119, fn transform_x86 *)
Definition bc1_std_t_transform_x86 (c : cfg) (input_ptr : ptr) (output_ptr : ptr) (len : Z) (m : mem) : res mem :=
  if negb (c_static c) then
    if has_avx512f c then
      do m <- bc1_std_t_avx512f_permute_512 c input_ptr output_ptr len m ;;
      Ok m
    else
      if has_avx2 c then
        do m <- bc1_std_t_avx2_shuffle_permute_unroll_2 c input_ptr output_ptr len m ;;
        Ok m
      else
        if has_sse2 c then
          do m <- bc1_std_t_sse2_shufps_unroll_4 c input_ptr output_ptr len m ;;
          Ok m
        else
          do m <- bc1_std_t_portable32_u32 c input_ptr output_ptr len m ;;
          Ok m
  else
    if c_avx512f c then
      do m <- bc1_std_t_avx512f_permute_512 c input_ptr output_ptr len m ;;
      Ok m
    else
      if c_avx2 c then
        do m <- bc1_std_t_avx2_shuffle_permute_unroll_2 c input_ptr output_ptr len m ;;
        Ok m
      else
        if c_sse2 c then
          do m <- bc1_std_t_sse2_shufps_unroll_4 c input_ptr output_ptr len m ;;
          Ok m
        else
          do m <- bc1_std_t_portable32_u32 c input_ptr output_ptr len m ;;
          Ok m.

(** src/core/dxt-lossless-transform-bc1/src/transform/standard/transform/mod.rs:25-37, fn transform *)
Definition bc1_std_t_transform (c : cfg) (input_ptr : ptr) (output_ptr : ptr) (len : Z) (m : mem) : res mem :=
  do _ <- debug_assert (c_debug c) (len mod 8 =? 0) "len . is_multiple_of ( 8 )" ;;
  if is_x86 c then
    do m <- bc1_std_t_transform_x86 c input_ptr output_ptr len m ;;
    Ok m
  else
    do m <- bc1_std_t_portable32_u32 c input_ptr output_ptr len m ;;
    Ok m.

(** Loop at src/core/dxt-lossless-transform-bc1/src/transform/standard/untransform/portable32.rs:36. *)
Definition bc1_std_u_portable32_u32_untransform_with_separate_pointers_loop1 : list instr :=
  [ILoad "index_value" "indices_ptr" 0 4;
    IAdd "indices_ptr" 4;
    ILoad "color_value" "colours_ptr" 0 4;
    IAdd "colours_ptr" 4;
    IStore "output_ptr" 0 4 "color_value";
    IStore "output_ptr" 4 4 "index_value";
    IAdd "output_ptr" 8].

(** src/core/dxt-lossless-transform-bc1/src/transform/standard/untransform/portable32.rs:25-51, fn u32_untransform_with_separate_pointers *)
Definition bc1_std_u_portable32_u32_untransform_with_separate_pointers (c : cfg) (colours_ptr : ptr) (indices_ptr : ptr) (output_ptr : ptr) (len : Z) (m : mem) : res mem :=
  do _ <- debug_assert (c_debug c) (len mod 8 =? 0) "len . is_multiple_of ( 8 )" ;;
  do max_indices_ptr <- ptr_add m indices_ptr ((len / 8) * 4) ;;
  do s <- while_lt (c_junk c) 0 bc1_std_u_portable32_u32_untransform_with_separate_pointers_loop1 "indices_ptr" max_indices_ptr (St [] [("indices_ptr", indices_ptr); ("colours_ptr", colours_ptr); ("output_ptr", output_ptr)] m) ;;
  let m := mm s in
  do indices_ptr <- getp s "indices_ptr" ;;
  do colours_ptr <- getp s "colours_ptr" ;;
  do output_ptr <- getp s "output_ptr" ;;
  Ok m.

(** Constants of the loop at src/core/dxt-lossless-transform-bc1/src/transform/standard/untransform/avx512f.rs:59 *)
Definition bc1_std_u_avx512f_permute_512_untransform_unroll_2_with_components_loop1_perm_low : list byte := [x00; x00; x00; x00; x10; x00; x00; x00; x01; x00; x00; x00; x11; x00; x00; x00; x02; x00; x00; x00; x12; x00; x00; x00; x03; x00; x00; x00; x13; x00; x00; x00; x04; x00; x00; x00; x14; x00; x00; x00; x05; x00; x00; x00; x15; x00; x00; x00; x06; x00; x00; x00; x16; x00; x00; x00; x07; x00; x00; x00; x17; x00; x00; x00].
Definition bc1_std_u_avx512f_permute_512_untransform_unroll_2_with_components_loop1_perm_high : list byte := [x08; x00; x00; x00; x18; x00; x00; x00; x09; x00; x00; x00; x19; x00; x00; x00; x0a; x00; x00; x00; x1a; x00; x00; x00; x0b; x00; x00; x00; x1b; x00; x00; x00; x0c; x00; x00; x00; x1c; x00; x00; x00; x0d; x00; x00; x00; x1d; x00; x00; x00; x0e; x00; x00; x00; x1e; x00; x00; x00; x0f; x00; x00; x00; x1f; x00; x00; x00].

(** Loop at src/core/dxt-lossless-transform-bc1/src/transform/standard/untransform/avx512f.rs:59. *)
Definition bc1_std_u_avx512f_permute_512_untransform_unroll_2_with_components_loop1 : list instr :=
  [ILoad "zmm4" "colors_ptr" 0 64;
    ILoad "zmm5" "colors_ptr" 64 64;
    IAddAsm "colors_ptr" 128;
    ILoad "zmm3" "indices_ptr" 0 64;
    ILoad "zmm2" "indices_ptr" 64 64;
    IAddAsm "indices_ptr" 128;
    IOp "zmm6" (OMov) ["zmm4"];
    IOp "zmm6" (OPermT2 4 16) ["zmm6"; "perm_low"; "zmm3"];
    IOp "zmm4" (OPermT2 4 16) ["zmm4"; "perm_high"; "zmm3"];
    IOp "zmm3" (OMov) ["zmm5"];
    IOp "zmm3" (OPermT2 4 16) ["zmm3"; "perm_low"; "zmm2"];
    IOp "zmm5" (OPermT2 4 16) ["zmm5"; "perm_high"; "zmm2"];
    IStore "dst_ptr" 0 64 "zmm6";
    IStore "dst_ptr" 64 64 "zmm4";
    IStore "dst_ptr" 128 64 "zmm3";
    IStore "dst_ptr" 192 64 "zmm5";
    IAddAsm "dst_ptr" 256].

(** src/core/dxt-lossless-transform-bc1/src/transform/standard/untransform/avx512f.rs:36-116, fn permute_512_untransform_unroll_2_with_components *)
Definition bc1_std_u_avx512f_permute_512_untransform_unroll_2_with_components (c : cfg) (output_ptr : ptr) (len : Z) (indices_in : ptr) (colors_in : ptr) (m : mem) : res mem :=
  do _ <- cpu_has (c_sse2 c && c_avx512f c) "sse2 avx512f" ;;
  do _ <- debug_assert (c_debug c) (len mod 8 =? 0) "len . is_multiple_of ( 8 ) , 'len must be divisible by 8'" ;;
  do aligned_len <- usub len (len mod 256) ;;
  do colors_aligned_end <- ptr_add m colors_in (aligned_len / 2) ;;
  do (colors_in, indices_in, output_ptr, m) <- (
    if (0 <? aligned_len) then
      do s <- asm_jb (c_junk c) 0 bc1_std_u_avx512f_permute_512_untransform_unroll_2_with_components_loop1 "colors_ptr" colors_aligned_end (St [("perm_low", bc1_std_u_avx512f_permute_512_untransform_unroll_2_with_components_loop1_perm_low); ("perm_high", bc1_std_u_avx512f_permute_512_untransform_unroll_2_with_components_loop1_perm_high)] [("colors_ptr", colors_in); ("indices_ptr", indices_in); ("dst_ptr", output_ptr)] m) ;;
      let m := mm s in
      do colors_in <- getp s "colors_ptr" ;;
      do indices_in <- getp s "indices_ptr" ;;
      do output_ptr <- getp s "dst_ptr" ;;
      Ok (colors_in, indices_in, output_ptr, m)
    else
      Ok (colors_in, indices_in, output_ptr, m)
  ) ;;
  do remaining <- usub len aligned_len ;;
  do m <- bc1_std_u_portable32_u32_untransform_with_separate_pointers c colors_in indices_in output_ptr remaining m ;;
  Ok m.

(** src/core/dxt-lossless-transform-bc1/src/transform/standard/untransform/avx512f.rs:16-27, fn permute_512_untransform_unroll_2 *)
Definition bc1_std_u_avx512f_permute_512_untransform_unroll_2 (c : cfg) (input_ptr : ptr) (output_ptr : ptr) (len : Z) (m : mem) : res mem :=
  do _ <- cpu_has (c_avx512f c) "avx512f" ;;
  do _ <- debug_assert (c_debug c) (len mod 8 =? 0) "len . is_multiple_of ( 8 )" ;;
  do indices_ptr <- ptr_add m input_ptr (len / 2) ;;
  let colors_ptr := input_ptr in
  do m <- bc1_std_u_avx512f_permute_512_untransform_unroll_2_with_components c output_ptr len indices_ptr colors_ptr m ;;
  Ok m.

(** Loop at src/core/dxt-lossless-transform-bc1/src/transform/standard/untransform/avx2.rs:43. *)
Definition bc1_std_u_avx2_permd_untransform_unroll_2_with_components_loop1 : list instr :=
  [ILoad "t1" "colors_ptr" 0 32;
    IOp "ymm0" (OPermq 216) ["t1"];
    ILoad "t2" "indices_ptr" 0 32;
    IOp "ymm1" (OPermq 216) ["t2"];
    ILoad "t3" "colors_ptr" 32 32;
    IOp "ymm4" (OPermq 216) ["t3"];
    ILoad "t4" "indices_ptr" 32 32;
    IOp "ymm5" (OPermq 216) ["t4"];
    IAddAsm "colors_ptr" 64;
    IAddAsm "indices_ptr" 64;
    IOp "ymm2" (OUnpackLo 4 2) ["ymm0"; "ymm1"];
    IOp "ymm3" (OUnpackHi 4 2) ["ymm0"; "ymm1"];
    IOp "ymm6" (OUnpackLo 4 2) ["ymm4"; "ymm5"];
    IOp "ymm7" (OUnpackHi 4 2) ["ymm4"; "ymm5"];
    IStore "dst_ptr" 0 32 "ymm2";
    IStore "dst_ptr" 32 32 "ymm3";
    IStore "dst_ptr" 64 32 "ymm6";
    IStore "dst_ptr" 96 32 "ymm7";
    IAddAsm "dst_ptr" 128].

(** src/core/dxt-lossless-transform-bc1/src/transform/standard/untransform/avx2.rs:30-102, fn permd_untransform_unroll_2_with_components *)
Definition bc1_std_u_avx2_permd_untransform_unroll_2_with_components (c : cfg) (output_ptr : ptr) (len : Z) (indices_in : ptr) (colors_in : ptr) (m : mem) : res mem :=
  do _ <- cpu_has (c_avx2 c) "avx2" ;;
  do _ <- debug_assert (c_debug c) (len mod 8 =? 0) "len . is_multiple_of ( 8 ) , 'len must be divisible by 8'" ;;
  do aligned_len <- usub len (len mod 128) ;;
  do colors_aligned_end <- ptr_add m colors_in (aligned_len / 2) ;;
  do (colors_in, indices_in, output_ptr, m) <- (
    if (0 <? aligned_len) then
      do s <- asm_jb (c_junk c) 0 bc1_std_u_avx2_permd_untransform_unroll_2_with_components_loop1 "colors_ptr" colors_aligned_end (St [] [("colors_ptr", colors_in); ("indices_ptr", indices_in); ("dst_ptr", output_ptr)] m) ;;
      let m := mm s in
      do colors_in <- getp s "colors_ptr" ;;
      do indices_in <- getp s "indices_ptr" ;;
      do output_ptr <- getp s "dst_ptr" ;;
      Ok (colors_in, indices_in, output_ptr, m)
    else
      Ok (colors_in, indices_in, output_ptr, m)
  ) ;;
  do remaining <- usub len aligned_len ;;
  do m <- bc1_std_u_portable32_u32_untransform_with_separate_pointers c colors_in indices_in output_ptr remaining m ;;
  Ok m.

(** src/core/dxt-lossless-transform-bc1/src/transform/standard/untransform/avx2.rs:10-21, fn permd_untransform_unroll_2 *)
Definition bc1_std_u_avx2_permd_untransform_unroll_2 (c : cfg) (input_ptr : ptr) (output_ptr : ptr) (len : Z) (m : mem) : res mem :=
  do _ <- cpu_has (c_avx2 c) "avx2" ;;
  do _ <- debug_assert (c_debug c) (len mod 8 =? 0) "len . is_multiple_of ( 8 )" ;;
  do indices_ptr <- ptr_add m input_ptr (len / 2) ;;
  let colors_ptr := input_ptr in
  do m <- bc1_std_u_avx2_permd_untransform_unroll_2_with_components c output_ptr len indices_ptr colors_ptr m ;;
  Ok m.

(** Loop at src/core/dxt-lossless-transform-bc1/src/transform/standard/untransform/sse2.rs:41. *)
Definition bc1_std_u_sse2_unpck_untransform_unroll_2_with_components_loop1 : list instr :=
  [ILoad "xmm0" "colors_ptr" 0 16;
    ILoad "xmm3" "colors_ptr" 16 16;
    IAddAsm "colors_ptr" 32;
    ILoad "xmm1" "indices_ptr" 0 16;
    ILoad "xmm4" "indices_ptr" 16 16;
    IAddAsm "indices_ptr" 32;
    IOp "xmm2" (OMov) ["xmm0"];
    IOp "xmm5" (OMov) ["xmm3"];
    IOp "xmm0" (OUnpackLo 4 1) ["xmm0"; "xmm1"];
    IOp "xmm3" (OUnpackLo 4 1) ["xmm3"; "xmm4"];
    IOp "xmm2" (OUnpackHi 4 1) ["xmm2"; "xmm1"];
    IOp "xmm5" (OUnpackHi 4 1) ["xmm5"; "xmm4"];
    IStore "dst_ptr" 0 16 "xmm0";
    IStore "dst_ptr" 16 16 "xmm2";
    IStore "dst_ptr" 32 16 "xmm3";
    IStore "dst_ptr" 48 16 "xmm5";
    IAddAsm "dst_ptr" 64].

(** src/core/dxt-lossless-transform-bc1/src/transform/standard/untransform/sse2.rs:29-96, fn unpck_untransform_unroll_2_with_components *)
Definition bc1_std_u_sse2_unpck_untransform_unroll_2_with_components (c : cfg) (output_ptr : ptr) (len : Z) (indices_in : ptr) (colors_in : ptr) (m : mem) : res mem :=
  do _ <- cpu_has (c_sse2 c) "sse2" ;;
  do _ <- debug_assert (c_debug c) (len mod 8 =? 0) "len . is_multiple_of ( 8 )" ;;
  do aligned_len <- usub len (len mod 64) ;;
  do colors_aligned_end <- ptr_add m colors_in (aligned_len / 2) ;;
  do (colors_in, indices_in, output_ptr, m) <- (
    if (0 <? aligned_len) then
      do s <- asm_jb (c_junk c) 0 bc1_std_u_sse2_unpck_untransform_unroll_2_with_components_loop1 "colors_ptr" colors_aligned_end (St [] [("colors_ptr", colors_in); ("indices_ptr", indices_in); ("dst_ptr", output_ptr)] m) ;;
      let m := mm s in
      do colors_in <- getp s "colors_ptr" ;;
      do indices_in <- getp s "indices_ptr" ;;
      do output_ptr <- getp s "dst_ptr" ;;
      Ok (colors_in, indices_in, output_ptr, m)
    else
      Ok (colors_in, indices_in, output_ptr, m)
  ) ;;
  do remaining <- usub len aligned_len ;;
  do m <- bc1_std_u_portable32_u32_untransform_with_separate_pointers c colors_in indices_in output_ptr remaining m ;;
  Ok m.

(** src/core/dxt-lossless-transform-bc1/src/transform/standard/untransform/sse2.rs:10-20, fn unpck_untransform_unroll_2 *)
Definition bc1_std_u_sse2_unpck_untransform_unroll_2 (c : cfg) (input_ptr : ptr) (output_ptr : ptr) (len : Z) (m : mem) : res mem :=
  do _ <- cpu_has (c_sse2 c) "sse2" ;;
  do _ <- debug_assert (c_debug c) (len mod 8 =? 0) "len . is_multiple_of ( 8 )" ;;
  do indices_ptr <- ptr_add m input_ptr (len / 2) ;;
  let colors_ptr := input_ptr in
  do m <- bc1_std_u_sse2_unpck_untransform_unroll_2_with_components c output_ptr len indices_ptr colors_ptr m ;;
  Ok m.

(** src/core/dxt-lossless-transform-bc1/src/transform/standard/untransform/portable32.rs:8-16, fn u32_untransform *)
Definition bc1_std_u_portable32_u32_untransform (c : cfg) (input_ptr : ptr) (output_ptr : ptr) (len : Z) (m : mem) : res mem :=
  do _ <- debug_assert (c_debug c) (len mod 8 =? 0) "len . is_multiple_of ( 8 )" ;;
  let colours_ptr := input_ptr in
  do indices_ptr <- ptr_add m input_ptr (len / 2) ;;
  do m <- bc1_std_u_portable32_u32_untransform_with_separate_pointers c colours_ptr indices_ptr output_ptr len m ;;
  Ok m.

(** src/core/dxt-lossless-transform-bc1/src/transform/standard/untransform/mod.rs:17-56, fn untransform_x86 *)
Definition bc1_std_u_untransform_x86 (c : cfg) (input_ptr : ptr) (output_ptr : ptr) (len : Z) (m : mem) : res mem :=
  if negb (c_static c) then
    if has_avx512f c then
      do m <- bc1_std_u_avx512f_permute_512_untransform_unroll_2 c input_ptr output_ptr len m ;;
      Ok m
    else
      if has_avx2 c then
        do m <- bc1_std_u_avx2_permd_untransform_unroll_2 c input_ptr output_ptr len m ;;
        Ok m
      else
        if has_sse2 c then
          do m <- bc1_std_u_sse2_unpck_untransform_unroll_2 c input_ptr output_ptr len m ;;
          Ok m
        else
          do m <- bc1_std_u_portable32_u32_untransform c input_ptr output_ptr len m ;;
          Ok m
  else
    if c_avx512f c then
      do m <- bc1_std_u_avx512f_permute_512_untransform_unroll_2 c input_ptr output_ptr len m ;;
      Ok m
    else
      if c_avx2 c then
        do m <- bc1_std_u_avx2_permd_untransform_unroll_2 c input_ptr output_ptr len m ;;
        Ok m
      else
        if c_sse2 c then
          do m <- bc1_std_u_sse2_unpck_untransform_unroll_2 c input_ptr output_ptr len m ;;
          Ok m
        else
          do m <- bc1_std_u_portable32_u32_untransform c input_ptr output_ptr len m ;;
          Ok m.

(** src/core/dxt-lossless-transform-bc1/src/transform/standard/untransform/mod.rs:68-80, fn untransform *)
Definition bc1_std_u_untransform (c : cfg) (input_ptr : ptr) (output_ptr : ptr) (len : Z) (m : mem) : res mem :=
  do _ <- debug_assert (c_debug c) (len mod 8 =? 0) "len . is_multiple_of ( 8 )" ;;
  if is_x86 c then
    do m <- bc1_std_u_untransform_x86 c input_ptr output_ptr len m ;;
    Ok m
  else
    do m <- bc1_std_u_portable32_u32_untransform c input_ptr output_ptr len m ;;
    Ok m.

(** src/core/dxt-lossless-transform-bc1/src/transform/standard/transform/mod.rs:124-180, fn transform_with_separate_pointers_x86 *)
Definition bc1_std_t_transform_with_separate_pointers_x86 (c : cfg) (input_ptr : ptr) (colors_ptr : ptr) (indices_ptr : ptr) (len : Z) (m : mem) : res mem :=
  if negb (c_static c) then
    if has_avx512f c then
      do m <- bc1_std_t_avx512f_permute_512_with_separate_pointers c input_ptr colors_ptr indices_ptr len m ;;
      Ok m
    else
      if has_avx2 c then
        do m <- bc1_std_t_avx2_shuffle_permute_unroll_2_with_separate_pointers c input_ptr colors_ptr indices_ptr len m ;;
        Ok m
      else
        if has_sse2 c then
          do m <- bc1_std_t_sse2_shufps_unroll_4_with_separate_pointers c input_ptr colors_ptr indices_ptr len m ;;
          Ok m
        else
          do m <- bc1_std_t_portable32_u32_with_separate_pointers c input_ptr colors_ptr indices_ptr len m ;;
          Ok m
  else
    if c_avx512f c then
      do m <- bc1_std_t_avx512f_permute_512_with_separate_pointers c input_ptr colors_ptr indices_ptr len m ;;
      Ok m
    else
      if c_avx2 c then
        do m <- bc1_std_t_avx2_shuffle_permute_unroll_2_with_separate_pointers c input_ptr colors_ptr indices_ptr len m ;;
        Ok m
      else
        if c_sse2 c then
          do m <- bc1_std_t_sse2_shufps_unroll_4_with_separate_pointers c input_ptr colors_ptr indices_ptr len m ;;
          Ok m
        else
          do m <- bc1_std_t_portable32_u32_with_separate_pointers c input_ptr colors_ptr indices_ptr len m ;;
          Ok m.

(** src/core/dxt-lossless-transform-bc1/src/transform/standard/transform/mod.rs:56-73, fn transform_with_separate_pointers *)
Definition bc1_std_t_transform_with_separate_pointers (c : cfg) (input_ptr : ptr) (colors_ptr : ptr) (indices_ptr : ptr) (len : Z) (m : mem) : res mem :=
  do _ <- debug_assert (c_debug c) (len mod 8 =? 0) "len . is_multiple_of ( 8 )" ;;
  if is_x86 c then
    do m <- bc1_std_t_transform_with_separate_pointers_x86 c input_ptr colors_ptr indices_ptr len m ;;
    Ok m
  else
    do m <- bc1_std_t_portable32_u32_with_separate_pointers c input_ptr colors_ptr indices_ptr len m ;;
    Ok m.

(** src/core/dxt-lossless-transform-bc1/src/transform/standard/untransform/mod.rs:85-160, fn untransform_with_separate_pointers_x86 *)
Definition bc1_std_u_untransform_with_separate_pointers_x86 (c : cfg) (colors_ptr : ptr) (indices_ptr : ptr) (output_ptr : ptr) (len : Z) (m : mem) : res mem :=
  if negb (c_static c) then
    if has_avx512f c then
      do m <- bc1_std_u_avx512f_permute_512_untransform_unroll_2_with_components c output_ptr len indices_ptr colors_ptr m ;;
      Ok m
    else
      if has_avx2 c then
        do m <- bc1_std_u_avx2_permd_untransform_unroll_2_with_components c output_ptr len indices_ptr colors_ptr m ;;
        Ok m
      else
        if has_sse2 c then
          do m <- bc1_std_u_sse2_unpck_untransform_unroll_2_with_components c output_ptr len indices_ptr colors_ptr m ;;
          Ok m
        else
          do m <- bc1_std_u_portable32_u32_untransform_with_separate_pointers c colors_ptr indices_ptr output_ptr len m ;;
          Ok m
  else
    if c_avx512f c then
      do m <- bc1_std_u_avx512f_permute_512_untransform_unroll_2_with_components c output_ptr len indices_ptr colors_ptr m ;;
      Ok m
    else
      if c_avx2 c then
        do m <- bc1_std_u_avx2_permd_untransform_unroll_2_with_components c output_ptr len indices_ptr colors_ptr m ;;
        Ok m
      else
        if c_sse2 c then
          do m <- bc1_std_u_sse2_unpck_untransform_unroll_2_with_components c output_ptr len indices_ptr colors_ptr m ;;
          Ok m
        else
          do m <- bc1_std_u_portable32_u32_untransform_with_separate_pointers c colors_ptr indices_ptr output_ptr len m ;;
          Ok m.

(** src/core/dxt-lossless-transform-bc1/src/transform/standard/untransform/mod.rs:174-191, fn untransform_with_separate_pointers *)
Definition bc1_std_u_untransform_with_separate_pointers (c : cfg) (colors_ptr : ptr) (indices_ptr : ptr) (output_ptr : ptr) (len : Z) (m : mem) : res mem :=
  do _ <- debug_assert (c_debug c) (len mod 8 =? 0) "len % 8 == 0" ;;
  if is_x86 c then
    do m <- bc1_std_u_untransform_with_separate_pointers_x86 c colors_ptr indices_ptr output_ptr len m ;;
    Ok m
  else
    do m <- bc1_std_u_portable32_u32_untransform_with_separate_pointers c colors_ptr indices_ptr output_ptr len m ;;
    Ok m.

