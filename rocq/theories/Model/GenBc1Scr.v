(** Generated by tools/rs2v.py from the kernel sources cited below; do not edit.
    Simplifications: usize arithmetic is exact (lengths are below isize::MAX), see
    Model/Kernel.v for the machine. *)
From Verif Require Import Base.Bytes Base.Res Model.Color565 Model.Ycc Model.Kernel Model.GenBc1Std Model.ColorBatch.
Open Scope string_scope.
Open Scope list_scope.
Open Scope Z_scope.

(** Loop at src/core/dxt-lossless-transform-bc1/src/transform/with_split_colour_and_recorr/transform/generic.rs:47. *)
Definition bc1_scr_t_generic_transform_split_decorr_loop1 : list instr :=
  [ILoad "color0_raw" "input_ptr" 0 2;
    ILoad "color1_raw" "input_ptr" 2 2;
    ILoad "indices" "input_ptr" 4 4;
    IAdd "input_ptr" 8;
    IOp "color0" (OMov) ["color0_raw"];
    IOp "color1" (OMov) ["color1_raw"];
    IOp "decorr0" (OYcc Scalar Dec V1 V2 V3) ["color0"];
    IOp "decorr1" (OYcc Scalar Dec V1 V2 V3) ["color1"];
    IStore "color0_ptr" 0 2 "decorr0";
    IStore "color1_ptr" 0 2 "decorr1";
    IStore "indices_ptr" 0 4 "indices";
    IAdd "color0_ptr" 2;
    IAdd "color1_ptr" 2;
    IAdd "indices_ptr" 4].

(** src/core/dxt-lossless-transform-bc1/src/transform/with_split_colour_and_recorr/transform/generic.rs:39-84, fn transform_split_decorr *)
Definition bc1_scr_t_generic_transform_split_decorr (c : cfg) (VARIANT : Z) (input_ptr : ptr) (color0_ptr : ptr) (color1_ptr : ptr) (indices_ptr : ptr) (block_count : Z) (m : mem) : res mem :=
  do input_end <- ptr_add m input_ptr (block_count * 8) ;;
  do s <- while_lt (c_junk c) VARIANT bc1_scr_t_generic_transform_split_decorr_loop1 "input_ptr" input_end (St [] [("input_ptr", input_ptr); ("color0_ptr", color0_ptr); ("color1_ptr", color1_ptr); ("indices_ptr", indices_ptr)] m) ;;
  let m := mm s in
  do input_ptr <- getp s "input_ptr" ;;
  do color0_ptr <- getp s "color0_ptr" ;;
  do color1_ptr <- getp s "color1_ptr" ;;
  do indices_ptr <- getp s "indices_ptr" ;;
  Ok m.

(** src/core/dxt-lossless-transform-bc1/src/transform/with_split_colour_and_recorr/transform/generic.rs:17-37, fn transform_with_split_colour_and_decorr_generic *)
Definition bc1_scr_t_generic_transform_with_split_colour_and_decorr_generic (c : cfg) (input_ptr : ptr) (color0_ptr : ptr) (color1_ptr : ptr) (indices_ptr : ptr) (block_count : Z) (decorrelation_mode : variant) (m : mem) : res mem :=
  match decorrelation_mode with
  | V1 =>
    do m <- bc1_scr_t_generic_transform_split_decorr c 1 input_ptr color0_ptr color1_ptr indices_ptr block_count m ;;
    Ok m
  | V2 =>
    do m <- bc1_scr_t_generic_transform_split_decorr c 2 input_ptr color0_ptr color1_ptr indices_ptr block_count m ;;
    Ok m
  | V3 =>
    do m <- bc1_scr_t_generic_transform_split_decorr c 3 input_ptr color0_ptr color1_ptr indices_ptr block_count m ;;
    Ok m
  | VNone =>
    do m <- Ub "unreachable_unchecked" ;;
    Ok m
  end.

(** Constants of the loop at src/core/dxt-lossless-transform-bc1/src/transform/with_split_colour_and_recorr/transform/avx512bw.rs:118 *)
Definition bc1_scr_t_avx512bw_transform_impl_loop1_perm_colors : list byte := [x00; x00; x00; x00; x02; x00; x00; x00; x04; x00; x00; x00; x06; x00; x00; x00; x08; x00; x00; x00; x0a; x00; x00; x00; x0c; x00; x00; x00; x0e; x00; x00; x00; x10; x00; x00; x00; x12; x00; x00; x00; x14; x00; x00; x00; x16; x00; x00; x00; x18; x00; x00; x00; x1a; x00; x00; x00; x1c; x00; x00; x00; x1e; x00; x00; x00].
Definition bc1_scr_t_avx512bw_transform_impl_loop1_perm_indices : list byte := [x01; x00; x00; x00; x03; x00; x00; x00; x05; x00; x00; x00; x07; x00; x00; x00; x09; x00; x00; x00; x0b; x00; x00; x00; x0d; x00; x00; x00; x0f; x00; x00; x00; x11; x00; x00; x00; x13; x00; x00; x00; x15; x00; x00; x00; x17; x00; x00; x00; x19; x00; x00; x00; x1b; x00; x00; x00; x1d; x00; x00; x00; x1f; x00; x00; x00].
Definition bc1_scr_t_avx512bw_transform_impl_loop1_perm_color0_epi16 : list byte := [x00; x00; x02; x00; x04; x00; x06; x00; x08; x00; x0a; x00; x0c; x00; x0e; x00; x10; x00; x12; x00; x14; x00; x16; x00; x18; x00; x1a; x00; x1c; x00; x1e; x00; x20; x00; x22; x00; x24; x00; x26; x00; x28; x00; x2a; x00; x2c; x00; x2e; x00; x30; x00; x32; x00; x34; x00; x36; x00; x38; x00; x3a; x00; x3c; x00; x3e; x00].
Definition bc1_scr_t_avx512bw_transform_impl_loop1_perm_color1_epi16 : list byte := [x01; x00; x03; x00; x05; x00; x07; x00; x09; x00; x0b; x00; x0d; x00; x0f; x00; x11; x00; x13; x00; x15; x00; x17; x00; x19; x00; x1b; x00; x1d; x00; x1f; x00; x21; x00; x23; x00; x25; x00; x27; x00; x29; x00; x2b; x00; x2d; x00; x2f; x00; x31; x00; x33; x00; x35; x00; x37; x00; x39; x00; x3b; x00; x3d; x00; x3f; x00].

(** Loop at src/core/dxt-lossless-transform-bc1/src/transform/with_split_colour_and_recorr/transform/avx512bw.rs:118. *)
Definition bc1_scr_t_avx512bw_transform_impl_loop1 : list instr :=
  [ILoad "in0" "input_ptr" 0 64;
    ILoad "in1" "input_ptr" 64 64;
    ILoad "in2" "input_ptr" 128 64;
    ILoad "in3" "input_ptr" 192 64;
    IAdd "input_ptr" 256;
    IOp "colors_0" (OPermT2 4 16) ["in0"; "perm_colors"; "in1"];
    IOp "colors_1" (OPermT2 4 16) ["in2"; "perm_colors"; "in3"];
    IOp "indices_0" (OPermT2 4 16) ["in0"; "perm_indices"; "in1"];
    IOp "indices_1" (OPermT2 4 16) ["in2"; "perm_indices"; "in3"];
    IOp "color0_only" (OPermT2 2 32) ["colors_0"; "perm_color0_epi16"; "colors_1"];
    IOp "color1_only" (OPermT2 2 32) ["colors_0"; "perm_color1_epi16"; "colors_1"];
    IOp "decorr_c0" (OYcc Avx512bw Dec V1 V2 V3) ["color0_only"];
    IOp "decorr_c1" (OYcc Avx512bw Dec V1 V2 V3) ["color1_only"];
    IStore "color0_ptr" 0 64 "decorr_c0";
    IStore "color1_ptr" 0 64 "decorr_c1";
    IAdd "color0_ptr" 64;
    IAdd "color1_ptr" 64;
    IStore "indices_ptr" 0 64 "indices_0";
    IStore "indices_ptr" 64 64 "indices_1";
    IAdd "indices_ptr" 128].

(** src/core/dxt-lossless-transform-bc1/src/transform/with_split_colour_and_recorr/transform/avx512bw.rs:16-179, fn transform_impl *)
Definition bc1_scr_t_avx512bw_transform_impl (c : cfg) (VARIANT : Z) (input_ptr : ptr) (color0_ptr : ptr) (color1_ptr : ptr) (indices_ptr : ptr) (block_count : Z) (m : mem) : res mem :=
  do _ <- cpu_has (c_sse2 c && c_avx512f c && c_avx512bw c) "sse2 avx512f avx512bw" ;;
  do _ <- debug_assert (c_debug c) (0 <? block_count) "block_count > 0" ;;
  do aligned_blocks <- usub block_count (block_count mod 32) ;;
  do aligned_end_input <- ptr_add m input_ptr (aligned_blocks * 8) ;;
  do s <- while_lt (c_junk c) VARIANT bc1_scr_t_avx512bw_transform_impl_loop1 "input_ptr" aligned_end_input (St [("perm_colors", bc1_scr_t_avx512bw_transform_impl_loop1_perm_colors); ("perm_indices", bc1_scr_t_avx512bw_transform_impl_loop1_perm_indices); ("perm_color0_epi16", bc1_scr_t_avx512bw_transform_impl_loop1_perm_color0_epi16); ("perm_color1_epi16", bc1_scr_t_avx512bw_transform_impl_loop1_perm_color1_epi16)] [("input_ptr", input_ptr); ("color0_ptr", color0_ptr); ("color1_ptr", color1_ptr); ("indices_ptr", indices_ptr)] m) ;;
  let m := mm s in
  do input_ptr <- getp s "input_ptr" ;;
  do color0_ptr <- getp s "color0_ptr" ;;
  do color1_ptr <- getp s "color1_ptr" ;;
  do indices_ptr <- getp s "indices_ptr" ;;
  do remaining_blocks <- usub block_count aligned_blocks ;;
  do variant_enum <- (if VARIANT =? 1 then Ok V1 else if VARIANT =? 2 then Ok V2 else if VARIANT =? 3 then Ok V3 else Ub "unreachable_unchecked") ;;
  do m <- bc1_scr_t_generic_transform_with_split_colour_and_decorr_generic c input_ptr color0_ptr color1_ptr indices_ptr remaining_blocks variant_enum m ;;
  Ok m.

(** src/core/dxt-lossless-transform-bc1/src/transform/with_split_colour_and_recorr/transform/avx512bw.rs:186-194, fn transform_decorr_var1 *)
Definition bc1_scr_t_avx512bw_transform_decorr_var1 (c : cfg) (input_ptr : ptr) (color0_out : ptr) (color1_out : ptr) (indices_out : ptr) (blocks : Z) (m : mem) : res mem :=
  do _ <- cpu_has (c_avx512f c && c_avx512bw c) "avx512f avx512bw" ;;
  do m <- bc1_scr_t_avx512bw_transform_impl c 1 input_ptr color0_out color1_out indices_out blocks m ;;
  Ok m.

(** src/core/dxt-lossless-transform-bc1/src/transform/with_split_colour_and_recorr/transform/avx512bw.rs:200-208, fn transform_decorr_var2 *)
Definition bc1_scr_t_avx512bw_transform_decorr_var2 (c : cfg) (input_ptr : ptr) (color0_out : ptr) (color1_out : ptr) (indices_out : ptr) (blocks : Z) (m : mem) : res mem :=
  do _ <- cpu_has (c_avx512f c && c_avx512bw c) "avx512f avx512bw" ;;
  do m <- bc1_scr_t_avx512bw_transform_impl c 2 input_ptr color0_out color1_out indices_out blocks m ;;
  Ok m.

(** src/core/dxt-lossless-transform-bc1/src/transform/with_split_colour_and_recorr/transform/avx512bw.rs:214-222, fn transform_decorr_var3 *)
Definition bc1_scr_t_avx512bw_transform_decorr_var3 (c : cfg) (input_ptr : ptr) (color0_out : ptr) (color1_out : ptr) (indices_out : ptr) (blocks : Z) (m : mem) : res mem :=
  do _ <- cpu_has (c_avx512f c && c_avx512bw c) "avx512f avx512bw" ;;
  do m <- bc1_scr_t_avx512bw_transform_impl c 3 input_ptr color0_out color1_out indices_out blocks m ;;
  Ok m.

(** src/core/dxt-lossless-transform-bc1/src/transform/with_split_colour_and_recorr/transform/avx512bw.rs:226-246, fn transform_with_split_colour_and_decorr *)
Definition bc1_scr_t_avx512bw_transform_with_split_colour_and_decorr (c : cfg) (input_ptr : ptr) (color0_out : ptr) (color1_out : ptr) (indices_out : ptr) (blocks : Z) (variant : variant) (m : mem) : res mem :=
  match variant with
  | V1 =>
    do m <- bc1_scr_t_avx512bw_transform_decorr_var1 c input_ptr color0_out color1_out indices_out blocks m ;;
    Ok m
  | V2 =>
    do m <- bc1_scr_t_avx512bw_transform_decorr_var2 c input_ptr color0_out color1_out indices_out blocks m ;;
    Ok m
  | V3 =>
    do m <- bc1_scr_t_avx512bw_transform_decorr_var3 c input_ptr color0_out color1_out indices_out blocks m ;;
    Ok m
  | VNone =>
    do m <- Ub "unreachable_unchecked" ;;
    Ok m
  end.

(** Constants of the loop at src/core/dxt-lossless-transform-bc1/src/transform/with_split_colour_and_recorr/transform/avx2.rs:25 *)
Definition bc1_scr_t_avx2_transform_impl_loop1_permute_idx : list byte := [x00; x00; x00; x00; x04; x00; x00; x00; x01; x00; x00; x00; x05; x00; x00; x00; x02; x00; x00; x00; x06; x00; x00; x00; x03; x00; x00; x00; x07; x00; x00; x00].

(** Loop at src/core/dxt-lossless-transform-bc1/src/transform/with_split_colour_and_recorr/transform/avx2.rs:25. *)
Definition bc1_scr_t_avx2_transform_impl_loop1 : list instr :=
  [ILoad "input_0" "input_ptr" 0 32;
    ILoad "input_1" "input_ptr" 32 32;
    ILoad "input_2" "input_ptr" 64 32;
    ILoad "input_3" "input_ptr" 96 32;
    IAdd "input_ptr" 128;
    IOp "colors_only_0" (OShufps 2 136) ["input_0"; "input_1"];
    IOp "colors_only_1" (OShufps 2 136) ["input_2"; "input_3"];
    IOp "indices_shuffled_0" (OShufps 2 221) ["input_0"; "input_1"];
    IOp "indices_blocks_0" (OPermq 216) ["indices_shuffled_0"];
    IOp "indices_shuffled_1" (OShufps 2 221) ["input_2"; "input_3"];
    IOp "indices_blocks_1" (OPermq 216) ["indices_shuffled_1"];
    IOp "colours_u32_grouped_0_lo" (OPshuflw 2 216) ["colors_only_0"];
    IOp "colours_u32_grouped_0" (OPshufhw 2 216) ["colours_u32_grouped_0_lo"];
    IOp "colours_u32_grouped_1_lo" (OPshuflw 2 216) ["colors_only_1"];
    IOp "colours_u32_grouped_1" (OPshufhw 2 216) ["colours_u32_grouped_1_lo"];
    IOp "t1" (OShufps 2 136) ["colours_u32_grouped_0"; "colours_u32_grouped_1"];
    IOp "colors_grouped_0" (OMov) ["t1"];
    IOp "t2" (OShufps 2 221) ["colours_u32_grouped_0"; "colours_u32_grouped_1"];
    IOp "colors_grouped_1" (OMov) ["t2"];
    IOp "colors_blocks_0" (OPermVar 4 8) ["permute_idx"; "colors_grouped_0"];
    IOp "colors_blocks_1" (OPermVar 4 8) ["permute_idx"; "colors_grouped_1"];
    IOp "colors_blocks_0" (OYcc Avx2 Dec V1 V2 V3) ["colors_blocks_0"];
    IOp "colors_blocks_1" (OYcc Avx2 Dec V1 V2 V3) ["colors_blocks_1"];
    IStore "color0_out" 0 32 "colors_blocks_0";
    IStore "color1_out" 0 32 "colors_blocks_1";
    IAdd "color0_out" 32;
    IAdd "color1_out" 32;
    IStore "indices_out" 0 32 "indices_blocks_0";
    IStore "indices_out" 32 32 "indices_blocks_1";
    IAdd "indices_out" 64].

(** src/core/dxt-lossless-transform-bc1/src/transform/with_split_colour_and_recorr/transform/avx2.rs:14-133, fn transform_impl *)
Definition bc1_scr_t_avx2_transform_impl (c : cfg) (VARIANT : Z) (input_ptr : ptr) (color0_out : ptr) (color1_out : ptr) (indices_out : ptr) (block_count : Z) (m : mem) : res mem :=
  do _ <- cpu_has (c_avx2 c) "avx2" ;;
  let blocks16 := block_count / 16 in
  do input_end <- ptr_add m input_ptr ((blocks16 * 16) * 8) ;;
  do s <- while_lt (c_junk c) VARIANT bc1_scr_t_avx2_transform_impl_loop1 "input_ptr" input_end (St [("permute_idx", bc1_scr_t_avx2_transform_impl_loop1_permute_idx)] [("input_ptr", input_ptr); ("color0_out", color0_out); ("color1_out", color1_out); ("indices_out", indices_out)] m) ;;
  let m := mm s in
  do input_ptr <- getp s "input_ptr" ;;
  do color0_out <- getp s "color0_out" ;;
  do color1_out <- getp s "color1_out" ;;
  do indices_out <- getp s "indices_out" ;;
  let rem := block_count mod 16 in
  do variant_enum <- (if VARIANT =? 1 then Ok V1 else if VARIANT =? 2 then Ok V2 else if VARIANT =? 3 then Ok V3 else Ub "unreachable_unchecked") ;;
  do m <- bc1_scr_t_generic_transform_with_split_colour_and_decorr_generic c input_ptr color0_out color1_out indices_out rem variant_enum m ;;
  Ok m.

(** src/core/dxt-lossless-transform-bc1/src/transform/with_split_colour_and_recorr/transform/avx2.rs:138-146, fn transform_var1 *)
Definition bc1_scr_t_avx2_transform_var1 (c : cfg) (input_ptr : ptr) (color0_out : ptr) (color1_out : ptr) (indices_out : ptr) (blocks : Z) (m : mem) : res mem :=
  do _ <- cpu_has (c_avx2 c) "avx2" ;;
  do m <- bc1_scr_t_avx2_transform_impl c 1 input_ptr color0_out color1_out indices_out blocks m ;;
  Ok m.

(** src/core/dxt-lossless-transform-bc1/src/transform/with_split_colour_and_recorr/transform/avx2.rs:150-158, fn transform_var2 *)
Definition bc1_scr_t_avx2_transform_var2 (c : cfg) (input_ptr : ptr) (color0_out : ptr) (color1_out : ptr) (indices_out : ptr) (blocks : Z) (m : mem) : res mem :=
  do _ <- cpu_has (c_avx2 c) "avx2" ;;
  do m <- bc1_scr_t_avx2_transform_impl c 2 input_ptr color0_out color1_out indices_out blocks m ;;
  Ok m.

(** src/core/dxt-lossless-transform-bc1/src/transform/with_split_colour_and_recorr/transform/avx2.rs:162-170, fn transform_var3 *)
Definition bc1_scr_t_avx2_transform_var3 (c : cfg) (input_ptr : ptr) (color0_out : ptr) (color1_out : ptr) (indices_out : ptr) (blocks : Z) (m : mem) : res mem :=
  do _ <- cpu_has (c_avx2 c) "avx2" ;;
  do m <- bc1_scr_t_avx2_transform_impl c 3 input_ptr color0_out color1_out indices_out blocks m ;;
  Ok m.

(** src/core/dxt-lossless-transform-bc1/src/transform/with_split_colour_and_recorr/transform/avx2.rs:174-194, fn transform_with_split_colour_and_decorr *)
Definition bc1_scr_t_avx2_transform_with_split_colour_and_decorr (c : cfg) (input_ptr : ptr) (color0_ptr : ptr) (color1_ptr : ptr) (indices_ptr : ptr) (block_count : Z) (variant : variant) (m : mem) : res mem :=
  match variant with
  | V1 =>
    do m <- bc1_scr_t_avx2_transform_var1 c input_ptr color0_ptr color1_ptr indices_ptr block_count m ;;
    Ok m
  | V2 =>
    do m <- bc1_scr_t_avx2_transform_var2 c input_ptr color0_ptr color1_ptr indices_ptr block_count m ;;
    Ok m
  | V3 =>
    do m <- bc1_scr_t_avx2_transform_var3 c input_ptr color0_ptr color1_ptr indices_ptr block_count m ;;
    Ok m
  | VNone =>
    do m <- Ub "unreachable_unchecked" ;;
    Ok m
  end.

(** Loop at src/core/dxt-lossless-transform-bc1/src/transform/with_split_colour_and_recorr/transform/sse2.rs:24. *)
Definition bc1_scr_t_sse2_transform_impl_loop1 : list instr :=
  [ILoad "data0" "input_ptr" 0 16;
    ILoad "data1" "input_ptr" 16 16;
    ILoad "data2" "input_ptr" 32 16;
    ILoad "data3" "input_ptr" 48 16;
    IAdd "input_ptr" 64;
    IOp "t1" (OShufps 1 136) ["data0"; "data1"];
    IOp "colours_0" (OMov) ["t1"];
    IOp "t2" (OShufps 1 136) ["data2"; "data3"];
    IOp "colours_1" (OMov) ["t2"];
    IOp "t3" (OShufps 1 221) ["data0"; "data1"];
    IOp "idx0" (OMov) ["t3"];
    IOp "t4" (OShufps 1 221) ["data2"; "data3"];
    IOp "idx1" (OMov) ["t4"];
    IOp "colours_u32_grouped_0_lo" (OPshuflw 1 216) ["colours_0"];
    IOp "colours_u32_grouped_0" (OPshufhw 1 216) ["colours_u32_grouped_0_lo"];
    IOp "colours_u32_grouped_1_lo" (OPshuflw 1 216) ["colours_1"];
    IOp "colours_u32_grouped_1" (OPshufhw 1 216) ["colours_u32_grouped_1_lo"];
    IOp "t5" (OShufps 1 136) ["colours_u32_grouped_0"; "colours_u32_grouped_1"];
    IOp "colours_0" (OMov) ["t5"];
    IOp "t6" (OShufps 1 221) ["colours_u32_grouped_0"; "colours_u32_grouped_1"];
    IOp "colours_1" (OMov) ["t6"];
    IOp "colours_0" (OYcc Sse2 Dec V1 V2 V3) ["colours_0"];
    IOp "colours_1" (OYcc Sse2 Dec V1 V2 V3) ["colours_1"];
    IStore "color0_out" 0 16 "colours_0";
    IStore "color1_out" 0 16 "colours_1";
    IStore "indices_out" 0 16 "idx0";
    IStore "indices_out" 16 16 "idx1";
    IAdd "color0_out" 16;
    IAdd "color1_out" 16;
    IAdd "indices_out" 32].

(** src/core/dxt-lossless-transform-bc1/src/transform/with_split_colour_and_recorr/transform/sse2.rs:14-117, fn transform_impl *)
Definition bc1_scr_t_sse2_transform_impl (c : cfg) (VARIANT : Z) (input_ptr : ptr) (color0_out : ptr) (color1_out : ptr) (indices_out : ptr) (block_count : Z) (m : mem) : res mem :=
  do _ <- cpu_has (c_sse2 c) "sse2" ;;
  let blocks8 := block_count / 8 in
  do input_end <- ptr_add m input_ptr ((blocks8 * 8) * 8) ;;
  do s <- while_lt (c_junk c) VARIANT bc1_scr_t_sse2_transform_impl_loop1 "input_ptr" input_end (St [] [("input_ptr", input_ptr); ("color0_out", color0_out); ("color1_out", color1_out); ("indices_out", indices_out)] m) ;;
  let m := mm s in
  do input_ptr <- getp s "input_ptr" ;;
  do color0_out <- getp s "color0_out" ;;
  do color1_out <- getp s "color1_out" ;;
  do indices_out <- getp s "indices_out" ;;
  let remainder_blocks := block_count mod 8 in
  do variant_enum <- (if VARIANT =? 1 then Ok V1 else if VARIANT =? 2 then Ok V2 else if VARIANT =? 3 then Ok V3 else Ub "unreachable_unchecked") ;;
  do m <- bc1_scr_t_generic_transform_with_split_colour_and_decorr_generic c input_ptr color0_out color1_out indices_out remainder_blocks variant_enum m ;;
  Ok m.

(** src/core/dxt-lossless-transform-bc1/src/transform/with_split_colour_and_recorr/transform/sse2.rs:121-129, fn transform_var1 *)
Definition bc1_scr_t_sse2_transform_var1 (c : cfg) (input_ptr : ptr) (color0_out : ptr) (color1_out : ptr) (indices_out : ptr) (blocks : Z) (m : mem) : res mem :=
  do _ <- cpu_has (c_sse2 c) "sse2" ;;
  do m <- bc1_scr_t_sse2_transform_impl c 1 input_ptr color0_out color1_out indices_out blocks m ;;
  Ok m.

(** src/core/dxt-lossless-transform-bc1/src/transform/with_split_colour_and_recorr/transform/sse2.rs:131-139, fn transform_var2 *)
Definition bc1_scr_t_sse2_transform_var2 (c : cfg) (input_ptr : ptr) (color0_out : ptr) (color1_out : ptr) (indices_out : ptr) (blocks : Z) (m : mem) : res mem :=
  do _ <- cpu_has (c_sse2 c) "sse2" ;;
  do m <- bc1_scr_t_sse2_transform_impl c 2 input_ptr color0_out color1_out indices_out blocks m ;;
  Ok m.

(** src/core/dxt-lossless-transform-bc1/src/transform/with_split_colour_and_recorr/transform/sse2.rs:141-149, fn transform_var3 *)
Definition bc1_scr_t_sse2_transform_var3 (c : cfg) (input_ptr : ptr) (color0_out : ptr) (color1_out : ptr) (indices_out : ptr) (blocks : Z) (m : mem) : res mem :=
  do _ <- cpu_has (c_sse2 c) "sse2" ;;
  do m <- bc1_scr_t_sse2_transform_impl c 3 input_ptr color0_out color1_out indices_out blocks m ;;
  Ok m.

(** src/core/dxt-lossless-transform-bc1/src/transform/with_split_colour_and_recorr/transform/sse2.rs:152-172, fn transform_with_split_colour_and_decorr *)
Definition bc1_scr_t_sse2_transform_with_split_colour_and_decorr (c : cfg) (input_ptr : ptr) (color0_out : ptr) (color1_out : ptr) (indices_out : ptr) (blocks : Z) (variant : variant) (m : mem) : res mem :=
  match variant with
  | V1 =>
    do m <- bc1_scr_t_sse2_transform_var1 c input_ptr color0_out color1_out indices_out blocks m ;;
    Ok m
  | V2 =>
    do m <- bc1_scr_t_sse2_transform_var2 c input_ptr color0_out color1_out indices_out blocks m ;;
    Ok m
  | V3 =>
    do m <- bc1_scr_t_sse2_transform_var3 c input_ptr color0_out color1_out indices_out blocks m ;;
    Ok m
  | VNone =>
    do m <- Ub "unreachable_unchecked" ;;
    Ok m
  end.

(** src/core/dxt-lossless-transform-bc1/src/transform/with_split_colour_and_recorr/transform/mod.rs:70-166, fn transform_with_split_colour_and_recorr_x86 *)
Definition bc1_scr_t_transform_with_split_colour_and_recorr_x86 (c : cfg) (input_ptr : ptr) (color0_ptr : ptr) (color1_ptr : ptr) (indices_ptr : ptr) (block_count : Z) (decorrelation_mode : variant) (m : mem) : res mem :=
  if negb (c_static c) then
    if has_avx512bw c then
      do m <- bc1_scr_t_avx512bw_transform_with_split_colour_and_decorr c input_ptr color0_ptr color1_ptr indices_ptr block_count decorrelation_mode m ;;
      Ok m
    else
      if has_avx2 c then
        do m <- bc1_scr_t_avx2_transform_with_split_colour_and_decorr c input_ptr color0_ptr color1_ptr indices_ptr block_count decorrelation_mode m ;;
        Ok m
      else
        if has_sse2 c then
          do m <- bc1_scr_t_sse2_transform_with_split_colour_and_decorr c input_ptr color0_ptr color1_ptr indices_ptr block_count decorrelation_mode m ;;
          Ok m
        else
          do m <- bc1_scr_t_generic_transform_with_split_colour_and_decorr_generic c input_ptr color0_ptr color1_ptr indices_ptr block_count decorrelation_mode m ;;
          Ok m
  else
    if c_avx512bw c then
      do m <- bc1_scr_t_avx512bw_transform_with_split_colour_and_decorr c input_ptr color0_ptr color1_ptr indices_ptr block_count decorrelation_mode m ;;
      Ok m
    else
      if c_avx2 c then
        do m <- bc1_scr_t_avx2_transform_with_split_colour_and_decorr c input_ptr color0_ptr color1_ptr indices_ptr block_count decorrelation_mode m ;;
        Ok m
      else
        if c_sse2 c then
          do m <- bc1_scr_t_sse2_transform_with_split_colour_and_decorr c input_ptr color0_ptr color1_ptr indices_ptr block_count decorrelation_mode m ;;
          Ok m
        else
          do m <- bc1_scr_t_generic_transform_with_split_colour_and_decorr_generic c input_ptr color0_ptr color1_ptr indices_ptr block_count decorrelation_mode m ;;
          Ok m.

(** src/core/dxt-lossless-transform-bc1/src/transform/with_split_colour_and_recorr/transform/mod.rs:33-66, fn transform_with_split_colour_and_recorr *)
Definition bc1_scr_t_transform_with_split_colour_and_recorr (c : cfg) (input_ptr : ptr) (color0_out : ptr) (color1_out : ptr) (indices_out : ptr) (block_count : Z) (decorrelation_mode : variant) (m : mem) : res mem :=
  do _ <- debug_assert (c_debug c) (negb (vnum decorrelation_mode =? 0)) "decorrelation_mode != YCoCgVariant :: None" ;;
  if is_x86 c then
    do m <- bc1_scr_t_transform_with_split_colour_and_recorr_x86 c input_ptr color0_out color1_out indices_out block_count decorrelation_mode m ;;
    Ok m
  else
    do m <- bc1_scr_t_generic_transform_with_split_colour_and_decorr_generic c input_ptr color0_out color1_out indices_out block_count decorrelation_mode m ;;
    Ok m.

(** Loop at src/core/dxt-lossless-transform-bc1/src/transform/with_split_colour_and_recorr/untransform/generic.rs:106. *)
Definition bc1_scr_u_generic_untransform_recorr_loop1 : list instr :=
  [ILoad "t1" "color0_in" 0 2;
    IOp "color0_obj" (OMov) ["t1"];
    ILoad "t2" "color1_in" 0 2;
    IOp "color1_obj" (OMov) ["t2"];
    IOp "recorrelated_color0" (OYcc Scalar Rec V1 V2 V3) ["color0_obj"];
    IOp "recorrelated_color1" (OYcc Scalar Rec V1 V2 V3) ["color1_obj"];
    ILoad "indices" "indices_in" 0 4;
    IStore "output_ptr" 0 2 "recorrelated_color0";
    IStore "output_ptr" 2 2 "recorrelated_color1";
    IStore "output_ptr" 4 4 "indices";
    IAdd "color0_in" 2;
    IAdd "color1_in" 2;
    IAdd "indices_in" 4;
    IAdd "output_ptr" 8].

(** src/core/dxt-lossless-transform-bc1/src/transform/with_split_colour_and_recorr/untransform/generic.rs:98-141, fn untransform_recorr *)
Definition bc1_scr_u_generic_untransform_recorr (c : cfg) (VARIANT : Z) (color0_in : ptr) (color1_in : ptr) (indices_in : ptr) (output_ptr : ptr) (block_count : Z) (m : mem) : res mem :=
  do color0_end <- ptr_add m color0_in (block_count * 2) ;;
  do s <- while_lt (c_junk c) VARIANT bc1_scr_u_generic_untransform_recorr_loop1 "color0_in" color0_end (St [] [("color0_in", color0_in); ("color1_in", color1_in); ("indices_in", indices_in); ("output_ptr", output_ptr)] m) ;;
  let m := mm s in
  do color0_in <- getp s "color0_in" ;;
  do color1_in <- getp s "color1_in" ;;
  do indices_in <- getp s "indices_in" ;;
  do output_ptr <- getp s "output_ptr" ;;
  Ok m.

(** src/core/dxt-lossless-transform-bc1/src/transform/with_split_colour_and_recorr/untransform/generic.rs:68-76, fn untransform_recorr_var1 *)
Definition bc1_scr_u_generic_untransform_recorr_var1 (c : cfg) (color0_in : ptr) (color1_in : ptr) (indices_in : ptr) (output_ptr : ptr) (block_count : Z) (m : mem) : res mem :=
  do m <- bc1_scr_u_generic_untransform_recorr c 1 color0_in color1_in indices_in output_ptr block_count m ;;
  Ok m.

(** src/core/dxt-lossless-transform-bc1/src/transform/with_split_colour_and_recorr/untransform/generic.rs:78-86, fn untransform_recorr_var2 *)
Definition bc1_scr_u_generic_untransform_recorr_var2 (c : cfg) (color0_in : ptr) (color1_in : ptr) (indices_in : ptr) (output_ptr : ptr) (block_count : Z) (m : mem) : res mem :=
  do m <- bc1_scr_u_generic_untransform_recorr c 2 color0_in color1_in indices_in output_ptr block_count m ;;
  Ok m.

(** src/core/dxt-lossless-transform-bc1/src/transform/with_split_colour_and_recorr/untransform/generic.rs:88-96, fn untransform_recorr_var3 *)
Definition bc1_scr_u_generic_untransform_recorr_var3 (c : cfg) (color0_in : ptr) (color1_in : ptr) (indices_in : ptr) (output_ptr : ptr) (block_count : Z) (m : mem) : res mem :=
  do m <- bc1_scr_u_generic_untransform_recorr c 3 color0_in color1_in indices_in output_ptr block_count m ;;
  Ok m.

(** Constants of the loop at src/core/dxt-lossless-transform-bc1/src/transform/with_split_colour_and_recorr/untransform/avx512bw.rs:236 *)
Definition bc1_scr_u_avx512bw_untransform_recorr_loop1_perm_color_interleave_low : list byte := [x00; x00; x20; x00; x01; x00; x21; x00; x02; x00; x22; x00; x03; x00; x23; x00; x04; x00; x24; x00; x05; x00; x25; x00; x06; x00; x26; x00; x07; x00; x27; x00; x08; x00; x28; x00; x09; x00; x29; x00; x0a; x00; x2a; x00; x0b; x00; x2b; x00; x0c; x00; x2c; x00; x0d; x00; x2d; x00; x0e; x00; x2e; x00; x0f; x00; x2f; x00].
Definition bc1_scr_u_avx512bw_untransform_recorr_loop1_perm_color_interleave_high : list byte := [x10; x00; x30; x00; x11; x00; x31; x00; x12; x00; x32; x00; x13; x00; x33; x00; x14; x00; x34; x00; x15; x00; x35; x00; x16; x00; x36; x00; x17; x00; x37; x00; x18; x00; x38; x00; x19; x00; x39; x00; x1a; x00; x3a; x00; x1b; x00; x3b; x00; x1c; x00; x3c; x00; x1d; x00; x3d; x00; x1e; x00; x3e; x00; x1f; x00; x3f; x00].
Definition bc1_scr_u_avx512bw_untransform_recorr_loop1_perm_output_0 : list byte := [x00; x00; x01; x00; x20; x00; x21; x00; x02; x00; x03; x00; x22; x00; x23; x00; x04; x00; x05; x00; x24; x00; x25; x00; x06; x00; x07; x00; x26; x00; x27; x00; x08; x00; x09; x00; x28; x00; x29; x00; x0a; x00; x0b; x00; x2a; x00; x2b; x00; x0c; x00; x0d; x00; x2c; x00; x2d; x00; x0e; x00; x0f; x00; x2e; x00; x2f; x00].
Definition bc1_scr_u_avx512bw_untransform_recorr_loop1_perm_output_1 : list byte := [x10; x00; x11; x00; x30; x00; x31; x00; x12; x00; x13; x00; x32; x00; x33; x00; x14; x00; x15; x00; x34; x00; x35; x00; x16; x00; x17; x00; x36; x00; x37; x00; x18; x00; x19; x00; x38; x00; x39; x00; x1a; x00; x1b; x00; x3a; x00; x3b; x00; x1c; x00; x1d; x00; x3c; x00; x3d; x00; x1e; x00; x1f; x00; x3e; x00; x3f; x00].

(** Loop at src/core/dxt-lossless-transform-bc1/src/transform/with_split_colour_and_recorr/untransform/avx512bw.rs:236. *)
Definition bc1_scr_u_avx512bw_untransform_recorr_loop1 : list instr :=
  [ILoad "color0s" "color0_in" 0 64;
    IAdd "color0_in" 64;
    ILoad "color1s" "color1_in" 0 64;
    IAdd "color1_in" 64;
    ILoad "indices_0" "indices_in" 0 64;
    ILoad "indices_1" "indices_in" 64 64;
    IAdd "indices_in" 128;
    IOp "recorrelated_color0s" (OYcc Avx512bw Rec V1 V2 V3) ["color0s"];
    IOp "recorrelated_color1s" (OYcc Avx512bw Rec V1 V2 V3) ["color1s"];
    IOp "colors_0" (OPermT2 2 32) ["recorrelated_color0s"; "perm_color_interleave_low"; "recorrelated_color1s"];
    IOp "colors_1" (OPermT2 2 32) ["recorrelated_color0s"; "perm_color_interleave_high"; "recorrelated_color1s"];
    IOp "output_0" (OPermT2 2 32) ["colors_0"; "perm_output_0"; "indices_0"];
    IOp "output_1" (OPermT2 2 32) ["colors_0"; "perm_output_1"; "indices_0"];
    IOp "output_2" (OPermT2 2 32) ["colors_1"; "perm_output_0"; "indices_1"];
    IOp "output_3" (OPermT2 2 32) ["colors_1"; "perm_output_1"; "indices_1"];
    IStore "output_ptr" 0 64 "output_0";
    IStore "output_ptr" 64 64 "output_1";
    IStore "output_ptr" 128 64 "output_2";
    IStore "output_ptr" 192 64 "output_3";
    IAdd "output_ptr" 256].

(** src/core/dxt-lossless-transform-bc1/src/transform/with_split_colour_and_recorr/untransform/avx512bw.rs:219-323, fn untransform_recorr *)
Definition bc1_scr_u_avx512bw_untransform_recorr (c : cfg) (VARIANT : Z) (color0_in : ptr) (color1_in : ptr) (indices_in : ptr) (output_ptr : ptr) (block_count : Z) (m : mem) : res mem :=
  do _ <- cpu_has (c_avx512f c && c_avx512bw c) "avx512f avx512bw" ;;
  do _ <- debug_assert (c_debug c) (0 <? block_count) "block_count > 0" ;;
  do aligned_count <- usub block_count (block_count mod 32) ;;
  do color0_ptr_aligned_end <- ptr_add m color0_in (aligned_count * 2) ;;
  do s <- while_lt (c_junk c) VARIANT bc1_scr_u_avx512bw_untransform_recorr_loop1 "color0_in" color0_ptr_aligned_end (St [("perm_color_interleave_low", bc1_scr_u_avx512bw_untransform_recorr_loop1_perm_color_interleave_low); ("perm_color_interleave_high", bc1_scr_u_avx512bw_untransform_recorr_loop1_perm_color_interleave_high); ("perm_output_0", bc1_scr_u_avx512bw_untransform_recorr_loop1_perm_output_0); ("perm_output_1", bc1_scr_u_avx512bw_untransform_recorr_loop1_perm_output_1)] [("color0_in", color0_in); ("color1_in", color1_in); ("indices_in", indices_in); ("output_ptr", output_ptr)] m) ;;
  let m := mm s in
  do color0_in <- getp s "color0_in" ;;
  do color1_in <- getp s "color1_in" ;;
  do indices_in <- getp s "indices_in" ;;
  do output_ptr <- getp s "output_ptr" ;;
  do remaining_count <- usub block_count aligned_count ;;
  if VARIANT =? 1 then
    do m <- bc1_scr_u_generic_untransform_recorr_var1 c color0_in color1_in indices_in output_ptr remaining_count m ;;
    Ok m
  else
  if VARIANT =? 2 then
    do m <- bc1_scr_u_generic_untransform_recorr_var2 c color0_in color1_in indices_in output_ptr remaining_count m ;;
    Ok m
  else
  if VARIANT =? 3 then
    do m <- bc1_scr_u_generic_untransform_recorr_var3 c color0_in color1_in indices_in output_ptr remaining_count m ;;
    Ok m
  else
    do m <- Ub "unreachable_unchecked" ;;
    Ok m.

(** src/core/dxt-lossless-transform-bc1/src/transform/with_split_colour_and_recorr/untransform/avx512bw.rs:186-194, fn untransform_recorr_var1 *)
Definition bc1_scr_u_avx512bw_untransform_recorr_var1 (c : cfg) (color0_in : ptr) (color1_in : ptr) (indices_in : ptr) (output_ptr : ptr) (block_count : Z) (m : mem) : res mem :=
  do m <- bc1_scr_u_avx512bw_untransform_recorr c 1 color0_in color1_in indices_in output_ptr block_count m ;;
  Ok m.

(** src/core/dxt-lossless-transform-bc1/src/transform/with_split_colour_and_recorr/untransform/avx512bw.rs:196-204, fn untransform_recorr_var2 *)
Definition bc1_scr_u_avx512bw_untransform_recorr_var2 (c : cfg) (color0_in : ptr) (color1_in : ptr) (indices_in : ptr) (output_ptr : ptr) (block_count : Z) (m : mem) : res mem :=
  do m <- bc1_scr_u_avx512bw_untransform_recorr c 2 color0_in color1_in indices_in output_ptr block_count m ;;
  Ok m.

(** src/core/dxt-lossless-transform-bc1/src/transform/with_split_colour_and_recorr/untransform/avx512bw.rs:206-214, fn untransform_recorr_var3 *)
Definition bc1_scr_u_avx512bw_untransform_recorr_var3 (c : cfg) (color0_in : ptr) (color1_in : ptr) (indices_in : ptr) (output_ptr : ptr) (block_count : Z) (m : mem) : res mem :=
  do m <- bc1_scr_u_avx512bw_untransform_recorr c 3 color0_in color1_in indices_in output_ptr block_count m ;;
  Ok m.

(** src/core/dxt-lossless-transform-bc1/src/transform/with_split_colour_and_recorr/untransform/avx512bw.rs:163-183, fn untransform_with_split_colour_and_recorr *)
Definition bc1_scr_u_avx512bw_untransform_with_split_colour_and_recorr (c : cfg) (color0_in : ptr) (color1_in : ptr) (indices_in : ptr) (output_ptr : ptr) (block_count : Z) (recorrelation_mode : variant) (m : mem) : res mem :=
  match recorrelation_mode with
  | VNone =>
    do m <- Ub "unreachable_unchecked" ;;
    Ok m
  | V1 =>
    do m <- bc1_scr_u_avx512bw_untransform_recorr_var1 c color0_in color1_in indices_in output_ptr block_count m ;;
    Ok m
  | V2 =>
    do m <- bc1_scr_u_avx512bw_untransform_recorr_var2 c color0_in color1_in indices_in output_ptr block_count m ;;
    Ok m
  | V3 =>
    do m <- bc1_scr_u_avx512bw_untransform_recorr_var3 c color0_in color1_in indices_in output_ptr block_count m ;;
    Ok m
  end.

(** Loop at src/core/dxt-lossless-transform-bc1/src/transform/with_split_colour_and_recorr/untransform/avx2.rs:79. *)
Definition bc1_scr_u_avx2_untransform_recorr_loop1 : list instr :=
  [ILoad "color0s" "color0_ptr" 0 32;
    IAdd "color0_ptr" 32;
    ILoad "color1s" "color1_ptr" 0 32;
    IAdd "color1_ptr" 32;
    ILoad "indices_0" "indices_ptr" 0 32;
    ILoad "indices_1" "indices_ptr" 32 32;
    IAdd "indices_ptr" 64;
    IOp "recorrelated_color0s" (OYcc Avx2 Rec V1 V2 V3) ["color0s"];
    IOp "recorrelated_color1s" (OYcc Avx2 Rec V1 V2 V3) ["color1s"];
    IOp "colors_0_0" (OUnpackLo 2 2) ["recorrelated_color0s"; "recorrelated_color1s"];
    IOp "colors_1_0" (OUnpackHi 2 2) ["recorrelated_color0s"; "recorrelated_color1s"];
    IOp "colors_0" (OPerm2i128 32) ["colors_0_0"; "colors_1_0"];
    IOp "colors_1" (OPerm2i128 49) ["colors_0_0"; "colors_1_0"];
    IOp "blocks_0" (OUnpackLo 4 2) ["colors_0"; "indices_0"];
    IOp "blocks_1" (OUnpackHi 4 2) ["colors_0"; "indices_0"];
    IOp "blocks_2" (OUnpackLo 4 2) ["colors_1"; "indices_1"];
    IOp "blocks_3" (OUnpackHi 4 2) ["colors_1"; "indices_1"];
    IOp "output_0" (OPerm2i128 32) ["blocks_0"; "blocks_1"];
    IOp "output_1" (OPerm2i128 49) ["blocks_0"; "blocks_1"];
    IOp "output_2" (OPerm2i128 32) ["blocks_2"; "blocks_3"];
    IOp "output_3" (OPerm2i128 49) ["blocks_2"; "blocks_3"];
    IStore "output_ptr" 0 32 "output_0";
    IStore "output_ptr" 32 32 "output_1";
    IStore "output_ptr" 64 32 "output_2";
    IStore "output_ptr" 96 32 "output_3";
    IAdd "output_ptr" 128].

(** src/core/dxt-lossless-transform-bc1/src/transform/with_split_colour_and_recorr/untransform/avx2.rs:66-162, fn untransform_recorr *)
Definition bc1_scr_u_avx2_untransform_recorr (c : cfg) (VARIANT : Z) (color0_ptr : ptr) (color1_ptr : ptr) (indices_ptr : ptr) (output_ptr : ptr) (block_count : Z) (m : mem) : res mem :=
  do _ <- cpu_has (c_avx2 c) "avx2" ;;
  do _ <- debug_assert (c_debug c) (0 <? block_count) "block_count > 0" ;;
  do aligned_count <- usub block_count (block_count mod 16) ;;
  do color0_ptr_aligned_end <- ptr_add m color0_ptr (aligned_count * 2) ;;
  do s <- while_lt (c_junk c) VARIANT bc1_scr_u_avx2_untransform_recorr_loop1 "color0_ptr" color0_ptr_aligned_end (St [] [("color0_ptr", color0_ptr); ("color1_ptr", color1_ptr); ("indices_ptr", indices_ptr); ("output_ptr", output_ptr)] m) ;;
  let m := mm s in
  do color0_ptr <- getp s "color0_ptr" ;;
  do color1_ptr <- getp s "color1_ptr" ;;
  do indices_ptr <- getp s "indices_ptr" ;;
  do output_ptr <- getp s "output_ptr" ;;
  do remaining_count <- usub block_count aligned_count ;;
  if VARIANT =? 1 then
    do m <- bc1_scr_u_generic_untransform_recorr_var1 c color0_ptr color1_ptr indices_ptr output_ptr remaining_count m ;;
    Ok m
  else
  if VARIANT =? 2 then
    do m <- bc1_scr_u_generic_untransform_recorr_var2 c color0_ptr color1_ptr indices_ptr output_ptr remaining_count m ;;
    Ok m
  else
  if VARIANT =? 3 then
    do m <- bc1_scr_u_generic_untransform_recorr_var3 c color0_ptr color1_ptr indices_ptr output_ptr remaining_count m ;;
    Ok m
  else
    do m <- Ub "unreachable_unchecked" ;;
    Ok m.

(** src/core/dxt-lossless-transform-bc1/src/transform/with_split_colour_and_recorr/untransform/avx2.rs:34-42, fn untransform_recorr_var1 *)
Definition bc1_scr_u_avx2_untransform_recorr_var1 (c : cfg) (color0_in : ptr) (color1_in : ptr) (indices_in : ptr) (output_ptr : ptr) (block_count : Z) (m : mem) : res mem :=
  do m <- bc1_scr_u_avx2_untransform_recorr c 1 color0_in color1_in indices_in output_ptr block_count m ;;
  Ok m.

(** src/core/dxt-lossless-transform-bc1/src/transform/with_split_colour_and_recorr/untransform/avx2.rs:44-52, fn untransform_recorr_var2 *)
Definition bc1_scr_u_avx2_untransform_recorr_var2 (c : cfg) (color0_in : ptr) (color1_in : ptr) (indices_in : ptr) (output_ptr : ptr) (block_count : Z) (m : mem) : res mem :=
  do m <- bc1_scr_u_avx2_untransform_recorr c 2 color0_in color1_in indices_in output_ptr block_count m ;;
  Ok m.

(** src/core/dxt-lossless-transform-bc1/src/transform/with_split_colour_and_recorr/untransform/avx2.rs:54-62, fn untransform_recorr_var3 *)
Definition bc1_scr_u_avx2_untransform_recorr_var3 (c : cfg) (color0_in : ptr) (color1_in : ptr) (indices_in : ptr) (output_ptr : ptr) (block_count : Z) (m : mem) : res mem :=
  do m <- bc1_scr_u_avx2_untransform_recorr c 3 color0_in color1_in indices_in output_ptr block_count m ;;
  Ok m.

(** src/core/dxt-lossless-transform-bc1/src/transform/with_split_colour_and_recorr/untransform/avx2.rs:11-31, fn untransform_with_split_colour_and_recorr *)
Definition bc1_scr_u_avx2_untransform_with_split_colour_and_recorr (c : cfg) (color0_in : ptr) (color1_in : ptr) (indices_in : ptr) (output_ptr : ptr) (block_count : Z) (recorrelation_mode : variant) (m : mem) : res mem :=
  match recorrelation_mode with
  | VNone =>
    do m <- Ub "unreachable_unchecked" ;;
    Ok m
  | V1 =>
    do m <- bc1_scr_u_avx2_untransform_recorr_var1 c color0_in color1_in indices_in output_ptr block_count m ;;
    Ok m
  | V2 =>
    do m <- bc1_scr_u_avx2_untransform_recorr_var2 c color0_in color1_in indices_in output_ptr block_count m ;;
    Ok m
  | V3 =>
    do m <- bc1_scr_u_avx2_untransform_recorr_var3 c color0_in color1_in indices_in output_ptr block_count m ;;
    Ok m
  end.

(** Loop at src/core/dxt-lossless-transform-bc1/src/transform/with_split_colour_and_recorr/untransform/sse2.rs:79. *)
Definition bc1_scr_u_sse2_untransform_recorr_loop1 : list instr :=
  [ILoad "color0s" "color0_in" 0 16;
    IAdd "color0_in" 16;
    ILoad "color1s" "color1_in" 0 16;
    IAdd "color1_in" 16;
    ILoad "indices_0" "indices_in" 0 16;
    ILoad "indices_1" "indices_in" 16 16;
    IAdd "indices_in" 32;
    IOp "recorr_color0s" (OYcc Sse2 Rec V1 V2 V3) ["color0s"];
    IOp "recorr_color1s" (OYcc Sse2 Rec V1 V2 V3) ["color1s"];
    IOp "colors_0" (OUnpackLo 2 1) ["recorr_color0s"; "recorr_color1s"];
    IOp "colors_1" (OUnpackHi 2 1) ["recorr_color0s"; "recorr_color1s"];
    IOp "blocks_0" (OUnpackLo 4 1) ["colors_0"; "indices_0"];
    IOp "blocks_1" (OUnpackHi 4 1) ["colors_0"; "indices_0"];
    IOp "blocks_2" (OUnpackLo 4 1) ["colors_1"; "indices_1"];
    IOp "blocks_3" (OUnpackHi 4 1) ["colors_1"; "indices_1"];
    IStore "output_ptr" 0 16 "blocks_0";
    IStore "output_ptr" 16 16 "blocks_1";
    IStore "output_ptr" 32 16 "blocks_2";
    IStore "output_ptr" 48 16 "blocks_3";
    IAdd "output_ptr" 64].

(** src/core/dxt-lossless-transform-bc1/src/transform/with_split_colour_and_recorr/untransform/sse2.rs:66-152, fn untransform_recorr *)
Definition bc1_scr_u_sse2_untransform_recorr (c : cfg) (VARIANT : Z) (color0_in : ptr) (color1_in : ptr) (indices_in : ptr) (output_ptr : ptr) (block_count : Z) (m : mem) : res mem :=
  do _ <- cpu_has (c_sse2 c) "sse2" ;;
  do _ <- debug_assert (c_debug c) (0 <? block_count) "block_count > 0" ;;
  do aligned_count <- usub block_count (block_count mod 8) ;;
  do color0_ptr_aligned_end <- ptr_add m color0_in (aligned_count * 2) ;;
  do s <- while_lt (c_junk c) VARIANT bc1_scr_u_sse2_untransform_recorr_loop1 "color0_in" color0_ptr_aligned_end (St [] [("color0_in", color0_in); ("color1_in", color1_in); ("indices_in", indices_in); ("output_ptr", output_ptr)] m) ;;
  let m := mm s in
  do color0_in <- getp s "color0_in" ;;
  do color1_in <- getp s "color1_in" ;;
  do indices_in <- getp s "indices_in" ;;
  do output_ptr <- getp s "output_ptr" ;;
  do remaining_count <- usub block_count aligned_count ;;
  if VARIANT =? 1 then
    do m <- bc1_scr_u_generic_untransform_recorr_var1 c color0_in color1_in indices_in output_ptr remaining_count m ;;
    Ok m
  else
  if VARIANT =? 2 then
    do m <- bc1_scr_u_generic_untransform_recorr_var2 c color0_in color1_in indices_in output_ptr remaining_count m ;;
    Ok m
  else
  if VARIANT =? 3 then
    do m <- bc1_scr_u_generic_untransform_recorr_var3 c color0_in color1_in indices_in output_ptr remaining_count m ;;
    Ok m
  else
    do m <- Ub "unreachable_unchecked" ;;
    Ok m.

(** src/core/dxt-lossless-transform-bc1/src/transform/with_split_colour_and_recorr/untransform/sse2.rs:34-42, fn untransform_recorr_var1 *)
Definition bc1_scr_u_sse2_untransform_recorr_var1 (c : cfg) (color0_in : ptr) (color1_in : ptr) (indices_in : ptr) (output_ptr : ptr) (block_count : Z) (m : mem) : res mem :=
  do m <- bc1_scr_u_sse2_untransform_recorr c 1 color0_in color1_in indices_in output_ptr block_count m ;;
  Ok m.

(** src/core/dxt-lossless-transform-bc1/src/transform/with_split_colour_and_recorr/untransform/sse2.rs:44-52, fn untransform_recorr_var2 *)
Definition bc1_scr_u_sse2_untransform_recorr_var2 (c : cfg) (color0_in : ptr) (color1_in : ptr) (indices_in : ptr) (output_ptr : ptr) (block_count : Z) (m : mem) : res mem :=
  do m <- bc1_scr_u_sse2_untransform_recorr c 2 color0_in color1_in indices_in output_ptr block_count m ;;
  Ok m.

(** src/core/dxt-lossless-transform-bc1/src/transform/with_split_colour_and_recorr/untransform/sse2.rs:54-62, fn untransform_recorr_var3 *)
Definition bc1_scr_u_sse2_untransform_recorr_var3 (c : cfg) (color0_in : ptr) (color1_ptr : ptr) (indices_in : ptr) (output_ptr : ptr) (block_count : Z) (m : mem) : res mem :=
  do m <- bc1_scr_u_sse2_untransform_recorr c 3 color0_in color1_ptr indices_in output_ptr block_count m ;;
  Ok m.

(** src/core/dxt-lossless-transform-bc1/src/transform/with_split_colour_and_recorr/untransform/sse2.rs:11-31, fn untransform_with_split_colour_and_recorr *)
Definition bc1_scr_u_sse2_untransform_with_split_colour_and_recorr (c : cfg) (color0_in : ptr) (color1_in : ptr) (indices_in : ptr) (output_ptr : ptr) (block_count : Z) (recorrelation_mode : variant) (m : mem) : res mem :=
  match recorrelation_mode with
  | VNone =>
    do m <- Ub "unreachable_unchecked" ;;
    Ok m
  | V1 =>
    do m <- bc1_scr_u_sse2_untransform_recorr_var1 c color0_in color1_in indices_in output_ptr block_count m ;;
    Ok m
  | V2 =>
    do m <- bc1_scr_u_sse2_untransform_recorr_var2 c color0_in color1_in indices_in output_ptr block_count m ;;
    Ok m
  | V3 =>
    do m <- bc1_scr_u_sse2_untransform_recorr_var3 c color0_in color1_in indices_in output_ptr block_count m ;;
    Ok m
  end.

(** src/core/dxt-lossless-transform-bc1/src/transform/with_split_colour_and_recorr/untransform/generic.rs:4-65, fn untransform_with_split_colour_and_recorr_generic (written by hand)
    Simplification: the allocation of the work buffer succeeds; its contents are
    arbitrary (the junk byte). *)
Definition bc1_scr_u_generic_untransform_with_split_colour_and_recorr_generic (c : cfg) (color0_in : ptr) (color1_in : ptr) (indices_in : ptr) (output_ptr : ptr) (block_count : Z) (recorrelation_mode : variant) (m : mem) : res mem :=
  if negb (is_x86 c) && (128 <=? block_count) then
    let work := List.repeat (c_junk c) (Z.to_nat (block_count * 8)) in
    do m1 <- color_batch_recorrelate_ptr_split c color0_in color1_in (Ptr BOut 0) (block_count * 2) recorrelation_mode
               (Mem (m_in m) (m_aux m) work) ;;
    do m2 <- bc1_std_u_untransform_with_separate_pointers c (Ptr BAux 0) indices_in output_ptr (block_count * 8)
               (Mem (m_in m) (m_out m1) (m_out m)) ;;
    Ok (Mem (m_in m) (m_aux m) (m_out m2))
  else
    match recorrelation_mode with
    | VNone => Ub "unreachable_unchecked"
    | V1 => bc1_scr_u_generic_untransform_recorr_var1 c color0_in color1_in indices_in output_ptr block_count m
    | V2 => bc1_scr_u_generic_untransform_recorr_var2 c color0_in color1_in indices_in output_ptr block_count m
    | V3 => bc1_scr_u_generic_untransform_recorr_var3 c color0_in color1_in indices_in output_ptr block_count m
    end.

(** src/core/dxt-lossless-transform-bc1/src/transform/with_split_colour_and_recorr/untransform/mod.rs:48-145, fn untransform_with_split_colour_and_recorr_x86 *)
Definition bc1_scr_u_untransform_with_split_colour_and_recorr_x86 (c : cfg) (color0_ptr : ptr) (color1_ptr : ptr) (indices_ptr : ptr) (output_ptr : ptr) (block_count : Z) (decorrelation_mode : variant) (m : mem) : res mem :=
  if negb (c_static c) then
    if has_avx512bw c then
      do m <- bc1_scr_u_avx512bw_untransform_with_split_colour_and_recorr c color0_ptr color1_ptr indices_ptr output_ptr block_count decorrelation_mode m ;;
      Ok m
    else
      if has_avx2 c then
        do m <- bc1_scr_u_avx2_untransform_with_split_colour_and_recorr c color0_ptr color1_ptr indices_ptr output_ptr block_count decorrelation_mode m ;;
        Ok m
      else
        if has_sse2 c then
          do m <- bc1_scr_u_sse2_untransform_with_split_colour_and_recorr c color0_ptr color1_ptr indices_ptr output_ptr block_count decorrelation_mode m ;;
          Ok m
        else
          do m <- bc1_scr_u_generic_untransform_with_split_colour_and_recorr_generic c color0_ptr color1_ptr indices_ptr output_ptr block_count decorrelation_mode m ;;
          Ok m
  else
    if c_avx512bw c then
      do m <- bc1_scr_u_avx512bw_untransform_with_split_colour_and_recorr c color0_ptr color1_ptr indices_ptr output_ptr block_count decorrelation_mode m ;;
      Ok m
    else
      if c_avx2 c then
        do m <- bc1_scr_u_avx2_untransform_with_split_colour_and_recorr c color0_ptr color1_ptr indices_ptr output_ptr block_count decorrelation_mode m ;;
        Ok m
      else
        if c_sse2 c then
          do m <- bc1_scr_u_sse2_untransform_with_split_colour_and_recorr c color0_ptr color1_ptr indices_ptr output_ptr block_count decorrelation_mode m ;;
          Ok m
        else
          do m <- bc1_scr_u_generic_untransform_with_split_colour_and_recorr_generic c color0_ptr color1_ptr indices_ptr output_ptr block_count decorrelation_mode m ;;
          Ok m.

(** src/core/dxt-lossless-transform-bc1/src/transform/with_split_colour_and_recorr/untransform/mod.rs:14-45, fn untransform_with_split_colour_and_recorr *)
Definition bc1_scr_u_untransform_with_split_colour_and_recorr (c : cfg) (color0_ptr : ptr) (color1_ptr : ptr) (indices_ptr : ptr) (output_ptr : ptr) (block_count : Z) (decorrelation_mode : variant) (m : mem) : res mem :=
  if is_x86 c then
    do m <- bc1_scr_u_untransform_with_split_colour_and_recorr_x86 c color0_ptr color1_ptr indices_ptr output_ptr block_count decorrelation_mode m ;;
    Ok m
  else
    do m <- bc1_scr_u_generic_untransform_with_split_colour_and_recorr_generic c color0_ptr color1_ptr indices_ptr output_ptr block_count decorrelation_mode m ;;
    Ok m.

