(** Generated by tools/rs2v.py from the kernel sources cited below; do not edit.
    Simplifications: usize arithmetic is exact (lengths are below isize::MAX), see
    Model/Kernel.v for the machine. *)
From Verif Require Import Base.Bytes Base.Res Model.Color565 Model.Ycc Model.Kernel.
Open Scope string_scope.
Open Scope list_scope.
Open Scope Z_scope.

(** Loop at src/core/dxt-lossless-transform-bc2/src/transform/with_split_colour_and_recorr/transform/generic.rs:35. *)
Definition bc2_scr_t_generic_transform_with_split_colour_and_recorr_loop1 : list instr :=
  [ILoad "alpha" "input_ptr" 0 8;
    ILoad "color0_raw" "input_ptr" 8 2;
    ILoad "color1_raw" "input_ptr" 10 2;
    ILoad "indices" "input_ptr" 12 4;
    IOp "color0" (OMov) ["color0_raw"];
    IOp "color1" (OMov) ["color1_raw"];
    IOp "decorr_color0" (OYcc Scalar Dec V1 V2 V3) ["color0"];
    IOp "decorr_color1" (OYcc Scalar Dec V1 V2 V3) ["color1"];
    IStore "alpha_ptr" 0 8 "alpha";
    IStore "color0_ptr" 0 2 "decorr_color0";
    IStore "color1_ptr" 0 2 "decorr_color1";
    IStore "indices_ptr" 0 4 "indices";
    IAdd "input_ptr" 16;
    IAdd "alpha_ptr" 8;
    IAdd "color0_ptr" 2;
    IAdd "color1_ptr" 2;
    IAdd "indices_ptr" 4].

(** src/core/dxt-lossless-transform-bc2/src/transform/with_split_colour_and_recorr/transform/generic.rs:17-73, fn transform_with_split_colour_and_recorr *)
Definition bc2_scr_t_generic_transform_with_split_colour_and_recorr (c : cfg) (input_ptr : ptr) (alpha_out : ptr) (color0_out : ptr) (color1_out : ptr) (indices_out : ptr) (block_count : Z) (decorrelation_mode : variant) (m : mem) : res mem :=
  let alpha_ptr := alpha_out in
  let color0_ptr := color0_out in
  let color1_ptr := color1_out in
  let indices_ptr := indices_out in
  do input_end <- ptr_add m input_ptr (block_count * 16) ;;
  do s <- while_lt (c_junk c) (vnum decorrelation_mode) bc2_scr_t_generic_transform_with_split_colour_and_recorr_loop1 "input_ptr" input_end (St [] [("input_ptr", input_ptr); ("alpha_ptr", alpha_ptr); ("color0_ptr", color0_ptr); ("color1_ptr", color1_ptr); ("indices_ptr", indices_ptr)] m) ;;
  let m := mm s in
  do input_ptr <- getp s "input_ptr" ;;
  do alpha_ptr <- getp s "alpha_ptr" ;;
  do color0_ptr <- getp s "color0_ptr" ;;
  do color1_ptr <- getp s "color1_ptr" ;;
  do indices_ptr <- getp s "indices_ptr" ;;
  Ok m.

(** Constants of the loop at src/core/dxt-lossless-transform-bc2/src/transform/with_split_colour_and_recorr/transform/avx512bw.rs:123 *)
Definition bc2_scr_t_avx512bw_transform_impl_loop1_perm_alpha : list byte := [x00; x00; x00; x00; x00; x00; x00; x00; x02; x00; x00; x00; x00; x00; x00; x00; x04; x00; x00; x00; x00; x00; x00; x00; x06; x00; x00; x00; x00; x00; x00; x00; x08; x00; x00; x00; x00; x00; x00; x00; x0a; x00; x00; x00; x00; x00; x00; x00; x0c; x00; x00; x00; x00; x00; x00; x00; x0e; x00; x00; x00; x00; x00; x00; x00].
Definition bc2_scr_t_avx512bw_transform_impl_loop1_perm_indices : list byte := [x01; x00; x00; x00; x05; x00; x00; x00; x09; x00; x00; x00; x0d; x00; x00; x00; x03; x00; x00; x00; x07; x00; x00; x00; x0b; x00; x00; x00; x0f; x00; x00; x00; x11; x00; x00; x00; x15; x00; x00; x00; x19; x00; x00; x00; x1d; x00; x00; x00; x13; x00; x00; x00; x17; x00; x00; x00; x1b; x00; x00; x00; x1f; x00; x00; x00].
Definition bc2_scr_t_avx512bw_transform_impl_loop1_perm_colors : list byte := [x00; x00; x00; x00; x04; x00; x00; x00; x08; x00; x00; x00; x0c; x00; x00; x00; x02; x00; x00; x00; x06; x00; x00; x00; x0a; x00; x00; x00; x0e; x00; x00; x00; x10; x00; x00; x00; x14; x00; x00; x00; x18; x00; x00; x00; x1c; x00; x00; x00; x12; x00; x00; x00; x16; x00; x00; x00; x1a; x00; x00; x00; x1e; x00; x00; x00].
Definition bc2_scr_t_avx512bw_transform_impl_loop1_perm_color0_epi16 : list byte := [x00; x00; x02; x00; x04; x00; x06; x00; x08; x00; x0a; x00; x0c; x00; x0e; x00; x10; x00; x12; x00; x14; x00; x16; x00; x18; x00; x1a; x00; x1c; x00; x1e; x00; x20; x00; x22; x00; x24; x00; x26; x00; x28; x00; x2a; x00; x2c; x00; x2e; x00; x30; x00; x32; x00; x34; x00; x36; x00; x38; x00; x3a; x00; x3c; x00; x3e; x00].
Definition bc2_scr_t_avx512bw_transform_impl_loop1_perm_color1_epi16 : list byte := [x01; x00; x03; x00; x05; x00; x07; x00; x09; x00; x0b; x00; x0d; x00; x0f; x00; x11; x00; x13; x00; x15; x00; x17; x00; x19; x00; x1b; x00; x1d; x00; x1f; x00; x21; x00; x23; x00; x25; x00; x27; x00; x29; x00; x2b; x00; x2d; x00; x2f; x00; x31; x00; x33; x00; x35; x00; x37; x00; x39; x00; x3b; x00; x3d; x00; x3f; x00].

(** Loop at src/core/dxt-lossless-transform-bc2/src/transform/with_split_colour_and_recorr/transform/avx512bw.rs:123. *)
Definition bc2_scr_t_avx512bw_transform_impl_loop1 : list instr :=
  [ILoad "blocks_0" "input_ptr" 0 64;
    ILoad "blocks_1" "input_ptr" 64 64;
    ILoad "blocks_2" "input_ptr" 128 64;
    ILoad "blocks_3" "input_ptr" 192 64;
    ILoad "blocks_4" "input_ptr" 256 64;
    ILoad "blocks_5" "input_ptr" 320 64;
    ILoad "blocks_6" "input_ptr" 384 64;
    ILoad "blocks_7" "input_ptr" 448 64;
    IAdd "input_ptr" 512;
    IOp "alphas_0" (OPermT2 8 8) ["blocks_0"; "perm_alpha"; "blocks_1"];
    IOp "alphas_1" (OPermT2 8 8) ["blocks_2"; "perm_alpha"; "blocks_3"];
    IOp "alphas_2" (OPermT2 8 8) ["blocks_4"; "perm_alpha"; "blocks_5"];
    IOp "alphas_3" (OPermT2 8 8) ["blocks_6"; "perm_alpha"; "blocks_7"];
    IOp "colours_indices_only_b0" (OUnpackHi 8 4) ["blocks_0"; "blocks_1"];
    IOp "colours_indices_only_b1" (OUnpackHi 8 4) ["blocks_2"; "blocks_3"];
    IOp "colours_indices_only_b2" (OUnpackHi 8 4) ["blocks_4"; "blocks_5"];
    IOp "colours_indices_only_b3" (OUnpackHi 8 4) ["blocks_6"; "blocks_7"];
    IOp "indices_only_0" (OPermT2 4 16) ["colours_indices_only_b0"; "perm_indices"; "colours_indices_only_b1"];
    IOp "indices_only_1" (OPermT2 4 16) ["colours_indices_only_b2"; "perm_indices"; "colours_indices_only_b3"];
    IOp "colours_only_0" (OPermT2 4 16) ["colours_indices_only_b0"; "perm_colors"; "colours_indices_only_b1"];
    IOp "colours_only_1" (OPermT2 4 16) ["colours_indices_only_b2"; "perm_colors"; "colours_indices_only_b3"];
    IOp "color0_only" (OPermT2 2 32) ["colours_only_0"; "perm_color0_epi16"; "colours_only_1"];
    IOp "color1_only" (OPermT2 2 32) ["colours_only_0"; "perm_color1_epi16"; "colours_only_1"];
    IOp "decorr_color0" (OYcc Avx512bw Dec V1 V2 V3) ["color0_only"];
    IOp "decorr_color1" (OYcc Avx512bw Dec V1 V2 V3) ["color1_only"];
    IStore "alpha_out" 0 64 "alphas_0";
    IStore "alpha_out" 64 64 "alphas_1";
    IStore "alpha_out" 128 64 "alphas_2";
    IStore "alpha_out" 192 64 "alphas_3";
    IStore "color0_out" 0 64 "decorr_color0";
    IStore "color1_out" 0 64 "decorr_color1";
    IStore "indices_out" 0 64 "indices_only_0";
    IStore "indices_out" 64 64 "indices_only_1";
    IAdd "alpha_out" 256;
    IAdd "color0_out" 64;
    IAdd "color1_out" 64;
    IAdd "indices_out" 128].

(** src/core/dxt-lossless-transform-bc2/src/transform/with_split_colour_and_recorr/transform/avx512bw.rs:102-232, fn transform_impl *)
Definition bc2_scr_t_avx512bw_transform_impl (c : cfg) (VARIANT : Z) (input_ptr : ptr) (alpha_out : ptr) (color0_out : ptr) (color1_out : ptr) (indices_out : ptr) (block_count : Z) (m : mem) : res mem :=
  do _ <- cpu_has (c_sse2 c && c_avx512f c && c_avx512bw c && c_avx512vl c) "sse2 avx512f avx512bw avx512vl" ;;
  let num_iterations := (block_count / 32) * 32 in
  do input_end <- ptr_add m input_ptr (num_iterations * 16) ;;
  do s <- while_lt (c_junk c) VARIANT bc2_scr_t_avx512bw_transform_impl_loop1 "input_ptr" input_end (St [("perm_alpha", bc2_scr_t_avx512bw_transform_impl_loop1_perm_alpha); ("perm_indices", bc2_scr_t_avx512bw_transform_impl_loop1_perm_indices); ("perm_colors", bc2_scr_t_avx512bw_transform_impl_loop1_perm_colors); ("perm_color0_epi16", bc2_scr_t_avx512bw_transform_impl_loop1_perm_color0_epi16); ("perm_color1_epi16", bc2_scr_t_avx512bw_transform_impl_loop1_perm_color1_epi16)] [("input_ptr", input_ptr); ("alpha_out", alpha_out); ("color0_out", color0_out); ("color1_out", color1_out); ("indices_out", indices_out)] m) ;;
  let m := mm s in
  do input_ptr <- getp s "input_ptr" ;;
  do alpha_out <- getp s "alpha_out" ;;
  do color0_out <- getp s "color0_out" ;;
  do color1_out <- getp s "color1_out" ;;
  do indices_out <- getp s "indices_out" ;;
  let remaining_blocks := block_count mod 32 in
  if (0 <? remaining_blocks) then
    do variant_enum <- (if VARIANT =? 1 then Ok V1 else if VARIANT =? 2 then Ok V2 else if VARIANT =? 3 then Ok V3 else Ub "unreachable_unchecked") ;;
    do m <- bc2_scr_t_generic_transform_with_split_colour_and_recorr c input_ptr alpha_out color0_out color1_out indices_out remaining_blocks variant_enum m ;;
    Ok m
  else
    Ok m.

(** src/core/dxt-lossless-transform-bc2/src/transform/with_split_colour_and_recorr/transform/avx512bw.rs:239-255, fn transform_decorr_var1 *)
Definition bc2_scr_t_avx512bw_transform_decorr_var1 (c : cfg) (input_ptr : ptr) (alpha_out : ptr) (color0_out : ptr) (color1_out : ptr) (indices_out : ptr) (block_count : Z) (m : mem) : res mem :=
  do _ <- cpu_has (c_avx512f c && c_avx512bw c) "avx512f avx512bw" ;;
  do m <- bc2_scr_t_avx512bw_transform_impl c 1 input_ptr alpha_out color0_out color1_out indices_out block_count m ;;
  Ok m.

(** src/core/dxt-lossless-transform-bc2/src/transform/with_split_colour_and_recorr/transform/avx512bw.rs:261-277, fn transform_decorr_var2 *)
Definition bc2_scr_t_avx512bw_transform_decorr_var2 (c : cfg) (input_ptr : ptr) (alpha_out : ptr) (color0_out : ptr) (color1_out : ptr) (indices_out : ptr) (block_count : Z) (m : mem) : res mem :=
  do _ <- cpu_has (c_avx512f c && c_avx512bw c) "avx512f avx512bw" ;;
  do m <- bc2_scr_t_avx512bw_transform_impl c 2 input_ptr alpha_out color0_out color1_out indices_out block_count m ;;
  Ok m.

(** src/core/dxt-lossless-transform-bc2/src/transform/with_split_colour_and_recorr/transform/avx512bw.rs:283-299, fn transform_decorr_var3 *)
Definition bc2_scr_t_avx512bw_transform_decorr_var3 (c : cfg) (input_ptr : ptr) (alpha_out : ptr) (color0_out : ptr) (color1_out : ptr) (indices_out : ptr) (block_count : Z) (m : mem) : res mem :=
  do _ <- cpu_has (c_avx512f c && c_avx512bw c) "avx512f avx512bw" ;;
  do m <- bc2_scr_t_avx512bw_transform_impl c 3 input_ptr alpha_out color0_out color1_out indices_out block_count m ;;
  Ok m.

(** src/core/dxt-lossless-transform-bc2/src/transform/with_split_colour_and_recorr/transform/avx512bw.rs:303-339, fn transform_with_split_colour_and_recorr *)
Definition bc2_scr_t_avx512bw_transform_with_split_colour_and_recorr (c : cfg) (input_ptr : ptr) (alpha_out : ptr) (color0_out : ptr) (color1_out : ptr) (indices_out : ptr) (block_count : Z) (variant : variant) (m : mem) : res mem :=
  match variant with
  | V1 =>
    do m <- bc2_scr_t_avx512bw_transform_decorr_var1 c input_ptr alpha_out color0_out color1_out indices_out block_count m ;;
    Ok m
  | V2 =>
    do m <- bc2_scr_t_avx512bw_transform_decorr_var2 c input_ptr alpha_out color0_out color1_out indices_out block_count m ;;
    Ok m
  | V3 =>
    do m <- bc2_scr_t_avx512bw_transform_decorr_var3 c input_ptr alpha_out color0_out color1_out indices_out block_count m ;;
    Ok m
  | VNone =>
    do m <- Ub "unreachable_unchecked" ;;
    Ok m
  end.

(** Constants of the loop at src/core/dxt-lossless-transform-bc2/src/transform/with_split_colour_and_recorr/transform/avx2.rs:30 *)
Definition bc2_scr_t_avx2_transform_split_colour_and_decorr_loop1_permute_mask : list byte := [x00; x00; x00; x00; x04; x00; x00; x00; x01; x00; x00; x00; x05; x00; x00; x00; x02; x00; x00; x00; x06; x00; x00; x00; x03; x00; x00; x00; x07; x00; x00; x00].

(** Loop at src/core/dxt-lossless-transform-bc2/src/transform/with_split_colour_and_recorr/transform/avx2.rs:30. *)
Definition bc2_scr_t_avx2_transform_split_colour_and_decorr_loop1 : list instr :=
  [ILoad "data0" "input_ptr" 0 32;
    ILoad "data1" "input_ptr" 32 32;
    ILoad "data2" "input_ptr" 64 32;
    ILoad "data3" "input_ptr" 96 32;
    ILoad "data4" "input_ptr" 128 32;
    ILoad "data5" "input_ptr" 160 32;
    ILoad "data6" "input_ptr" 192 32;
    ILoad "data7" "input_ptr" 224 32;
    IAdd "input_ptr" 256;
    IOp "alphas0" (OUnpackLo 8 2) ["data1"; "data0"];
    IOp "alphas1" (OUnpackLo 8 2) ["data3"; "data2"];
    IOp "alphas2" (OUnpackLo 8 2) ["data5"; "data4"];
    IOp "alphas3" (OUnpackLo 8 2) ["data7"; "data6"];
    IOp "alphas_ordered0" (OPermq 141) ["alphas0"];
    IOp "alphas_ordered1" (OPermq 141) ["alphas1"];
    IOp "alphas_ordered2" (OPermq 141) ["alphas2"];
    IOp "alphas_ordered3" (OPermq 141) ["alphas3"];
    IOp "t1" (OShufps 2 238) ["data0"; "data1"];
    IOp "colors_indices0" (OMov) ["t1"];
    IOp "t2" (OShufps 2 238) ["data2"; "data3"];
    IOp "colors_indices1" (OMov) ["t2"];
    IOp "t3" (OShufps 2 238) ["data4"; "data5"];
    IOp "colors_indices2" (OMov) ["t3"];
    IOp "t4" (OShufps 2 238) ["data6"; "data7"];
    IOp "colors_indices3" (OMov) ["t4"];
    IOp "t5" (OShufps 2 136) ["colors_indices0"; "colors_indices1"];
    IOp "colors_only0" (OMov) ["t5"];
    IOp "t6" (OShufps 2 136) ["colors_indices2"; "colors_indices3"];
    IOp "colors_only1" (OMov) ["t6"];
    IOp "colors_only0" (OPermVar 4 8) ["permute_mask"; "colors_only0"];
    IOp "colors_only1" (OPermVar 4 8) ["permute_mask"; "colors_only1"];
    IOp "colors_only0" (OYcc Avx2 Dec V1 V2 V3) ["colors_only0"];
    IOp "colors_only1" (OYcc Avx2 Dec V1 V2 V3) ["colors_only1"];
    IOp "t7" (OShufps 2 221) ["colors_indices0"; "colors_indices1"];
    IOp "indices_shuffled0" (OMov) ["t7"];
    IOp "t8" (OShufps 2 221) ["colors_indices2"; "colors_indices3"];
    IOp "indices_shuffled1" (OMov) ["t8"];
    IOp "indices_blocks_0" (OPermVar 4 8) ["permute_mask"; "indices_shuffled0"];
    IOp "indices_blocks_1" (OPermVar 4 8) ["permute_mask"; "indices_shuffled1"];
    IOp "colours_u32_grouped_0_lo" (OPshuflw 2 216) ["colors_only0"];
    IOp "colours_u32_grouped_0" (OPshufhw 2 216) ["colours_u32_grouped_0_lo"];
    IOp "colours_u32_grouped_1_lo" (OPshuflw 2 216) ["colors_only1"];
    IOp "colours_u32_grouped_1" (OPshufhw 2 216) ["colours_u32_grouped_1_lo"];
    IOp "t9" (OShufps 2 136) ["colours_u32_grouped_0"; "colours_u32_grouped_1"];
    IOp "colors_grouped_0" (OMov) ["t9"];
    IOp "t10" (OShufps 2 221) ["colours_u32_grouped_0"; "colours_u32_grouped_1"];
    IOp "colors_grouped_1" (OMov) ["t10"];
    IOp "colors_only0" (OPermq 216) ["colors_grouped_0"];
    IOp "colors_only1" (OPermq 216) ["colors_grouped_1"];
    IStore "alpha_out" 0 32 "alphas_ordered0";
    IStore "alpha_out" 32 32 "alphas_ordered1";
    IStore "alpha_out" 64 32 "alphas_ordered2";
    IStore "alpha_out" 96 32 "alphas_ordered3";
    IAdd "alpha_out" 128;
    IStore "color0_out" 0 32 "colors_only0";
    IAdd "color0_out" 32;
    IStore "color1_out" 0 32 "colors_only1";
    IAdd "color1_out" 32;
    IStore "indices_out" 0 32 "indices_blocks_0";
    IStore "indices_out" 32 32 "indices_blocks_1";
    IAdd "indices_out" 64].

(** src/core/dxt-lossless-transform-bc2/src/transform/with_split_colour_and_recorr/transform/avx2.rs:15-200, fn transform_split_colour_and_decorr *)
Definition bc2_scr_t_avx2_transform_split_colour_and_decorr (c : cfg) (VARIANT : Z) (input_ptr : ptr) (alpha_out : ptr) (color0_out : ptr) (color1_out : ptr) (indices_out : ptr) (block_count : Z) (m : mem) : res mem :=
  do _ <- cpu_has (c_avx2 c) "avx2" ;;
  let num_iterations := (block_count / 16) * 16 in
  do input_end <- ptr_add m input_ptr (num_iterations * 16) ;;
  do s <- while_lt (c_junk c) VARIANT bc2_scr_t_avx2_transform_split_colour_and_decorr_loop1 "input_ptr" input_end (St [("permute_mask", bc2_scr_t_avx2_transform_split_colour_and_decorr_loop1_permute_mask)] [("input_ptr", input_ptr); ("alpha_out", alpha_out); ("color0_out", color0_out); ("color1_out", color1_out); ("indices_out", indices_out)] m) ;;
  let m := mm s in
  do input_ptr <- getp s "input_ptr" ;;
  do alpha_out <- getp s "alpha_out" ;;
  do color0_out <- getp s "color0_out" ;;
  do color1_out <- getp s "color1_out" ;;
  do indices_out <- getp s "indices_out" ;;
  let remaining_blocks := block_count mod 16 in
  if (0 <? remaining_blocks) then
    do variant_enum <- (if VARIANT =? 1 then Ok V1 else if VARIANT =? 2 then Ok V2 else if VARIANT =? 3 then Ok V3 else Ub "unreachable_unchecked") ;;
    do m <- bc2_scr_t_generic_transform_with_split_colour_and_recorr c input_ptr alpha_out color0_out color1_out indices_out remaining_blocks variant_enum m ;;
    Ok m
  else
    Ok m.

(** src/core/dxt-lossless-transform-bc2/src/transform/with_split_colour_and_recorr/transform/avx2.rs:206-222, fn transform_split_colour_and_decorr_var1 *)
Definition bc2_scr_t_avx2_transform_split_colour_and_decorr_var1 (c : cfg) (input_ptr : ptr) (alpha_out : ptr) (color0_out : ptr) (color1_out : ptr) (indices_out : ptr) (block_count : Z) (m : mem) : res mem :=
  do _ <- cpu_has (c_avx2 c) "avx2" ;;
  do m <- bc2_scr_t_avx2_transform_split_colour_and_decorr c 1 input_ptr alpha_out color0_out color1_out indices_out block_count m ;;
  Ok m.

(** src/core/dxt-lossless-transform-bc2/src/transform/with_split_colour_and_recorr/transform/avx2.rs:227-243, fn transform_split_colour_and_decorr_var2 *)
Definition bc2_scr_t_avx2_transform_split_colour_and_decorr_var2 (c : cfg) (input_ptr : ptr) (alpha_out : ptr) (color0_out : ptr) (color1_out : ptr) (indices_out : ptr) (block_count : Z) (m : mem) : res mem :=
  do _ <- cpu_has (c_avx2 c) "avx2" ;;
  do m <- bc2_scr_t_avx2_transform_split_colour_and_decorr c 2 input_ptr alpha_out color0_out color1_out indices_out block_count m ;;
  Ok m.

(** src/core/dxt-lossless-transform-bc2/src/transform/with_split_colour_and_recorr/transform/avx2.rs:248-264, fn transform_split_colour_and_decorr_var3 *)
Definition bc2_scr_t_avx2_transform_split_colour_and_decorr_var3 (c : cfg) (input_ptr : ptr) (alpha_out : ptr) (color0_out : ptr) (color1_out : ptr) (indices_out : ptr) (block_count : Z) (m : mem) : res mem :=
  do _ <- cpu_has (c_avx2 c) "avx2" ;;
  do m <- bc2_scr_t_avx2_transform_split_colour_and_decorr c 3 input_ptr alpha_out color0_out color1_out indices_out block_count m ;;
  Ok m.

(** src/core/dxt-lossless-transform-bc2/src/transform/with_split_colour_and_recorr/transform/avx2.rs:268-304, fn transform_with_split_colour_and_recorr *)
Definition bc2_scr_t_avx2_transform_with_split_colour_and_recorr (c : cfg) (input_ptr : ptr) (alpha_out : ptr) (color0_out : ptr) (color1_out : ptr) (indices_out : ptr) (block_count : Z) (decorrelation_mode : variant) (m : mem) : res mem :=
  match decorrelation_mode with
  | V1 =>
    do m <- bc2_scr_t_avx2_transform_split_colour_and_decorr_var1 c input_ptr alpha_out color0_out color1_out indices_out block_count m ;;
    Ok m
  | V2 =>
    do m <- bc2_scr_t_avx2_transform_split_colour_and_decorr_var2 c input_ptr alpha_out color0_out color1_out indices_out block_count m ;;
    Ok m
  | V3 =>
    do m <- bc2_scr_t_avx2_transform_split_colour_and_decorr_var3 c input_ptr alpha_out color0_out color1_out indices_out block_count m ;;
    Ok m
  | VNone =>
    do m <- Ub "unreachable_unchecked" ;;
    Ok m
  end.

(** Loop at src/core/dxt-lossless-transform-bc2/src/transform/with_split_colour_and_recorr/transform/sse2.rs:27. *)
Definition bc2_scr_t_sse2_transform_split_colour_and_decorr_loop1 : list instr :=
  [ILoad "data0" "input_ptr" 0 16;
    ILoad "data1" "input_ptr" 16 16;
    ILoad "data2" "input_ptr" 32 16;
    ILoad "data3" "input_ptr" 48 16;
    ILoad "data4" "input_ptr" 64 16;
    ILoad "data5" "input_ptr" 80 16;
    ILoad "data6" "input_ptr" 96 16;
    ILoad "data7" "input_ptr" 112 16;
    IAdd "input_ptr" 128;
    IOp "alphas0" (OUnpackLo 8 1) ["data0"; "data1"];
    IOp "alphas1" (OUnpackLo 8 1) ["data2"; "data3"];
    IOp "alphas2" (OUnpackLo 8 1) ["data4"; "data5"];
    IOp "alphas3" (OUnpackLo 8 1) ["data6"; "data7"];
    IOp "colors_indices0" (OUnpackHi 8 1) ["data0"; "data1"];
    IOp "colors_indices1" (OUnpackHi 8 1) ["data2"; "data3"];
    IOp "colors_indices2" (OUnpackHi 8 1) ["data4"; "data5"];
    IOp "colors_indices3" (OUnpackHi 8 1) ["data6"; "data7"];
    IOp "t1" (OShufps 1 136) ["colors_indices0"; "colors_indices1"];
    IOp "colors_0" (OMov) ["t1"];
    IOp "t2" (OShufps 1 136) ["colors_indices2"; "colors_indices3"];
    IOp "colors_1" (OMov) ["t2"];
    IOp "decorr_colors_0" (OYcc Sse2 Dec V1 V2 V3) ["colors_0"];
    IOp "decorr_colors_1" (OYcc Sse2 Dec V1 V2 V3) ["colors_1"];
    IOp "colours_u32_grouped_0_lo" (OPshuflw 1 216) ["decorr_colors_0"];
    IOp "colours_u32_grouped_0" (OPshufhw 1 216) ["colours_u32_grouped_0_lo"];
    IOp "colours_u32_grouped_1_lo" (OPshuflw 1 216) ["decorr_colors_1"];
    IOp "colours_u32_grouped_1" (OPshufhw 1 216) ["colours_u32_grouped_1_lo"];
    IOp "t3" (OShufps 1 136) ["colours_u32_grouped_0"; "colours_u32_grouped_1"];
    IOp "colours_0" (OMov) ["t3"];
    IOp "t4" (OShufps 1 221) ["colours_u32_grouped_0"; "colours_u32_grouped_1"];
    IOp "colours_1" (OMov) ["t4"];
    IOp "t5" (OShufps 1 221) ["colors_indices0"; "colors_indices1"];
    IOp "indices0" (OMov) ["t5"];
    IOp "t6" (OShufps 1 221) ["colors_indices2"; "colors_indices3"];
    IOp "indices1" (OMov) ["t6"];
    IStore "alpha_out" 0 16 "alphas0";
    IStore "alpha_out" 16 16 "alphas1";
    IStore "alpha_out" 32 16 "alphas2";
    IStore "alpha_out" 48 16 "alphas3";
    IStore "color0_out" 0 16 "colours_0";
    IStore "color1_out" 0 16 "colours_1";
    IStore "indices_out" 0 16 "indices0";
    IStore "indices_out" 16 16 "indices1";
    IAdd "alpha_out" 64;
    IAdd "color0_out" 16;
    IAdd "color1_out" 16;
    IAdd "indices_out" 32].

(** src/core/dxt-lossless-transform-bc2/src/transform/with_split_colour_and_recorr/transform/sse2.rs:15-146, fn transform_split_colour_and_decorr *)
Definition bc2_scr_t_sse2_transform_split_colour_and_decorr (c : cfg) (VARIANT : Z) (input_ptr : ptr) (alpha_out : ptr) (color0_out : ptr) (color1_out : ptr) (indices_out : ptr) (block_count : Z) (m : mem) : res mem :=
  do _ <- cpu_has (c_sse2 c) "sse2" ;;
  let num_iterations := (block_count / 8) * 8 in
  do input_end <- ptr_add m input_ptr (num_iterations * 16) ;;
  do s <- while_lt (c_junk c) VARIANT bc2_scr_t_sse2_transform_split_colour_and_decorr_loop1 "input_ptr" input_end (St [] [("input_ptr", input_ptr); ("alpha_out", alpha_out); ("color0_out", color0_out); ("color1_out", color1_out); ("indices_out", indices_out)] m) ;;
  let m := mm s in
  do input_ptr <- getp s "input_ptr" ;;
  do alpha_out <- getp s "alpha_out" ;;
  do color0_out <- getp s "color0_out" ;;
  do color1_out <- getp s "color1_out" ;;
  do indices_out <- getp s "indices_out" ;;
  let remaining_blocks := block_count mod 8 in
  if (0 <? remaining_blocks) then
    do variant_enum <- (if VARIANT =? 1 then Ok V1 else if VARIANT =? 2 then Ok V2 else if VARIANT =? 3 then Ok V3 else Ub "unreachable_unchecked") ;;
    do m <- bc2_scr_t_generic_transform_with_split_colour_and_recorr c input_ptr alpha_out color0_out color1_out indices_out remaining_blocks variant_enum m ;;
    Ok m
  else
    Ok m.

(** src/core/dxt-lossless-transform-bc2/src/transform/with_split_colour_and_recorr/transform/sse2.rs:152-168, fn transform_split_colour_and_decorr_var1 *)
Definition bc2_scr_t_sse2_transform_split_colour_and_decorr_var1 (c : cfg) (input_ptr : ptr) (alpha_out : ptr) (color0_out : ptr) (color1_out : ptr) (indices_out : ptr) (block_count : Z) (m : mem) : res mem :=
  do _ <- cpu_has (c_sse2 c) "sse2" ;;
  do m <- bc2_scr_t_sse2_transform_split_colour_and_decorr c 1 input_ptr alpha_out color0_out color1_out indices_out block_count m ;;
  Ok m.

(** src/core/dxt-lossless-transform-bc2/src/transform/with_split_colour_and_recorr/transform/sse2.rs:173-189, fn transform_split_colour_and_decorr_var2 *)
Definition bc2_scr_t_sse2_transform_split_colour_and_decorr_var2 (c : cfg) (input_ptr : ptr) (alpha_out : ptr) (color0_out : ptr) (color1_out : ptr) (indices_out : ptr) (block_count : Z) (m : mem) : res mem :=
  do _ <- cpu_has (c_sse2 c) "sse2" ;;
  do m <- bc2_scr_t_sse2_transform_split_colour_and_decorr c 2 input_ptr alpha_out color0_out color1_out indices_out block_count m ;;
  Ok m.

(** src/core/dxt-lossless-transform-bc2/src/transform/with_split_colour_and_recorr/transform/sse2.rs:194-210, fn transform_split_colour_and_decorr_var3 *)
Definition bc2_scr_t_sse2_transform_split_colour_and_decorr_var3 (c : cfg) (input_ptr : ptr) (alpha_out : ptr) (color0_out : ptr) (color1_out : ptr) (indices_out : ptr) (block_count : Z) (m : mem) : res mem :=
  do _ <- cpu_has (c_sse2 c) "sse2" ;;
  do m <- bc2_scr_t_sse2_transform_split_colour_and_decorr c 3 input_ptr alpha_out color0_out color1_out indices_out block_count m ;;
  Ok m.

(** src/core/dxt-lossless-transform-bc2/src/transform/with_split_colour_and_recorr/transform/sse2.rs:214-250, fn transform_with_split_colour_and_recorr *)
Definition bc2_scr_t_sse2_transform_with_split_colour_and_recorr (c : cfg) (input_ptr : ptr) (alpha_out : ptr) (color0_out : ptr) (color1_out : ptr) (indices_out : ptr) (block_count : Z) (decorrelation_mode : variant) (m : mem) : res mem :=
  match decorrelation_mode with
  | V1 =>
    do m <- bc2_scr_t_sse2_transform_split_colour_and_decorr_var1 c input_ptr alpha_out color0_out color1_out indices_out block_count m ;;
    Ok m
  | V2 =>
    do m <- bc2_scr_t_sse2_transform_split_colour_and_decorr_var2 c input_ptr alpha_out color0_out color1_out indices_out block_count m ;;
    Ok m
  | V3 =>
    do m <- bc2_scr_t_sse2_transform_split_colour_and_decorr_var3 c input_ptr alpha_out color0_out color1_out indices_out block_count m ;;
    Ok m
  | VNone =>
    do m <- Ub "unreachable_unchecked" ;;
    Ok m
  end.

(** src/core/dxt-lossless-transform-bc2/src/transform/with_split_colour_and_recorr/transform/mod.rs:69-174, fn transform_with_split_colour_and_recorr_x86 *)
Definition bc2_scr_t_transform_with_split_colour_and_recorr_x86 (c : cfg) (input_ptr : ptr) (alpha_ptr : ptr) (color0_ptr : ptr) (color1_ptr : ptr) (indices_ptr : ptr) (block_count : Z) (decorrelation_mode : variant) (m : mem) : res mem :=
  if negb (c_static c) then
    if has_avx512bw c then
      do m <- bc2_scr_t_avx512bw_transform_with_split_colour_and_recorr c input_ptr alpha_ptr color0_ptr color1_ptr indices_ptr block_count decorrelation_mode m ;;
      Ok m
    else
      if has_avx2 c then
        do m <- bc2_scr_t_avx2_transform_with_split_colour_and_recorr c input_ptr alpha_ptr color0_ptr color1_ptr indices_ptr block_count decorrelation_mode m ;;
        Ok m
      else
        if has_sse2 c then
          do m <- bc2_scr_t_sse2_transform_with_split_colour_and_recorr c input_ptr alpha_ptr color0_ptr color1_ptr indices_ptr block_count decorrelation_mode m ;;
          Ok m
        else
          do m <- bc2_scr_t_generic_transform_with_split_colour_and_recorr c input_ptr alpha_ptr color0_ptr color1_ptr indices_ptr block_count decorrelation_mode m ;;
          Ok m
  else
    if c_avx512bw c then
      do m <- bc2_scr_t_avx512bw_transform_with_split_colour_and_recorr c input_ptr alpha_ptr color0_ptr color1_ptr indices_ptr block_count decorrelation_mode m ;;
      Ok m
    else
      if c_avx2 c then
        do m <- bc2_scr_t_avx2_transform_with_split_colour_and_recorr c input_ptr alpha_ptr color0_ptr color1_ptr indices_ptr block_count decorrelation_mode m ;;
        Ok m
      else
        if c_sse2 c then
          do m <- bc2_scr_t_sse2_transform_with_split_colour_and_recorr c input_ptr alpha_ptr color0_ptr color1_ptr indices_ptr block_count decorrelation_mode m ;;
          Ok m
        else
          do m <- bc2_scr_t_generic_transform_with_split_colour_and_recorr c input_ptr alpha_ptr color0_ptr color1_ptr indices_ptr block_count decorrelation_mode m ;;
          Ok m.

(** src/core/dxt-lossless-transform-bc2/src/transform/with_split_colour_and_recorr/transform/mod.rs:31-65, fn transform_with_split_colour_and_recorr *)
Definition bc2_scr_t_transform_with_split_colour_and_recorr (c : cfg) (input_ptr : ptr) (alpha_ptr : ptr) (color0_ptr : ptr) (color1_ptr : ptr) (indices_ptr : ptr) (block_count : Z) (decorrelation_mode : variant) (m : mem) : res mem :=
  if is_x86 c then
    do m <- bc2_scr_t_transform_with_split_colour_and_recorr_x86 c input_ptr alpha_ptr color0_ptr color1_ptr indices_ptr block_count decorrelation_mode m ;;
    Ok m
  else
    do m <- bc2_scr_t_generic_transform_with_split_colour_and_recorr c input_ptr alpha_ptr color0_ptr color1_ptr indices_ptr block_count decorrelation_mode m ;;
    Ok m.

(** Loop at src/core/dxt-lossless-transform-bc2/src/transform/with_split_colour_and_recorr/untransform/generic.rs:140. *)
Definition bc2_scr_u_generic_untransform_split_colour_recorr_loop1 : list instr :=
  [ILoad "alpha" "alpha_ptr" 0 8;
    ILoad "color0_raw" "color0_ptr" 0 2;
    ILoad "color1_raw" "color1_ptr" 0 2;
    ILoad "indices" "indices_ptr" 0 4;
    IOp "color0" (OMov) ["color0_raw"];
    IOp "color1" (OMov) ["color1_raw"];
    IOp "recorr_color0" (OYcc Scalar Rec V1 V2 V3) ["color0"];
    IOp "recorr_color1" (OYcc Scalar Rec V1 V2 V3) ["color1"];
    IStore "output_ptr" 0 8 "alpha";
    IStore "output_ptr" 8 2 "recorr_color0";
    IStore "output_ptr" 10 2 "recorr_color1";
    IStore "output_ptr" 12 4 "indices";
    IAdd "alpha_ptr" 8;
    IAdd "color0_ptr" 2;
    IAdd "color1_ptr" 2;
    IAdd "indices_ptr" 4;
    IAdd "output_ptr" 16].

(** src/core/dxt-lossless-transform-bc2/src/transform/with_split_colour_and_recorr/untransform/generic.rs:129-178, fn untransform_split_colour_recorr *)
Definition bc2_scr_u_generic_untransform_split_colour_recorr (c : cfg) (VARIANT : Z) (alpha_ptr : ptr) (color0_ptr : ptr) (color1_ptr : ptr) (indices_ptr : ptr) (output_ptr : ptr) (block_count : Z) (m : mem) : res mem :=
  do alpha_ptr_end <- ptr_add m alpha_ptr (block_count * 8) ;;
  do s <- while_lt (c_junk c) VARIANT bc2_scr_u_generic_untransform_split_colour_recorr_loop1 "alpha_ptr" alpha_ptr_end (St [] [("alpha_ptr", alpha_ptr); ("color0_ptr", color0_ptr); ("color1_ptr", color1_ptr); ("indices_ptr", indices_ptr); ("output_ptr", output_ptr)] m) ;;
  let m := mm s in
  do alpha_ptr <- getp s "alpha_ptr" ;;
  do color0_ptr <- getp s "color0_ptr" ;;
  do color1_ptr <- getp s "color1_ptr" ;;
  do indices_ptr <- getp s "indices_ptr" ;;
  do output_ptr <- getp s "output_ptr" ;;
  Ok m.

(** src/core/dxt-lossless-transform-bc2/src/transform/with_split_colour_and_recorr/untransform/generic.rs:62-78, fn untransform_split_colour_recorr_var1 *)
Definition bc2_scr_u_generic_untransform_split_colour_recorr_var1 (c : cfg) (alpha_ptr : ptr) (color0_ptr : ptr) (color1_ptr : ptr) (indices_ptr : ptr) (output_ptr : ptr) (block_count : Z) (m : mem) : res mem :=
  do m <- bc2_scr_u_generic_untransform_split_colour_recorr c 1 alpha_ptr color0_ptr color1_ptr indices_ptr output_ptr block_count m ;;
  Ok m.

(** src/core/dxt-lossless-transform-bc2/src/transform/with_split_colour_and_recorr/untransform/generic.rs:80-96, fn untransform_split_colour_recorr_var2 *)
Definition bc2_scr_u_generic_untransform_split_colour_recorr_var2 (c : cfg) (alpha_ptr : ptr) (color0_ptr : ptr) (color1_ptr : ptr) (indices_ptr : ptr) (output_ptr : ptr) (block_count : Z) (m : mem) : res mem :=
  do m <- bc2_scr_u_generic_untransform_split_colour_recorr c 2 alpha_ptr color0_ptr color1_ptr indices_ptr output_ptr block_count m ;;
  Ok m.

(** src/core/dxt-lossless-transform-bc2/src/transform/with_split_colour_and_recorr/untransform/generic.rs:98-114, fn untransform_split_colour_recorr_var3 *)
Definition bc2_scr_u_generic_untransform_split_colour_recorr_var3 (c : cfg) (alpha_ptr : ptr) (color0_ptr : ptr) (color1_ptr : ptr) (indices_ptr : ptr) (output_ptr : ptr) (block_count : Z) (m : mem) : res mem :=
  do m <- bc2_scr_u_generic_untransform_split_colour_recorr c 3 alpha_ptr color0_ptr color1_ptr indices_ptr output_ptr block_count m ;;
  Ok m.

(** src/core/dxt-lossless-transform-bc2/src/transform/with_split_colour_and_recorr/untransform/generic.rs:17-59, fn untransform_with_split_colour_and_recorr *)
Definition bc2_scr_u_generic_untransform_with_split_colour_and_recorr (c : cfg) (alpha_ptr : ptr) (color0_ptr : ptr) (color1_ptr : ptr) (indices_ptr : ptr) (output_ptr : ptr) (block_count : Z) (recorrelation_mode : variant) (m : mem) : res mem :=
  match recorrelation_mode with
  | V1 =>
    do m <- bc2_scr_u_generic_untransform_split_colour_recorr_var1 c alpha_ptr color0_ptr color1_ptr indices_ptr output_ptr block_count m ;;
    Ok m
  | V2 =>
    do m <- bc2_scr_u_generic_untransform_split_colour_recorr_var2 c alpha_ptr color0_ptr color1_ptr indices_ptr output_ptr block_count m ;;
    Ok m
  | V3 =>
    do m <- bc2_scr_u_generic_untransform_split_colour_recorr_var3 c alpha_ptr color0_ptr color1_ptr indices_ptr output_ptr block_count m ;;
    Ok m
  | VNone =>
    do m <- Ub "unreachable_unchecked" ;;
    Ok m
  end.

(** Constants of the loop at src/core/dxt-lossless-transform-bc2/src/transform/with_split_colour_and_recorr/untransform/avx512bw.rs:308 *)
Definition bc2_scr_u_avx512bw_untransform_split_colour_recorr_loop1_perm_color_interleave_low : list byte := [x00; x00; x20; x00; x01; x00; x21; x00; x02; x00; x22; x00; x03; x00; x23; x00; x04; x00; x24; x00; x05; x00; x25; x00; x06; x00; x26; x00; x07; x00; x27; x00; x08; x00; x28; x00; x09; x00; x29; x00; x0a; x00; x2a; x00; x0b; x00; x2b; x00; x0c; x00; x2c; x00; x0d; x00; x2d; x00; x0e; x00; x2e; x00; x0f; x00; x2f; x00].
Definition bc2_scr_u_avx512bw_untransform_split_colour_recorr_loop1_perm_color_interleave_high : list byte := [x10; x00; x30; x00; x11; x00; x31; x00; x12; x00; x32; x00; x13; x00; x33; x00; x14; x00; x34; x00; x15; x00; x35; x00; x16; x00; x36; x00; x17; x00; x37; x00; x18; x00; x38; x00; x19; x00; x39; x00; x1a; x00; x3a; x00; x1b; x00; x3b; x00; x1c; x00; x3c; x00; x1d; x00; x3d; x00; x1e; x00; x3e; x00; x1f; x00; x3f; x00].
Definition bc2_scr_u_avx512bw_untransform_split_colour_recorr_loop1_perm_color_index_low : list byte := [x00; x00; x01; x00; x20; x00; x21; x00; x02; x00; x03; x00; x22; x00; x23; x00; x04; x00; x05; x00; x24; x00; x25; x00; x06; x00; x07; x00; x26; x00; x27; x00; x08; x00; x09; x00; x28; x00; x29; x00; x0a; x00; x0b; x00; x2a; x00; x2b; x00; x0c; x00; x0d; x00; x2c; x00; x2d; x00; x0e; x00; x0f; x00; x2e; x00; x2f; x00].
Definition bc2_scr_u_avx512bw_untransform_split_colour_recorr_loop1_perm_color_index_high : list byte := [x10; x00; x11; x00; x30; x00; x31; x00; x12; x00; x13; x00; x32; x00; x33; x00; x14; x00; x15; x00; x34; x00; x35; x00; x16; x00; x17; x00; x36; x00; x37; x00; x18; x00; x19; x00; x38; x00; x39; x00; x1a; x00; x1b; x00; x3a; x00; x3b; x00; x1c; x00; x1d; x00; x3c; x00; x3d; x00; x1e; x00; x1f; x00; x3e; x00; x3f; x00].
Definition bc2_scr_u_avx512bw_untransform_split_colour_recorr_loop1_perm_block_low : list byte := [x00; x00; x00; x00; x00; x00; x00; x00; x08; x00; x00; x00; x00; x00; x00; x00; x01; x00; x00; x00; x00; x00; x00; x00; x09; x00; x00; x00; x00; x00; x00; x00; x02; x00; x00; x00; x00; x00; x00; x00; x0a; x00; x00; x00; x00; x00; x00; x00; x03; x00; x00; x00; x00; x00; x00; x00; x0b; x00; x00; x00; x00; x00; x00; x00].
Definition bc2_scr_u_avx512bw_untransform_split_colour_recorr_loop1_perm_block_high : list byte := [x04; x00; x00; x00; x00; x00; x00; x00; x0c; x00; x00; x00; x00; x00; x00; x00; x05; x00; x00; x00; x00; x00; x00; x00; x0d; x00; x00; x00; x00; x00; x00; x00; x06; x00; x00; x00; x00; x00; x00; x00; x0e; x00; x00; x00; x00; x00; x00; x00; x07; x00; x00; x00; x00; x00; x00; x00; x0f; x00; x00; x00; x00; x00; x00; x00].

(** Loop at src/core/dxt-lossless-transform-bc2/src/transform/with_split_colour_and_recorr/untransform/avx512bw.rs:308. *)
Definition bc2_scr_u_avx512bw_untransform_split_colour_recorr_loop1 : list instr :=
  [ILoad "alpha_0" "alpha_ptr" 0 64;
    ILoad "alpha_1" "alpha_ptr" 64 64;
    ILoad "alpha_2" "alpha_ptr" 128 64;
    ILoad "alpha_3" "alpha_ptr" 192 64;
    IAdd "alpha_ptr" 256;
    ILoad "color0" "color0_ptr" 0 64;
    IAdd "color0_ptr" 64;
    ILoad "color1" "color1_ptr" 0 64;
    IAdd "color1_ptr" 64;
    IOp "recorr_color0" (OYcc Avx512bw Rec V1 V2 V3) ["color0"];
    IOp "recorr_color1" (OYcc Avx512bw Rec V1 V2 V3) ["color1"];
    ILoad "indices0" "indices_ptr" 0 64;
    ILoad "indices1" "indices_ptr" 64 64;
    IAdd "indices_ptr" 128;
    IOp "colors_0" (OPermT2 2 32) ["recorr_color0"; "perm_color_interleave_low"; "recorr_color1"];
    IOp "colors_1" (OPermT2 2 32) ["recorr_color0"; "perm_color_interleave_high"; "recorr_color1"];
    IOp "colors_indices_0" (OPermT2 2 32) ["colors_0"; "perm_color_index_low"; "indices0"];
    IOp "colors_indices_1" (OPermT2 2 32) ["colors_0"; "perm_color_index_high"; "indices0"];
    IOp "colors_indices_2" (OPermT2 2 32) ["colors_1"; "perm_color_index_low"; "indices1"];
    IOp "colors_indices_3" (OPermT2 2 32) ["colors_1"; "perm_color_index_high"; "indices1"];
    IOp "output_0" (OPermT2 8 8) ["alpha_0"; "perm_block_low"; "colors_indices_0"];
    IOp "output_1" (OPermT2 8 8) ["alpha_0"; "perm_block_high"; "colors_indices_0"];
    IOp "output_2" (OPermT2 8 8) ["alpha_1"; "perm_block_low"; "colors_indices_1"];
    IOp "output_3" (OPermT2 8 8) ["alpha_1"; "perm_block_high"; "colors_indices_1"];
    IOp "output_4" (OPermT2 8 8) ["alpha_2"; "perm_block_low"; "colors_indices_2"];
    IOp "output_5" (OPermT2 8 8) ["alpha_2"; "perm_block_high"; "colors_indices_2"];
    IOp "output_6" (OPermT2 8 8) ["alpha_3"; "perm_block_low"; "colors_indices_3"];
    IOp "output_7" (OPermT2 8 8) ["alpha_3"; "perm_block_high"; "colors_indices_3"];
    IStore "output_ptr" 0 64 "output_0";
    IStore "output_ptr" 64 64 "output_1";
    IStore "output_ptr" 128 64 "output_2";
    IStore "output_ptr" 192 64 "output_3";
    IStore "output_ptr" 256 64 "output_4";
    IStore "output_ptr" 320 64 "output_5";
    IStore "output_ptr" 384 64 "output_6";
    IStore "output_ptr" 448 64 "output_7";
    IAdd "output_ptr" 512].

(** src/core/dxt-lossless-transform-bc2/src/transform/with_split_colour_and_recorr/untransform/avx512bw.rs:125-398, fn untransform_split_colour_recorr *)
Definition bc2_scr_u_avx512bw_untransform_split_colour_recorr (c : cfg) (VARIANT : Z) (alpha_ptr : ptr) (color0_ptr : ptr) (color1_ptr : ptr) (indices_ptr : ptr) (output_ptr : ptr) (block_count : Z) (m : mem) : res mem :=
  do _ <- cpu_has (c_avx512f c && c_avx512bw c) "avx512f avx512bw" ;;
  let vectorized_blocks := Z.ldiff block_count 31 in
  do alphas_end <- ptr_add m alpha_ptr (vectorized_blocks * 8) ;;
  do s <- while_lt (c_junk c) VARIANT bc2_scr_u_avx512bw_untransform_split_colour_recorr_loop1 "alpha_ptr" alphas_end (St [("perm_color_interleave_low", bc2_scr_u_avx512bw_untransform_split_colour_recorr_loop1_perm_color_interleave_low); ("perm_color_interleave_high", bc2_scr_u_avx512bw_untransform_split_colour_recorr_loop1_perm_color_interleave_high); ("perm_color_index_low", bc2_scr_u_avx512bw_untransform_split_colour_recorr_loop1_perm_color_index_low); ("perm_color_index_high", bc2_scr_u_avx512bw_untransform_split_colour_recorr_loop1_perm_color_index_high); ("perm_block_low", bc2_scr_u_avx512bw_untransform_split_colour_recorr_loop1_perm_block_low); ("perm_block_high", bc2_scr_u_avx512bw_untransform_split_colour_recorr_loop1_perm_block_high)] [("alpha_ptr", alpha_ptr); ("color0_ptr", color0_ptr); ("color1_ptr", color1_ptr); ("indices_ptr", indices_ptr); ("output_ptr", output_ptr)] m) ;;
  let m := mm s in
  do alpha_ptr <- getp s "alpha_ptr" ;;
  do color0_ptr <- getp s "color0_ptr" ;;
  do color1_ptr <- getp s "color1_ptr" ;;
  do indices_ptr <- getp s "indices_ptr" ;;
  do output_ptr <- getp s "output_ptr" ;;
  do remaining_blocks <- usub block_count vectorized_blocks ;;
  if (0 <? remaining_blocks) then
    do variant <- (if VARIANT =? 1 then Ok V1 else if VARIANT =? 2 then Ok V2 else if VARIANT =? 3 then Ok V3 else Ub "unreachable_unchecked") ;;
    do m <- bc2_scr_u_generic_untransform_with_split_colour_and_recorr c alpha_ptr color0_ptr color1_ptr indices_ptr output_ptr remaining_blocks variant m ;;
    Ok m
  else
    Ok m.

(** src/core/dxt-lossless-transform-bc2/src/transform/with_split_colour_and_recorr/untransform/avx512bw.rs:62-78, fn untransform_split_colour_recorr_var1 *)
Definition bc2_scr_u_avx512bw_untransform_split_colour_recorr_var1 (c : cfg) (alpha_ptr : ptr) (color0_ptr : ptr) (color1_ptr : ptr) (indices_ptr : ptr) (output_ptr : ptr) (block_count : Z) (m : mem) : res mem :=
  do m <- bc2_scr_u_avx512bw_untransform_split_colour_recorr c 1 alpha_ptr color0_ptr color1_ptr indices_ptr output_ptr block_count m ;;
  Ok m.

(** src/core/dxt-lossless-transform-bc2/src/transform/with_split_colour_and_recorr/untransform/avx512bw.rs:80-96, fn untransform_split_colour_recorr_var2 *)
Definition bc2_scr_u_avx512bw_untransform_split_colour_recorr_var2 (c : cfg) (alpha_ptr : ptr) (color0_ptr : ptr) (color1_ptr : ptr) (indices_ptr : ptr) (output_ptr : ptr) (block_count : Z) (m : mem) : res mem :=
  do m <- bc2_scr_u_avx512bw_untransform_split_colour_recorr c 2 alpha_ptr color0_ptr color1_ptr indices_ptr output_ptr block_count m ;;
  Ok m.

(** src/core/dxt-lossless-transform-bc2/src/transform/with_split_colour_and_recorr/untransform/avx512bw.rs:98-114, fn untransform_split_colour_recorr_var3 *)
Definition bc2_scr_u_avx512bw_untransform_split_colour_recorr_var3 (c : cfg) (alpha_ptr : ptr) (color0_ptr : ptr) (color1_ptr : ptr) (indices_ptr : ptr) (output_ptr : ptr) (block_count : Z) (m : mem) : res mem :=
  do m <- bc2_scr_u_avx512bw_untransform_split_colour_recorr c 3 alpha_ptr color0_ptr color1_ptr indices_ptr output_ptr block_count m ;;
  Ok m.

(** src/core/dxt-lossless-transform-bc2/src/transform/with_split_colour_and_recorr/untransform/avx512bw.rs:17-59, fn untransform_with_split_colour_and_recorr *)
Definition bc2_scr_u_avx512bw_untransform_with_split_colour_and_recorr (c : cfg) (alpha_ptr : ptr) (color0_ptr : ptr) (color1_ptr : ptr) (indices_ptr : ptr) (output_ptr : ptr) (block_count : Z) (recorrelation_mode : variant) (m : mem) : res mem :=
  do _ <- cpu_has (c_avx512f c && c_avx512bw c) "avx512f avx512bw" ;;
  match recorrelation_mode with
  | V1 =>
    do m <- bc2_scr_u_avx512bw_untransform_split_colour_recorr_var1 c alpha_ptr color0_ptr color1_ptr indices_ptr output_ptr block_count m ;;
    Ok m
  | V2 =>
    do m <- bc2_scr_u_avx512bw_untransform_split_colour_recorr_var2 c alpha_ptr color0_ptr color1_ptr indices_ptr output_ptr block_count m ;;
    Ok m
  | V3 =>
    do m <- bc2_scr_u_avx512bw_untransform_split_colour_recorr_var3 c alpha_ptr color0_ptr color1_ptr indices_ptr output_ptr block_count m ;;
    Ok m
  | VNone =>
    do m <- Ub "unreachable_unchecked" ;;
    Ok m
  end.

(** Constants of the loop at src/core/dxt-lossless-transform-bc2/src/transform/with_split_colour_and_recorr/untransform/avx2.rs:138 *)
Definition bc2_scr_u_avx2_untransform_split_colour_recorr_loop1_alpha_permute_mask : list byte := [x00; x00; x00; x00; x01; x00; x00; x00; x04; x00; x00; x00; x05; x00; x00; x00; x02; x00; x00; x00; x03; x00; x00; x00; x06; x00; x00; x00; x07; x00; x00; x00].
Definition bc2_scr_u_avx2_untransform_split_colour_recorr_loop1_indcol_permute_mask : list byte := [x00; x00; x00; x00; x04; x00; x00; x00; x02; x00; x00; x00; x06; x00; x00; x00; x01; x00; x00; x00; x05; x00; x00; x00; x03; x00; x00; x00; x07; x00; x00; x00].

(** Loop at src/core/dxt-lossless-transform-bc2/src/transform/with_split_colour_and_recorr/untransform/avx2.rs:138. *)
Definition bc2_scr_u_avx2_untransform_split_colour_recorr_loop1 : list instr :=
  [ILoad "alpha0_raw" "alpha_ptr" 0 32;
    ILoad "alpha1_raw" "alpha_ptr" 32 32;
    ILoad "alpha2_raw" "alpha_ptr" 64 32;
    ILoad "alpha3_raw" "alpha_ptr" 96 32;
    IAdd "alpha_ptr" 128;
    ILoad "color0s" "color0_ptr" 0 32;
    ILoad "color1s" "color1_ptr" 0 32;
    IAdd "color0_ptr" 32;
    IAdd "color1_ptr" 32;
    IOp "recorr_color0s" (OYcc Avx2 Rec V1 V2 V3) ["color0s"];
    IOp "recorr_color1s" (OYcc Avx2 Rec V1 V2 V3) ["color1s"];
    ILoad "indices0" "indices_ptr" 0 32;
    ILoad "indices1" "indices_ptr" 32 32;
    IAdd "indices_ptr" 64;
    IOp "colors_combined_laned_0" (OUnpackLo 2 2) ["recorr_color0s"; "recorr_color1s"];
    IOp "colors_combined_laned_1" (OUnpackHi 2 2) ["recorr_color0s"; "recorr_color1s"];
    IOp "colors_combined_0" (OPerm2i128 32) ["colors_combined_laned_0"; "colors_combined_laned_1"];
    IOp "colors_combined_1" (OPerm2i128 49) ["colors_combined_laned_0"; "colors_combined_laned_1"];
    IOp "alpha0_permuted" (OPermVar 4 8) ["alpha_permute_mask"; "alpha0_raw"];
    IOp "alpha1_permuted" (OPermVar 4 8) ["alpha_permute_mask"; "alpha1_raw"];
    IOp "alpha2_permuted" (OPermVar 4 8) ["alpha_permute_mask"; "alpha2_raw"];
    IOp "alpha3_permuted" (OPermVar 4 8) ["alpha_permute_mask"; "alpha3_raw"];
    IOp "colors_indices_0" (OPerm2i128 32) ["colors_combined_0"; "indices0"];
    IOp "colors_indices_1" (OPerm2i128 49) ["colors_combined_0"; "indices0"];
    IOp "colors_indices_2" (OPerm2i128 32) ["colors_combined_1"; "indices1"];
    IOp "colors_indices_3" (OPerm2i128 49) ["colors_combined_1"; "indices1"];
    IOp "colors_indices_0_permuted" (OPermVar 4 8) ["indcol_permute_mask"; "colors_indices_0"];
    IOp "colors_indices_1_permuted" (OPermVar 4 8) ["indcol_permute_mask"; "colors_indices_1"];
    IOp "colors_indices_2_permuted" (OPermVar 4 8) ["indcol_permute_mask"; "colors_indices_2"];
    IOp "colors_indices_3_permuted" (OPermVar 4 8) ["indcol_permute_mask"; "colors_indices_3"];
    IOp "result0" (OUnpackLo 8 2) ["alpha0_permuted"; "colors_indices_0_permuted"];
    IOp "result1" (OUnpackHi 8 2) ["alpha0_permuted"; "colors_indices_0_permuted"];
    IOp "result2" (OUnpackLo 8 2) ["alpha1_permuted"; "colors_indices_1_permuted"];
    IOp "result3" (OUnpackHi 8 2) ["alpha1_permuted"; "colors_indices_1_permuted"];
    IOp "result4" (OUnpackLo 8 2) ["alpha2_permuted"; "colors_indices_2_permuted"];
    IOp "result5" (OUnpackHi 8 2) ["alpha2_permuted"; "colors_indices_2_permuted"];
    IOp "result6" (OUnpackLo 8 2) ["alpha3_permuted"; "colors_indices_3_permuted"];
    IOp "result7" (OUnpackHi 8 2) ["alpha3_permuted"; "colors_indices_3_permuted"];
    IStore "output_ptr" 0 32 "result0";
    IStore "output_ptr" 32 32 "result1";
    IStore "output_ptr" 64 32 "result2";
    IStore "output_ptr" 96 32 "result3";
    IStore "output_ptr" 128 32 "result4";
    IStore "output_ptr" 160 32 "result5";
    IStore "output_ptr" 192 32 "result6";
    IStore "output_ptr" 224 32 "result7";
    IAdd "output_ptr" 256].

(** src/core/dxt-lossless-transform-bc2/src/transform/with_split_colour_and_recorr/untransform/avx2.rs:119-273, fn untransform_split_colour_recorr *)
Definition bc2_scr_u_avx2_untransform_split_colour_recorr (c : cfg) (VARIANT : Z) (alpha_ptr : ptr) (color0_ptr : ptr) (color1_ptr : ptr) (indices_ptr : ptr) (output_ptr : ptr) (block_count : Z) (m : mem) : res mem :=
  do _ <- cpu_has (c_avx2 c) "avx2" ;;
  let blocks16 := (block_count / 16) * 16 in
  do output_end <- ptr_add m output_ptr (blocks16 * 16) ;;
  do s <- while_lt (c_junk c) VARIANT bc2_scr_u_avx2_untransform_split_colour_recorr_loop1 "output_ptr" output_end (St [("alpha_permute_mask", bc2_scr_u_avx2_untransform_split_colour_recorr_loop1_alpha_permute_mask); ("indcol_permute_mask", bc2_scr_u_avx2_untransform_split_colour_recorr_loop1_indcol_permute_mask)] [("alpha_ptr", alpha_ptr); ("color0_ptr", color0_ptr); ("color1_ptr", color1_ptr); ("indices_ptr", indices_ptr); ("output_ptr", output_ptr)] m) ;;
  let m := mm s in
  do alpha_ptr <- getp s "alpha_ptr" ;;
  do color0_ptr <- getp s "color0_ptr" ;;
  do color1_ptr <- getp s "color1_ptr" ;;
  do indices_ptr <- getp s "indices_ptr" ;;
  do output_ptr <- getp s "output_ptr" ;;
  let rem := block_count mod 16 in
  if (0 <? rem) then
    do variant <- (if VARIANT =? 1 then Ok V1 else if VARIANT =? 2 then Ok V2 else if VARIANT =? 3 then Ok V3 else Ub "unreachable_unchecked") ;;
    do m <- bc2_scr_u_generic_untransform_with_split_colour_and_recorr c alpha_ptr color0_ptr color1_ptr indices_ptr output_ptr rem variant m ;;
    Ok m
  else
    Ok m.

(** src/core/dxt-lossless-transform-bc2/src/transform/with_split_colour_and_recorr/untransform/avx2.rs:60-76, fn untransform_split_colour_recorr_var1 *)
Definition bc2_scr_u_avx2_untransform_split_colour_recorr_var1 (c : cfg) (alpha_ptr : ptr) (color0_ptr : ptr) (color1_ptr : ptr) (indices_ptr : ptr) (output_ptr : ptr) (block_count : Z) (m : mem) : res mem :=
  do m <- bc2_scr_u_avx2_untransform_split_colour_recorr c 1 alpha_ptr color0_ptr color1_ptr indices_ptr output_ptr block_count m ;;
  Ok m.

(** src/core/dxt-lossless-transform-bc2/src/transform/with_split_colour_and_recorr/untransform/avx2.rs:78-94, fn untransform_split_colour_recorr_var2 *)
Definition bc2_scr_u_avx2_untransform_split_colour_recorr_var2 (c : cfg) (alpha_ptr : ptr) (color0_ptr : ptr) (color1_ptr : ptr) (indices_ptr : ptr) (output_ptr : ptr) (block_count : Z) (m : mem) : res mem :=
  do m <- bc2_scr_u_avx2_untransform_split_colour_recorr c 2 alpha_ptr color0_ptr color1_ptr indices_ptr output_ptr block_count m ;;
  Ok m.

(** src/core/dxt-lossless-transform-bc2/src/transform/with_split_colour_and_recorr/untransform/avx2.rs:96-112, fn untransform_split_colour_recorr_var3 *)
Definition bc2_scr_u_avx2_untransform_split_colour_recorr_var3 (c : cfg) (alpha_ptr : ptr) (color0_ptr : ptr) (color1_ptr : ptr) (indices_ptr : ptr) (output_ptr : ptr) (block_count : Z) (m : mem) : res mem :=
  do m <- bc2_scr_u_avx2_untransform_split_colour_recorr c 3 alpha_ptr color0_ptr color1_ptr indices_ptr output_ptr block_count m ;;
  Ok m.

(** src/core/dxt-lossless-transform-bc2/src/transform/with_split_colour_and_recorr/untransform/avx2.rs:15-57, fn untransform_with_split_colour_and_recorr *)
Definition bc2_scr_u_avx2_untransform_with_split_colour_and_recorr (c : cfg) (alpha_ptr : ptr) (color0_ptr : ptr) (color1_ptr : ptr) (indices_ptr : ptr) (output_ptr : ptr) (block_count : Z) (recorrelation_mode : variant) (m : mem) : res mem :=
  do _ <- cpu_has (c_avx2 c) "avx2" ;;
  match recorrelation_mode with
  | V1 =>
    do m <- bc2_scr_u_avx2_untransform_split_colour_recorr_var1 c alpha_ptr color0_ptr color1_ptr indices_ptr output_ptr block_count m ;;
    Ok m
  | V2 =>
    do m <- bc2_scr_u_avx2_untransform_split_colour_recorr_var2 c alpha_ptr color0_ptr color1_ptr indices_ptr output_ptr block_count m ;;
    Ok m
  | V3 =>
    do m <- bc2_scr_u_avx2_untransform_split_colour_recorr_var3 c alpha_ptr color0_ptr color1_ptr indices_ptr output_ptr block_count m ;;
    Ok m
  | VNone =>
    do m <- Ub "unreachable_unchecked" ;;
    Ok m
  end.

(** Loop at src/core/dxt-lossless-transform-bc2/src/transform/with_split_colour_and_recorr/untransform/sse2.rs:126. *)
Definition bc2_scr_u_sse2_untransform_split_colour_recorr_loop1 : list instr :=
  [ILoad "alpha0" "alpha_ptr" 0 16;
    ILoad "alpha1" "alpha_ptr" 16 16;
    ILoad "alpha2" "alpha_ptr" 32 16;
    ILoad "alpha3" "alpha_ptr" 48 16;
    ILoad "color0s" "color0_ptr" 0 16;
    ILoad "color1s" "color1_ptr" 0 16;
    IOp "colors_0" (OUnpackLo 2 1) ["color0s"; "color1s"];
    IOp "colors_1" (OUnpackHi 2 1) ["color0s"; "color1s"];
    IOp "recorr_colors_0" (OYcc Sse2 Rec V1 V2 V3) ["colors_0"];
    IOp "recorr_colors_1" (OYcc Sse2 Rec V1 V2 V3) ["colors_1"];
    ILoad "indices0" "indices_ptr" 0 16;
    ILoad "indices1" "indices_ptr" 16 16;
    IOp "colors_indices_0" (OUnpackLo 4 1) ["recorr_colors_0"; "indices0"];
    IOp "colors_indices_1" (OUnpackHi 4 1) ["recorr_colors_0"; "indices0"];
    IOp "colors_indices_2" (OUnpackLo 4 1) ["recorr_colors_1"; "indices1"];
    IOp "colors_indices_3" (OUnpackHi 4 1) ["recorr_colors_1"; "indices1"];
    IOp "block0" (OUnpackLo 8 1) ["alpha0"; "colors_indices_0"];
    IOp "block1" (OUnpackHi 8 1) ["alpha0"; "colors_indices_0"];
    IOp "block2" (OUnpackLo 8 1) ["alpha1"; "colors_indices_1"];
    IOp "block3" (OUnpackHi 8 1) ["alpha1"; "colors_indices_1"];
    IOp "block4" (OUnpackLo 8 1) ["alpha2"; "colors_indices_2"];
    IOp "block5" (OUnpackHi 8 1) ["alpha2"; "colors_indices_2"];
    IOp "block6" (OUnpackLo 8 1) ["alpha3"; "colors_indices_3"];
    IOp "block7" (OUnpackHi 8 1) ["alpha3"; "colors_indices_3"];
    IStore "output_ptr" 0 16 "block0";
    IStore "output_ptr" 16 16 "block1";
    IStore "output_ptr" 32 16 "block2";
    IStore "output_ptr" 48 16 "block3";
    IStore "output_ptr" 64 16 "block4";
    IStore "output_ptr" 80 16 "block5";
    IStore "output_ptr" 96 16 "block6";
    IStore "output_ptr" 112 16 "block7";
    IAdd "alpha_ptr" 64;
    IAdd "color0_ptr" 16;
    IAdd "color1_ptr" 16;
    IAdd "indices_ptr" 32;
    IAdd "output_ptr" 128].

(** src/core/dxt-lossless-transform-bc2/src/transform/with_split_colour_and_recorr/untransform/sse2.rs:115-210, fn untransform_split_colour_recorr *)
Definition bc2_scr_u_sse2_untransform_split_colour_recorr (c : cfg) (VARIANT : Z) (alpha_ptr : ptr) (color0_ptr : ptr) (color1_ptr : ptr) (indices_ptr : ptr) (output_ptr : ptr) (block_count : Z) (m : mem) : res mem :=
  do _ <- cpu_has (c_sse2 c) "sse2" ;;
  let blocks8 := (block_count / 8) * 8 in
  do output_end <- ptr_add m output_ptr (blocks8 * 16) ;;
  do s <- while_lt (c_junk c) VARIANT bc2_scr_u_sse2_untransform_split_colour_recorr_loop1 "output_ptr" output_end (St [] [("alpha_ptr", alpha_ptr); ("color0_ptr", color0_ptr); ("color1_ptr", color1_ptr); ("indices_ptr", indices_ptr); ("output_ptr", output_ptr)] m) ;;
  let m := mm s in
  do alpha_ptr <- getp s "alpha_ptr" ;;
  do color0_ptr <- getp s "color0_ptr" ;;
  do color1_ptr <- getp s "color1_ptr" ;;
  do indices_ptr <- getp s "indices_ptr" ;;
  do output_ptr <- getp s "output_ptr" ;;
  let rem := block_count mod 8 in
  if (0 <? rem) then
    do v2 <- (if VARIANT =? 1 then Ok V1 else if VARIANT =? 2 then Ok V2 else if VARIANT =? 3 then Ok V3 else Ub "unreachable_unchecked") ;;
    do m <- bc2_scr_u_generic_untransform_with_split_colour_and_recorr c alpha_ptr color0_ptr color1_ptr indices_ptr output_ptr rem v2 m ;;
    Ok m
  else
    Ok m.

(** src/core/dxt-lossless-transform-bc2/src/transform/with_split_colour_and_recorr/untransform/sse2.rs:58-74, fn untransform_split_colour_recorr_var1 *)
Definition bc2_scr_u_sse2_untransform_split_colour_recorr_var1 (c : cfg) (alpha_ptr : ptr) (color0_ptr : ptr) (color1_ptr : ptr) (indices_ptr : ptr) (output_ptr : ptr) (block_count : Z) (m : mem) : res mem :=
  do m <- bc2_scr_u_sse2_untransform_split_colour_recorr c 1 alpha_ptr color0_ptr color1_ptr indices_ptr output_ptr block_count m ;;
  Ok m.

(** src/core/dxt-lossless-transform-bc2/src/transform/with_split_colour_and_recorr/untransform/sse2.rs:76-92, fn untransform_split_colour_recorr_var2 *)
Definition bc2_scr_u_sse2_untransform_split_colour_recorr_var2 (c : cfg) (alpha_ptr : ptr) (color0_ptr : ptr) (color1_ptr : ptr) (indices_ptr : ptr) (output_ptr : ptr) (block_count : Z) (m : mem) : res mem :=
  do m <- bc2_scr_u_sse2_untransform_split_colour_recorr c 2 alpha_ptr color0_ptr color1_ptr indices_ptr output_ptr block_count m ;;
  Ok m.

(** src/core/dxt-lossless-transform-bc2/src/transform/with_split_colour_and_recorr/untransform/sse2.rs:94-110, fn untransform_split_colour_recorr_var3 *)
Definition bc2_scr_u_sse2_untransform_split_colour_recorr_var3 (c : cfg) (alpha_ptr : ptr) (color0_ptr : ptr) (color1_ptr : ptr) (indices_ptr : ptr) (output_ptr : ptr) (block_count : Z) (m : mem) : res mem :=
  do m <- bc2_scr_u_sse2_untransform_split_colour_recorr c 3 alpha_ptr color0_ptr color1_ptr indices_ptr output_ptr block_count m ;;
  Ok m.

(** src/core/dxt-lossless-transform-bc2/src/transform/with_split_colour_and_recorr/untransform/sse2.rs:13-55, fn untransform_with_split_colour_and_recorr *)
Definition bc2_scr_u_sse2_untransform_with_split_colour_and_recorr (c : cfg) (alpha_ptr : ptr) (color0_ptr : ptr) (color1_ptr : ptr) (indices_ptr : ptr) (output_ptr : ptr) (block_count : Z) (recorrelation_mode : variant) (m : mem) : res mem :=
  match recorrelation_mode with
  | V1 =>
    do m <- bc2_scr_u_sse2_untransform_split_colour_recorr_var1 c alpha_ptr color0_ptr color1_ptr indices_ptr output_ptr block_count m ;;
    Ok m
  | V2 =>
    do m <- bc2_scr_u_sse2_untransform_split_colour_recorr_var2 c alpha_ptr color0_ptr color1_ptr indices_ptr output_ptr block_count m ;;
    Ok m
  | V3 =>
    do m <- bc2_scr_u_sse2_untransform_split_colour_recorr_var3 c alpha_ptr color0_ptr color1_ptr indices_ptr output_ptr block_count m ;;
    Ok m
  | VNone =>
    do m <- Ub "unreachable_unchecked" ;;
    Ok m
  end.

(** src/core/dxt-lossless-transform-bc2/src/transform/with_split_colour_and_recorr/untransform/mod.rs:67-172, fn untransform_with_split_colour_and_recorr_x86 *)
Definition bc2_scr_u_untransform_with_split_colour_and_recorr_x86 (c : cfg) (alpha_ptr : ptr) (color0_ptr : ptr) (color1_ptr : ptr) (indices_ptr : ptr) (output_ptr : ptr) (block_count : Z) (recorrelation_mode : variant) (m : mem) : res mem :=
  if negb (c_static c) then
    if has_avx512bw c then
      do m <- bc2_scr_u_avx512bw_untransform_with_split_colour_and_recorr c alpha_ptr color0_ptr color1_ptr indices_ptr output_ptr block_count recorrelation_mode m ;;
      Ok m
    else
      if has_avx2 c then
        do m <- bc2_scr_u_avx2_untransform_with_split_colour_and_recorr c alpha_ptr color0_ptr color1_ptr indices_ptr output_ptr block_count recorrelation_mode m ;;
        Ok m
      else
        if has_sse2 c then
          do m <- bc2_scr_u_sse2_untransform_with_split_colour_and_recorr c alpha_ptr color0_ptr color1_ptr indices_ptr output_ptr block_count recorrelation_mode m ;;
          Ok m
        else
          do m <- bc2_scr_u_generic_untransform_with_split_colour_and_recorr c alpha_ptr color0_ptr color1_ptr indices_ptr output_ptr block_count recorrelation_mode m ;;
          Ok m
  else
    if c_avx512bw c then
      do m <- bc2_scr_u_avx512bw_untransform_with_split_colour_and_recorr c alpha_ptr color0_ptr color1_ptr indices_ptr output_ptr block_count recorrelation_mode m ;;
      Ok m
    else
      if c_avx2 c then
        do m <- bc2_scr_u_avx2_untransform_with_split_colour_and_recorr c alpha_ptr color0_ptr color1_ptr indices_ptr output_ptr block_count recorrelation_mode m ;;
        Ok m
      else
        if c_sse2 c then
          do m <- bc2_scr_u_sse2_untransform_with_split_colour_and_recorr c alpha_ptr color0_ptr color1_ptr indices_ptr output_ptr block_count recorrelation_mode m ;;
          Ok m
        else
          do m <- bc2_scr_u_generic_untransform_with_split_colour_and_recorr c alpha_ptr color0_ptr color1_ptr indices_ptr output_ptr block_count recorrelation_mode m ;;
          Ok m.

(** src/core/dxt-lossless-transform-bc2/src/transform/with_split_colour_and_recorr/untransform/mod.rs:29-63, fn untransform_with_split_colour_and_recorr *)
Definition bc2_scr_u_untransform_with_split_colour_and_recorr (c : cfg) (alpha_ptr : ptr) (color0_ptr : ptr) (color1_ptr : ptr) (indices_ptr : ptr) (output_ptr : ptr) (block_count : Z) (recorrelation_mode : variant) (m : mem) : res mem :=
  if is_x86 c then
    do m <- bc2_scr_u_untransform_with_split_colour_and_recorr_x86 c alpha_ptr color0_ptr color1_ptr indices_ptr output_ptr block_count recorrelation_mode m ;;
    Ok m
  else
    do m <- bc2_scr_u_generic_untransform_with_split_colour_and_recorr c alpha_ptr color0_ptr color1_ptr indices_ptr output_ptr block_count recorrelation_mode m ;;
    Ok m.

