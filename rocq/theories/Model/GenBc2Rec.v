(** Generated by tools/rs2v.py from the kernel sources cited below; do not edit.
    Simplifications: usize arithmetic is exact (lengths are below isize::MAX), see
    Model/Kernel.v for the machine. *)
From Verif Require Import Base.Bytes Base.Res Model.Color565 Model.Ycc Model.Kernel.
Open Scope string_scope.
Open Scope list_scope.
Open Scope Z_scope.

(** Loop at src/core/dxt-lossless-transform-bc2/src/transform/with_recorrelate/transform/generic.rs:48. *)
Definition bc2_rec_t_generic_transform_decorr_loop1 : list instr :=
  [ILoad "alpha_data" "input_ptr" 0 8;
    ILoad "color_raw" "input_ptr" 8 4;
    ILoad "index_value" "input_ptr" 12 4;
    IAdd "input_ptr" 16;
    IOp "t1" (OBytes 0 2) ["color_raw"];
    IOp "color0" (OMov) ["t1"];
    IOp "t2" (OShr 2) ["color_raw"];
    IOp "t3" (OBytes 0 2) ["t2"];
    IOp "color1" (OMov) ["t3"];
    IOp "decorr0" (OYcc Scalar Dec V1 V2 V3) ["color0"];
    IOp "decorr1" (OYcc Scalar Dec V1 V2 V3) ["color1"];
    IOp "t4" (OZext 4) ["decorr0"];
    IOp "t5" (OZext 4) ["decorr1"];
    IOp "t6" (OShl 2) ["t5"];
    IOp "decorrelated_colors" (OOr) ["t4"; "t6"];
    IStore "alphas_out" 0 8 "alpha_data";
    IStore "colors_out" 0 4 "decorrelated_colors";
    IStore "indices_out" 0 4 "index_value";
    IAdd "alphas_out" 8;
    IAdd "colors_out" 4;
    IAdd "indices_out" 4].

(** src/core/dxt-lossless-transform-bc2/src/transform/with_recorrelate/transform/generic.rs:40-95, fn transform_decorr *)
Definition bc2_rec_t_generic_transform_decorr (c : cfg) (VARIANT : Z) (input_ptr : ptr) (alphas_out : ptr) (colors_out : ptr) (indices_out : ptr) (num_blocks : Z) (m : mem) : res mem :=
  do input_end <- ptr_add m input_ptr (num_blocks * 16) ;;
  do s <- while_lt (c_junk c) VARIANT bc2_rec_t_generic_transform_decorr_loop1 "input_ptr" input_end (St [] [("input_ptr", input_ptr); ("alphas_out", alphas_out); ("colors_out", colors_out); ("indices_out", indices_out)] m) ;;
  let m := mm s in
  do input_ptr <- getp s "input_ptr" ;;
  do alphas_out <- getp s "alphas_out" ;;
  do colors_out <- getp s "colors_out" ;;
  do indices_out <- getp s "indices_out" ;;
  Ok m.

(** src/core/dxt-lossless-transform-bc2/src/transform/with_recorrelate/transform/generic.rs:99-107, fn transform_decorr_var1 *)
Definition bc2_rec_t_generic_transform_decorr_var1 (c : cfg) (input_ptr : ptr) (alphas_out : ptr) (colors_out : ptr) (indices_out : ptr) (num_blocks : Z) (m : mem) : res mem :=
  do m <- bc2_rec_t_generic_transform_decorr c 1 input_ptr alphas_out colors_out indices_out num_blocks m ;;
  Ok m.

(** src/core/dxt-lossless-transform-bc2/src/transform/with_recorrelate/transform/generic.rs:110-118, fn transform_decorr_var2 *)
Definition bc2_rec_t_generic_transform_decorr_var2 (c : cfg) (input_ptr : ptr) (alphas_out : ptr) (colors_out : ptr) (indices_out : ptr) (num_blocks : Z) (m : mem) : res mem :=
  do m <- bc2_rec_t_generic_transform_decorr c 2 input_ptr alphas_out colors_out indices_out num_blocks m ;;
  Ok m.

(** src/core/dxt-lossless-transform-bc2/src/transform/with_recorrelate/transform/generic.rs:121-129, fn transform_decorr_var3 *)
Definition bc2_rec_t_generic_transform_decorr_var3 (c : cfg) (input_ptr : ptr) (alphas_out : ptr) (colors_out : ptr) (indices_out : ptr) (num_blocks : Z) (m : mem) : res mem :=
  do m <- bc2_rec_t_generic_transform_decorr c 3 input_ptr alphas_out colors_out indices_out num_blocks m ;;
  Ok m.

(** src/core/dxt-lossless-transform-bc2/src/transform/with_recorrelate/transform/generic.rs:18-38, fn transform_with_decorrelate_generic *)
Definition bc2_rec_t_generic_transform_with_decorrelate_generic (c : cfg) (input_ptr : ptr) (alphas_out : ptr) (colors_out : ptr) (indices_out : ptr) (num_blocks : Z) (decorrelation_mode : variant) (m : mem) : res mem :=
  match decorrelation_mode with
  | V1 =>
    do m <- bc2_rec_t_generic_transform_decorr_var1 c input_ptr alphas_out colors_out indices_out num_blocks m ;;
    Ok m
  | V2 =>
    do m <- bc2_rec_t_generic_transform_decorr_var2 c input_ptr alphas_out colors_out indices_out num_blocks m ;;
    Ok m
  | V3 =>
    do m <- bc2_rec_t_generic_transform_decorr_var3 c input_ptr alphas_out colors_out indices_out num_blocks m ;;
    Ok m
  | VNone =>
    do m <- Ub "unreachable_unchecked" ;;
    Ok m
  end.

(** Constants of the loop at src/core/dxt-lossless-transform-bc2/src/transform/with_recorrelate/transform/avx512bw.rs:44 *)
Definition bc2_rec_t_avx512bw_transform_decorr_loop1_perm_alpha : list byte := [x00; x00; x00; x00; x00; x00; x00; x00; x02; x00; x00; x00; x00; x00; x00; x00; x04; x00; x00; x00; x00; x00; x00; x00; x06; x00; x00; x00; x00; x00; x00; x00; x08; x00; x00; x00; x00; x00; x00; x00; x0a; x00; x00; x00; x00; x00; x00; x00; x0c; x00; x00; x00; x00; x00; x00; x00; x0e; x00; x00; x00; x00; x00; x00; x00].
Definition bc2_rec_t_avx512bw_transform_decorr_loop1_perm_colors : list byte := [x00; x00; x00; x00; x04; x00; x00; x00; x08; x00; x00; x00; x0c; x00; x00; x00; x02; x00; x00; x00; x06; x00; x00; x00; x0a; x00; x00; x00; x0e; x00; x00; x00; x10; x00; x00; x00; x14; x00; x00; x00; x18; x00; x00; x00; x1c; x00; x00; x00; x12; x00; x00; x00; x16; x00; x00; x00; x1a; x00; x00; x00; x1e; x00; x00; x00].
Definition bc2_rec_t_avx512bw_transform_decorr_loop1_perm_indices : list byte := [x01; x00; x00; x00; x05; x00; x00; x00; x09; x00; x00; x00; x0d; x00; x00; x00; x03; x00; x00; x00; x07; x00; x00; x00; x0b; x00; x00; x00; x0f; x00; x00; x00; x11; x00; x00; x00; x15; x00; x00; x00; x19; x00; x00; x00; x1d; x00; x00; x00; x13; x00; x00; x00; x17; x00; x00; x00; x1b; x00; x00; x00; x1f; x00; x00; x00].

(** Loop at src/core/dxt-lossless-transform-bc2/src/transform/with_recorrelate/transform/avx512bw.rs:44. *)
Definition bc2_rec_t_avx512bw_transform_decorr_loop1 : list instr :=
  [ILoad "blocks_0" "input_ptr" 0 64;
    ILoad "blocks_1" "input_ptr" 64 64;
    ILoad "blocks_2" "input_ptr" 128 64;
    ILoad "blocks_3" "input_ptr" 192 64;
    IAdd "input_ptr" 256;
    IOp "alphas_0" (OPermT2 8 8) ["blocks_0"; "perm_alpha"; "blocks_1"];
    IOp "alphas_1" (OPermT2 8 8) ["blocks_2"; "perm_alpha"; "blocks_3"];
    IOp "colours_indices_only_b0" (OUnpackHi 8 4) ["blocks_0"; "blocks_1"];
    IOp "colours_indices_only_b1" (OUnpackHi 8 4) ["blocks_2"; "blocks_3"];
    IOp "colours_only" (OPermT2 4 16) ["colours_indices_only_b0"; "perm_colors"; "colours_indices_only_b1"];
    IOp "indices_only" (OPermT2 4 16) ["colours_indices_only_b0"; "perm_indices"; "colours_indices_only_b1"];
    IOp "colors_decorr" (OYcc Avx512bw Dec V1 V2 V3) ["colours_only"];
    IStore "alphas_out" 0 64 "alphas_0";
    IStore "alphas_out" 64 64 "alphas_1";
    IStore "colors_out" 0 64 "colors_decorr";
    IStore "indices_out" 0 64 "indices_only";
    IAdd "alphas_out" 128;
    IAdd "colors_out" 64;
    IAdd "indices_out" 64].

(** src/core/dxt-lossless-transform-bc2/src/transform/with_recorrelate/transform/avx512bw.rs:27-115, fn transform_decorr *)
Definition bc2_rec_t_avx512bw_transform_decorr (c : cfg) (VARIANT : Z) (input_ptr : ptr) (alphas_out : ptr) (colors_out : ptr) (indices_out : ptr) (num_blocks : Z) (m : mem) : res mem :=
  do _ <- cpu_has (c_sse2 c && c_avx512f c && c_avx512bw c && c_avx512vl c) "sse2 avx512f avx512bw avx512vl" ;;
  let vectorized_blocks := Z.ldiff num_blocks 15 in
  do input_end <- ptr_add m input_ptr (vectorized_blocks * 16) ;;
  do s <- while_lt (c_junk c) VARIANT bc2_rec_t_avx512bw_transform_decorr_loop1 "input_ptr" input_end (St [("perm_alpha", bc2_rec_t_avx512bw_transform_decorr_loop1_perm_alpha); ("perm_colors", bc2_rec_t_avx512bw_transform_decorr_loop1_perm_colors); ("perm_indices", bc2_rec_t_avx512bw_transform_decorr_loop1_perm_indices)] [("input_ptr", input_ptr); ("alphas_out", alphas_out); ("colors_out", colors_out); ("indices_out", indices_out)] m) ;;
  let m := mm s in
  do input_ptr <- getp s "input_ptr" ;;
  do alphas_out <- getp s "alphas_out" ;;
  do colors_out <- getp s "colors_out" ;;
  do indices_out <- getp s "indices_out" ;;
  let remaining_blocks := num_blocks mod 16 in
  if (0 <? remaining_blocks) then
    do variant_enum <- (if VARIANT =? 1 then Ok V1 else if VARIANT =? 2 then Ok V2 else if VARIANT =? 3 then Ok V3 else Ub "unreachable_unchecked") ;;
    do m <- bc2_rec_t_generic_transform_with_decorrelate_generic c input_ptr alphas_out colors_out indices_out remaining_blocks variant_enum m ;;
    Ok m
  else
    Ok m.

(** src/core/dxt-lossless-transform-bc2/src/transform/with_recorrelate/transform/avx512bw.rs:122-130, fn transform_decorr_var1 *)
Definition bc2_rec_t_avx512bw_transform_decorr_var1 (c : cfg) (input_ptr : ptr) (alphas_out : ptr) (colors_out : ptr) (indices_out : ptr) (num_blocks : Z) (m : mem) : res mem :=
  do _ <- cpu_has (c_avx512f c && c_avx512bw c) "avx512f avx512bw" ;;
  do m <- bc2_rec_t_avx512bw_transform_decorr c 1 input_ptr alphas_out colors_out indices_out num_blocks m ;;
  Ok m.

(** src/core/dxt-lossless-transform-bc2/src/transform/with_recorrelate/transform/avx512bw.rs:136-144, fn transform_decorr_var2 *)
Definition bc2_rec_t_avx512bw_transform_decorr_var2 (c : cfg) (input_ptr : ptr) (alphas_out : ptr) (colors_out : ptr) (indices_out : ptr) (num_blocks : Z) (m : mem) : res mem :=
  do _ <- cpu_has (c_avx512f c && c_avx512bw c) "avx512f avx512bw" ;;
  do m <- bc2_rec_t_avx512bw_transform_decorr c 2 input_ptr alphas_out colors_out indices_out num_blocks m ;;
  Ok m.

(** src/core/dxt-lossless-transform-bc2/src/transform/with_recorrelate/transform/avx512bw.rs:150-158, fn transform_decorr_var3 *)
Definition bc2_rec_t_avx512bw_transform_decorr_var3 (c : cfg) (input_ptr : ptr) (alphas_out : ptr) (colors_out : ptr) (indices_out : ptr) (num_blocks : Z) (m : mem) : res mem :=
  do _ <- cpu_has (c_avx512f c && c_avx512bw c) "avx512f avx512bw" ;;
  do m <- bc2_rec_t_avx512bw_transform_decorr c 3 input_ptr alphas_out colors_out indices_out num_blocks m ;;
  Ok m.

(** src/core/dxt-lossless-transform-bc2/src/transform/with_recorrelate/transform/avx512bw.rs:162-182, fn transform_with_decorrelate *)
Definition bc2_rec_t_avx512bw_transform_with_decorrelate (c : cfg) (input_ptr : ptr) (alphas_out : ptr) (colors_out : ptr) (indices_out : ptr) (num_blocks : Z) (variant : variant) (m : mem) : res mem :=
  match variant with
  | V1 =>
    do m <- bc2_rec_t_avx512bw_transform_decorr_var1 c input_ptr alphas_out colors_out indices_out num_blocks m ;;
    Ok m
  | V2 =>
    do m <- bc2_rec_t_avx512bw_transform_decorr_var2 c input_ptr alphas_out colors_out indices_out num_blocks m ;;
    Ok m
  | V3 =>
    do m <- bc2_rec_t_avx512bw_transform_decorr_var3 c input_ptr alphas_out colors_out indices_out num_blocks m ;;
    Ok m
  | VNone =>
    do m <- Ub "unreachable_unchecked" ;;
    Ok m
  end.

(** Constants of the loop at src/core/dxt-lossless-transform-bc2/src/transform/with_recorrelate/transform/avx2.rs:31 *)
Definition bc2_rec_t_avx2_transform_decorr_loop1_permute_mask : list byte := [x00; x00; x00; x00; x04; x00; x00; x00; x01; x00; x00; x00; x05; x00; x00; x00; x02; x00; x00; x00; x06; x00; x00; x00; x03; x00; x00; x00; x07; x00; x00; x00].

(** Loop at src/core/dxt-lossless-transform-bc2/src/transform/with_recorrelate/transform/avx2.rs:31. *)
Definition bc2_rec_t_avx2_transform_decorr_loop1 : list instr :=
  [ILoad "data0" "input_ptr" 0 32;
    ILoad "data1" "input_ptr" 32 32;
    ILoad "data2" "input_ptr" 64 32;
    ILoad "data3" "input_ptr" 96 32;
    IAdd "input_ptr" 128;
    IOp "alphas0" (OUnpackLo 8 2) ["data1"; "data0"];
    IOp "alphas1" (OUnpackLo 8 2) ["data3"; "data2"];
    IOp "alphas_ordered0" (OPermq 141) ["alphas0"];
    IOp "alphas_ordered1" (OPermq 141) ["alphas1"];
    IOp "t1" (OShufps 2 238) ["data0"; "data1"];
    IOp "colors_indices0" (OMov) ["t1"];
    IOp "t2" (OShufps 2 238) ["data2"; "data3"];
    IOp "colors_indices1" (OMov) ["t2"];
    IOp "t3" (OShufps 2 136) ["colors_indices0"; "colors_indices1"];
    IOp "colors_temp" (OMov) ["t3"];
    IOp "t4" (OShufps 2 221) ["colors_indices0"; "colors_indices1"];
    IOp "indices_temp" (OMov) ["t4"];
    IOp "colors0" (OPermVar 4 8) ["permute_mask"; "colors_temp"];
    IOp "indices0" (OPermVar 4 8) ["permute_mask"; "indices_temp"];
    IOp "colors0" (OYcc Avx2 Dec V1 V2 V3) ["colors0"];
    IStore "alphas_out" 0 32 "alphas_ordered0";
    IStore "alphas_out" 32 32 "alphas_ordered1";
    IStore "colors_out" 0 32 "colors0";
    IStore "indices_out" 0 32 "indices0";
    IAdd "alphas_out" 64;
    IAdd "colors_out" 32;
    IAdd "indices_out" 32].

(** src/core/dxt-lossless-transform-bc2/src/transform/with_recorrelate/transform/avx2.rs:17-112, fn transform_decorr *)
Definition bc2_rec_t_avx2_transform_decorr (c : cfg) (VARIANT : Z) (input_ptr : ptr) (alphas_out : ptr) (colors_out : ptr) (indices_out : ptr) (num_blocks : Z) (m : mem) : res mem :=
  do _ <- cpu_has (c_avx2 c) "avx2" ;;
  let num_iterations := (num_blocks / 8) * 8 in
  do input_end <- ptr_add m input_ptr (num_iterations * 16) ;;
  do s <- while_lt (c_junk c) VARIANT bc2_rec_t_avx2_transform_decorr_loop1 "input_ptr" input_end (St [("permute_mask", bc2_rec_t_avx2_transform_decorr_loop1_permute_mask)] [("input_ptr", input_ptr); ("alphas_out", alphas_out); ("colors_out", colors_out); ("indices_out", indices_out)] m) ;;
  let m := mm s in
  do input_ptr <- getp s "input_ptr" ;;
  do alphas_out <- getp s "alphas_out" ;;
  do colors_out <- getp s "colors_out" ;;
  do indices_out <- getp s "indices_out" ;;
  let remaining := num_blocks mod 8 in
  if (0 <? remaining) then
    do variant_enum <- (if VARIANT =? 1 then Ok V1 else if VARIANT =? 2 then Ok V2 else if VARIANT =? 3 then Ok V3 else Ub "unreachable_unchecked") ;;
    do m <- bc2_rec_t_generic_transform_with_decorrelate_generic c input_ptr alphas_out colors_out indices_out remaining variant_enum m ;;
    Ok m
  else
    Ok m.

(** src/core/dxt-lossless-transform-bc2/src/transform/with_recorrelate/transform/avx2.rs:118-126, fn transform_decorr_var1 *)
Definition bc2_rec_t_avx2_transform_decorr_var1 (c : cfg) (input_ptr : ptr) (alphas_out : ptr) (colors_out : ptr) (indices_out : ptr) (num_blocks : Z) (m : mem) : res mem :=
  do _ <- cpu_has (c_avx2 c) "avx2" ;;
  do m <- bc2_rec_t_avx2_transform_decorr c 1 input_ptr alphas_out colors_out indices_out num_blocks m ;;
  Ok m.

(** src/core/dxt-lossless-transform-bc2/src/transform/with_recorrelate/transform/avx2.rs:131-139, fn transform_decorr_var2 *)
Definition bc2_rec_t_avx2_transform_decorr_var2 (c : cfg) (input_ptr : ptr) (alphas_out : ptr) (colors_out : ptr) (indices_out : ptr) (num_blocks : Z) (m : mem) : res mem :=
  do _ <- cpu_has (c_avx2 c) "avx2" ;;
  do m <- bc2_rec_t_avx2_transform_decorr c 2 input_ptr alphas_out colors_out indices_out num_blocks m ;;
  Ok m.

(** src/core/dxt-lossless-transform-bc2/src/transform/with_recorrelate/transform/avx2.rs:144-152, fn transform_decorr_var3 *)
Definition bc2_rec_t_avx2_transform_decorr_var3 (c : cfg) (input_ptr : ptr) (alphas_out : ptr) (colors_out : ptr) (indices_out : ptr) (num_blocks : Z) (m : mem) : res mem :=
  do _ <- cpu_has (c_avx2 c) "avx2" ;;
  do m <- bc2_rec_t_avx2_transform_decorr c 3 input_ptr alphas_out colors_out indices_out num_blocks m ;;
  Ok m.

(** src/core/dxt-lossless-transform-bc2/src/transform/with_recorrelate/transform/avx2.rs:156-176, fn transform_with_decorrelate *)
Definition bc2_rec_t_avx2_transform_with_decorrelate (c : cfg) (input_ptr : ptr) (alphas_out : ptr) (colors_out : ptr) (indices_out : ptr) (num_blocks : Z) (variant : variant) (m : mem) : res mem :=
  match variant with
  | V1 =>
    do m <- bc2_rec_t_avx2_transform_decorr_var1 c input_ptr alphas_out colors_out indices_out num_blocks m ;;
    Ok m
  | V2 =>
    do m <- bc2_rec_t_avx2_transform_decorr_var2 c input_ptr alphas_out colors_out indices_out num_blocks m ;;
    Ok m
  | V3 =>
    do m <- bc2_rec_t_avx2_transform_decorr_var3 c input_ptr alphas_out colors_out indices_out num_blocks m ;;
    Ok m
  | VNone =>
    do m <- Ub "unreachable_unchecked" ;;
    Ok m
  end.

(** Loop at src/core/dxt-lossless-transform-bc2/src/transform/with_recorrelate/transform/sse2.rs:26. *)
Definition bc2_rec_t_sse2_transform_decorr_loop1 : list instr :=
  [ILoad "data0" "input_ptr" 0 16;
    ILoad "data1" "input_ptr" 16 16;
    ILoad "data2" "input_ptr" 32 16;
    ILoad "data3" "input_ptr" 48 16;
    IAdd "input_ptr" 64;
    IOp "alphas0" (OUnpackLo 8 1) ["data0"; "data1"];
    IOp "alphas1" (OUnpackLo 8 1) ["data2"; "data3"];
    IOp "colors_indices0" (OUnpackHi 8 1) ["data0"; "data1"];
    IOp "colors_indices1" (OUnpackHi 8 1) ["data2"; "data3"];
    IOp "t1" (OShufps 1 136) ["colors_indices0"; "colors_indices1"];
    IOp "colors0" (OMov) ["t1"];
    IOp "t2" (OShufps 1 221) ["colors_indices0"; "colors_indices1"];
    IOp "indices0" (OMov) ["t2"];
    IOp "colors0" (OYcc Sse2 Dec V1 V2 V3) ["colors0"];
    IStore "alphas_out" 0 16 "alphas0";
    IStore "alphas_out" 16 16 "alphas1";
    IStore "colors_out" 0 16 "colors0";
    IStore "indices_out" 0 16 "indices0";
    IAdd "alphas_out" 32;
    IAdd "colors_out" 16;
    IAdd "indices_out" 16].

(** src/core/dxt-lossless-transform-bc2/src/transform/with_recorrelate/transform/sse2.rs:15-92, fn transform_decorr *)
Definition bc2_rec_t_sse2_transform_decorr (c : cfg) (VARIANT : Z) (input_ptr : ptr) (alphas_out : ptr) (colors_out : ptr) (indices_out : ptr) (num_blocks : Z) (m : mem) : res mem :=
  do _ <- cpu_has (c_sse2 c) "sse2" ;;
  let num_iterations := (num_blocks / 4) * 4 in
  do input_end <- ptr_add m input_ptr (num_iterations * 16) ;;
  do s <- while_lt (c_junk c) VARIANT bc2_rec_t_sse2_transform_decorr_loop1 "input_ptr" input_end (St [] [("input_ptr", input_ptr); ("alphas_out", alphas_out); ("colors_out", colors_out); ("indices_out", indices_out)] m) ;;
  let m := mm s in
  do input_ptr <- getp s "input_ptr" ;;
  do alphas_out <- getp s "alphas_out" ;;
  do colors_out <- getp s "colors_out" ;;
  do indices_out <- getp s "indices_out" ;;
  let remaining_blocks := num_blocks mod 4 in
  if (0 <? remaining_blocks) then
    do variant_enum <- (if VARIANT =? 1 then Ok V1 else if VARIANT =? 2 then Ok V2 else if VARIANT =? 3 then Ok V3 else Ub "unreachable_unchecked") ;;
    do m <- bc2_rec_t_generic_transform_with_decorrelate_generic c input_ptr alphas_out colors_out indices_out remaining_blocks variant_enum m ;;
    Ok m
  else
    Ok m.

(** src/core/dxt-lossless-transform-bc2/src/transform/with_recorrelate/transform/sse2.rs:98-106, fn transform_decorr_var1 *)
Definition bc2_rec_t_sse2_transform_decorr_var1 (c : cfg) (input_ptr : ptr) (alphas_out : ptr) (colors_out : ptr) (indices_out : ptr) (num_blocks : Z) (m : mem) : res mem :=
  do _ <- cpu_has (c_sse2 c) "sse2" ;;
  do m <- bc2_rec_t_sse2_transform_decorr c 1 input_ptr alphas_out colors_out indices_out num_blocks m ;;
  Ok m.

(** src/core/dxt-lossless-transform-bc2/src/transform/with_recorrelate/transform/sse2.rs:111-119, fn transform_decorr_var2 *)
Definition bc2_rec_t_sse2_transform_decorr_var2 (c : cfg) (input_ptr : ptr) (alphas_out : ptr) (colors_out : ptr) (indices_out : ptr) (num_blocks : Z) (m : mem) : res mem :=
  do _ <- cpu_has (c_sse2 c) "sse2" ;;
  do m <- bc2_rec_t_sse2_transform_decorr c 2 input_ptr alphas_out colors_out indices_out num_blocks m ;;
  Ok m.

(** src/core/dxt-lossless-transform-bc2/src/transform/with_recorrelate/transform/sse2.rs:124-132, fn transform_decorr_var3 *)
Definition bc2_rec_t_sse2_transform_decorr_var3 (c : cfg) (input_ptr : ptr) (alphas_out : ptr) (colors_out : ptr) (indices_out : ptr) (num_blocks : Z) (m : mem) : res mem :=
  do _ <- cpu_has (c_sse2 c) "sse2" ;;
  do m <- bc2_rec_t_sse2_transform_decorr c 3 input_ptr alphas_out colors_out indices_out num_blocks m ;;
  Ok m.

(** src/core/dxt-lossless-transform-bc2/src/transform/with_recorrelate/transform/sse2.rs:136-156, fn transform_with_decorrelate *)
Definition bc2_rec_t_sse2_transform_with_decorrelate (c : cfg) (input_ptr : ptr) (alphas_out : ptr) (colors_out : ptr) (indices_out : ptr) (num_blocks : Z) (variant : variant) (m : mem) : res mem :=
  match variant with
  | V1 =>
    do m <- bc2_rec_t_sse2_transform_decorr_var1 c input_ptr alphas_out colors_out indices_out num_blocks m ;;
    Ok m
  | V2 =>
    do m <- bc2_rec_t_sse2_transform_decorr_var2 c input_ptr alphas_out colors_out indices_out num_blocks m ;;
    Ok m
  | V3 =>
    do m <- bc2_rec_t_sse2_transform_decorr_var3 c input_ptr alphas_out colors_out indices_out num_blocks m ;;
    Ok m
  | VNone =>
    do m <- Ub "unreachable_unchecked" ;;
    Ok m
  end.

(** src/core/dxt-lossless-transform-bc2/src/transform/with_recorrelate/transform/mod.rs:60-158, fn transform_with_decorrelate_x86 *)
Definition bc2_rec_t_transform_with_decorrelate_x86 (c : cfg) (input_ptr : ptr) (alphas_out : ptr) (colors_out : ptr) (indices_out : ptr) (num_blocks : Z) (decorrelation_mode : variant) (m : mem) : res mem :=
  if negb (c_static c) then
    if has_avx512bw c then
      do m <- bc2_rec_t_avx512bw_transform_with_decorrelate c input_ptr alphas_out colors_out indices_out num_blocks decorrelation_mode m ;;
      Ok m
    else
      if has_avx2 c then
        do m <- bc2_rec_t_avx2_transform_with_decorrelate c input_ptr alphas_out colors_out indices_out num_blocks decorrelation_mode m ;;
        Ok m
      else
        if has_sse2 c then
          do m <- bc2_rec_t_sse2_transform_with_decorrelate c input_ptr alphas_out colors_out indices_out num_blocks decorrelation_mode m ;;
          Ok m
        else
          do m <- bc2_rec_t_generic_transform_with_decorrelate_generic c input_ptr alphas_out colors_out indices_out num_blocks decorrelation_mode m ;;
          Ok m
  else
    if c_avx512bw c then
      do m <- bc2_rec_t_avx512bw_transform_with_decorrelate c input_ptr alphas_out colors_out indices_out num_blocks decorrelation_mode m ;;
      Ok m
    else
      if c_avx2 c then
        do m <- bc2_rec_t_avx2_transform_with_decorrelate c input_ptr alphas_out colors_out indices_out num_blocks decorrelation_mode m ;;
        Ok m
      else
        if c_sse2 c then
          do m <- bc2_rec_t_sse2_transform_with_decorrelate c input_ptr alphas_out colors_out indices_out num_blocks decorrelation_mode m ;;
          Ok m
        else
          do m <- bc2_rec_t_generic_transform_with_decorrelate_generic c input_ptr alphas_out colors_out indices_out num_blocks decorrelation_mode m ;;
          Ok m.

(** src/core/dxt-lossless-transform-bc2/src/transform/with_recorrelate/transform/mod.rs:20-56, fn transform_with_decorrelate *)
Definition bc2_rec_t_transform_with_decorrelate (c : cfg) (input_ptr : ptr) (output_ptr : ptr) (len : Z) (decorrelation_mode : variant) (m : mem) : res mem :=
  do _ <- debug_assert (c_debug c) (len mod 16 =? 0) "len . is_multiple_of ( 16 )" ;;
  let alphas_ptr := output_ptr in
  do colors_ptr <- ptr_add m output_ptr (len / 2) ;;
  do indices_ptr <- ptr_add m output_ptr ((len / 2) + (len / 4)) ;;
  let num_blocks := len / 16 in
  if is_x86 c then
    do m <- bc2_rec_t_transform_with_decorrelate_x86 c input_ptr alphas_ptr colors_ptr indices_ptr num_blocks decorrelation_mode m ;;
    Ok m
  else
    do m <- bc2_rec_t_generic_transform_with_decorrelate_generic c input_ptr alphas_ptr colors_ptr indices_ptr num_blocks decorrelation_mode m ;;
    Ok m.

(** Loop at src/core/dxt-lossless-transform-bc2/src/transform/with_recorrelate/untransform/generic.rs:79. *)
Definition bc2_rec_u_generic_untransform_recorr_loop1 : list instr :=
  [ILoad "alpha_data" "alphas_in" 0 8;
    ILoad "color_raw" "colors_in" 0 4;
    ILoad "index_value" "indices_in" 0 4;
    IAdd "alphas_in" 8;
    IAdd "colors_in" 4;
    IAdd "indices_in" 4;
    IOp "t1" (OBytes 0 2) ["color_raw"];
    IOp "color0" (OMov) ["t1"];
    IOp "t2" (OShr 2) ["color_raw"];
    IOp "t3" (OBytes 0 2) ["t2"];
    IOp "color1" (OMov) ["t3"];
    IOp "recorr_color0" (OYcc Scalar Rec V1 V2 V3) ["color0"];
    IOp "recorr_color1" (OYcc Scalar Rec V1 V2 V3) ["color1"];
    IOp "t4" (OZext 4) ["recorr_color0"];
    IOp "t5" (OZext 4) ["recorr_color1"];
    IOp "t6" (OShl 2) ["t5"];
    IOp "recorrelated_colors" (OOr) ["t4"; "t6"];
    IStore "output_ptr" 0 8 "alpha_data";
    IStore "output_ptr" 8 4 "recorrelated_colors";
    IStore "output_ptr" 12 4 "index_value";
    IAdd "output_ptr" 16].

(** src/core/dxt-lossless-transform-bc2/src/transform/with_recorrelate/untransform/generic.rs:71-121, fn untransform_recorr *)
Definition bc2_rec_u_generic_untransform_recorr (c : cfg) (VARIANT : Z) (alphas_in : ptr) (colors_in : ptr) (indices_in : ptr) (output_ptr : ptr) (num_blocks : Z) (m : mem) : res mem :=
  do alphas_end <- ptr_add m alphas_in (num_blocks * 8) ;;
  do s <- while_lt (c_junk c) VARIANT bc2_rec_u_generic_untransform_recorr_loop1 "alphas_in" alphas_end (St [] [("alphas_in", alphas_in); ("colors_in", colors_in); ("indices_in", indices_in); ("output_ptr", output_ptr)] m) ;;
  let m := mm s in
  do alphas_in <- getp s "alphas_in" ;;
  do colors_in <- getp s "colors_in" ;;
  do indices_in <- getp s "indices_in" ;;
  do output_ptr <- getp s "output_ptr" ;;
  Ok m.

(** src/core/dxt-lossless-transform-bc2/src/transform/with_recorrelate/untransform/generic.rs:41-49, fn untransform_recorr_var1 *)
Definition bc2_rec_u_generic_untransform_recorr_var1 (c : cfg) (alphas_in : ptr) (colors_in : ptr) (indices_in : ptr) (output_ptr : ptr) (num_blocks : Z) (m : mem) : res mem :=
  do m <- bc2_rec_u_generic_untransform_recorr c 1 alphas_in colors_in indices_in output_ptr num_blocks m ;;
  Ok m.

(** src/core/dxt-lossless-transform-bc2/src/transform/with_recorrelate/untransform/generic.rs:51-59, fn untransform_recorr_var2 *)
Definition bc2_rec_u_generic_untransform_recorr_var2 (c : cfg) (alphas_in : ptr) (colors_in : ptr) (indices_in : ptr) (output_ptr : ptr) (num_blocks : Z) (m : mem) : res mem :=
  do m <- bc2_rec_u_generic_untransform_recorr c 2 alphas_in colors_in indices_in output_ptr num_blocks m ;;
  Ok m.

(** src/core/dxt-lossless-transform-bc2/src/transform/with_recorrelate/untransform/generic.rs:61-69, fn untransform_recorr_var3 *)
Definition bc2_rec_u_generic_untransform_recorr_var3 (c : cfg) (alphas_in : ptr) (colors_in : ptr) (indices_in : ptr) (output_ptr : ptr) (num_blocks : Z) (m : mem) : res mem :=
  do m <- bc2_rec_u_generic_untransform_recorr c 3 alphas_in colors_in indices_in output_ptr num_blocks m ;;
  Ok m.

(** src/core/dxt-lossless-transform-bc2/src/transform/with_recorrelate/untransform/generic.rs:18-38, fn untransform_with_recorrelate_generic *)
Definition bc2_rec_u_generic_untransform_with_recorrelate_generic (c : cfg) (alphas_in : ptr) (colors_in : ptr) (indices_in : ptr) (output_ptr : ptr) (num_blocks : Z) (recorrelation_mode : variant) (m : mem) : res mem :=
  match recorrelation_mode with
  | V1 =>
    do m <- bc2_rec_u_generic_untransform_recorr_var1 c alphas_in colors_in indices_in output_ptr num_blocks m ;;
    Ok m
  | V2 =>
    do m <- bc2_rec_u_generic_untransform_recorr_var2 c alphas_in colors_in indices_in output_ptr num_blocks m ;;
    Ok m
  | V3 =>
    do m <- bc2_rec_u_generic_untransform_recorr_var3 c alphas_in colors_in indices_in output_ptr num_blocks m ;;
    Ok m
  | VNone =>
    do m <- Ub "unreachable_unchecked" ;;
    Ok m
  end.

(** Constants of the loop at src/core/dxt-lossless-transform-bc2/src/transform/with_recorrelate/untransform/avx512bw.rs:145 *)
Definition bc2_rec_u_avx512bw_untransform_recorr_loop1_perm_color_index_low : list byte := [x00; x00; x00; x00; x10; x00; x00; x00; x01; x00; x00; x00; x11; x00; x00; x00; x02; x00; x00; x00; x12; x00; x00; x00; x03; x00; x00; x00; x13; x00; x00; x00; x04; x00; x00; x00; x14; x00; x00; x00; x05; x00; x00; x00; x15; x00; x00; x00; x06; x00; x00; x00; x16; x00; x00; x00; x07; x00; x00; x00; x17; x00; x00; x00].
Definition bc2_rec_u_avx512bw_untransform_recorr_loop1_perm_color_index_high : list byte := [x08; x00; x00; x00; x18; x00; x00; x00; x09; x00; x00; x00; x19; x00; x00; x00; x0a; x00; x00; x00; x1a; x00; x00; x00; x0b; x00; x00; x00; x1b; x00; x00; x00; x0c; x00; x00; x00; x1c; x00; x00; x00; x0d; x00; x00; x00; x1d; x00; x00; x00; x0e; x00; x00; x00; x1e; x00; x00; x00; x0f; x00; x00; x00; x1f; x00; x00; x00].
Definition bc2_rec_u_avx512bw_untransform_recorr_loop1_perm_block_low : list byte := [x00; x00; x00; x00; x00; x00; x00; x00; x08; x00; x00; x00; x00; x00; x00; x00; x01; x00; x00; x00; x00; x00; x00; x00; x09; x00; x00; x00; x00; x00; x00; x00; x02; x00; x00; x00; x00; x00; x00; x00; x0a; x00; x00; x00; x00; x00; x00; x00; x03; x00; x00; x00; x00; x00; x00; x00; x0b; x00; x00; x00; x00; x00; x00; x00].
Definition bc2_rec_u_avx512bw_untransform_recorr_loop1_perm_block_high : list byte := [x04; x00; x00; x00; x00; x00; x00; x00; x0c; x00; x00; x00; x00; x00; x00; x00; x05; x00; x00; x00; x00; x00; x00; x00; x0d; x00; x00; x00; x00; x00; x00; x00; x06; x00; x00; x00; x00; x00; x00; x00; x0e; x00; x00; x00; x00; x00; x00; x00; x07; x00; x00; x00; x00; x00; x00; x00; x0f; x00; x00; x00; x00; x00; x00; x00].

(** Loop at src/core/dxt-lossless-transform-bc2/src/transform/with_recorrelate/untransform/avx512bw.rs:145. *)
Definition bc2_rec_u_avx512bw_untransform_recorr_loop1 : list instr :=
  [ILoad "alpha_0" "alphas_in" 0 64;
    ILoad "alpha_1" "alphas_in" 64 64;
    IAdd "alphas_in" 128;
    ILoad "colors" "colors_in" 0 64;
    IAdd "colors_in" 64;
    ILoad "indices" "indices_in" 0 64;
    IAdd "indices_in" 64;
    IOp "colors" (OYcc Avx512bw Rec V1 V2 V3) ["colors"];
    IOp "colors_indices_0" (OPermT2 4 16) ["colors"; "perm_color_index_low"; "indices"];
    IOp "colors_indices_1" (OPermT2 4 16) ["colors"; "perm_color_index_high"; "indices"];
    IOp "output_0" (OPermT2 8 8) ["alpha_0"; "perm_block_low"; "colors_indices_0"];
    IOp "output_1" (OPermT2 8 8) ["alpha_0"; "perm_block_high"; "colors_indices_0"];
    IOp "output_2" (OPermT2 8 8) ["alpha_1"; "perm_block_low"; "colors_indices_1"];
    IOp "output_3" (OPermT2 8 8) ["alpha_1"; "perm_block_high"; "colors_indices_1"];
    IStore "output_ptr" 0 64 "output_0";
    IStore "output_ptr" 64 64 "output_1";
    IStore "output_ptr" 128 64 "output_2";
    IStore "output_ptr" 192 64 "output_3";
    IAdd "output_ptr" 256].

(** src/core/dxt-lossless-transform-bc2/src/transform/with_recorrelate/untransform/avx512bw.rs:71-206, fn untransform_recorr *)
Definition bc2_rec_u_avx512bw_untransform_recorr (c : cfg) (VARIANT : Z) (alphas_in : ptr) (colors_in : ptr) (indices_in : ptr) (output_ptr : ptr) (num_blocks : Z) (m : mem) : res mem :=
  do _ <- cpu_has (c_avx512f c && c_avx512bw c) "avx512f avx512bw" ;;
  let vectorized_blocks := Z.ldiff num_blocks 15 in
  do alphas_end <- ptr_add m alphas_in (vectorized_blocks * 8) ;;
  do s <- while_lt (c_junk c) VARIANT bc2_rec_u_avx512bw_untransform_recorr_loop1 "alphas_in" alphas_end (St [("perm_color_index_low", bc2_rec_u_avx512bw_untransform_recorr_loop1_perm_color_index_low); ("perm_color_index_high", bc2_rec_u_avx512bw_untransform_recorr_loop1_perm_color_index_high); ("perm_block_low", bc2_rec_u_avx512bw_untransform_recorr_loop1_perm_block_low); ("perm_block_high", bc2_rec_u_avx512bw_untransform_recorr_loop1_perm_block_high)] [("alphas_in", alphas_in); ("colors_in", colors_in); ("indices_in", indices_in); ("output_ptr", output_ptr)] m) ;;
  let m := mm s in
  do alphas_in <- getp s "alphas_in" ;;
  do colors_in <- getp s "colors_in" ;;
  do indices_in <- getp s "indices_in" ;;
  do output_ptr <- getp s "output_ptr" ;;
  do remaining_blocks <- usub num_blocks vectorized_blocks ;;
  if (0 <? remaining_blocks) then
    do recorrelation_mode <- (if VARIANT =? 1 then Ok V1 else if VARIANT =? 2 then Ok V2 else if VARIANT =? 3 then Ok V3 else Ub "unreachable_unchecked") ;;
    do m <- bc2_rec_u_generic_untransform_with_recorrelate_generic c alphas_in colors_in indices_in output_ptr remaining_blocks recorrelation_mode m ;;
    Ok m
  else
    Ok m.

(** src/core/dxt-lossless-transform-bc2/src/transform/with_recorrelate/untransform/avx512bw.rs:36-44, fn untransform_recorr_var1 *)
Definition bc2_rec_u_avx512bw_untransform_recorr_var1 (c : cfg) (alphas_in : ptr) (colors_in : ptr) (indices_in : ptr) (output_ptr : ptr) (num_blocks : Z) (m : mem) : res mem :=
  do m <- bc2_rec_u_avx512bw_untransform_recorr c 1 alphas_in colors_in indices_in output_ptr num_blocks m ;;
  Ok m.

(** src/core/dxt-lossless-transform-bc2/src/transform/with_recorrelate/untransform/avx512bw.rs:46-54, fn untransform_recorr_var2 *)
Definition bc2_rec_u_avx512bw_untransform_recorr_var2 (c : cfg) (alphas_in : ptr) (colors_in : ptr) (indices_in : ptr) (output_ptr : ptr) (num_blocks : Z) (m : mem) : res mem :=
  do m <- bc2_rec_u_avx512bw_untransform_recorr c 2 alphas_in colors_in indices_in output_ptr num_blocks m ;;
  Ok m.

(** src/core/dxt-lossless-transform-bc2/src/transform/with_recorrelate/untransform/avx512bw.rs:56-64, fn untransform_recorr_var3 *)
Definition bc2_rec_u_avx512bw_untransform_recorr_var3 (c : cfg) (alphas_in : ptr) (colors_in : ptr) (indices_in : ptr) (output_ptr : ptr) (num_blocks : Z) (m : mem) : res mem :=
  do m <- bc2_rec_u_avx512bw_untransform_recorr c 3 alphas_in colors_in indices_in output_ptr num_blocks m ;;
  Ok m.

(** src/core/dxt-lossless-transform-bc2/src/transform/with_recorrelate/untransform/avx512bw.rs:13-33, fn untransform_with_recorrelate *)
Definition bc2_rec_u_avx512bw_untransform_with_recorrelate (c : cfg) (alphas_in : ptr) (colors_in : ptr) (indices_in : ptr) (output_ptr : ptr) (num_blocks : Z) (recorrelation_mode : variant) (m : mem) : res mem :=
  match recorrelation_mode with
  | V1 =>
    do m <- bc2_rec_u_avx512bw_untransform_recorr_var1 c alphas_in colors_in indices_in output_ptr num_blocks m ;;
    Ok m
  | V2 =>
    do m <- bc2_rec_u_avx512bw_untransform_recorr_var2 c alphas_in colors_in indices_in output_ptr num_blocks m ;;
    Ok m
  | V3 =>
    do m <- bc2_rec_u_avx512bw_untransform_recorr_var3 c alphas_in colors_in indices_in output_ptr num_blocks m ;;
    Ok m
  | VNone =>
    do m <- Ub "unreachable_unchecked" ;;
    Ok m
  end.

(** Constants of the loop at src/core/dxt-lossless-transform-bc2/src/transform/with_recorrelate/untransform/avx2.rs:87 *)
Definition bc2_rec_u_avx2_untransform_recorr_loop1_alpha_perm_mask : list byte := [x00; x00; x00; x00; x01; x00; x00; x00; x04; x00; x00; x00; x05; x00; x00; x00; x02; x00; x00; x00; x03; x00; x00; x00; x06; x00; x00; x00; x07; x00; x00; x00].
Definition bc2_rec_u_avx2_untransform_recorr_loop1_indcol_perm_mask : list byte := [x00; x00; x00; x00; x04; x00; x00; x00; x02; x00; x00; x00; x06; x00; x00; x00; x01; x00; x00; x00; x05; x00; x00; x00; x03; x00; x00; x00; x07; x00; x00; x00].

(** Loop at src/core/dxt-lossless-transform-bc2/src/transform/with_recorrelate/untransform/avx2.rs:87. *)
Definition bc2_rec_u_avx2_untransform_recorr_loop1 : list instr :=
  [ILoad "alphas_raw_0" "alphas_in" 0 32;
    ILoad "alphas_raw_1" "alphas_in" 32 32;
    IAdd "alphas_in" 64;
    IOp "alphas_0" (OPermVar 4 8) ["alpha_perm_mask"; "alphas_raw_0"];
    IOp "alphas_1" (OPermVar 4 8) ["alpha_perm_mask"; "alphas_raw_1"];
    ILoad "colors_raw" "colors_in" 0 32;
    IAdd "colors_in" 32;
    ILoad "indices_raw" "indices_in" 0 32;
    IAdd "indices_in" 32;
    IOp "colors_recorrelated" (OYcc Avx2 Rec V1 V2 V3) ["colors_raw"];
    IOp "colors_indices_4" (OPerm2i128 32) ["colors_recorrelated"; "indices_raw"];
    IOp "colors_indices_5" (OPerm2i128 49) ["colors_recorrelated"; "indices_raw"];
    IOp "colors_indices_permuted_4" (OPermVar 4 8) ["indcol_perm_mask"; "colors_indices_4"];
    IOp "colors_indices_permuted_5" (OPermVar 4 8) ["indcol_perm_mask"; "colors_indices_5"];
    IOp "result_0" (OUnpackLo 8 2) ["alphas_0"; "colors_indices_permuted_4"];
    IOp "result_1" (OUnpackHi 8 2) ["alphas_0"; "colors_indices_permuted_4"];
    IOp "result_2" (OUnpackLo 8 2) ["alphas_1"; "colors_indices_permuted_5"];
    IOp "result_3" (OUnpackHi 8 2) ["alphas_1"; "colors_indices_permuted_5"];
    IStore "output_ptr" 0 32 "result_0";
    IStore "output_ptr" 32 32 "result_1";
    IStore "output_ptr" 64 32 "result_2";
    IStore "output_ptr" 96 32 "result_3";
    IAdd "output_ptr" 128].

(** src/core/dxt-lossless-transform-bc2/src/transform/with_recorrelate/untransform/avx2.rs:71-154, fn untransform_recorr *)
Definition bc2_rec_u_avx2_untransform_recorr (c : cfg) (VARIANT : Z) (alphas_in : ptr) (colors_in : ptr) (indices_in : ptr) (output_ptr : ptr) (num_blocks : Z) (m : mem) : res mem :=
  do _ <- cpu_has (c_avx2 c) "avx2" ;;
  let vectorized_blocks := Z.ldiff num_blocks 7 in
  do alphas_end <- ptr_add m alphas_in (vectorized_blocks * 8) ;;
  do s <- while_lt (c_junk c) VARIANT bc2_rec_u_avx2_untransform_recorr_loop1 "alphas_in" alphas_end (St [("alpha_perm_mask", bc2_rec_u_avx2_untransform_recorr_loop1_alpha_perm_mask); ("indcol_perm_mask", bc2_rec_u_avx2_untransform_recorr_loop1_indcol_perm_mask)] [("alphas_in", alphas_in); ("colors_in", colors_in); ("indices_in", indices_in); ("output_ptr", output_ptr)] m) ;;
  let m := mm s in
  do alphas_in <- getp s "alphas_in" ;;
  do colors_in <- getp s "colors_in" ;;
  do indices_in <- getp s "indices_in" ;;
  do output_ptr <- getp s "output_ptr" ;;
  do remaining_blocks <- usub num_blocks vectorized_blocks ;;
  if (0 <? remaining_blocks) then
    do v3 <- (if VARIANT =? 1 then Ok V1 else if VARIANT =? 2 then Ok V2 else if VARIANT =? 3 then Ok V3 else Ub "unreachable_unchecked") ;;
    do m <- bc2_rec_u_generic_untransform_with_recorrelate_generic c alphas_in colors_in indices_in output_ptr remaining_blocks v3 m ;;
    Ok m
  else
    Ok m.

(** src/core/dxt-lossless-transform-bc2/src/transform/with_recorrelate/untransform/avx2.rs:40-48, fn untransform_recorr_var1 *)
Definition bc2_rec_u_avx2_untransform_recorr_var1 (c : cfg) (alphas_in : ptr) (colors_in : ptr) (indices_in : ptr) (output_ptr : ptr) (num_blocks : Z) (m : mem) : res mem :=
  do m <- bc2_rec_u_avx2_untransform_recorr c 1 alphas_in colors_in indices_in output_ptr num_blocks m ;;
  Ok m.

(** src/core/dxt-lossless-transform-bc2/src/transform/with_recorrelate/untransform/avx2.rs:50-58, fn untransform_recorr_var2 *)
Definition bc2_rec_u_avx2_untransform_recorr_var2 (c : cfg) (alphas_in : ptr) (colors_in : ptr) (indices_in : ptr) (output_ptr : ptr) (num_blocks : Z) (m : mem) : res mem :=
  do m <- bc2_rec_u_avx2_untransform_recorr c 2 alphas_in colors_in indices_in output_ptr num_blocks m ;;
  Ok m.

(** src/core/dxt-lossless-transform-bc2/src/transform/with_recorrelate/untransform/avx2.rs:60-68, fn untransform_recorr_var3 *)
Definition bc2_rec_u_avx2_untransform_recorr_var3 (c : cfg) (alphas_in : ptr) (colors_in : ptr) (indices_in : ptr) (output_ptr : ptr) (num_blocks : Z) (m : mem) : res mem :=
  do m <- bc2_rec_u_avx2_untransform_recorr c 3 alphas_in colors_in indices_in output_ptr num_blocks m ;;
  Ok m.

(** src/core/dxt-lossless-transform-bc2/src/transform/with_recorrelate/untransform/avx2.rs:17-37, fn untransform_with_recorrelate *)
Definition bc2_rec_u_avx2_untransform_with_recorrelate (c : cfg) (alphas_in : ptr) (colors_in : ptr) (indices_in : ptr) (output_ptr : ptr) (num_blocks : Z) (recorrelation_mode : variant) (m : mem) : res mem :=
  match recorrelation_mode with
  | V1 =>
    do m <- bc2_rec_u_avx2_untransform_recorr_var1 c alphas_in colors_in indices_in output_ptr num_blocks m ;;
    Ok m
  | V2 =>
    do m <- bc2_rec_u_avx2_untransform_recorr_var2 c alphas_in colors_in indices_in output_ptr num_blocks m ;;
    Ok m
  | V3 =>
    do m <- bc2_rec_u_avx2_untransform_recorr_var3 c alphas_in colors_in indices_in output_ptr num_blocks m ;;
    Ok m
  | VNone =>
    do m <- Ub "unreachable_unchecked" ;;
    Ok m
  end.

(** Loop at src/core/dxt-lossless-transform-bc2/src/transform/with_recorrelate/untransform/sse2.rs:79. *)
Definition bc2_rec_u_sse2_untransform_recorr_loop1 : list instr :=
  [ILoad "alphas_0" "alphas_in" 0 16;
    ILoad "alphas_1" "alphas_in" 16 16;
    IAdd "alphas_in" 32;
    ILoad "colors_0" "colors_in" 0 16;
    IAdd "colors_in" 16;
    ILoad "indices_0" "indices_in" 0 16;
    IAdd "indices_in" 16;
    IOp "recorrelated_colors_0" (OYcc Sse2 Rec V1 V2 V3) ["colors_0"];
    IOp "colors_indices_low" (OUnpackLo 4 1) ["recorrelated_colors_0"; "indices_0"];
    IOp "colors_indices_high" (OUnpackHi 4 1) ["recorrelated_colors_0"; "indices_0"];
    IOp "block0" (OUnpackLo 8 1) ["alphas_0"; "colors_indices_low"];
    IOp "block2" (OUnpackLo 8 1) ["alphas_1"; "colors_indices_high"];
    IOp "block1" (OUnpackHi 8 1) ["alphas_0"; "colors_indices_low"];
    IOp "block3" (OUnpackHi 8 1) ["alphas_1"; "colors_indices_high"];
    IStore "output_ptr" 0 16 "block0";
    IStore "output_ptr" 16 16 "block1";
    IStore "output_ptr" 32 16 "block2";
    IStore "output_ptr" 48 16 "block3";
    IAdd "output_ptr" 64].

(** src/core/dxt-lossless-transform-bc2/src/transform/with_recorrelate/untransform/sse2.rs:67-156, fn untransform_recorr *)
Definition bc2_rec_u_sse2_untransform_recorr (c : cfg) (VARIANT : Z) (alphas_in : ptr) (colors_in : ptr) (indices_in : ptr) (output_ptr : ptr) (num_blocks : Z) (m : mem) : res mem :=
  do _ <- cpu_has (c_sse2 c) "sse2" ;;
  let vectorized_blocks := Z.ldiff num_blocks 3 in
  do colors_end <- ptr_add m colors_in (vectorized_blocks * 4) ;;
  do s <- while_lt (c_junk c) VARIANT bc2_rec_u_sse2_untransform_recorr_loop1 "colors_in" colors_end (St [] [("alphas_in", alphas_in); ("colors_in", colors_in); ("indices_in", indices_in); ("output_ptr", output_ptr)] m) ;;
  let m := mm s in
  do alphas_in <- getp s "alphas_in" ;;
  do colors_in <- getp s "colors_in" ;;
  do indices_in <- getp s "indices_in" ;;
  do output_ptr <- getp s "output_ptr" ;;
  do remaining_blocks <- usub num_blocks vectorized_blocks ;;
  if (0 <? remaining_blocks) then
    do v3 <- (if VARIANT =? 1 then Ok V1 else if VARIANT =? 2 then Ok V2 else if VARIANT =? 3 then Ok V3 else Ub "unreachable_unchecked") ;;
    do m <- bc2_rec_u_generic_untransform_with_recorrelate_generic c alphas_in colors_in indices_in output_ptr remaining_blocks v3 m ;;
    Ok m
  else
    Ok m.

(** src/core/dxt-lossless-transform-bc2/src/transform/with_recorrelate/untransform/sse2.rs:36-44, fn untransform_recorr_var1 *)
Definition bc2_rec_u_sse2_untransform_recorr_var1 (c : cfg) (alphas_in : ptr) (colors_in : ptr) (indices_in : ptr) (output_ptr : ptr) (num_blocks : Z) (m : mem) : res mem :=
  do m <- bc2_rec_u_sse2_untransform_recorr c 1 alphas_in colors_in indices_in output_ptr num_blocks m ;;
  Ok m.

(** src/core/dxt-lossless-transform-bc2/src/transform/with_recorrelate/untransform/sse2.rs:46-54, fn untransform_recorr_var2 *)
Definition bc2_rec_u_sse2_untransform_recorr_var2 (c : cfg) (alphas_in : ptr) (colors_in : ptr) (indices_in : ptr) (output_ptr : ptr) (num_blocks : Z) (m : mem) : res mem :=
  do m <- bc2_rec_u_sse2_untransform_recorr c 2 alphas_in colors_in indices_in output_ptr num_blocks m ;;
  Ok m.

(** src/core/dxt-lossless-transform-bc2/src/transform/with_recorrelate/untransform/sse2.rs:56-64, fn untransform_recorr_var3 *)
Definition bc2_rec_u_sse2_untransform_recorr_var3 (c : cfg) (alphas_in : ptr) (colors_in : ptr) (indices_in : ptr) (output_ptr : ptr) (num_blocks : Z) (m : mem) : res mem :=
  do m <- bc2_rec_u_sse2_untransform_recorr c 3 alphas_in colors_in indices_in output_ptr num_blocks m ;;
  Ok m.

(** src/core/dxt-lossless-transform-bc2/src/transform/with_recorrelate/untransform/sse2.rs:13-33, fn untransform_with_recorrelate *)
Definition bc2_rec_u_sse2_untransform_with_recorrelate (c : cfg) (alphas_in : ptr) (colors_in : ptr) (indices_in : ptr) (output_ptr : ptr) (num_blocks : Z) (recorrelation_mode : variant) (m : mem) : res mem :=
  match recorrelation_mode with
  | V1 =>
    do m <- bc2_rec_u_sse2_untransform_recorr_var1 c alphas_in colors_in indices_in output_ptr num_blocks m ;;
    Ok m
  | V2 =>
    do m <- bc2_rec_u_sse2_untransform_recorr_var2 c alphas_in colors_in indices_in output_ptr num_blocks m ;;
    Ok m
  | V3 =>
    do m <- bc2_rec_u_sse2_untransform_recorr_var3 c alphas_in colors_in indices_in output_ptr num_blocks m ;;
    Ok m
  | VNone =>
    do m <- Ub "unreachable_unchecked" ;;
    Ok m
  end.

(** src/core/dxt-lossless-transform-bc2/src/transform/with_recorrelate/untransform/mod.rs:63-163, fn untransform_with_recorrelate_x86 *)
Definition bc2_rec_u_untransform_with_recorrelate_x86 (c : cfg) (alphas_ptr : ptr) (colors_ptr : ptr) (indices_ptr : ptr) (output_ptr : ptr) (num_blocks : Z) (recorrelation_mode : variant) (m : mem) : res mem :=
  if negb (c_static c) then
    if has_avx512bw c then
      do m <- bc2_rec_u_avx512bw_untransform_with_recorrelate c alphas_ptr colors_ptr indices_ptr output_ptr num_blocks recorrelation_mode m ;;
      Ok m
    else
      if has_avx2 c then
        do m <- bc2_rec_u_avx2_untransform_with_recorrelate c alphas_ptr colors_ptr indices_ptr output_ptr num_blocks recorrelation_mode m ;;
        Ok m
      else
        if has_sse2 c then
          do m <- bc2_rec_u_sse2_untransform_with_recorrelate c alphas_ptr colors_ptr indices_ptr output_ptr num_blocks recorrelation_mode m ;;
          Ok m
        else
          do m <- bc2_rec_u_generic_untransform_with_recorrelate_generic c alphas_ptr colors_ptr indices_ptr output_ptr num_blocks recorrelation_mode m ;;
          Ok m
  else
    if c_avx512bw c then
      do m <- bc2_rec_u_avx512bw_untransform_with_recorrelate c alphas_ptr colors_ptr indices_ptr output_ptr num_blocks recorrelation_mode m ;;
      Ok m
    else
      if is_x86 c then
        if c_avx2 c then
          do m <- bc2_rec_u_avx2_untransform_with_recorrelate c alphas_ptr colors_ptr indices_ptr output_ptr num_blocks recorrelation_mode m ;;
          Ok m
        else
          if c_sse2 c then
            do m <- bc2_rec_u_sse2_untransform_with_recorrelate c alphas_ptr colors_ptr indices_ptr output_ptr num_blocks recorrelation_mode m ;;
            Ok m
          else
            do m <- bc2_rec_u_generic_untransform_with_recorrelate_generic c alphas_ptr colors_ptr indices_ptr output_ptr num_blocks recorrelation_mode m ;;
            Ok m
      else
        do m <- bc2_rec_u_generic_untransform_with_recorrelate_generic c alphas_ptr colors_ptr indices_ptr output_ptr num_blocks recorrelation_mode m ;;
        Ok m.

(** src/core/dxt-lossless-transform-bc2/src/transform/with_recorrelate/untransform/mod.rs:23-60, fn untransform_with_recorrelate *)
Definition bc2_rec_u_untransform_with_recorrelate (c : cfg) (input_ptr : ptr) (output_ptr : ptr) (len : Z) (recorrelation_mode : variant) (m : mem) : res mem :=
  do _ <- debug_assert (c_debug c) (len mod 16 =? 0) "len . is_multiple_of ( 16 )" ;;
  let alphas_ptr := input_ptr in
  do colors_ptr <- ptr_add m input_ptr (len / 2) ;;
  do indices_ptr <- ptr_add m input_ptr ((len / 2) + (len / 4)) ;;
  let num_blocks := len / 16 in
  if is_x86 c then
    do m <- bc2_rec_u_untransform_with_recorrelate_x86 c alphas_ptr colors_ptr indices_ptr output_ptr num_blocks recorrelation_mode m ;;
    Ok m
  else
    do m <- bc2_rec_u_generic_untransform_with_recorrelate_generic c alphas_ptr colors_ptr indices_ptr output_ptr num_blocks recorrelation_mode m ;;
    Ok m.

