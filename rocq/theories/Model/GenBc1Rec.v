(** Generated by tools/rs2v.py from the kernel sources cited below; do not edit.
    Simplifications: usize arithmetic is exact (lengths are below isize::MAX), see
    Model/Kernel.v for the machine. *)
From Verif Require Import Base.Bytes Base.Res Model.Color565 Model.Ycc Model.Kernel.
Open Scope string_scope.
Open Scope list_scope.
Open Scope Z_scope.

(** Loop at src/core/dxt-lossless-transform-bc1/src/transform/with_recorrelate/transform/generic.rs:45. *)
Definition bc1_rec_t_generic_transform_decorr_loop1 : list instr :=
  [ILoad "color_raw" "input_ptr" 0 4;
    ILoad "index_value" "input_ptr" 4 4;
    IAdd "input_ptr" 8;
    IOp "t1" (OBytes 0 2) ["color_raw"];
    IOp "color0" (OMov) ["t1"];
    IOp "t2" (OShr 2) ["color_raw"];
    IOp "t3" (OBytes 0 2) ["t2"];
    IOp "color1" (OMov) ["t3"];
    IOp "decorr0" (OYcc Scalar Dec V1 V2 V3) ["color0"];
    IOp "decorr1" (OYcc Scalar Dec V1 V2 V3) ["color1"];
    IOp "t4" (OZext 4) ["decorr0"];
    IOp "t5" (OZext 4) ["decorr1"];
    IOp "t6" (OShl 2) ["t5"];
    IOp "decorrelated_colors" (OOr) ["t4"; "t6"];
    IStore "colours_out" 0 4 "decorrelated_colors";
    IStore "indices_out" 0 4 "index_value";
    IAdd "colours_out" 4;
    IAdd "indices_out" 4].

(** src/core/dxt-lossless-transform-bc1/src/transform/with_recorrelate/transform/generic.rs:38-83, fn transform_decorr *)
Definition bc1_rec_t_generic_transform_decorr (c : cfg) (VARIANT : Z) (input_ptr : ptr) (colours_out : ptr) (indices_out : ptr) (num_blocks : Z) (m : mem) : res mem :=
  do input_end <- ptr_add m input_ptr (num_blocks * 8) ;;
  do s <- while_lt (c_junk c) VARIANT bc1_rec_t_generic_transform_decorr_loop1 "input_ptr" input_end (St [] [("input_ptr", input_ptr); ("colours_out", colours_out); ("indices_out", indices_out)] m) ;;
  let m := mm s in
  do input_ptr <- getp s "input_ptr" ;;
  do colours_out <- getp s "colours_out" ;;
  do indices_out <- getp s "indices_out" ;;
  Ok m.

(** src/core/dxt-lossless-transform-bc1/src/transform/with_recorrelate/transform/generic.rs:87-94, fn transform_decorr_var1 *)
Definition bc1_rec_t_generic_transform_decorr_var1 (c : cfg) (input_ptr : ptr) (colours_out : ptr) (indices_out : ptr) (num_blocks : Z) (m : mem) : res mem :=
  do m <- bc1_rec_t_generic_transform_decorr c 1 input_ptr colours_out indices_out num_blocks m ;;
  Ok m.

(** src/core/dxt-lossless-transform-bc1/src/transform/with_recorrelate/transform/generic.rs:97-104, fn transform_decorr_var2 *)
Definition bc1_rec_t_generic_transform_decorr_var2 (c : cfg) (input_ptr : ptr) (colours_out : ptr) (indices_out : ptr) (num_blocks : Z) (m : mem) : res mem :=
  do m <- bc1_rec_t_generic_transform_decorr c 2 input_ptr colours_out indices_out num_blocks m ;;
  Ok m.

(** src/core/dxt-lossless-transform-bc1/src/transform/with_recorrelate/transform/generic.rs:107-114, fn transform_decorr_var3 *)
Definition bc1_rec_t_generic_transform_decorr_var3 (c : cfg) (input_ptr : ptr) (colours_out : ptr) (indices_out : ptr) (num_blocks : Z) (m : mem) : res mem :=
  do m <- bc1_rec_t_generic_transform_decorr c 3 input_ptr colours_out indices_out num_blocks m ;;
  Ok m.

(** src/core/dxt-lossless-transform-bc1/src/transform/with_recorrelate/transform/generic.rs:17-36, fn transform_with_decorrelate_generic *)
Definition bc1_rec_t_generic_transform_with_decorrelate_generic (c : cfg) (input_ptr : ptr) (colours_out : ptr) (indices_out : ptr) (num_blocks : Z) (decorrelation_mode : variant) (m : mem) : res mem :=
  match decorrelation_mode with
  | V1 =>
    do m <- bc1_rec_t_generic_transform_decorr_var1 c input_ptr colours_out indices_out num_blocks m ;;
    Ok m
  | V2 =>
    do m <- bc1_rec_t_generic_transform_decorr_var2 c input_ptr colours_out indices_out num_blocks m ;;
    Ok m
  | V3 =>
    do m <- bc1_rec_t_generic_transform_decorr_var3 c input_ptr colours_out indices_out num_blocks m ;;
    Ok m
  | VNone =>
    do m <- Ub "unreachable_unchecked" ;;
    Ok m
  end.

(** Constants of the loop at src/core/dxt-lossless-transform-bc1/src/transform/with_recorrelate/transform/avx512bw.rs:34 *)
Definition bc1_rec_t_avx512bw_transform_decorr_loop1_perm_colors : list byte := [x00; x00; x00; x00; x02; x00; x00; x00; x04; x00; x00; x00; x06; x00; x00; x00; x08; x00; x00; x00; x0a; x00; x00; x00; x0c; x00; x00; x00; x0e; x00; x00; x00; x10; x00; x00; x00; x12; x00; x00; x00; x14; x00; x00; x00; x16; x00; x00; x00; x18; x00; x00; x00; x1a; x00; x00; x00; x1c; x00; x00; x00; x1e; x00; x00; x00].
Definition bc1_rec_t_avx512bw_transform_decorr_loop1_perm_indices : list byte := [x01; x00; x00; x00; x03; x00; x00; x00; x05; x00; x00; x00; x07; x00; x00; x00; x09; x00; x00; x00; x0b; x00; x00; x00; x0d; x00; x00; x00; x0f; x00; x00; x00; x11; x00; x00; x00; x13; x00; x00; x00; x15; x00; x00; x00; x17; x00; x00; x00; x19; x00; x00; x00; x1b; x00; x00; x00; x1d; x00; x00; x00; x1f; x00; x00; x00].

(** Loop at src/core/dxt-lossless-transform-bc1/src/transform/with_recorrelate/transform/avx512bw.rs:34. *)
Definition bc1_rec_t_avx512bw_transform_decorr_loop1 : list instr :=
  [ILoad "in0" "input_ptr" 0 64;
    ILoad "in1" "input_ptr" 64 64;
    ILoad "in2" "input_ptr" 128 64;
    ILoad "in3" "input_ptr" 192 64;
    IAdd "input_ptr" 256;
    IOp "col0" (OPermT2 4 16) ["in0"; "perm_colors"; "in1"];
    IOp "col0" (OYcc Avx512bw Dec V1 V2 V3) ["col0"];
    IStore "colours_out" 0 64 "col0";
    IOp "col1" (OPermT2 4 16) ["in2"; "perm_colors"; "in3"];
    IOp "col1" (OYcc Avx512bw Dec V1 V2 V3) ["col1"];
    IStore "colours_out" 64 64 "col1";
    IAdd "colours_out" 128;
    IOp "idx0" (OPermT2 4 16) ["in0"; "perm_indices"; "in1"];
    IOp "idx1" (OPermT2 4 16) ["in2"; "perm_indices"; "in3"];
    IStore "indices_out" 0 64 "idx0";
    IStore "indices_out" 64 64 "idx1";
    IAdd "indices_out" 128].

(** src/core/dxt-lossless-transform-bc1/src/transform/with_recorrelate/transform/avx512bw.rs:19-84, fn transform_decorr *)
Definition bc1_rec_t_avx512bw_transform_decorr (c : cfg) (VARIANT : Z) (input_ptr : ptr) (colours_out : ptr) (indices_out : ptr) (num_blocks : Z) (m : mem) : res mem :=
  do _ <- cpu_has (c_sse2 c && c_avx512f c && c_avx512bw c) "sse2 avx512f avx512bw" ;;
  let blocks32 := num_blocks / 32 in
  do input_end <- ptr_add m input_ptr ((blocks32 * 32) * 8) ;;
  do s <- while_lt (c_junk c) VARIANT bc1_rec_t_avx512bw_transform_decorr_loop1 "input_ptr" input_end (St [("perm_colors", bc1_rec_t_avx512bw_transform_decorr_loop1_perm_colors); ("perm_indices", bc1_rec_t_avx512bw_transform_decorr_loop1_perm_indices)] [("input_ptr", input_ptr); ("colours_out", colours_out); ("indices_out", indices_out)] m) ;;
  let m := mm s in
  do input_ptr <- getp s "input_ptr" ;;
  do colours_out <- getp s "colours_out" ;;
  do indices_out <- getp s "indices_out" ;;
  let remaining_blocks := num_blocks mod 32 in
  do variant_enum <- (if VARIANT =? 1 then Ok V1 else if VARIANT =? 2 then Ok V2 else if VARIANT =? 3 then Ok V3 else Ub "unreachable_unchecked") ;;
  do m <- bc1_rec_t_generic_transform_with_decorrelate_generic c input_ptr colours_out indices_out remaining_blocks variant_enum m ;;
  Ok m.

(** src/core/dxt-lossless-transform-bc1/src/transform/with_recorrelate/transform/avx512bw.rs:91-98, fn transform_decorr_var1 *)
Definition bc1_rec_t_avx512bw_transform_decorr_var1 (c : cfg) (input_ptr : ptr) (colours_out : ptr) (indices_out : ptr) (num_blocks : Z) (m : mem) : res mem :=
  do _ <- cpu_has (c_avx512f c && c_avx512bw c) "avx512f avx512bw" ;;
  do m <- bc1_rec_t_avx512bw_transform_decorr c 1 input_ptr colours_out indices_out num_blocks m ;;
  Ok m.

(** src/core/dxt-lossless-transform-bc1/src/transform/with_recorrelate/transform/avx512bw.rs:104-111, fn transform_decorr_var2 *)
Definition bc1_rec_t_avx512bw_transform_decorr_var2 (c : cfg) (input_ptr : ptr) (colours_out : ptr) (indices_out : ptr) (num_blocks : Z) (m : mem) : res mem :=
  do _ <- cpu_has (c_avx512f c && c_avx512bw c) "avx512f avx512bw" ;;
  do m <- bc1_rec_t_avx512bw_transform_decorr c 2 input_ptr colours_out indices_out num_blocks m ;;
  Ok m.

(** src/core/dxt-lossless-transform-bc1/src/transform/with_recorrelate/transform/avx512bw.rs:117-124, fn transform_decorr_var3 *)
Definition bc1_rec_t_avx512bw_transform_decorr_var3 (c : cfg) (input_ptr : ptr) (colours_out : ptr) (indices_out : ptr) (num_blocks : Z) (m : mem) : res mem :=
  do _ <- cpu_has (c_avx512f c && c_avx512bw c) "avx512f avx512bw" ;;
  do m <- bc1_rec_t_avx512bw_transform_decorr c 3 input_ptr colours_out indices_out num_blocks m ;;
  Ok m.

(** src/core/dxt-lossless-transform-bc1/src/transform/with_recorrelate/transform/avx512bw.rs:128-147, fn transform_with_decorrelate *)
Definition bc1_rec_t_avx512bw_transform_with_decorrelate (c : cfg) (input_ptr : ptr) (colours_out : ptr) (indices_out : ptr) (num_blocks : Z) (variant : variant) (m : mem) : res mem :=
  match variant with
  | V1 =>
    do m <- bc1_rec_t_avx512bw_transform_decorr_var1 c input_ptr colours_out indices_out num_blocks m ;;
    Ok m
  | V2 =>
    do m <- bc1_rec_t_avx512bw_transform_decorr_var2 c input_ptr colours_out indices_out num_blocks m ;;
    Ok m
  | V3 =>
    do m <- bc1_rec_t_avx512bw_transform_decorr_var3 c input_ptr colours_out indices_out num_blocks m ;;
    Ok m
  | VNone =>
    do m <- Ub "unreachable_unchecked" ;;
    Ok m
  end.

(** Loop at src/core/dxt-lossless-transform-bc1/src/transform/with_recorrelate/transform/avx2.rs:22. *)
Definition bc1_rec_t_avx2_transform_decorr_loop1 : list instr :=
  [ILoad "data0" "input_ptr" 0 32;
    ILoad "data1" "input_ptr" 32 32;
    ILoad "data2" "input_ptr" 64 32;
    ILoad "data3" "input_ptr" 96 32;
    IAdd "input_ptr" 128;
    IOp "t1" (OShufps 2 136) ["data0"; "data1"];
    IOp "colors_only_0" (OMov) ["t1"];
    IOp "colors0" (OPermq 216) ["colors_only_0"];
    IOp "t2" (OShufps 2 136) ["data2"; "data3"];
    IOp "colors_only_1" (OMov) ["t2"];
    IOp "colors1" (OPermq 216) ["colors_only_1"];
    IOp "t3" (OShufps 2 221) ["data0"; "data1"];
    IOp "indices_only_0" (OMov) ["t3"];
    IOp "indices0" (OPermq 216) ["indices_only_0"];
    IOp "t4" (OShufps 2 221) ["data2"; "data3"];
    IOp "indices_only_1" (OMov) ["t4"];
    IOp "indices1" (OPermq 216) ["indices_only_1"];
    IOp "colors0" (OYcc Avx2 Dec V1 V2 V3) ["colors0"];
    IOp "colors1" (OYcc Avx2 Dec V1 V2 V3) ["colors1"];
    IStore "colours_out" 0 32 "colors0";
    IStore "colours_out" 32 32 "colors1";
    IStore "indices_out" 0 32 "indices0";
    IStore "indices_out" 32 32 "indices1";
    IAdd "colours_out" 64;
    IAdd "indices_out" 64].

(** src/core/dxt-lossless-transform-bc1/src/transform/with_recorrelate/transform/avx2.rs:14-96, fn transform_decorr *)
Definition bc1_rec_t_avx2_transform_decorr (c : cfg) (VARIANT : Z) (input_ptr : ptr) (colours_out : ptr) (indices_out : ptr) (num_blocks : Z) (m : mem) : res mem :=
  do _ <- cpu_has (c_avx2 c) "avx2" ;;
  let blocks16 := num_blocks / 16 in
  do input_end <- ptr_add m input_ptr ((blocks16 * 16) * 8) ;;
  do s <- while_lt (c_junk c) VARIANT bc1_rec_t_avx2_transform_decorr_loop1 "input_ptr" input_end (St [] [("input_ptr", input_ptr); ("colours_out", colours_out); ("indices_out", indices_out)] m) ;;
  let m := mm s in
  do input_ptr <- getp s "input_ptr" ;;
  do colours_out <- getp s "colours_out" ;;
  do indices_out <- getp s "indices_out" ;;
  let remaining := num_blocks mod 16 in
  do variant_enum <- (if VARIANT =? 1 then Ok V1 else if VARIANT =? 2 then Ok V2 else if VARIANT =? 3 then Ok V3 else Ub "unreachable_unchecked") ;;
  do m <- bc1_rec_t_generic_transform_with_decorrelate_generic c input_ptr colours_out indices_out remaining variant_enum m ;;
  Ok m.

(** src/core/dxt-lossless-transform-bc1/src/transform/with_recorrelate/transform/avx2.rs:102-109, fn transform_decorr_var1 *)
Definition bc1_rec_t_avx2_transform_decorr_var1 (c : cfg) (input_ptr : ptr) (colours_out : ptr) (indices_out : ptr) (num_blocks : Z) (m : mem) : res mem :=
  do _ <- cpu_has (c_avx2 c) "avx2" ;;
  do m <- bc1_rec_t_avx2_transform_decorr c 1 input_ptr colours_out indices_out num_blocks m ;;
  Ok m.

(** src/core/dxt-lossless-transform-bc1/src/transform/with_recorrelate/transform/avx2.rs:114-121, fn transform_decorr_var2 *)
Definition bc1_rec_t_avx2_transform_decorr_var2 (c : cfg) (input_ptr : ptr) (colours_out : ptr) (indices_out : ptr) (num_blocks : Z) (m : mem) : res mem :=
  do _ <- cpu_has (c_avx2 c) "avx2" ;;
  do m <- bc1_rec_t_avx2_transform_decorr c 2 input_ptr colours_out indices_out num_blocks m ;;
  Ok m.

(** src/core/dxt-lossless-transform-bc1/src/transform/with_recorrelate/transform/avx2.rs:126-133, fn transform_decorr_var3 *)
Definition bc1_rec_t_avx2_transform_decorr_var3 (c : cfg) (input_ptr : ptr) (colours_out : ptr) (indices_out : ptr) (num_blocks : Z) (m : mem) : res mem :=
  do _ <- cpu_has (c_avx2 c) "avx2" ;;
  do m <- bc1_rec_t_avx2_transform_decorr c 3 input_ptr colours_out indices_out num_blocks m ;;
  Ok m.

(** src/core/dxt-lossless-transform-bc1/src/transform/with_recorrelate/transform/avx2.rs:137-156, fn transform_with_decorrelate *)
Definition bc1_rec_t_avx2_transform_with_decorrelate (c : cfg) (input_ptr : ptr) (colours_out : ptr) (indices_out : ptr) (num_blocks : Z) (variant : variant) (m : mem) : res mem :=
  match variant with
  | V1 =>
    do m <- bc1_rec_t_avx2_transform_decorr_var1 c input_ptr colours_out indices_out num_blocks m ;;
    Ok m
  | V2 =>
    do m <- bc1_rec_t_avx2_transform_decorr_var2 c input_ptr colours_out indices_out num_blocks m ;;
    Ok m
  | V3 =>
    do m <- bc1_rec_t_avx2_transform_decorr_var3 c input_ptr colours_out indices_out num_blocks m ;;
    Ok m
  | VNone =>
    do m <- Ub "unreachable_unchecked" ;;
    Ok m
  end.

(** Loop at src/core/dxt-lossless-transform-bc1/src/transform/with_recorrelate/transform/sse2.rs:23. *)
Definition bc1_rec_t_sse2_transform_decorr_loop1 : list instr :=
  [ILoad "data0" "input_ptr" 0 16;
    ILoad "data1" "input_ptr" 16 16;
    ILoad "data2" "input_ptr" 32 16;
    ILoad "data3" "input_ptr" 48 16;
    IAdd "input_ptr" 64;
    IOp "t1" (OShufps 1 136) ["data0"; "data1"];
    IOp "colors0" (OMov) ["t1"];
    IOp "t2" (OShufps 1 136) ["data2"; "data3"];
    IOp "colors1" (OMov) ["t2"];
    IOp "t3" (OShufps 1 221) ["data0"; "data1"];
    IOp "indices0" (OMov) ["t3"];
    IOp "t4" (OShufps 1 221) ["data2"; "data3"];
    IOp "indices1" (OMov) ["t4"];
    IOp "colors0" (OYcc Sse2 Dec V1 V2 V3) ["colors0"];
    IOp "colors1" (OYcc Sse2 Dec V1 V2 V3) ["colors1"];
    IStore "colours_out" 0 16 "colors0";
    IStore "colours_out" 16 16 "colors1";
    IStore "indices_out" 0 16 "indices0";
    IStore "indices_out" 16 16 "indices1";
    IAdd "colours_out" 32;
    IAdd "indices_out" 32].

(** src/core/dxt-lossless-transform-bc1/src/transform/with_recorrelate/transform/sse2.rs:15-91, fn transform_decorr *)
Definition bc1_rec_t_sse2_transform_decorr (c : cfg) (VARIANT : Z) (input_ptr : ptr) (colours_out : ptr) (indices_out : ptr) (num_blocks : Z) (m : mem) : res mem :=
  do _ <- cpu_has (c_sse2 c) "sse2" ;;
  let blocks8 := num_blocks / 8 in
  do input_end <- ptr_add m input_ptr ((blocks8 * 8) * 8) ;;
  do s <- while_lt (c_junk c) VARIANT bc1_rec_t_sse2_transform_decorr_loop1 "input_ptr" input_end (St [] [("input_ptr", input_ptr); ("colours_out", colours_out); ("indices_out", indices_out)] m) ;;
  let m := mm s in
  do input_ptr <- getp s "input_ptr" ;;
  do colours_out <- getp s "colours_out" ;;
  do indices_out <- getp s "indices_out" ;;
  let remaining_blocks := num_blocks mod 8 in
  do variant_enum <- (if VARIANT =? 1 then Ok V1 else if VARIANT =? 2 then Ok V2 else if VARIANT =? 3 then Ok V3 else Ub "unreachable_unchecked") ;;
  do m <- bc1_rec_t_generic_transform_with_decorrelate_generic c input_ptr colours_out indices_out remaining_blocks variant_enum m ;;
  Ok m.

(** src/core/dxt-lossless-transform-bc1/src/transform/with_recorrelate/transform/sse2.rs:97-104, fn transform_decorr_var1 *)
Definition bc1_rec_t_sse2_transform_decorr_var1 (c : cfg) (input_ptr : ptr) (colours_out : ptr) (indices_out : ptr) (num_blocks : Z) (m : mem) : res mem :=
  do _ <- cpu_has (c_sse2 c) "sse2" ;;
  do m <- bc1_rec_t_sse2_transform_decorr c 1 input_ptr colours_out indices_out num_blocks m ;;
  Ok m.

(** src/core/dxt-lossless-transform-bc1/src/transform/with_recorrelate/transform/sse2.rs:109-116, fn transform_decorr_var2 *)
Definition bc1_rec_t_sse2_transform_decorr_var2 (c : cfg) (input_ptr : ptr) (colours_out : ptr) (indices_out : ptr) (num_blocks : Z) (m : mem) : res mem :=
  do _ <- cpu_has (c_sse2 c) "sse2" ;;
  do m <- bc1_rec_t_sse2_transform_decorr c 2 input_ptr colours_out indices_out num_blocks m ;;
  Ok m.

(** src/core/dxt-lossless-transform-bc1/src/transform/with_recorrelate/transform/sse2.rs:121-128, fn transform_decorr_var3 *)
Definition bc1_rec_t_sse2_transform_decorr_var3 (c : cfg) (input_ptr : ptr) (colours_out : ptr) (indices_out : ptr) (num_blocks : Z) (m : mem) : res mem :=
  do _ <- cpu_has (c_sse2 c) "sse2" ;;
  do m <- bc1_rec_t_sse2_transform_decorr c 3 input_ptr colours_out indices_out num_blocks m ;;
  Ok m.

(** src/core/dxt-lossless-transform-bc1/src/transform/with_recorrelate/transform/sse2.rs:132-151, fn transform_with_decorrelate *)
Definition bc1_rec_t_sse2_transform_with_decorrelate (c : cfg) (input_ptr : ptr) (colours_out : ptr) (indices_out : ptr) (num_blocks : Z) (variant : variant) (m : mem) : res mem :=
  match variant with
  | V1 =>
    do m <- bc1_rec_t_sse2_transform_decorr_var1 c input_ptr colours_out indices_out num_blocks m ;;
    Ok m
  | V2 =>
    do m <- bc1_rec_t_sse2_transform_decorr_var2 c input_ptr colours_out indices_out num_blocks m ;;
    Ok m
  | V3 =>
    do m <- bc1_rec_t_sse2_transform_decorr_var3 c input_ptr colours_out indices_out num_blocks m ;;
    Ok m
  | VNone =>
    do m <- Ub "unreachable_unchecked" ;;
    Ok m
  end.

(** src/core/dxt-lossless-transform-bc1/src/transform/with_recorrelate/transform/mod.rs:57-147, fn transform_with_decorrelate_x86 *)
Definition bc1_rec_t_transform_with_decorrelate_x86 (c : cfg) (input_ptr : ptr) (colors_out : ptr) (indices_out : ptr) (num_blocks : Z) (decorrelation_mode : variant) (m : mem) : res mem :=
  if negb (c_static c) then
    if has_avx512bw c then
      do m <- bc1_rec_t_avx512bw_transform_with_decorrelate c input_ptr colors_out indices_out num_blocks decorrelation_mode m ;;
      Ok m
    else
      if has_avx2 c then
        do m <- bc1_rec_t_avx2_transform_with_decorrelate c input_ptr colors_out indices_out num_blocks decorrelation_mode m ;;
        Ok m
      else
        if has_sse2 c then
          do m <- bc1_rec_t_sse2_transform_with_decorrelate c input_ptr colors_out indices_out num_blocks decorrelation_mode m ;;
          Ok m
        else
          do m <- bc1_rec_t_generic_transform_with_decorrelate_generic c input_ptr colors_out indices_out num_blocks decorrelation_mode m ;;
          Ok m
  else
    if c_avx512bw c then
      do m <- bc1_rec_t_avx512bw_transform_with_decorrelate c input_ptr colors_out indices_out num_blocks decorrelation_mode m ;;
      Ok m
    else
      if c_avx2 c then
        do m <- bc1_rec_t_avx2_transform_with_decorrelate c input_ptr colors_out indices_out num_blocks decorrelation_mode m ;;
        Ok m
      else
        if c_sse2 c then
          do m <- bc1_rec_t_sse2_transform_with_decorrelate c input_ptr colors_out indices_out num_blocks decorrelation_mode m ;;
          Ok m
        else
          do m <- bc1_rec_t_generic_transform_with_decorrelate_generic c input_ptr colors_out indices_out num_blocks decorrelation_mode m ;;
          Ok m.

(** src/core/dxt-lossless-transform-bc1/src/transform/with_recorrelate/transform/mod.rs:20-53, fn transform_with_decorrelate *)
Definition bc1_rec_t_transform_with_decorrelate (c : cfg) (input_ptr : ptr) (output_ptr : ptr) (len : Z) (decorrelation_mode : variant) (m : mem) : res mem :=
  do _ <- debug_assert (c_debug c) (len mod 8 =? 0) "len . is_multiple_of ( 8 )" ;;
  let colors_ptr := output_ptr in
  do indices_ptr <- ptr_add m output_ptr (len / 2) ;;
  let num_blocks := len / 8 in
  if is_x86 c then
    do m <- bc1_rec_t_transform_with_decorrelate_x86 c input_ptr colors_ptr indices_ptr num_blocks decorrelation_mode m ;;
    Ok m
  else
    do m <- bc1_rec_t_generic_transform_with_decorrelate_generic c input_ptr colors_ptr indices_ptr num_blocks decorrelation_mode m ;;
    Ok m.

(** Loop at src/core/dxt-lossless-transform-bc1/src/transform/with_recorrelate/untransform/generic.rs:64. *)
Definition bc1_rec_u_generic_untransform_recorr_loop1 : list instr :=
  [ILoad "color_raw" "colors_in" 0 4;
    ILoad "index_value" "indices_in" 0 4;
    IAdd "colors_in" 4;
    IAdd "indices_in" 4;
    IOp "t1" (OBytes 0 2) ["color_raw"];
    IOp "color0" (OMov) ["t1"];
    IOp "t2" (OShr 2) ["color_raw"];
    IOp "t3" (OBytes 0 2) ["t2"];
    IOp "color1" (OMov) ["t3"];
    IOp "recorr_color0" (OYcc Scalar Rec V1 V2 V3) ["color0"];
    IOp "recorr_color1" (OYcc Scalar Rec V1 V2 V3) ["color1"];
    IOp "t4" (OZext 4) ["recorr_color0"];
    IOp "t5" (OZext 4) ["recorr_color1"];
    IOp "t6" (OShl 2) ["t5"];
    IOp "recorrelated_colors" (OOr) ["t4"; "t6"];
    IStore "output_ptr" 0 4 "recorrelated_colors";
    IStore "output_ptr" 4 4 "index_value";
    IAdd "output_ptr" 8].

(** src/core/dxt-lossless-transform-bc1/src/transform/with_recorrelate/untransform/generic.rs:57-103, fn untransform_recorr *)
Definition bc1_rec_u_generic_untransform_recorr (c : cfg) (VARIANT : Z) (colors_in : ptr) (indices_in : ptr) (output_ptr : ptr) (num_blocks : Z) (m : mem) : res mem :=
  do colors_end <- ptr_add m colors_in (num_blocks * 4) ;;
  do s <- while_lt (c_junk c) VARIANT bc1_rec_u_generic_untransform_recorr_loop1 "colors_in" colors_end (St [] [("colors_in", colors_in); ("indices_in", indices_in); ("output_ptr", output_ptr)] m) ;;
  let m := mm s in
  do colors_in <- getp s "colors_in" ;;
  do indices_in <- getp s "indices_in" ;;
  do output_ptr <- getp s "output_ptr" ;;
  Ok m.

(** src/core/dxt-lossless-transform-bc1/src/transform/with_recorrelate/untransform/generic.rs:30-37, fn untransform_recorr_var1 *)
Definition bc1_rec_u_generic_untransform_recorr_var1 (c : cfg) (colors_in : ptr) (indices_in : ptr) (output_ptr : ptr) (num_blocks : Z) (m : mem) : res mem :=
  do m <- bc1_rec_u_generic_untransform_recorr c 1 colors_in indices_in output_ptr num_blocks m ;;
  Ok m.

(** src/core/dxt-lossless-transform-bc1/src/transform/with_recorrelate/untransform/generic.rs:39-46, fn untransform_recorr_var2 *)
Definition bc1_rec_u_generic_untransform_recorr_var2 (c : cfg) (colors_in : ptr) (indices_in : ptr) (output_ptr : ptr) (num_blocks : Z) (m : mem) : res mem :=
  do m <- bc1_rec_u_generic_untransform_recorr c 2 colors_in indices_in output_ptr num_blocks m ;;
  Ok m.

(** src/core/dxt-lossless-transform-bc1/src/transform/with_recorrelate/untransform/generic.rs:48-55, fn untransform_recorr_var3 *)
Definition bc1_rec_u_generic_untransform_recorr_var3 (c : cfg) (colors_in : ptr) (indices_in : ptr) (output_ptr : ptr) (num_blocks : Z) (m : mem) : res mem :=
  do m <- bc1_rec_u_generic_untransform_recorr c 3 colors_in indices_in output_ptr num_blocks m ;;
  Ok m.

(** src/core/dxt-lossless-transform-bc1/src/transform/with_recorrelate/untransform/generic.rs:8-27, fn untransform_with_recorrelate_generic *)
Definition bc1_rec_u_generic_untransform_with_recorrelate_generic (c : cfg) (colors_in : ptr) (indices_in : ptr) (output_ptr : ptr) (num_blocks : Z) (decorrelation_mode : variant) (m : mem) : res mem :=
  match decorrelation_mode with
  | V1 =>
    do m <- bc1_rec_u_generic_untransform_recorr_var1 c colors_in indices_in output_ptr num_blocks m ;;
    Ok m
  | V2 =>
    do m <- bc1_rec_u_generic_untransform_recorr_var2 c colors_in indices_in output_ptr num_blocks m ;;
    Ok m
  | V3 =>
    do m <- bc1_rec_u_generic_untransform_recorr_var3 c colors_in indices_in output_ptr num_blocks m ;;
    Ok m
  | VNone =>
    do m <- Ub "unreachable_unchecked" ;;
    Ok m
  end.

(** Constants of the loop at src/core/dxt-lossless-transform-bc1/src/transform/with_recorrelate/untransform/avx512bw.rs:92 *)
Definition bc1_rec_u_avx512bw_untransform_recorr_loop1_perm_low : list byte := [x00; x00; x00; x00; x10; x00; x00; x00; x01; x00; x00; x00; x11; x00; x00; x00; x02; x00; x00; x00; x12; x00; x00; x00; x03; x00; x00; x00; x13; x00; x00; x00; x04; x00; x00; x00; x14; x00; x00; x00; x05; x00; x00; x00; x15; x00; x00; x00; x06; x00; x00; x00; x16; x00; x00; x00; x07; x00; x00; x00; x17; x00; x00; x00].
Definition bc1_rec_u_avx512bw_untransform_recorr_loop1_perm_high : list byte := [x08; x00; x00; x00; x18; x00; x00; x00; x09; x00; x00; x00; x19; x00; x00; x00; x0a; x00; x00; x00; x1a; x00; x00; x00; x0b; x00; x00; x00; x1b; x00; x00; x00; x0c; x00; x00; x00; x1c; x00; x00; x00; x0d; x00; x00; x00; x1d; x00; x00; x00; x0e; x00; x00; x00; x1e; x00; x00; x00; x0f; x00; x00; x00; x1f; x00; x00; x00].

(** Loop at src/core/dxt-lossless-transform-bc1/src/transform/with_recorrelate/untransform/avx512bw.rs:92. *)
Definition bc1_rec_u_avx512bw_untransform_recorr_loop1 : list instr :=
  [ILoad "colors_0" "current_colors_ptr" 0 64;
    ILoad "colors_1" "current_colors_ptr" 64 64;
    ILoad "indices_0" "current_indices_ptr" 0 64;
    ILoad "indices_1" "current_indices_ptr" 64 64;
    IOp "recorrelated_colors_0" (OYcc Avx512bw Rec V1 V2 V3) ["colors_0"];
    IOp "recorrelated_colors_1" (OYcc Avx512bw Rec V1 V2 V3) ["colors_1"];
    IOp "output_0" (OPermT2 4 16) ["recorrelated_colors_0"; "perm_low"; "indices_0"];
    IOp "output_1" (OPermT2 4 16) ["recorrelated_colors_0"; "perm_high"; "indices_0"];
    IOp "output_2" (OPermT2 4 16) ["recorrelated_colors_1"; "perm_low"; "indices_1"];
    IOp "output_3" (OPermT2 4 16) ["recorrelated_colors_1"; "perm_high"; "indices_1"];
    IStore "current_output_ptr" 0 64 "output_0";
    IStore "current_output_ptr" 64 64 "output_1";
    IStore "current_output_ptr" 128 64 "output_2";
    IStore "current_output_ptr" 192 64 "output_3";
    IAdd "current_colors_ptr" 128;
    IAdd "current_indices_ptr" 128;
    IAdd "current_output_ptr" 256].

(** src/core/dxt-lossless-transform-bc1/src/transform/with_recorrelate/untransform/avx512bw.rs:67-148, fn untransform_recorr *)
Definition bc1_rec_u_avx512bw_untransform_recorr (c : cfg) (VARIANT : Z) (colors_in : ptr) (indices_in : ptr) (output_ptr : ptr) (num_blocks : Z) (m : mem) : res mem :=
  do _ <- cpu_has (c_sse2 c && c_avx512f c && c_avx512bw c) "sse2 avx512f avx512bw" ;;
  let vectorized_blocks := Z.ldiff num_blocks 31 in
  do colors_end <- ptr_add m colors_in (vectorized_blocks * 4) ;;
  let current_colors_ptr := colors_in in
  let current_indices_ptr := indices_in in
  let current_output_ptr := output_ptr in
  do s <- while_lt (c_junk c) VARIANT bc1_rec_u_avx512bw_untransform_recorr_loop1 "current_colors_ptr" colors_end (St [("perm_low", bc1_rec_u_avx512bw_untransform_recorr_loop1_perm_low); ("perm_high", bc1_rec_u_avx512bw_untransform_recorr_loop1_perm_high)] [("current_colors_ptr", current_colors_ptr); ("current_indices_ptr", current_indices_ptr); ("current_output_ptr", current_output_ptr)] m) ;;
  let m := mm s in
  do current_colors_ptr <- getp s "current_colors_ptr" ;;
  do current_indices_ptr <- getp s "current_indices_ptr" ;;
  do current_output_ptr <- getp s "current_output_ptr" ;;
  do remaining_count <- usub num_blocks vectorized_blocks ;;
  do variant <- (if VARIANT =? 1 then Ok V1 else if VARIANT =? 2 then Ok V2 else if VARIANT =? 3 then Ok V3 else Ub "unreachable_unchecked") ;;
  do p4 <- ptr_add m colors_in (vectorized_blocks * 4) ;;
  do p5 <- ptr_add m indices_in (vectorized_blocks * 4) ;;
  do p6 <- ptr_add m output_ptr (vectorized_blocks * 8) ;;
  do m <- bc1_rec_u_generic_untransform_with_recorrelate_generic c p4 p5 p6 remaining_count variant m ;;
  Ok m.

(** src/core/dxt-lossless-transform-bc1/src/transform/with_recorrelate/untransform/avx512bw.rs:38-45, fn untransform_recorr_var1 *)
Definition bc1_rec_u_avx512bw_untransform_recorr_var1 (c : cfg) (colors_in : ptr) (indices_in : ptr) (output_ptr : ptr) (num_blocks : Z) (m : mem) : res mem :=
  do m <- bc1_rec_u_avx512bw_untransform_recorr c 1 colors_in indices_in output_ptr num_blocks m ;;
  Ok m.

(** src/core/dxt-lossless-transform-bc1/src/transform/with_recorrelate/untransform/avx512bw.rs:47-54, fn untransform_recorr_var2 *)
Definition bc1_rec_u_avx512bw_untransform_recorr_var2 (c : cfg) (colors_in : ptr) (indices_in : ptr) (output_ptr : ptr) (num_blocks : Z) (m : mem) : res mem :=
  do m <- bc1_rec_u_avx512bw_untransform_recorr c 2 colors_in indices_in output_ptr num_blocks m ;;
  Ok m.

(** src/core/dxt-lossless-transform-bc1/src/transform/with_recorrelate/untransform/avx512bw.rs:56-63, fn untransform_recorr_var3 *)
Definition bc1_rec_u_avx512bw_untransform_recorr_var3 (c : cfg) (colors_in : ptr) (indices_in : ptr) (output_ptr : ptr) (num_blocks : Z) (m : mem) : res mem :=
  do m <- bc1_rec_u_avx512bw_untransform_recorr c 3 colors_in indices_in output_ptr num_blocks m ;;
  Ok m.

(** src/core/dxt-lossless-transform-bc1/src/transform/with_recorrelate/untransform/avx512bw.rs:12-34, fn untransform_with_recorrelate *)
Definition bc1_rec_u_avx512bw_untransform_with_recorrelate (c : cfg) (colors_in : ptr) (indices_in : ptr) (output_ptr : ptr) (num_blocks : Z) (decorrelation_mode : variant) (m : mem) : res mem :=
  match decorrelation_mode with
  | V1 =>
    do m <- bc1_rec_u_avx512bw_untransform_recorr_var1 c colors_in indices_in output_ptr num_blocks m ;;
    Ok m
  | V2 =>
    do m <- bc1_rec_u_avx512bw_untransform_recorr_var2 c colors_in indices_in output_ptr num_blocks m ;;
    Ok m
  | V3 =>
    do m <- bc1_rec_u_avx512bw_untransform_recorr_var3 c colors_in indices_in output_ptr num_blocks m ;;
    Ok m
  | VNone =>
    do m <- Ub "unreachable_unchecked" ;;
    Ok m
  end.

(** Loop at src/core/dxt-lossless-transform-bc1/src/transform/with_recorrelate/untransform/avx2.rs:77. *)
Definition bc1_rec_u_avx2_untransform_recorr_loop1 : list instr :=
  [ILoad "colors_0" "colors_in" 0 32;
    ILoad "colors_1" "colors_in" 32 32;
    ILoad "indices_0" "indices_in" 0 32;
    ILoad "indices_1" "indices_in" 32 32;
    IOp "colors_perm_0" (OPermq 216) ["colors_0"];
    IOp "colors_perm_1" (OPermq 216) ["colors_1"];
    IOp "indices_perm_0" (OPermq 216) ["indices_0"];
    IOp "indices_perm_1" (OPermq 216) ["indices_1"];
    IOp "recorrelated_colors_0" (OYcc Avx2 Rec V1 V2 V3) ["colors_perm_0"];
    IOp "recorrelated_colors_1" (OYcc Avx2 Rec V1 V2 V3) ["colors_perm_1"];
    IOp "output_0" (OUnpackLo 4 2) ["recorrelated_colors_0"; "indices_perm_0"];
    IOp "output_1" (OUnpackHi 4 2) ["recorrelated_colors_0"; "indices_perm_0"];
    IOp "output_2" (OUnpackLo 4 2) ["recorrelated_colors_1"; "indices_perm_1"];
    IOp "output_3" (OUnpackHi 4 2) ["recorrelated_colors_1"; "indices_perm_1"];
    IStore "output_ptr" 0 32 "output_0";
    IStore "output_ptr" 32 32 "output_1";
    IStore "output_ptr" 64 32 "output_2";
    IStore "output_ptr" 96 32 "output_3";
    IAdd "colors_in" 64;
    IAdd "indices_in" 64;
    IAdd "output_ptr" 128].

(** src/core/dxt-lossless-transform-bc1/src/transform/with_recorrelate/untransform/avx2.rs:64-141, fn untransform_recorr *)
Definition bc1_rec_u_avx2_untransform_recorr (c : cfg) (VARIANT : Z) (colors_in : ptr) (indices_in : ptr) (output_ptr : ptr) (num_blocks : Z) (m : mem) : res mem :=
  do _ <- cpu_has (c_avx2 c) "avx2" ;;
  let vectorized_blocks := Z.ldiff num_blocks 15 in
  do colors_end <- ptr_add m colors_in (vectorized_blocks * 4) ;;
  do s <- while_lt (c_junk c) VARIANT bc1_rec_u_avx2_untransform_recorr_loop1 "colors_in" colors_end (St [] [("colors_in", colors_in); ("indices_in", indices_in); ("output_ptr", output_ptr)] m) ;;
  let m := mm s in
  do colors_in <- getp s "colors_in" ;;
  do indices_in <- getp s "indices_in" ;;
  do output_ptr <- getp s "output_ptr" ;;
  do remaining_count <- usub num_blocks vectorized_blocks ;;
  do variant <- (if VARIANT =? 1 then Ok V1 else if VARIANT =? 2 then Ok V2 else if VARIANT =? 3 then Ok V3 else Ub "unreachable_unchecked") ;;
  do m <- bc1_rec_u_generic_untransform_with_recorrelate_generic c colors_in indices_in output_ptr remaining_count variant m ;;
  Ok m.

(** src/core/dxt-lossless-transform-bc1/src/transform/with_recorrelate/untransform/avx2.rs:36-43, fn untransform_recorr_var1 *)
Definition bc1_rec_u_avx2_untransform_recorr_var1 (c : cfg) (colors_in : ptr) (indices_in : ptr) (output_ptr : ptr) (num_blocks : Z) (m : mem) : res mem :=
  do m <- bc1_rec_u_avx2_untransform_recorr c 1 colors_in indices_in output_ptr num_blocks m ;;
  Ok m.

(** src/core/dxt-lossless-transform-bc1/src/transform/with_recorrelate/untransform/avx2.rs:45-52, fn untransform_recorr_var2 *)
Definition bc1_rec_u_avx2_untransform_recorr_var2 (c : cfg) (colors_in : ptr) (indices_in : ptr) (output_ptr : ptr) (num_blocks : Z) (m : mem) : res mem :=
  do m <- bc1_rec_u_avx2_untransform_recorr c 2 colors_in indices_in output_ptr num_blocks m ;;
  Ok m.

(** src/core/dxt-lossless-transform-bc1/src/transform/with_recorrelate/untransform/avx2.rs:54-61, fn untransform_recorr_var3 *)
Definition bc1_rec_u_avx2_untransform_recorr_var3 (c : cfg) (colors_in : ptr) (indices_in : ptr) (output_ptr : ptr) (num_blocks : Z) (m : mem) : res mem :=
  do m <- bc1_rec_u_avx2_untransform_recorr c 3 colors_in indices_in output_ptr num_blocks m ;;
  Ok m.

(** src/core/dxt-lossless-transform-bc1/src/transform/with_recorrelate/untransform/avx2.rs:11-33, fn untransform_with_recorrelate *)
Definition bc1_rec_u_avx2_untransform_with_recorrelate (c : cfg) (colors_in : ptr) (indices_in : ptr) (output_ptr : ptr) (num_blocks : Z) (decorrelation_mode : variant) (m : mem) : res mem :=
  match decorrelation_mode with
  | V1 =>
    do m <- bc1_rec_u_avx2_untransform_recorr_var1 c colors_in indices_in output_ptr num_blocks m ;;
    Ok m
  | V2 =>
    do m <- bc1_rec_u_avx2_untransform_recorr_var2 c colors_in indices_in output_ptr num_blocks m ;;
    Ok m
  | V3 =>
    do m <- bc1_rec_u_avx2_untransform_recorr_var3 c colors_in indices_in output_ptr num_blocks m ;;
    Ok m
  | VNone =>
    do m <- Ub "unreachable_unchecked" ;;
    Ok m
  end.

(** Loop at src/core/dxt-lossless-transform-bc1/src/transform/with_recorrelate/untransform/sse2.rs:80. *)
Definition bc1_rec_u_sse2_untransform_recorr_loop1 : list instr :=
  [ILoad "colors_0" "colors_in" 0 16;
    ILoad "colors_1" "colors_in" 16 16;
    ILoad "indices_0" "indices_in" 0 16;
    ILoad "indices_1" "indices_in" 16 16;
    IOp "recorrelated_colors_0" (OYcc Sse2 Rec V1 V2 V3) ["colors_0"];
    IOp "recorrelated_colors_1" (OYcc Sse2 Rec V1 V2 V3) ["colors_1"];
    IOp "colors_0_copy" (OMov) ["recorrelated_colors_0"];
    IOp "colors_1_copy" (OMov) ["recorrelated_colors_1"];
    IOp "interleaved_0" (OUnpackLo 4 1) ["recorrelated_colors_0"; "indices_0"];
    IOp "interleaved_1" (OUnpackLo 4 1) ["recorrelated_colors_1"; "indices_1"];
    IOp "interleaved_2" (OUnpackHi 4 1) ["colors_0_copy"; "indices_0"];
    IOp "interleaved_3" (OUnpackHi 4 1) ["colors_1_copy"; "indices_1"];
    IStore "output_ptr" 0 16 "interleaved_0";
    IStore "output_ptr" 16 16 "interleaved_2";
    IStore "output_ptr" 32 16 "interleaved_1";
    IStore "output_ptr" 48 16 "interleaved_3";
    IAdd "colors_in" 32;
    IAdd "indices_in" 32;
    IAdd "output_ptr" 64].

(** src/core/dxt-lossless-transform-bc1/src/transform/with_recorrelate/untransform/sse2.rs:67-143, fn untransform_recorr *)
Definition bc1_rec_u_sse2_untransform_recorr (c : cfg) (VARIANT : Z) (colors_in : ptr) (indices_in : ptr) (output_ptr : ptr) (num_blocks : Z) (m : mem) : res mem :=
  do _ <- cpu_has (c_sse2 c) "sse2" ;;
  let vectorized_blocks := Z.ldiff num_blocks 7 in
  do colors_end <- ptr_add m colors_in (vectorized_blocks * 4) ;;
  do s <- while_lt (c_junk c) VARIANT bc1_rec_u_sse2_untransform_recorr_loop1 "colors_in" colors_end (St [] [("colors_in", colors_in); ("indices_in", indices_in); ("output_ptr", output_ptr)] m) ;;
  let m := mm s in
  do colors_in <- getp s "colors_in" ;;
  do indices_in <- getp s "indices_in" ;;
  do output_ptr <- getp s "output_ptr" ;;
  do remaining_blocks <- usub num_blocks vectorized_blocks ;;
  do v3 <- (if VARIANT =? 1 then Ok V1 else if VARIANT =? 2 then Ok V2 else if VARIANT =? 3 then Ok V3 else Ub "unreachable_unchecked") ;;
  do m <- bc1_rec_u_generic_untransform_with_recorrelate_generic c colors_in indices_in output_ptr remaining_blocks v3 m ;;
  Ok m.

(** src/core/dxt-lossless-transform-bc1/src/transform/with_recorrelate/untransform/sse2.rs:39-46, fn untransform_recorr_var1 *)
Definition bc1_rec_u_sse2_untransform_recorr_var1 (c : cfg) (colors_in : ptr) (indices_in : ptr) (output_ptr : ptr) (num_blocks : Z) (m : mem) : res mem :=
  do m <- bc1_rec_u_sse2_untransform_recorr c 1 colors_in indices_in output_ptr num_blocks m ;;
  Ok m.

(** src/core/dxt-lossless-transform-bc1/src/transform/with_recorrelate/untransform/sse2.rs:48-55, fn untransform_recorr_var2 *)
Definition bc1_rec_u_sse2_untransform_recorr_var2 (c : cfg) (colors_in : ptr) (indices_in : ptr) (output_ptr : ptr) (num_blocks : Z) (m : mem) : res mem :=
  do m <- bc1_rec_u_sse2_untransform_recorr c 2 colors_in indices_in output_ptr num_blocks m ;;
  Ok m.

(** src/core/dxt-lossless-transform-bc1/src/transform/with_recorrelate/untransform/sse2.rs:57-64, fn untransform_recorr_var3 *)
Definition bc1_rec_u_sse2_untransform_recorr_var3 (c : cfg) (colors_in : ptr) (indices_in : ptr) (output_ptr : ptr) (num_blocks : Z) (m : mem) : res mem :=
  do m <- bc1_rec_u_sse2_untransform_recorr c 3 colors_in indices_in output_ptr num_blocks m ;;
  Ok m.

(** src/core/dxt-lossless-transform-bc1/src/transform/with_recorrelate/untransform/sse2.rs:13-35, fn untransform_with_recorrelate *)
Definition bc1_rec_u_sse2_untransform_with_recorrelate (c : cfg) (colors_in : ptr) (indices_in : ptr) (output_ptr : ptr) (num_blocks : Z) (decorrelation_mode : variant) (m : mem) : res mem :=
  match decorrelation_mode with
  | V1 =>
    do m <- bc1_rec_u_sse2_untransform_recorr_var1 c colors_in indices_in output_ptr num_blocks m ;;
    Ok m
  | V2 =>
    do m <- bc1_rec_u_sse2_untransform_recorr_var2 c colors_in indices_in output_ptr num_blocks m ;;
    Ok m
  | V3 =>
    do m <- bc1_rec_u_sse2_untransform_recorr_var3 c colors_in indices_in output_ptr num_blocks m ;;
    Ok m
  | VNone =>
    do m <- Ub "unreachable_unchecked" ;;
    Ok m
  end.

(** src/core/dxt-lossless-transform-bc1/src/transform/with_recorrelate/untransform/mod.rs:54-146, fn untransform_with_recorrelate_x86 *)
Definition bc1_rec_u_untransform_with_recorrelate_x86 (c : cfg) (colors_ptr : ptr) (indices_ptr : ptr) (output_ptr : ptr) (num_blocks : Z) (recorrelation_mode : variant) (m : mem) : res mem :=
  if negb (c_static c) then
    if has_avx512bw c then
      do m <- bc1_rec_u_avx512bw_untransform_with_recorrelate c colors_ptr indices_ptr output_ptr num_blocks recorrelation_mode m ;;
      Ok m
    else
      if has_avx2 c then
        do m <- bc1_rec_u_avx2_untransform_with_recorrelate c colors_ptr indices_ptr output_ptr num_blocks recorrelation_mode m ;;
        Ok m
      else
        if has_sse2 c then
          do m <- bc1_rec_u_sse2_untransform_with_recorrelate c colors_ptr indices_ptr output_ptr num_blocks recorrelation_mode m ;;
          Ok m
        else
          do m <- bc1_rec_u_generic_untransform_with_recorrelate_generic c colors_ptr indices_ptr output_ptr num_blocks recorrelation_mode m ;;
          Ok m
  else
    if c_avx512bw c then
      do m <- bc1_rec_u_avx512bw_untransform_with_recorrelate c colors_ptr indices_ptr output_ptr num_blocks recorrelation_mode m ;;
      Ok m
    else
      if is_x86 c then
        if c_avx2 c then
          do m <- bc1_rec_u_avx2_untransform_with_recorrelate c colors_ptr indices_ptr output_ptr num_blocks recorrelation_mode m ;;
          Ok m
        else
          if c_sse2 c then
            do m <- bc1_rec_u_sse2_untransform_with_recorrelate c colors_ptr indices_ptr output_ptr num_blocks recorrelation_mode m ;;
            Ok m
          else
            do m <- bc1_rec_u_generic_untransform_with_recorrelate_generic c colors_ptr indices_ptr output_ptr num_blocks recorrelation_mode m ;;
            Ok m
      else
        do m <- bc1_rec_u_generic_untransform_with_recorrelate_generic c colors_ptr indices_ptr output_ptr num_blocks recorrelation_mode m ;;
        Ok m.

(** src/core/dxt-lossless-transform-bc1/src/transform/with_recorrelate/untransform/mod.rs:15-51, fn untransform_with_recorrelate *)
Definition bc1_rec_u_untransform_with_recorrelate (c : cfg) (input_ptr : ptr) (output_ptr : ptr) (len : Z) (recorrelation_mode : variant) (m : mem) : res mem :=
  do _ <- debug_assert (c_debug c) (len mod 8 =? 0) "len . is_multiple_of ( 8 )" ;;
  let colors_ptr := input_ptr in
  do indices_ptr <- ptr_add m input_ptr (len / 2) ;;
  let num_blocks := len / 8 in
  if is_x86 c then
    do m <- bc1_rec_u_untransform_with_recorrelate_x86 c colors_ptr indices_ptr output_ptr num_blocks recorrelation_mode m ;;
    Ok m
  else
    do m <- bc1_rec_u_generic_untransform_with_recorrelate_generic c colors_ptr indices_ptr output_ptr num_blocks recorrelation_mode m ;;
    Ok m.

