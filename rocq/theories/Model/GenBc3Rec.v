(** Generated by tools/rs2v.py from the kernel sources cited below; do not edit.
    Simplifications: usize arithmetic is exact (lengths are below isize::MAX), see
    Model/Kernel.v for the machine. *)
From Verif Require Import Base.Bytes Base.Res Model.Color565 Model.Ycc Model.Kernel.
Open Scope string_scope.
Open Scope list_scope.
Open Scope Z_scope.

(** Loop at src/core/dxt-lossless-transform-bc3/src/transform/with_recorrelate/transform/generic.rs:66. *)
Definition bc3_rec_t_generic_transform_decorr_loop1 : list instr :=
  [ILoad "alpha_endpoints" "input_ptr" 0 2;
    ILoad "alpha_indices_1" "input_ptr" 2 2;
    ILoad "alpha_indices_2" "input_ptr" 4 4;
    ILoad "color_raw" "input_ptr" 8 4;
    ILoad "color_indices" "input_ptr" 12 4;
    IAdd "input_ptr" 16;
    IOp "t1" (OBytes 0 2) ["color_raw"];
    IOp "color0" (OMov) ["t1"];
    IOp "t2" (OShr 2) ["color_raw"];
    IOp "t3" (OBytes 0 2) ["t2"];
    IOp "color1" (OMov) ["t3"];
    IOp "decorr0" (OYcc Scalar Dec V1 V2 V3) ["color0"];
    IOp "decorr1" (OYcc Scalar Dec V1 V2 V3) ["color1"];
    IOp "t4" (OZext 4) ["decorr0"];
    IOp "t5" (OZext 4) ["decorr1"];
    IOp "t6" (OShl 2) ["t5"];
    IOp "decorrelated_colors" (OOr) ["t4"; "t6"];
    IStore "alpha_endpoints_out" 0 2 "alpha_endpoints";
    IStore "alpha_indices_out" 0 2 "alpha_indices_1";
    IStore "alpha_indices_out" 2 4 "alpha_indices_2";
    IStore "colors_out" 0 4 "decorrelated_colors";
    IStore "color_indices_out" 0 4 "color_indices";
    IAdd "alpha_endpoints_out" 2;
    IAdd "alpha_indices_out" 6;
    IAdd "colors_out" 4;
    IAdd "color_indices_out" 4].

(** src/core/dxt-lossless-transform-bc3/src/transform/with_recorrelate/transform/generic.rs:57-120, fn transform_decorr *)
Definition bc3_rec_t_generic_transform_decorr (c : cfg) (VARIANT : Z) (input_ptr : ptr) (alpha_endpoints_out : ptr) (alpha_indices_out : ptr) (colors_out : ptr) (color_indices_out : ptr) (num_blocks : Z) (m : mem) : res mem :=
  do input_end <- ptr_add m input_ptr (num_blocks * 16) ;;
  do s <- while_lt (c_junk c) VARIANT bc3_rec_t_generic_transform_decorr_loop1 "input_ptr" input_end (St [] [("input_ptr", input_ptr); ("alpha_endpoints_out", alpha_endpoints_out); ("alpha_indices_out", alpha_indices_out); ("colors_out", colors_out); ("color_indices_out", color_indices_out)] m) ;;
  let m := mm s in
  do input_ptr <- getp s "input_ptr" ;;
  do alpha_endpoints_out <- getp s "alpha_endpoints_out" ;;
  do alpha_indices_out <- getp s "alpha_indices_out" ;;
  do colors_out <- getp s "colors_out" ;;
  do color_indices_out <- getp s "color_indices_out" ;;
  Ok m.

(** src/core/dxt-lossless-transform-bc3/src/transform/with_recorrelate/transform/generic.rs:124-140, fn transform_decorr_var1 *)
Definition bc3_rec_t_generic_transform_decorr_var1 (c : cfg) (input_ptr : ptr) (alpha_endpoints_out : ptr) (alpha_indices_out : ptr) (colors_out : ptr) (color_indices_out : ptr) (num_blocks : Z) (m : mem) : res mem :=
  do m <- bc3_rec_t_generic_transform_decorr c 1 input_ptr alpha_endpoints_out alpha_indices_out colors_out color_indices_out num_blocks m ;;
  Ok m.

(** src/core/dxt-lossless-transform-bc3/src/transform/with_recorrelate/transform/generic.rs:143-159, fn transform_decorr_var2 *)
Definition bc3_rec_t_generic_transform_decorr_var2 (c : cfg) (input_ptr : ptr) (alpha_endpoints_out : ptr) (alpha_indices_out : ptr) (colors_out : ptr) (color_indices_out : ptr) (num_blocks : Z) (m : mem) : res mem :=
  do m <- bc3_rec_t_generic_transform_decorr c 2 input_ptr alpha_endpoints_out alpha_indices_out colors_out color_indices_out num_blocks m ;;
  Ok m.

(** src/core/dxt-lossless-transform-bc3/src/transform/with_recorrelate/transform/generic.rs:162-178, fn transform_decorr_var3 *)
Definition bc3_rec_t_generic_transform_decorr_var3 (c : cfg) (input_ptr : ptr) (alpha_endpoints_out : ptr) (alpha_indices_out : ptr) (colors_out : ptr) (color_indices_out : ptr) (num_blocks : Z) (m : mem) : res mem :=
  do m <- bc3_rec_t_generic_transform_decorr c 3 input_ptr alpha_endpoints_out alpha_indices_out colors_out color_indices_out num_blocks m ;;
  Ok m.

(** Constants of the loop at src/core/dxt-lossless-transform-bc3/src/transform/with_recorrelate/transform/avx512vbmi.rs:192 *)
Definition bc3_rec_t_avx512vbmi_transform_decorr_loop1_alpha_bytes_permute_mask : list byte := [x00; x01; x10; x11; x20; x21; x30; x31; x40; x41; x50; x51; x60; x61; x70; x71; x00; x00; x00; x00; x00; x00; x00; x00; x00; x00; x00; x00; x00; x00; x00; x00; x00; x00; x00; x00; x00; x00; x00; x00; x00; x00; x00; x00; x00; x00; x00; x00; x00; x00; x00; x00; x00; x00; x00; x00; x00; x00; x00; x00; x00; x00; x00; x00].
Definition bc3_rec_t_avx512vbmi_transform_decorr_loop1_alpha_bits_permute_mask : list byte := [x02; x03; x04; x05; x06; x07; x12; x13; x14; x15; x16; x17; x22; x23; x24; x25; x26; x27; x32; x33; x34; x35; x36; x37; x42; x43; x44; x45; x46; x47; x52; x53; x54; x55; x56; x57; x62; x63; x64; x65; x66; x67; x72; x73; x74; x75; x76; x77; x00; x00; x00; x00; x00; x00; x00; x00; x00; x00; x00; x00; x00; x00; x00; x00].
Definition bc3_rec_t_avx512vbmi_transform_decorr_loop1_color_bytes_permute_mask : list byte := [x08; x09; x0a; x0b; x18; x19; x1a; x1b; x28; x29; x2a; x2b; x38; x39; x3a; x3b; x48; x49; x4a; x4b; x58; x59; x5a; x5b; x68; x69; x6a; x6b; x78; x79; x7a; x7b; x00; x00; x00; x00; x00; x00; x00; x00; x00; x00; x00; x00; x00; x00; x00; x00; x00; x00; x00; x00; x00; x00; x00; x00; x00; x00; x00; x00; x00; x00; x00; x00].
Definition bc3_rec_t_avx512vbmi_transform_decorr_loop1_index_bytes_permute_mask : list byte := [x0c; x0d; x0e; x0f; x1c; x1d; x1e; x1f; x2c; x2d; x2e; x2f; x3c; x3d; x3e; x3f; x4c; x4d; x4e; x4f; x5c; x5d; x5e; x5f; x6c; x6d; x6e; x6f; x7c; x7d; x7e; x7f; x00; x00; x00; x00; x00; x00; x00; x00; x00; x00; x00; x00; x00; x00; x00; x00; x00; x00; x00; x00; x00; x00; x00; x00; x00; x00; x00; x00; x00; x00; x00; x00].

(** Loop at src/core/dxt-lossless-transform-bc3/src/transform/with_recorrelate/transform/avx512vbmi.rs:192. *)
Definition bc3_rec_t_avx512vbmi_transform_decorr_loop1 : list instr :=
  [ILoad "block_0" "input_ptr" 0 64;
    ILoad "block_1" "input_ptr" 64 64;
    IAdd "input_ptr" 128;
    IOp "alpha_bytes" (OPermT2 1 64) ["block_0"; "alpha_bytes_permute_mask"; "block_1"];
    IOp "alpha_bits" (OPermT2 1 64) ["block_0"; "alpha_bits_permute_mask"; "block_1"];
    IOp "color_bytes" (OPermT2 1 64) ["block_0"; "color_bytes_permute_mask"; "block_1"];
    IOp "index_bytes" (OPermT2 1 64) ["block_0"; "index_bytes_permute_mask"; "block_1"];
    IOp "colors_ymm" (OBytes 0 32) ["color_bytes"];
    IOp "colors_decorr" (OYcc Avx2 Dec V1 V2 V3) ["colors_ymm"];
    IOp "t1" (OBytes 0 16) ["alpha_bytes"];
    IStore "alpha_endpoints_out" 0 16 "t1";
    IStore "alpha_indices_out" 0 64 "alpha_bits";
    IStore "colors_out" 0 32 "colors_decorr";
    IOp "t2" (OBytes 0 32) ["index_bytes"];
    IStore "color_indices_out" 0 32 "t2";
    IAdd "alpha_endpoints_out" 16;
    IAdd "alpha_indices_out" 48;
    IAdd "colors_out" 32;
    IAdd "color_indices_out" 32].

(** src/core/dxt-lossless-transform-bc3/src/transform/with_recorrelate/transform/avx512vbmi.rs:24-268, fn transform_decorr *)
Definition bc3_rec_t_avx512vbmi_transform_decorr (c : cfg) (VARIANT : Z) (input_ptr : ptr) (alpha_endpoints_out : ptr) (alpha_indices_out : ptr) (colors_out : ptr) (color_indices_out : ptr) (num_blocks : Z) (m : mem) : res mem :=
  do _ <- cpu_has (c_sse2 c && c_avx2 c && c_avx512f c && c_avx512vbmi c) "sse2 avx2 avx512f avx512vbmi" ;;
  let aligned_len := (num_blocks / 8) * 128 in
  let aligned_len := Z.max 0 (aligned_len - 128) in
  do remaining_blocks <- usub num_blocks (aligned_len / 16) ;;
  do input_aligned_end_ptr <- ptr_add m input_ptr (aligned_len) ;;
  do s <- while_lt (c_junk c) VARIANT bc3_rec_t_avx512vbmi_transform_decorr_loop1 "input_ptr" input_aligned_end_ptr (St [("alpha_bytes_permute_mask", bc3_rec_t_avx512vbmi_transform_decorr_loop1_alpha_bytes_permute_mask); ("alpha_bits_permute_mask", bc3_rec_t_avx512vbmi_transform_decorr_loop1_alpha_bits_permute_mask); ("color_bytes_permute_mask", bc3_rec_t_avx512vbmi_transform_decorr_loop1_color_bytes_permute_mask); ("index_bytes_permute_mask", bc3_rec_t_avx512vbmi_transform_decorr_loop1_index_bytes_permute_mask)] [("input_ptr", input_ptr); ("alpha_endpoints_out", alpha_endpoints_out); ("alpha_indices_out", alpha_indices_out); ("colors_out", colors_out); ("color_indices_out", color_indices_out)] m) ;;
  let m := mm s in
  do input_ptr <- getp s "input_ptr" ;;
  do alpha_endpoints_out <- getp s "alpha_endpoints_out" ;;
  do alpha_indices_out <- getp s "alpha_indices_out" ;;
  do colors_out <- getp s "colors_out" ;;
  do color_indices_out <- getp s "color_indices_out" ;;
  if (0 <? remaining_blocks) then
    if VARIANT =? 1 then
      do m <- bc3_rec_t_generic_transform_decorr_var1 c input_ptr alpha_endpoints_out alpha_indices_out colors_out color_indices_out remaining_blocks m ;;
      Ok m
    else
    if VARIANT =? 2 then
      do m <- bc3_rec_t_generic_transform_decorr_var2 c input_ptr alpha_endpoints_out alpha_indices_out colors_out color_indices_out remaining_blocks m ;;
      Ok m
    else
    if VARIANT =? 3 then
      do m <- bc3_rec_t_generic_transform_decorr_var3 c input_ptr alpha_endpoints_out alpha_indices_out colors_out color_indices_out remaining_blocks m ;;
      Ok m
    else
      do m <- Ub "unreachable_unchecked" ;;
      Ok m
  else
    Ok m.

(** src/core/dxt-lossless-transform-bc3/src/transform/with_recorrelate/transform/avx512vbmi.rs:275-291, fn transform_decorr_var1 *)
Definition bc3_rec_t_avx512vbmi_transform_decorr_var1 (c : cfg) (input_ptr : ptr) (alpha_endpoints_out : ptr) (alpha_indices_out : ptr) (colors_out : ptr) (color_indices_out : ptr) (num_blocks : Z) (m : mem) : res mem :=
  do _ <- cpu_has (c_avx512f c && c_avx512vbmi c) "avx512f avx512vbmi" ;;
  do m <- bc3_rec_t_avx512vbmi_transform_decorr c 1 input_ptr alpha_endpoints_out alpha_indices_out colors_out color_indices_out num_blocks m ;;
  Ok m.

(** src/core/dxt-lossless-transform-bc3/src/transform/with_recorrelate/transform/avx512vbmi.rs:297-313, fn transform_decorr_var2 *)
Definition bc3_rec_t_avx512vbmi_transform_decorr_var2 (c : cfg) (input_ptr : ptr) (alpha_endpoints_out : ptr) (alpha_indices_out : ptr) (colors_out : ptr) (color_indices_out : ptr) (num_blocks : Z) (m : mem) : res mem :=
  do _ <- cpu_has (c_avx512f c && c_avx512vbmi c) "avx512f avx512vbmi" ;;
  do m <- bc3_rec_t_avx512vbmi_transform_decorr c 2 input_ptr alpha_endpoints_out alpha_indices_out colors_out color_indices_out num_blocks m ;;
  Ok m.

(** src/core/dxt-lossless-transform-bc3/src/transform/with_recorrelate/transform/avx512vbmi.rs:319-335, fn transform_decorr_var3 *)
Definition bc3_rec_t_avx512vbmi_transform_decorr_var3 (c : cfg) (input_ptr : ptr) (alpha_endpoints_out : ptr) (alpha_indices_out : ptr) (colors_out : ptr) (color_indices_out : ptr) (num_blocks : Z) (m : mem) : res mem :=
  do _ <- cpu_has (c_avx512f c && c_avx512vbmi c) "avx512f avx512vbmi" ;;
  do m <- bc3_rec_t_avx512vbmi_transform_decorr c 3 input_ptr alpha_endpoints_out alpha_indices_out colors_out color_indices_out num_blocks m ;;
  Ok m.

(** src/core/dxt-lossless-transform-bc3/src/transform/with_recorrelate/transform/avx512vbmi.rs:339-375, fn transform_with_decorrelate *)
Definition bc3_rec_t_avx512vbmi_transform_with_decorrelate (c : cfg) (input_ptr : ptr) (alpha_endpoints_out : ptr) (alpha_indices_out : ptr) (colors_out : ptr) (color_indices_out : ptr) (num_blocks : Z) (variant : variant) (m : mem) : res mem :=
  match variant with
  | V1 =>
    do m <- bc3_rec_t_avx512vbmi_transform_decorr_var1 c input_ptr alpha_endpoints_out alpha_indices_out colors_out color_indices_out num_blocks m ;;
    Ok m
  | V2 =>
    do m <- bc3_rec_t_avx512vbmi_transform_decorr_var2 c input_ptr alpha_endpoints_out alpha_indices_out colors_out color_indices_out num_blocks m ;;
    Ok m
  | V3 =>
    do m <- bc3_rec_t_avx512vbmi_transform_decorr_var3 c input_ptr alpha_endpoints_out alpha_indices_out colors_out color_indices_out num_blocks m ;;
    Ok m
  | VNone =>
    do m <- Ub "unreachable_unchecked" ;;
    Ok m
  end.

(** src/core/dxt-lossless-transform-bc3/src/transform/with_recorrelate/transform/generic.rs:19-55, fn transform_with_decorrelate_generic *)
Definition bc3_rec_t_generic_transform_with_decorrelate_generic (c : cfg) (input_ptr : ptr) (alpha_endpoints_out : ptr) (alpha_indices_out : ptr) (colors_out : ptr) (color_indices_out : ptr) (num_blocks : Z) (decorrelation_mode : variant) (m : mem) : res mem :=
  match decorrelation_mode with
  | V1 =>
    do m <- bc3_rec_t_generic_transform_decorr_var1 c input_ptr alpha_endpoints_out alpha_indices_out colors_out color_indices_out num_blocks m ;;
    Ok m
  | V2 =>
    do m <- bc3_rec_t_generic_transform_decorr_var2 c input_ptr alpha_endpoints_out alpha_indices_out colors_out color_indices_out num_blocks m ;;
    Ok m
  | V3 =>
    do m <- bc3_rec_t_generic_transform_decorr_var3 c input_ptr alpha_endpoints_out alpha_indices_out colors_out color_indices_out num_blocks m ;;
    Ok m
  | VNone =>
    do m <- Ub "unreachable_unchecked" ;;
    Ok m
  end.

(** Loop at src/core/dxt-lossless-transform-bc3/src/transform/with_recorrelate/transform/avx2.rs:41. *)
Definition bc3_rec_t_avx2_transform_decorr_loop1 (x64 : bool) : list instr :=
  [ILoad "t1" "input_ptr" 8 4;
    ILoad "t2" "input_ptr" 24 4;
    IOp "t3" (OConcat) ["t1"; "t2"];
    ILoad "t4" "input_ptr" 40 4;
    IOp "t5" (OConcat) ["t3"; "t4"];
    ILoad "t6" "input_ptr" 56 4;
    IOp "t7" (OConcat) ["t5"; "t6"];
    ILoad "t8" "input_ptr" 72 4;
    IOp "t9" (OConcat) ["t7"; "t8"];
    ILoad "t10" "input_ptr" 88 4;
    IOp "t11" (OConcat) ["t9"; "t10"];
    ILoad "t12" "input_ptr" 104 4;
    IOp "t13" (OConcat) ["t11"; "t12"];
    ILoad "t14" "input_ptr" 120 4;
    IOp "colours" (OConcat) ["t13"; "t14"];
    ILoad "t15" "input_ptr" 12 4;
    ILoad "t16" "input_ptr" 28 4;
    IOp "t17" (OConcat) ["t15"; "t16"];
    ILoad "t18" "input_ptr" 44 4;
    IOp "t19" (OConcat) ["t17"; "t18"];
    ILoad "t20" "input_ptr" 60 4;
    IOp "t21" (OConcat) ["t19"; "t20"];
    ILoad "t22" "input_ptr" 76 4;
    IOp "t23" (OConcat) ["t21"; "t22"];
    ILoad "t24" "input_ptr" 92 4;
    IOp "t25" (OConcat) ["t23"; "t24"];
    ILoad "t26" "input_ptr" 108 4;
    IOp "t27" (OConcat) ["t25"; "t26"];
    ILoad "t28" "input_ptr" 124 4;
    IOp "indices" (OConcat) ["t27"; "t28"];
    IOp "colors_decorr" (OYcc Avx2 Dec V1 V2 V3) ["colours"];
    ILoad "t30" "input_ptr" 0 2;
    IOp "write_alpha_endpoints_u6429_alpha_0" (OZext 8) ["t30"];
    ILoad "t31" "input_ptr" 16 2;
    IOp "write_alpha_endpoints_u6429_alpha_1" (OZext 8) ["t31"];
    ILoad "t32" "input_ptr" 32 2;
    IOp "write_alpha_endpoints_u6429_alpha_2" (OZext 8) ["t32"];
    ILoad "t33" "input_ptr" 48 2;
    IOp "write_alpha_endpoints_u6429_alpha_3" (OZext 8) ["t33"];
    IOp "t34" (OShl 2) ["write_alpha_endpoints_u6429_alpha_1"];
    IOp "t35" (OOr) ["write_alpha_endpoints_u6429_alpha_0"; "t34"];
    IOp "t36" (OShl 4) ["write_alpha_endpoints_u6429_alpha_2"];
    IOp "t37" (OOr) ["t35"; "t36"];
    IOp "t38" (OShl 6) ["write_alpha_endpoints_u6429_alpha_3"];
    IOp "write_alpha_endpoints_u6429_combined" (OOr) ["t37"; "t38"];
    IStore "alpha_endpoints_out" 0 8 "write_alpha_endpoints_u6429_combined";
    ILoad "t40" "input_ptr" 64 2;
    IOp "write_alpha_endpoints_u6439_alpha_0" (OZext 8) ["t40"];
    ILoad "t41" "input_ptr" 80 2;
    IOp "write_alpha_endpoints_u6439_alpha_1" (OZext 8) ["t41"];
    ILoad "t42" "input_ptr" 96 2;
    IOp "write_alpha_endpoints_u6439_alpha_2" (OZext 8) ["t42"];
    ILoad "t43" "input_ptr" 112 2;
    IOp "write_alpha_endpoints_u6439_alpha_3" (OZext 8) ["t43"];
    IOp "t44" (OShl 2) ["write_alpha_endpoints_u6439_alpha_1"];
    IOp "t45" (OOr) ["write_alpha_endpoints_u6439_alpha_0"; "t44"];
    IOp "t46" (OShl 4) ["write_alpha_endpoints_u6439_alpha_2"];
    IOp "t47" (OOr) ["t45"; "t46"];
    IOp "t48" (OShl 6) ["write_alpha_endpoints_u6439_alpha_3"];
    IOp "write_alpha_endpoints_u6439_combined" (OOr) ["t47"; "t48"];
    IStore "alpha_endpoints_out" 8 8 "write_alpha_endpoints_u6439_combined";
    IAdd "alpha_endpoints_out" 16] ++
  (if x64 then
    [ILoad "write_alpha_bits_u6449_first_part" "input_ptr" 2 2;
    ILoad "write_alpha_bits_u6449_second_part" "input_ptr" 4 4;
    IOp "t50" (OZext 8) ["write_alpha_bits_u6449_second_part"];
    IOp "t51" (OShl 2) ["t50"];
    IOp "t52" (OZext 8) ["write_alpha_bits_u6449_first_part"];
    IOp "write_alpha_bits_u6449_combined_value" (OOr) ["t51"; "t52"];
    IStore "alpha_indices_out" 0 8 "write_alpha_bits_u6449_combined_value";
    ILoad "write_alpha_bits_u6453_first_part" "input_ptr" 18 2;
    ILoad "write_alpha_bits_u6453_second_part" "input_ptr" 20 4;
    IOp "t54" (OZext 8) ["write_alpha_bits_u6453_second_part"];
    IOp "t55" (OShl 2) ["t54"];
    IOp "t56" (OZext 8) ["write_alpha_bits_u6453_first_part"];
    IOp "write_alpha_bits_u6453_combined_value" (OOr) ["t55"; "t56"];
    IStore "alpha_indices_out" 6 8 "write_alpha_bits_u6453_combined_value";
    ILoad "write_alpha_bits_u6457_first_part" "input_ptr" 34 2;
    ILoad "write_alpha_bits_u6457_second_part" "input_ptr" 36 4;
    IOp "t58" (OZext 8) ["write_alpha_bits_u6457_second_part"];
    IOp "t59" (OShl 2) ["t58"];
    IOp "t60" (OZext 8) ["write_alpha_bits_u6457_first_part"];
    IOp "write_alpha_bits_u6457_combined_value" (OOr) ["t59"; "t60"];
    IStore "alpha_indices_out" 12 8 "write_alpha_bits_u6457_combined_value";
    ILoad "write_alpha_bits_u6461_first_part" "input_ptr" 50 2;
    ILoad "write_alpha_bits_u6461_second_part" "input_ptr" 52 4;
    IOp "t62" (OZext 8) ["write_alpha_bits_u6461_second_part"];
    IOp "t63" (OShl 2) ["t62"];
    IOp "t64" (OZext 8) ["write_alpha_bits_u6461_first_part"];
    IOp "write_alpha_bits_u6461_combined_value" (OOr) ["t63"; "t64"];
    IStore "alpha_indices_out" 18 8 "write_alpha_bits_u6461_combined_value";
    ILoad "write_alpha_bits_u6465_first_part" "input_ptr" 66 2;
    ILoad "write_alpha_bits_u6465_second_part" "input_ptr" 68 4;
    IOp "t66" (OZext 8) ["write_alpha_bits_u6465_second_part"];
    IOp "t67" (OShl 2) ["t66"];
    IOp "t68" (OZext 8) ["write_alpha_bits_u6465_first_part"];
    IOp "write_alpha_bits_u6465_combined_value" (OOr) ["t67"; "t68"];
    IStore "alpha_indices_out" 24 8 "write_alpha_bits_u6465_combined_value";
    ILoad "write_alpha_bits_u6469_first_part" "input_ptr" 82 2;
    ILoad "write_alpha_bits_u6469_second_part" "input_ptr" 84 4;
    IOp "t70" (OZext 8) ["write_alpha_bits_u6469_second_part"];
    IOp "t71" (OShl 2) ["t70"];
    IOp "t72" (OZext 8) ["write_alpha_bits_u6469_first_part"];
    IOp "write_alpha_bits_u6469_combined_value" (OOr) ["t71"; "t72"];
    IStore "alpha_indices_out" 30 8 "write_alpha_bits_u6469_combined_value";
    ILoad "write_alpha_bits_u6473_first_part" "input_ptr" 98 2;
    ILoad "write_alpha_bits_u6473_second_part" "input_ptr" 100 4;
    IOp "t74" (OZext 8) ["write_alpha_bits_u6473_second_part"];
    IOp "t75" (OShl 2) ["t74"];
    IOp "t76" (OZext 8) ["write_alpha_bits_u6473_first_part"];
    IOp "write_alpha_bits_u6473_combined_value" (OOr) ["t75"; "t76"];
    IStore "alpha_indices_out" 36 8 "write_alpha_bits_u6473_combined_value";
    ILoad "t78" "input_ptr" 114 2;
    IStore "alpha_indices_out" 42 2 "t78";
    ILoad "t80" "input_ptr" 116 4;
    IStore "alpha_indices_out" 44 4 "t80"]
  else
    [ILoad "t82" "input_ptr" 2 2;
    IStore "alpha_indices_out" 0 2 "t82";
    ILoad "t84" "input_ptr" 4 4;
    IStore "alpha_indices_out" 2 4 "t84";
    ILoad "t86" "input_ptr" 18 2;
    IStore "alpha_indices_out" 6 2 "t86";
    ILoad "t88" "input_ptr" 20 4;
    IStore "alpha_indices_out" 8 4 "t88";
    ILoad "t90" "input_ptr" 34 2;
    IStore "alpha_indices_out" 12 2 "t90";
    ILoad "t92" "input_ptr" 36 4;
    IStore "alpha_indices_out" 14 4 "t92";
    ILoad "t94" "input_ptr" 50 2;
    IStore "alpha_indices_out" 18 2 "t94";
    ILoad "t96" "input_ptr" 52 4;
    IStore "alpha_indices_out" 20 4 "t96";
    ILoad "t98" "input_ptr" 66 2;
    IStore "alpha_indices_out" 24 2 "t98";
    ILoad "t100" "input_ptr" 68 4;
    IStore "alpha_indices_out" 26 4 "t100";
    ILoad "t102" "input_ptr" 82 2;
    IStore "alpha_indices_out" 30 2 "t102";
    ILoad "t104" "input_ptr" 84 4;
    IStore "alpha_indices_out" 32 4 "t104";
    ILoad "t106" "input_ptr" 98 2;
    IStore "alpha_indices_out" 36 2 "t106";
    ILoad "t108" "input_ptr" 100 4;
    IStore "alpha_indices_out" 38 4 "t108";
    ILoad "t110" "input_ptr" 114 2;
    IStore "alpha_indices_out" 42 2 "t110";
    ILoad "t112" "input_ptr" 116 4;
    IStore "alpha_indices_out" 44 4 "t112"]) ++
  [IAdd "alpha_indices_out" 48;
    IStore "colors_out" 0 32 "colors_decorr";
    IStore "color_indices_out" 0 32 "indices";
    IAdd "input_ptr" 128;
    IAdd "colors_out" 32;
    IAdd "color_indices_out" 32].

(** src/core/dxt-lossless-transform-bc3/src/transform/with_recorrelate/transform/avx2.rs:17-145, fn transform_decorr *)
Definition bc3_rec_t_avx2_transform_decorr (c : cfg) (VARIANT : Z) (input_ptr : ptr) (alpha_endpoints_out : ptr) (alpha_indices_out : ptr) (colors_out : ptr) (color_indices_out : ptr) (num_blocks : Z) (m : mem) : res mem :=
  do _ <- cpu_has (c_avx2 c) "avx2" ;;
  let num_iterations := (num_blocks / 8) * 8 in
  do input_end <- ptr_add m input_ptr (num_iterations * 16) ;;
  do s <- while_lt (c_junk c) VARIANT (bc3_rec_t_avx2_transform_decorr_loop1 (is_x64 c)) "input_ptr" input_end (St [] [("input_ptr", input_ptr); ("alpha_endpoints_out", alpha_endpoints_out); ("alpha_indices_out", alpha_indices_out); ("colors_out", colors_out); ("color_indices_out", color_indices_out)] m) ;;
  let m := mm s in
  do input_ptr <- getp s "input_ptr" ;;
  do alpha_endpoints_out <- getp s "alpha_endpoints_out" ;;
  do alpha_indices_out <- getp s "alpha_indices_out" ;;
  do colors_out <- getp s "colors_out" ;;
  do color_indices_out <- getp s "color_indices_out" ;;
  let remaining := num_blocks mod 8 in
  if (0 <? remaining) then
    do variant_enum <- (if VARIANT =? 1 then Ok V1 else if VARIANT =? 2 then Ok V2 else if VARIANT =? 3 then Ok V3 else Ub "unreachable_unchecked") ;;
    do m <- bc3_rec_t_generic_transform_with_decorrelate_generic c input_ptr alpha_endpoints_out alpha_indices_out colors_out color_indices_out remaining variant_enum m ;;
    Ok m
  else
    Ok m.

(** src/core/dxt-lossless-transform-bc3/src/transform/with_recorrelate/transform/avx2.rs:211-227, fn transform_decorr_var1 *)
Definition bc3_rec_t_avx2_transform_decorr_var1 (c : cfg) (input_ptr : ptr) (alpha_endpoints_out : ptr) (alpha_indices_out : ptr) (colors_out : ptr) (color_indices_out : ptr) (num_blocks : Z) (m : mem) : res mem :=
  do _ <- cpu_has (c_avx2 c) "avx2" ;;
  do m <- bc3_rec_t_avx2_transform_decorr c 1 input_ptr alpha_endpoints_out alpha_indices_out colors_out color_indices_out num_blocks m ;;
  Ok m.

(** src/core/dxt-lossless-transform-bc3/src/transform/with_recorrelate/transform/avx2.rs:232-248, fn transform_decorr_var2 *)
Definition bc3_rec_t_avx2_transform_decorr_var2 (c : cfg) (input_ptr : ptr) (alpha_endpoints_out : ptr) (alpha_indices_out : ptr) (colors_out : ptr) (color_indices_out : ptr) (num_blocks : Z) (m : mem) : res mem :=
  do _ <- cpu_has (c_avx2 c) "avx2" ;;
  do m <- bc3_rec_t_avx2_transform_decorr c 2 input_ptr alpha_endpoints_out alpha_indices_out colors_out color_indices_out num_blocks m ;;
  Ok m.

(** src/core/dxt-lossless-transform-bc3/src/transform/with_recorrelate/transform/avx2.rs:253-269, fn transform_decorr_var3 *)
Definition bc3_rec_t_avx2_transform_decorr_var3 (c : cfg) (input_ptr : ptr) (alpha_endpoints_out : ptr) (alpha_indices_out : ptr) (colors_out : ptr) (color_indices_out : ptr) (num_blocks : Z) (m : mem) : res mem :=
  do _ <- cpu_has (c_avx2 c) "avx2" ;;
  do m <- bc3_rec_t_avx2_transform_decorr c 3 input_ptr alpha_endpoints_out alpha_indices_out colors_out color_indices_out num_blocks m ;;
  Ok m.

(** src/core/dxt-lossless-transform-bc3/src/transform/with_recorrelate/transform/avx2.rs:273-309, fn transform_with_decorrelate *)
Definition bc3_rec_t_avx2_transform_with_decorrelate (c : cfg) (input_ptr : ptr) (alpha_endpoints_out : ptr) (alpha_indices_out : ptr) (colors_out : ptr) (color_indices_out : ptr) (num_blocks : Z) (variant : variant) (m : mem) : res mem :=
  match variant with
  | V1 =>
    do m <- bc3_rec_t_avx2_transform_decorr_var1 c input_ptr alpha_endpoints_out alpha_indices_out colors_out color_indices_out num_blocks m ;;
    Ok m
  | V2 =>
    do m <- bc3_rec_t_avx2_transform_decorr_var2 c input_ptr alpha_endpoints_out alpha_indices_out colors_out color_indices_out num_blocks m ;;
    Ok m
  | V3 =>
    do m <- bc3_rec_t_avx2_transform_decorr_var3 c input_ptr alpha_endpoints_out alpha_indices_out colors_out color_indices_out num_blocks m ;;
    Ok m
  | VNone =>
    do m <- Ub "unreachable_unchecked" ;;
    Ok m
  end.

(** src/core/dxt-lossless-transform-bc3/src/transform/with_recorrelate/transform/mod.rs:62-142, fn transform_with_decorrelate_x86 *)
Definition bc3_rec_t_transform_with_decorrelate_x86 (c : cfg) (input_ptr : ptr) (alpha_endpoints_out : ptr) (alpha_indices_out : ptr) (colors_out : ptr) (color_indices_out : ptr) (num_blocks : Z) (decorrelation_mode : variant) (m : mem) : res mem :=
  if negb (c_static c) then
    if has_avx512vbmi c then
      do m <- bc3_rec_t_avx512vbmi_transform_with_decorrelate c input_ptr alpha_endpoints_out alpha_indices_out colors_out color_indices_out num_blocks decorrelation_mode m ;;
      Ok m
    else
      if has_avx2 c then
        do m <- bc3_rec_t_avx2_transform_with_decorrelate c input_ptr alpha_endpoints_out alpha_indices_out colors_out color_indices_out num_blocks decorrelation_mode m ;;
        Ok m
      else
        do m <- bc3_rec_t_generic_transform_with_decorrelate_generic c input_ptr alpha_endpoints_out alpha_indices_out colors_out color_indices_out num_blocks decorrelation_mode m ;;
        Ok m
  else
    if c_avx512vbmi c then
      do m <- bc3_rec_t_avx512vbmi_transform_with_decorrelate c input_ptr alpha_endpoints_out alpha_indices_out colors_out color_indices_out num_blocks decorrelation_mode m ;;
      Ok m
    else
      if c_avx2 c then
        do m <- bc3_rec_t_avx2_transform_with_decorrelate c input_ptr alpha_endpoints_out alpha_indices_out colors_out color_indices_out num_blocks decorrelation_mode m ;;
        Ok m
      else
        do m <- bc3_rec_t_generic_transform_with_decorrelate_generic c input_ptr alpha_endpoints_out alpha_indices_out colors_out color_indices_out num_blocks decorrelation_mode m ;;
        Ok m.

(** src/core/dxt-lossless-transform-bc3/src/transform/with_recorrelate/transform/mod.rs:18-58, fn transform_with_decorrelate *)
Definition bc3_rec_t_transform_with_decorrelate (c : cfg) (input_ptr : ptr) (output_ptr : ptr) (len : Z) (decorrelation_mode : variant) (m : mem) : res mem :=
  do _ <- debug_assert (c_debug c) (len mod 16 =? 0) "len . is_multiple_of ( 16 )" ;;
  let alpha_endpoints_ptr := output_ptr in
  do alpha_indices_ptr <- ptr_add m output_ptr (len / 8) ;;
  do colors_ptr <- ptr_add m output_ptr (len / 2) ;;
  do color_indices_ptr <- ptr_add m output_ptr ((len / 2) + (len / 4)) ;;
  let num_blocks := len / 16 in
  if is_x86 c then
    do m <- bc3_rec_t_transform_with_decorrelate_x86 c input_ptr alpha_endpoints_ptr alpha_indices_ptr colors_ptr color_indices_ptr num_blocks decorrelation_mode m ;;
    Ok m
  else
    do m <- bc3_rec_t_generic_transform_with_decorrelate_generic c input_ptr alpha_endpoints_ptr alpha_indices_ptr colors_ptr color_indices_ptr num_blocks decorrelation_mode m ;;
    Ok m.

(** Loop at src/core/dxt-lossless-transform-bc3/src/transform/with_recorrelate/untransform/generic.rs:127. *)
Definition bc3_rec_u_generic_untransform_recorr_loop1 : list instr :=
  [ILoad "alpha_endpoints" "alpha_endpoints_in" 0 2;
    ILoad "alpha_indices_1" "alpha_indices_in" 0 2;
    ILoad "alpha_indices_2" "alpha_indices_in" 2 4;
    ILoad "color_raw" "colors_in" 0 4;
    ILoad "color_indices" "color_indices_in" 0 4;
    IAdd "alpha_endpoints_in" 2;
    IAdd "alpha_indices_in" 6;
    IAdd "colors_in" 4;
    IAdd "color_indices_in" 4;
    IOp "t1" (OBytes 0 2) ["color_raw"];
    IOp "color0" (OMov) ["t1"];
    IOp "t2" (OShr 2) ["color_raw"];
    IOp "t3" (OBytes 0 2) ["t2"];
    IOp "color1" (OMov) ["t3"];
    IOp "recorr_color0" (OYcc Scalar Rec V1 V2 V3) ["color0"];
    IOp "recorr_color1" (OYcc Scalar Rec V1 V2 V3) ["color1"];
    IOp "t4" (OZext 4) ["recorr_color0"];
    IOp "t5" (OZext 4) ["recorr_color1"];
    IOp "t6" (OShl 2) ["t5"];
    IOp "recorrelated_colors" (OOr) ["t4"; "t6"];
    IStore "output_ptr" 0 2 "alpha_endpoints";
    IStore "output_ptr" 2 2 "alpha_indices_1";
    IStore "output_ptr" 4 4 "alpha_indices_2";
    IStore "output_ptr" 8 4 "recorrelated_colors";
    IStore "output_ptr" 12 4 "color_indices";
    IAdd "output_ptr" 16].

(** src/core/dxt-lossless-transform-bc3/src/transform/with_recorrelate/untransform/generic.rs:118-174, fn untransform_recorr *)
Definition bc3_rec_u_generic_untransform_recorr (c : cfg) (VARIANT : Z) (alpha_endpoints_in : ptr) (alpha_indices_in : ptr) (colors_in : ptr) (color_indices_in : ptr) (output_ptr : ptr) (num_blocks : Z) (m : mem) : res mem :=
  do alpha_endpoints_end <- ptr_add m alpha_endpoints_in (num_blocks * 2) ;;
  do s <- while_lt (c_junk c) VARIANT bc3_rec_u_generic_untransform_recorr_loop1 "alpha_endpoints_in" alpha_endpoints_end (St [] [("alpha_endpoints_in", alpha_endpoints_in); ("alpha_indices_in", alpha_indices_in); ("colors_in", colors_in); ("color_indices_in", color_indices_in); ("output_ptr", output_ptr)] m) ;;
  let m := mm s in
  do alpha_endpoints_in <- getp s "alpha_endpoints_in" ;;
  do alpha_indices_in <- getp s "alpha_indices_in" ;;
  do colors_in <- getp s "colors_in" ;;
  do color_indices_in <- getp s "color_indices_in" ;;
  do output_ptr <- getp s "output_ptr" ;;
  Ok m.

(** src/core/dxt-lossless-transform-bc3/src/transform/with_recorrelate/untransform/generic.rs:64-80, fn untransform_recorr_var1 *)
Definition bc3_rec_u_generic_untransform_recorr_var1 (c : cfg) (alpha_endpoints_in : ptr) (alpha_indices_in : ptr) (colors_in : ptr) (color_indices_in : ptr) (output_ptr : ptr) (num_blocks : Z) (m : mem) : res mem :=
  do m <- bc3_rec_u_generic_untransform_recorr c 1 alpha_endpoints_in alpha_indices_in colors_in color_indices_in output_ptr num_blocks m ;;
  Ok m.

(** src/core/dxt-lossless-transform-bc3/src/transform/with_recorrelate/untransform/generic.rs:82-98, fn untransform_recorr_var2 *)
Definition bc3_rec_u_generic_untransform_recorr_var2 (c : cfg) (alpha_endpoints_in : ptr) (alpha_indices_in : ptr) (colors_in : ptr) (color_indices_in : ptr) (output_ptr : ptr) (num_blocks : Z) (m : mem) : res mem :=
  do m <- bc3_rec_u_generic_untransform_recorr c 2 alpha_endpoints_in alpha_indices_in colors_in color_indices_in output_ptr num_blocks m ;;
  Ok m.

(** src/core/dxt-lossless-transform-bc3/src/transform/with_recorrelate/untransform/generic.rs:100-116, fn untransform_recorr_var3 *)
Definition bc3_rec_u_generic_untransform_recorr_var3 (c : cfg) (alpha_endpoints_in : ptr) (alpha_indices_in : ptr) (colors_in : ptr) (color_indices_in : ptr) (output_ptr : ptr) (num_blocks : Z) (m : mem) : res mem :=
  do m <- bc3_rec_u_generic_untransform_recorr c 3 alpha_endpoints_in alpha_indices_in colors_in color_indices_in output_ptr num_blocks m ;;
  Ok m.

(** src/core/dxt-lossless-transform-bc3/src/transform/with_recorrelate/untransform/generic.rs:19-61, fn untransform_with_recorrelate_generic *)
Definition bc3_rec_u_generic_untransform_with_recorrelate_generic (c : cfg) (alpha_endpoints_in : ptr) (alpha_indices_in : ptr) (colors_in : ptr) (color_indices_in : ptr) (output_ptr : ptr) (num_blocks : Z) (recorrelation_mode : variant) (m : mem) : res mem :=
  match recorrelation_mode with
  | V1 =>
    do m <- bc3_rec_u_generic_untransform_recorr_var1 c alpha_endpoints_in alpha_indices_in colors_in color_indices_in output_ptr num_blocks m ;;
    Ok m
  | V2 =>
    do m <- bc3_rec_u_generic_untransform_recorr_var2 c alpha_endpoints_in alpha_indices_in colors_in color_indices_in output_ptr num_blocks m ;;
    Ok m
  | V3 =>
    do m <- bc3_rec_u_generic_untransform_recorr_var3 c alpha_endpoints_in alpha_indices_in colors_in color_indices_in output_ptr num_blocks m ;;
    Ok m
  | VNone =>
    do m <- Ub "unreachable_unchecked" ;;
    Ok m
  end.

(** Constants of the loop at src/core/dxt-lossless-transform-bc3/src/transform/with_recorrelate/untransform/avx512vbmi_64.rs:295 *)
Definition bc3_rec_u_avx512vbmi_64_untransform_recorr_64_loop1_blocks_0_perm_alphabits : list byte := [x00; x01; x40; x41; x42; x43; x44; x45; x00; x00; x00; x00; x00; x00; x00; x00; x02; x03; x46; x47; x48; x49; x4a; x4b; x00; x00; x00; x00; x00; x00; x00; x00; x04; x05; x4c; x4d; x4e; x4f; x50; x51; x00; x00; x00; x00; x00; x00; x00; x00; x06; x07; x52; x53; x54; x55; x56; x57; x00; x00; x00; x00; x00; x00; x00; x00].
Definition bc3_rec_u_avx512vbmi_64_untransform_recorr_64_loop1_blocks_0_perm_colours : list byte := [x00; x01; x02; x03; x04; x05; x06; x07; x40; x41; x42; x43; x00; x00; x00; x00; x10; x11; x12; x13; x14; x15; x16; x17; x44; x45; x46; x47; x00; x00; x00; x00; x20; x21; x22; x23; x24; x25; x26; x27; x48; x49; x4a; x4b; x00; x00; x00; x00; x30; x31; x32; x33; x34; x35; x36; x37; x4c; x4d; x4e; x4f; x00; x00; x00; x00].
Definition bc3_rec_u_avx512vbmi_64_untransform_recorr_64_loop1_blocks_0_perm_indices : list byte := [x00; x01; x02; x03; x04; x05; x06; x07; x08; x09; x0a; x0b; x40; x41; x42; x43; x10; x11; x12; x13; x14; x15; x16; x17; x18; x19; x1a; x1b; x44; x45; x46; x47; x20; x21; x22; x23; x24; x25; x26; x27; x28; x29; x2a; x2b; x48; x49; x4a; x4b; x30; x31; x32; x33; x34; x35; x36; x37; x38; x39; x3a; x3b; x4c; x4d; x4e; x4f].
Definition bc3_rec_u_avx512vbmi_64_untransform_recorr_64_loop1_blocks_1_perm_alphabits : list byte := [x08; x09; x58; x59; x5a; x5b; x5c; x5d; x00; x00; x00; x00; x00; x00; x00; x00; x0a; x0b; x5e; x5f; x60; x61; x62; x63; x00; x00; x00; x00; x00; x00; x00; x00; x0c; x0d; x64; x65; x66; x67; x68; x69; x00; x00; x00; x00; x00; x00; x00; x00; x0e; x0f; x6a; x6b; x6c; x6d; x6e; x6f; x00; x00; x00; x00; x00; x00; x00; x00].
Definition bc3_rec_u_avx512vbmi_64_untransform_recorr_64_loop1_blocks_1_perm_colours : list byte := [x00; x01; x02; x03; x04; x05; x06; x07; x50; x51; x52; x53; x00; x00; x00; x00; x10; x11; x12; x13; x14; x15; x16; x17; x54; x55; x56; x57; x00; x00; x00; x00; x20; x21; x22; x23; x24; x25; x26; x27; x58; x59; x5a; x5b; x00; x00; x00; x00; x30; x31; x32; x33; x34; x35; x36; x37; x5c; x5d; x5e; x5f; x00; x00; x00; x00].
Definition bc3_rec_u_avx512vbmi_64_untransform_recorr_64_loop1_blocks_1_perm_indices : list byte := [x00; x01; x02; x03; x04; x05; x06; x07; x08; x09; x0a; x0b; x50; x51; x52; x53; x10; x11; x12; x13; x14; x15; x16; x17; x18; x19; x1a; x1b; x54; x55; x56; x57; x20; x21; x22; x23; x24; x25; x26; x27; x28; x29; x2a; x2b; x58; x59; x5a; x5b; x30; x31; x32; x33; x34; x35; x36; x37; x38; x39; x3a; x3b; x5c; x5d; x5e; x5f].
Definition bc3_rec_u_avx512vbmi_64_untransform_recorr_64_loop1_blocks_2_perm_alphabits : list byte := [x10; x11; x40; x41; x42; x43; x44; x45; x00; x00; x00; x00; x00; x00; x00; x00; x12; x13; x46; x47; x48; x49; x4a; x4b; x00; x00; x00; x00; x00; x00; x00; x00; x14; x15; x4c; x4d; x4e; x4f; x50; x51; x00; x00; x00; x00; x00; x00; x00; x00; x16; x17; x52; x53; x54; x55; x56; x57; x00; x00; x00; x00; x00; x00; x00; x00].
Definition bc3_rec_u_avx512vbmi_64_untransform_recorr_64_loop1_blocks_2_perm_colours : list byte := [x00; x01; x02; x03; x04; x05; x06; x07; x60; x61; x62; x63; x00; x00; x00; x00; x10; x11; x12; x13; x14; x15; x16; x17; x64; x65; x66; x67; x00; x00; x00; x00; x20; x21; x22; x23; x24; x25; x26; x27; x68; x69; x6a; x6b; x00; x00; x00; x00; x30; x31; x32; x33; x34; x35; x36; x37; x6c; x6d; x6e; x6f; x00; x00; x00; x00].
Definition bc3_rec_u_avx512vbmi_64_untransform_recorr_64_loop1_blocks_2_perm_indices : list byte := [x00; x01; x02; x03; x04; x05; x06; x07; x08; x09; x0a; x0b; x60; x61; x62; x63; x10; x11; x12; x13; x14; x15; x16; x17; x18; x19; x1a; x1b; x64; x65; x66; x67; x20; x21; x22; x23; x24; x25; x26; x27; x28; x29; x2a; x2b; x68; x69; x6a; x6b; x30; x31; x32; x33; x34; x35; x36; x37; x38; x39; x3a; x3b; x6c; x6d; x6e; x6f].
Definition bc3_rec_u_avx512vbmi_64_untransform_recorr_64_loop1_blocks_3_perm_alphabits : list byte := [x18; x19; x58; x59; x5a; x5b; x5c; x5d; x00; x00; x00; x00; x00; x00; x00; x00; x1a; x1b; x5e; x5f; x60; x61; x62; x63; x00; x00; x00; x00; x00; x00; x00; x00; x1c; x1d; x64; x65; x66; x67; x68; x69; x00; x00; x00; x00; x00; x00; x00; x00; x1e; x1f; x6a; x6b; x6c; x6d; x6e; x6f; x00; x00; x00; x00; x00; x00; x00; x00].
Definition bc3_rec_u_avx512vbmi_64_untransform_recorr_64_loop1_blocks_3_perm_colours : list byte := [x00; x01; x02; x03; x04; x05; x06; x07; x70; x71; x72; x73; x00; x00; x00; x00; x10; x11; x12; x13; x14; x15; x16; x17; x74; x75; x76; x77; x00; x00; x00; x00; x20; x21; x22; x23; x24; x25; x26; x27; x78; x79; x7a; x7b; x00; x00; x00; x00; x30; x31; x32; x33; x34; x35; x36; x37; x7c; x7d; x7e; x7f; x00; x00; x00; x00].
Definition bc3_rec_u_avx512vbmi_64_untransform_recorr_64_loop1_blocks_3_perm_indices : list byte := [x00; x01; x02; x03; x04; x05; x06; x07; x08; x09; x0a; x0b; x70; x71; x72; x73; x10; x11; x12; x13; x14; x15; x16; x17; x18; x19; x1a; x1b; x74; x75; x76; x77; x20; x21; x22; x23; x24; x25; x26; x27; x28; x29; x2a; x2b; x78; x79; x7a; x7b; x30; x31; x32; x33; x34; x35; x36; x37; x38; x39; x3a; x3b; x7c; x7d; x7e; x7f].
Definition bc3_rec_u_avx512vbmi_64_untransform_recorr_64_loop1_blocks_4_perm_alphabits : list byte := [x20; x21; x40; x41; x42; x43; x44; x45; x00; x00; x00; x00; x00; x00; x00; x00; x22; x23; x46; x47; x48; x49; x4a; x4b; x00; x00; x00; x00; x00; x00; x00; x00; x24; x25; x4c; x4d; x4e; x4f; x50; x51; x00; x00; x00; x00; x00; x00; x00; x00; x26; x27; x52; x53; x54; x55; x56; x57; x00; x00; x00; x00; x00; x00; x00; x00].
Definition bc3_rec_u_avx512vbmi_64_untransform_recorr_64_loop1_blocks_5_perm_alphabits : list byte := [x28; x29; x58; x59; x5a; x5b; x5c; x5d; x00; x00; x00; x00; x00; x00; x00; x00; x2a; x2b; x5e; x5f; x60; x61; x62; x63; x00; x00; x00; x00; x00; x00; x00; x00; x2c; x2d; x64; x65; x66; x67; x68; x69; x00; x00; x00; x00; x00; x00; x00; x00; x2e; x2f; x6a; x6b; x6c; x6d; x6e; x6f; x00; x00; x00; x00; x00; x00; x00; x00].
Definition bc3_rec_u_avx512vbmi_64_untransform_recorr_64_loop1_blocks_6_perm_alphabits : list byte := [x30; x31; x40; x41; x42; x43; x44; x45; x00; x00; x00; x00; x00; x00; x00; x00; x32; x33; x46; x47; x48; x49; x4a; x4b; x00; x00; x00; x00; x00; x00; x00; x00; x34; x35; x4c; x4d; x4e; x4f; x50; x51; x00; x00; x00; x00; x00; x00; x00; x00; x36; x37; x52; x53; x54; x55; x56; x57; x00; x00; x00; x00; x00; x00; x00; x00].
Definition bc3_rec_u_avx512vbmi_64_untransform_recorr_64_loop1_blocks_7_perm_alphabits : list byte := [x38; x39; x58; x59; x5a; x5b; x5c; x5d; x00; x00; x00; x00; x00; x00; x00; x00; x3a; x3b; x5e; x5f; x60; x61; x62; x63; x00; x00; x00; x00; x00; x00; x00; x00; x3c; x3d; x64; x65; x66; x67; x68; x69; x00; x00; x00; x00; x00; x00; x00; x00; x3e; x3f; x6a; x6b; x6c; x6d; x6e; x6f; x00; x00; x00; x00; x00; x00; x00; x00].

(** Loop at src/core/dxt-lossless-transform-bc3/src/transform/with_recorrelate/untransform/avx512vbmi_64.rs:295. *)
Definition bc3_rec_u_avx512vbmi_64_untransform_recorr_64_loop1 : list instr :=
  [ILoad "alpha_bytes_0" "alpha_byte_in_ptr" 0 64;
    IAdd "alpha_byte_in_ptr" 64;
    ILoad "colors_0_raw" "color_byte_in_ptr" 0 64;
    ILoad "colors_1_raw" "color_byte_in_ptr" 64 64;
    IOp "colors_0" (OYcc Avx512bw Rec V1 V2 V3) ["colors_0_raw"];
    IOp "colors_1" (OYcc Avx512bw Rec V1 V2 V3) ["colors_1_raw"];
    IAdd "color_byte_in_ptr" 128;
    ILoad "indices_0" "index_byte_in_ptr" 0 64;
    ILoad "indices_1" "index_byte_in_ptr" 64 64;
    IAdd "index_byte_in_ptr" 128;
    ILoad "alpha_bit_0" "alpha_bit_in_ptr" 0 64;
    ILoad "alpha_bit_1" "alpha_bit_in_ptr" 48 64;
    ILoad "alpha_bit_2" "alpha_bit_in_ptr" 96 64;
    ILoad "alpha_bit_3" "alpha_bit_in_ptr" 144 64;
    IAdd "alpha_bit_in_ptr" 192;
    IOp "blocks_0" (OPermT2 1 64) ["alpha_bytes_0"; "blocks_0_perm_alphabits"; "alpha_bit_0"];
    IOp "blocks_0" (OPermT2 1 64) ["blocks_0"; "blocks_0_perm_colours"; "colors_0"];
    IOp "blocks_0" (OPermT2 1 64) ["blocks_0"; "blocks_0_perm_indices"; "indices_0"];
    IOp "blocks_1" (OPermT2 1 64) ["alpha_bytes_0"; "blocks_1_perm_alphabits"; "alpha_bit_0"];
    IOp "blocks_1" (OPermT2 1 64) ["blocks_1"; "blocks_1_perm_colours"; "colors_0"];
    IOp "blocks_1" (OPermT2 1 64) ["blocks_1"; "blocks_1_perm_indices"; "indices_0"];
    IOp "blocks_2" (OPermT2 1 64) ["alpha_bytes_0"; "blocks_2_perm_alphabits"; "alpha_bit_1"];
    IOp "blocks_2" (OPermT2 1 64) ["blocks_2"; "blocks_2_perm_colours"; "colors_0"];
    IOp "blocks_2" (OPermT2 1 64) ["blocks_2"; "blocks_2_perm_indices"; "indices_0"];
    IOp "blocks_3" (OPermT2 1 64) ["alpha_bytes_0"; "blocks_3_perm_alphabits"; "alpha_bit_1"];
    IOp "blocks_3" (OPermT2 1 64) ["blocks_3"; "blocks_3_perm_colours"; "colors_0"];
    IOp "blocks_3" (OPermT2 1 64) ["blocks_3"; "blocks_3_perm_indices"; "indices_0"];
    IOp "blocks_4" (OPermT2 1 64) ["alpha_bytes_0"; "blocks_4_perm_alphabits"; "alpha_bit_2"];
    IOp "blocks_4" (OPermT2 1 64) ["blocks_4"; "blocks_0_perm_colours"; "colors_1"];
    IOp "blocks_4" (OPermT2 1 64) ["blocks_4"; "blocks_0_perm_indices"; "indices_1"];
    IOp "blocks_5" (OPermT2 1 64) ["alpha_bytes_0"; "blocks_5_perm_alphabits"; "alpha_bit_2"];
    IOp "blocks_5" (OPermT2 1 64) ["blocks_5"; "blocks_1_perm_colours"; "colors_1"];
    IOp "blocks_5" (OPermT2 1 64) ["blocks_5"; "blocks_1_perm_indices"; "indices_1"];
    IOp "blocks_6" (OPermT2 1 64) ["alpha_bytes_0"; "blocks_6_perm_alphabits"; "alpha_bit_3"];
    IOp "blocks_6" (OPermT2 1 64) ["blocks_6"; "blocks_2_perm_colours"; "colors_1"];
    IOp "blocks_6" (OPermT2 1 64) ["blocks_6"; "blocks_2_perm_indices"; "indices_1"];
    IOp "blocks_7" (OPermT2 1 64) ["alpha_bytes_0"; "blocks_7_perm_alphabits"; "alpha_bit_3"];
    IOp "blocks_7" (OPermT2 1 64) ["blocks_7"; "blocks_3_perm_colours"; "colors_1"];
    IOp "blocks_7" (OPermT2 1 64) ["blocks_7"; "blocks_3_perm_indices"; "indices_1"];
    IStore "current_output_ptr" 0 64 "blocks_0";
    IStore "current_output_ptr" 64 64 "blocks_1";
    IStore "current_output_ptr" 128 64 "blocks_2";
    IStore "current_output_ptr" 192 64 "blocks_3";
    IStore "current_output_ptr" 256 64 "blocks_4";
    IStore "current_output_ptr" 320 64 "blocks_5";
    IStore "current_output_ptr" 384 64 "blocks_6";
    IStore "current_output_ptr" 448 64 "blocks_7";
    IAdd "current_output_ptr" 512].

(** src/core/dxt-lossless-transform-bc3/src/transform/with_recorrelate/untransform/avx512vbmi_64.rs:20-408, fn untransform_recorr_64 *)
Definition bc3_rec_u_avx512vbmi_64_untransform_recorr_64 (c : cfg) (VARIANT : Z) (alpha_endpoints_in : ptr) (alpha_indices_in : ptr) (colors_in : ptr) (color_indices_in : ptr) (output_ptr : ptr) (num_blocks : Z) (m : mem) : res mem :=
  do _ <- cpu_has (c_avx512f c && c_avx512bw c && c_avx512vbmi c) "avx512f avx512bw avx512vbmi" ;;
  let aligned_blocks := (num_blocks / 32) * 32 in
  do alpha_endpoints_end <- ptr_add m alpha_endpoints_in (aligned_blocks * 2) ;;
  let alpha_byte_in_ptr := alpha_endpoints_in in
  let alpha_bit_in_ptr := alpha_indices_in in
  let color_byte_in_ptr := colors_in in
  let index_byte_in_ptr := color_indices_in in
  let current_output_ptr := output_ptr in
  do s <- while_lt (c_junk c) VARIANT bc3_rec_u_avx512vbmi_64_untransform_recorr_64_loop1 "alpha_byte_in_ptr" alpha_endpoints_end (St [("blocks_0_perm_alphabits", bc3_rec_u_avx512vbmi_64_untransform_recorr_64_loop1_blocks_0_perm_alphabits); ("blocks_0_perm_colours", bc3_rec_u_avx512vbmi_64_untransform_recorr_64_loop1_blocks_0_perm_colours); ("blocks_0_perm_indices", bc3_rec_u_avx512vbmi_64_untransform_recorr_64_loop1_blocks_0_perm_indices); ("blocks_1_perm_alphabits", bc3_rec_u_avx512vbmi_64_untransform_recorr_64_loop1_blocks_1_perm_alphabits); ("blocks_1_perm_colours", bc3_rec_u_avx512vbmi_64_untransform_recorr_64_loop1_blocks_1_perm_colours); ("blocks_1_perm_indices", bc3_rec_u_avx512vbmi_64_untransform_recorr_64_loop1_blocks_1_perm_indices); ("blocks_2_perm_alphabits", bc3_rec_u_avx512vbmi_64_untransform_recorr_64_loop1_blocks_2_perm_alphabits); ("blocks_2_perm_colours", bc3_rec_u_avx512vbmi_64_untransform_recorr_64_loop1_blocks_2_perm_colours); ("blocks_2_perm_indices", bc3_rec_u_avx512vbmi_64_untransform_recorr_64_loop1_blocks_2_perm_indices); ("blocks_3_perm_alphabits", bc3_rec_u_avx512vbmi_64_untransform_recorr_64_loop1_blocks_3_perm_alphabits); ("blocks_3_perm_colours", bc3_rec_u_avx512vbmi_64_untransform_recorr_64_loop1_blocks_3_perm_colours); ("blocks_3_perm_indices", bc3_rec_u_avx512vbmi_64_untransform_recorr_64_loop1_blocks_3_perm_indices); ("blocks_4_perm_alphabits", bc3_rec_u_avx512vbmi_64_untransform_recorr_64_loop1_blocks_4_perm_alphabits); ("blocks_5_perm_alphabits", bc3_rec_u_avx512vbmi_64_untransform_recorr_64_loop1_blocks_5_perm_alphabits); ("blocks_6_perm_alphabits", bc3_rec_u_avx512vbmi_64_untransform_recorr_64_loop1_blocks_6_perm_alphabits); ("blocks_7_perm_alphabits", bc3_rec_u_avx512vbmi_64_untransform_recorr_64_loop1_blocks_7_perm_alphabits)] [("alpha_byte_in_ptr", alpha_byte_in_ptr); ("color_byte_in_ptr", color_byte_in_ptr); ("index_byte_in_ptr", index_byte_in_ptr); ("alpha_bit_in_ptr", alpha_bit_in_ptr); ("current_output_ptr", current_output_ptr)] m) ;;
  let m := mm s in
  do alpha_byte_in_ptr <- getp s "alpha_byte_in_ptr" ;;
  do color_byte_in_ptr <- getp s "color_byte_in_ptr" ;;
  do index_byte_in_ptr <- getp s "index_byte_in_ptr" ;;
  do alpha_bit_in_ptr <- getp s "alpha_bit_in_ptr" ;;
  do current_output_ptr <- getp s "current_output_ptr" ;;
  let alpha_endpoints_in := alpha_byte_in_ptr in
  let alpha_indices_in := alpha_bit_in_ptr in
  let colors_in := color_byte_in_ptr in
  let color_indices_in := index_byte_in_ptr in
  do remaining_blocks <- usub num_blocks aligned_blocks ;;
  if (0 <? remaining_blocks) then
    do v3 <- (if VARIANT =? 1 then Ok V1 else if VARIANT =? 2 then Ok V2 else if VARIANT =? 3 then Ok V3 else Ub "unreachable_unchecked") ;;
    do m <- bc3_rec_u_generic_untransform_with_recorrelate_generic c alpha_endpoints_in alpha_indices_in colors_in color_indices_in current_output_ptr remaining_blocks v3 m ;;
    Ok m
  else
    Ok m.

(** Constants of the loop at src/core/dxt-lossless-transform-bc3/src/transform/with_recorrelate/untransform/avx512vbmi_32.rs:98 *)
Definition bc3_rec_u_avx512vbmi_32_untransform_recorr_32_loop1_blocks_0_perm_alphabits : list byte := [x00; x01; x40; x41; x42; x43; x44; x45; x00; x00; x00; x00; x00; x00; x00; x00; x02; x03; x46; x47; x48; x49; x4a; x4b; x00; x00; x00; x00; x00; x00; x00; x00; x04; x05; x4c; x4d; x4e; x4f; x50; x51; x00; x00; x00; x00; x00; x00; x00; x00; x06; x07; x52; x53; x54; x55; x56; x57; x00; x00; x00; x00; x00; x00; x00; x00].
Definition bc3_rec_u_avx512vbmi_32_untransform_recorr_32_loop1_blocks_0_perm_colours : list byte := [x00; x01; x02; x03; x04; x05; x06; x07; x40; x41; x42; x43; x00; x00; x00; x00; x10; x11; x12; x13; x14; x15; x16; x17; x44; x45; x46; x47; x00; x00; x00; x00; x20; x21; x22; x23; x24; x25; x26; x27; x48; x49; x4a; x4b; x00; x00; x00; x00; x30; x31; x32; x33; x34; x35; x36; x37; x4c; x4d; x4e; x4f; x00; x00; x00; x00].
Definition bc3_rec_u_avx512vbmi_32_untransform_recorr_32_loop1_blocks_0_perm_indices : list byte := [x00; x01; x02; x03; x04; x05; x06; x07; x08; x09; x0a; x0b; x40; x41; x42; x43; x10; x11; x12; x13; x14; x15; x16; x17; x18; x19; x1a; x1b; x44; x45; x46; x47; x20; x21; x22; x23; x24; x25; x26; x27; x28; x29; x2a; x2b; x48; x49; x4a; x4b; x30; x31; x32; x33; x34; x35; x36; x37; x38; x39; x3a; x3b; x4c; x4d; x4e; x4f].

(** Loop at src/core/dxt-lossless-transform-bc3/src/transform/with_recorrelate/untransform/avx512vbmi_32.rs:98. *)
Definition bc3_rec_u_avx512vbmi_32_untransform_recorr_32_loop1 : list instr :=
  [ILoad "t1" "alpha_byte_in_ptr" 0 16;
    IOp "alpha_bytes_0" (OCastUp 64) ["t1"];
    IAdd "alpha_byte_in_ptr" 8;
    ILoad "t2" "color_byte_in_ptr" 0 16;
    IOp "colors_0_raw" (OCastUp 64) ["t2"];
    IOp "colors_0" (OYcc Avx512bw Rec V1 V2 V3) ["colors_0_raw"];
    IAdd "color_byte_in_ptr" 16;
    ILoad "t3" "index_byte_in_ptr" 0 16;
    IOp "indices_0" (OCastUp 64) ["t3"];
    IAdd "index_byte_in_ptr" 16;
    ILoad "t4" "alpha_bit_in_ptr" 0 32;
    IOp "alpha_bit_0" (OCastUp 64) ["t4"];
    IAdd "alpha_bit_in_ptr" 24;
    IOp "blocks_0" (OPermT2 1 64) ["alpha_bytes_0"; "blocks_0_perm_alphabits"; "alpha_bit_0"];
    IOp "blocks_0" (OPermT2 1 64) ["blocks_0"; "blocks_0_perm_colours"; "colors_0"];
    IOp "blocks_0" (OPermT2 1 64) ["blocks_0"; "blocks_0_perm_indices"; "indices_0"];
    IStore "current_output_ptr" 0 64 "blocks_0";
    IAdd "current_output_ptr" 64].

(** src/core/dxt-lossless-transform-bc3/src/transform/with_recorrelate/untransform/avx512vbmi_32.rs:20-158, fn untransform_recorr_32 *)
Definition bc3_rec_u_avx512vbmi_32_untransform_recorr_32 (c : cfg) (VARIANT : Z) (alpha_endpoints_in : ptr) (alpha_indices_in : ptr) (colors_in : ptr) (color_indices_in : ptr) (output_ptr : ptr) (num_blocks : Z) (m : mem) : res mem :=
  do _ <- cpu_has (c_sse2 c && c_avx2 c && c_avx512f c && c_avx512bw c && c_avx512vbmi c) "sse2 avx2 avx512f avx512bw avx512vbmi" ;;
  let aligned_blocks := (num_blocks / 4) * 4 in
  do alpha_endpoints_end <- ptr_add m alpha_endpoints_in (aligned_blocks * 2) ;;
  let alpha_byte_in_ptr := alpha_endpoints_in in
  let alpha_bit_in_ptr := alpha_indices_in in
  let color_byte_in_ptr := colors_in in
  let index_byte_in_ptr := color_indices_in in
  let current_output_ptr := output_ptr in
  do s <- while_lt (c_junk c) VARIANT bc3_rec_u_avx512vbmi_32_untransform_recorr_32_loop1 "alpha_byte_in_ptr" alpha_endpoints_end (St [("blocks_0_perm_alphabits", bc3_rec_u_avx512vbmi_32_untransform_recorr_32_loop1_blocks_0_perm_alphabits); ("blocks_0_perm_colours", bc3_rec_u_avx512vbmi_32_untransform_recorr_32_loop1_blocks_0_perm_colours); ("blocks_0_perm_indices", bc3_rec_u_avx512vbmi_32_untransform_recorr_32_loop1_blocks_0_perm_indices)] [("alpha_byte_in_ptr", alpha_byte_in_ptr); ("color_byte_in_ptr", color_byte_in_ptr); ("index_byte_in_ptr", index_byte_in_ptr); ("alpha_bit_in_ptr", alpha_bit_in_ptr); ("current_output_ptr", current_output_ptr)] m) ;;
  let m := mm s in
  do alpha_byte_in_ptr <- getp s "alpha_byte_in_ptr" ;;
  do color_byte_in_ptr <- getp s "color_byte_in_ptr" ;;
  do index_byte_in_ptr <- getp s "index_byte_in_ptr" ;;
  do alpha_bit_in_ptr <- getp s "alpha_bit_in_ptr" ;;
  do current_output_ptr <- getp s "current_output_ptr" ;;
  let alpha_endpoints_in := alpha_byte_in_ptr in
  let alpha_indices_in := alpha_bit_in_ptr in
  let colors_in := color_byte_in_ptr in
  let color_indices_in := index_byte_in_ptr in
  do remaining_blocks <- usub num_blocks aligned_blocks ;;
  if (0 <? remaining_blocks) then
    do v3 <- (if VARIANT =? 1 then Ok V1 else if VARIANT =? 2 then Ok V2 else if VARIANT =? 3 then Ok V3 else Ub "unreachable_unchecked") ;;
    do m <- bc3_rec_u_generic_untransform_with_recorrelate_generic c alpha_endpoints_in alpha_indices_in colors_in color_indices_in current_output_ptr remaining_blocks v3 m ;;
    Ok m
  else
    Ok m.

(** src/core/dxt-lossless-transform-bc3/src/transform/with_recorrelate/untransform/avx512vbmi.rs:63-93, fn untransform_recorr_var1 *)
Definition bc3_rec_u_avx512vbmi_untransform_recorr_var1 (c : cfg) (alpha_endpoints_in : ptr) (alpha_indices_in : ptr) (colors_in : ptr) (color_indices_in : ptr) (output_ptr : ptr) (num_blocks : Z) (m : mem) : res mem :=
  if is_x64 c then
    do m <- bc3_rec_u_avx512vbmi_64_untransform_recorr_64 c 1 alpha_endpoints_in alpha_indices_in colors_in color_indices_in output_ptr num_blocks m ;;
    if is_i686 c then
      do m <- bc3_rec_u_avx512vbmi_32_untransform_recorr_32 c 1 alpha_endpoints_in alpha_indices_in colors_in color_indices_in output_ptr num_blocks m ;;
      Ok m
    else
      Ok m
  else
    if is_i686 c then
      do m <- bc3_rec_u_avx512vbmi_32_untransform_recorr_32 c 1 alpha_endpoints_in alpha_indices_in colors_in color_indices_in output_ptr num_blocks m ;;
      Ok m
    else
      Ok m.

(** src/core/dxt-lossless-transform-bc3/src/transform/with_recorrelate/untransform/avx512vbmi.rs:95-125, fn untransform_recorr_var2 *)
Definition bc3_rec_u_avx512vbmi_untransform_recorr_var2 (c : cfg) (alpha_endpoints_in : ptr) (alpha_indices_in : ptr) (colors_in : ptr) (color_indices_in : ptr) (output_ptr : ptr) (num_blocks : Z) (m : mem) : res mem :=
  if is_x64 c then
    do m <- bc3_rec_u_avx512vbmi_64_untransform_recorr_64 c 2 alpha_endpoints_in alpha_indices_in colors_in color_indices_in output_ptr num_blocks m ;;
    if is_i686 c then
      do m <- bc3_rec_u_avx512vbmi_32_untransform_recorr_32 c 2 alpha_endpoints_in alpha_indices_in colors_in color_indices_in output_ptr num_blocks m ;;
      Ok m
    else
      Ok m
  else
    if is_i686 c then
      do m <- bc3_rec_u_avx512vbmi_32_untransform_recorr_32 c 2 alpha_endpoints_in alpha_indices_in colors_in color_indices_in output_ptr num_blocks m ;;
      Ok m
    else
      Ok m.

(** src/core/dxt-lossless-transform-bc3/src/transform/with_recorrelate/untransform/avx512vbmi.rs:127-157, fn untransform_recorr_var3 *)
Definition bc3_rec_u_avx512vbmi_untransform_recorr_var3 (c : cfg) (alpha_endpoints_in : ptr) (alpha_indices_in : ptr) (colors_in : ptr) (color_indices_in : ptr) (output_ptr : ptr) (num_blocks : Z) (m : mem) : res mem :=
  if is_x64 c then
    do m <- bc3_rec_u_avx512vbmi_64_untransform_recorr_64 c 3 alpha_endpoints_in alpha_indices_in colors_in color_indices_in output_ptr num_blocks m ;;
    if is_i686 c then
      do m <- bc3_rec_u_avx512vbmi_32_untransform_recorr_32 c 3 alpha_endpoints_in alpha_indices_in colors_in color_indices_in output_ptr num_blocks m ;;
      Ok m
    else
      Ok m
  else
    if is_i686 c then
      do m <- bc3_rec_u_avx512vbmi_32_untransform_recorr_32 c 3 alpha_endpoints_in alpha_indices_in colors_in color_indices_in output_ptr num_blocks m ;;
      Ok m
    else
      Ok m.

(** src/core/dxt-lossless-transform-bc3/src/transform/with_recorrelate/untransform/avx512vbmi.rs:18-60, fn untransform_with_recorrelate *)
Definition bc3_rec_u_avx512vbmi_untransform_with_recorrelate (c : cfg) (alpha_endpoints_in : ptr) (alpha_indices_in : ptr) (colors_in : ptr) (color_indices_in : ptr) (output_ptr : ptr) (num_blocks : Z) (recorrelation_mode : variant) (m : mem) : res mem :=
  match recorrelation_mode with
  | V1 =>
    do m <- bc3_rec_u_avx512vbmi_untransform_recorr_var1 c alpha_endpoints_in alpha_indices_in colors_in color_indices_in output_ptr num_blocks m ;;
    Ok m
  | V2 =>
    do m <- bc3_rec_u_avx512vbmi_untransform_recorr_var2 c alpha_endpoints_in alpha_indices_in colors_in color_indices_in output_ptr num_blocks m ;;
    Ok m
  | V3 =>
    do m <- bc3_rec_u_avx512vbmi_untransform_recorr_var3 c alpha_endpoints_in alpha_indices_in colors_in color_indices_in output_ptr num_blocks m ;;
    Ok m
  | VNone =>
    do m <- Ub "unreachable_unchecked" ;;
    Ok m
  end.

(** Loop at src/core/dxt-lossless-transform-bc3/src/transform/with_recorrelate/untransform/sse2.rs:148. *)
Definition bc3_rec_u_sse2_untransform_recorr_loop1 : list instr :=
  [ILoad "alpha_endpoints" "alpha_endpoints_ptr" 0 8;
    IAdd "alpha_endpoints_ptr" 8;
    IOp "t2" (OBytes 0 2) ["alpha_endpoints"];
    IStore "output_ptr" 0 2 "t2";
    IOp "t5" (OShr 2) ["alpha_endpoints"];
    IOp "t6" (OBytes 0 2) ["t5"];
    IStore "output_ptr" 16 2 "t6";
    IOp "t9" (OShr 4) ["alpha_endpoints"];
    IOp "t10" (OBytes 0 2) ["t9"];
    IStore "output_ptr" 32 2 "t10";
    IOp "t13" (OShr 6) ["alpha_endpoints"];
    IOp "t14" (OBytes 0 2) ["t13"];
    IStore "output_ptr" 48 2 "t14";
    ILoad "alpha_indices_0" "alpha_indices_ptr" 0 8;
    IOp "t17" (OBytes 0 2) ["alpha_indices_0"];
    IStore "output_ptr" 2 2 "t17";
    IOp "t20" (OShr 2) ["alpha_indices_0"];
    IOp "t21" (OBytes 0 4) ["t20"];
    IStore "output_ptr" 4 4 "t21";
    IOp "t24" (OShr 6) ["alpha_indices_0"];
    IOp "t25" (OBytes 0 2) ["t24"];
    IStore "output_ptr" 18 2 "t25";
    ILoad "alpha_indices_1" "alpha_indices_ptr" 8 8;
    IOp "t28" (OBytes 0 4) ["alpha_indices_1"];
    IStore "output_ptr" 20 4 "t28";
    IOp "t31" (OShr 4) ["alpha_indices_1"];
    IOp "t32" (OBytes 0 4) ["t31"];
    IStore "output_ptr" 34 4 "t32";
    ILoad "alpha_indices_2" "alpha_indices_ptr" 16 8;
    IOp "t35" (OBytes 0 2) ["alpha_indices_2"];
    IStore "output_ptr" 38 2 "t35";
    IOp "t37" (OShr 2) ["alpha_indices_2"];
    IStore "output_ptr" 50 8 "t37";
    IAdd "alpha_indices_ptr" 24;
    ILoad "colors" "colors_in" 0 16;
    IAdd "colors_in" 16;
    IOp "recorrelated_colors" (OYcc Sse2 Rec V1 V2 V3) ["colors"];
    ILoad "indices" "color_indices_in" 0 16;
    IAdd "color_indices_in" 16;
    IOp "low" (OUnpackLo 4 1) ["recorrelated_colors"; "indices"];
    IOp "high" (OUnpackHi 4 1) ["recorrelated_colors"; "indices"];
    IOp "t39" (OBytes 0 8) ["low"];
    IStore "output_ptr" 8 8 "t39";
    IOp "t40" (OBytes 8 8) ["low"];
    IStore "output_ptr" 24 8 "t40";
    IOp "t41" (OBytes 0 8) ["high"];
    IStore "output_ptr" 40 8 "t41";
    IOp "t42" (OBytes 8 8) ["high"];
    IStore "output_ptr" 56 8 "t42";
    IAdd "output_ptr" 64].

(** src/core/dxt-lossless-transform-bc3/src/transform/with_recorrelate/untransform/sse2.rs:131-226, fn untransform_recorr *)
Definition bc3_rec_u_sse2_untransform_recorr (c : cfg) (VARIANT : Z) (alpha_endpoints_in : ptr) (alpha_indices_in : ptr) (colors_in : ptr) (color_indices_in : ptr) (output_ptr : ptr) (num_blocks : Z) (m : mem) : res mem :=
  do _ <- cpu_has (c_sse2 c) "sse2" ;;
  let vectorized_blocks := Z.ldiff num_blocks 3 in
  do colors_end <- ptr_add m colors_in (vectorized_blocks * 4) ;;
  let alpha_endpoints_ptr := alpha_endpoints_in in
  let alpha_indices_ptr := alpha_indices_in in
  do s <- while_lt (c_junk c) VARIANT bc3_rec_u_sse2_untransform_recorr_loop1 "colors_in" colors_end (St [] [("alpha_endpoints_ptr", alpha_endpoints_ptr); ("output_ptr", output_ptr); ("alpha_indices_ptr", alpha_indices_ptr); ("colors_in", colors_in); ("color_indices_in", color_indices_in)] m) ;;
  let m := mm s in
  do alpha_endpoints_ptr <- getp s "alpha_endpoints_ptr" ;;
  do output_ptr <- getp s "output_ptr" ;;
  do alpha_indices_ptr <- getp s "alpha_indices_ptr" ;;
  do colors_in <- getp s "colors_in" ;;
  do color_indices_in <- getp s "color_indices_in" ;;
  let alpha_endpoints_in := alpha_endpoints_ptr in
  let alpha_indices_in := alpha_indices_ptr in
  do remaining_blocks <- usub num_blocks vectorized_blocks ;;
  if (0 <? remaining_blocks) then
    do v3 <- (if VARIANT =? 1 then Ok V1 else if VARIANT =? 2 then Ok V2 else if VARIANT =? 3 then Ok V3 else Ub "unreachable_unchecked") ;;
    do m <- bc3_rec_u_generic_untransform_with_recorrelate_generic c alpha_endpoints_in alpha_indices_in colors_in color_indices_in output_ptr remaining_blocks v3 m ;;
    Ok m
  else
    Ok m.

(** src/core/dxt-lossless-transform-bc3/src/transform/with_recorrelate/untransform/sse2.rs:68-84, fn untransform_recorr_var1 *)
Definition bc3_rec_u_sse2_untransform_recorr_var1 (c : cfg) (alpha_endpoints_in : ptr) (alpha_indices_in : ptr) (colors_in : ptr) (color_indices_in : ptr) (output_ptr : ptr) (num_blocks : Z) (m : mem) : res mem :=
  do m <- bc3_rec_u_sse2_untransform_recorr c 1 alpha_endpoints_in alpha_indices_in colors_in color_indices_in output_ptr num_blocks m ;;
  Ok m.

(** src/core/dxt-lossless-transform-bc3/src/transform/with_recorrelate/untransform/sse2.rs:86-102, fn untransform_recorr_var2 *)
Definition bc3_rec_u_sse2_untransform_recorr_var2 (c : cfg) (alpha_endpoints_in : ptr) (alpha_indices_in : ptr) (colors_in : ptr) (color_indices_in : ptr) (output_ptr : ptr) (num_blocks : Z) (m : mem) : res mem :=
  do m <- bc3_rec_u_sse2_untransform_recorr c 2 alpha_endpoints_in alpha_indices_in colors_in color_indices_in output_ptr num_blocks m ;;
  Ok m.

(** src/core/dxt-lossless-transform-bc3/src/transform/with_recorrelate/untransform/sse2.rs:104-120, fn untransform_recorr_var3 *)
Definition bc3_rec_u_sse2_untransform_recorr_var3 (c : cfg) (alpha_endpoints_in : ptr) (alpha_indices_in : ptr) (colors_in : ptr) (color_indices_in : ptr) (output_ptr : ptr) (num_blocks : Z) (m : mem) : res mem :=
  do m <- bc3_rec_u_sse2_untransform_recorr c 3 alpha_endpoints_in alpha_indices_in colors_in color_indices_in output_ptr num_blocks m ;;
  Ok m.

(** src/core/dxt-lossless-transform-bc3/src/transform/with_recorrelate/untransform/sse2.rs:23-65, fn untransform_with_recorrelate *)
Definition bc3_rec_u_sse2_untransform_with_recorrelate (c : cfg) (alpha_endpoints_in : ptr) (alpha_indices_in : ptr) (colors_in : ptr) (color_indices_in : ptr) (output_ptr : ptr) (num_blocks : Z) (recorrelation_mode : variant) (m : mem) : res mem :=
  match recorrelation_mode with
  | V1 =>
    do m <- bc3_rec_u_sse2_untransform_recorr_var1 c alpha_endpoints_in alpha_indices_in colors_in color_indices_in output_ptr num_blocks m ;;
    Ok m
  | V2 =>
    do m <- bc3_rec_u_sse2_untransform_recorr_var2 c alpha_endpoints_in alpha_indices_in colors_in color_indices_in output_ptr num_blocks m ;;
    Ok m
  | V3 =>
    do m <- bc3_rec_u_sse2_untransform_recorr_var3 c alpha_endpoints_in alpha_indices_in colors_in color_indices_in output_ptr num_blocks m ;;
    Ok m
  | VNone =>
    do m <- Ub "unreachable_unchecked" ;;
    Ok m
  end.

(** src/core/dxt-lossless-transform-bc3/src/transform/with_recorrelate/untransform/mod.rs:69-149, fn untransform_with_recorrelate_x86 *)
Definition bc3_rec_u_untransform_with_recorrelate_x86 (c : cfg) (alpha_endpoints_ptr : ptr) (alpha_indices_ptr : ptr) (colors_ptr : ptr) (color_indices_ptr : ptr) (output_ptr : ptr) (num_blocks : Z) (recorrelation_mode : variant) (m : mem) : res mem :=
  if negb (c_static c) then
    if has_avx512vbmi c then
      do m <- bc3_rec_u_avx512vbmi_untransform_with_recorrelate c alpha_endpoints_ptr alpha_indices_ptr colors_ptr color_indices_ptr output_ptr num_blocks recorrelation_mode m ;;
      Ok m
    else
      if has_sse2 c then
        do m <- bc3_rec_u_sse2_untransform_with_recorrelate c alpha_endpoints_ptr alpha_indices_ptr colors_ptr color_indices_ptr output_ptr num_blocks recorrelation_mode m ;;
        Ok m
      else
        do m <- bc3_rec_u_generic_untransform_with_recorrelate_generic c alpha_endpoints_ptr alpha_indices_ptr colors_ptr color_indices_ptr output_ptr num_blocks recorrelation_mode m ;;
        Ok m
  else
    if c_avx512vbmi c then
      do m <- bc3_rec_u_avx512vbmi_untransform_with_recorrelate c alpha_endpoints_ptr alpha_indices_ptr colors_ptr color_indices_ptr output_ptr num_blocks recorrelation_mode m ;;
      Ok m
    else
      if c_sse2 c then
        do m <- bc3_rec_u_sse2_untransform_with_recorrelate c alpha_endpoints_ptr alpha_indices_ptr colors_ptr color_indices_ptr output_ptr num_blocks recorrelation_mode m ;;
        Ok m
      else
        do m <- bc3_rec_u_generic_untransform_with_recorrelate_generic c alpha_endpoints_ptr alpha_indices_ptr colors_ptr color_indices_ptr output_ptr num_blocks recorrelation_mode m ;;
        Ok m.

(** src/core/dxt-lossless-transform-bc3/src/transform/with_recorrelate/untransform/mod.rs:26-66, fn untransform_with_recorrelate *)
Definition bc3_rec_u_untransform_with_recorrelate (c : cfg) (input_ptr : ptr) (output_ptr : ptr) (len : Z) (recorrelation_mode : variant) (m : mem) : res mem :=
  do _ <- debug_assert (c_debug c) (len mod 16 =? 0) "len . is_multiple_of ( 16 )" ;;
  let alpha_endpoints_ptr := input_ptr in
  do alpha_indices_ptr <- ptr_add m input_ptr (len / 8) ;;
  do colors_ptr <- ptr_add m input_ptr (len / 2) ;;
  do color_indices_ptr <- ptr_add m input_ptr ((len / 2) + (len / 4)) ;;
  let num_blocks := len / 16 in
  if is_x86 c then
    do m <- bc3_rec_u_untransform_with_recorrelate_x86 c alpha_endpoints_ptr alpha_indices_ptr colors_ptr color_indices_ptr output_ptr num_blocks recorrelation_mode m ;;
    Ok m
  else
    do m <- bc3_rec_u_generic_untransform_with_recorrelate_generic c alpha_endpoints_ptr alpha_indices_ptr colors_ptr color_indices_ptr output_ptr num_blocks recorrelation_mode m ;;
    Ok m.

