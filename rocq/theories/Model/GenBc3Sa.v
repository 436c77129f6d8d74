(** Generated by tools/rs2v.py from the kernel sources cited below; do not edit.
    Simplifications: usize arithmetic is exact (lengths are below isize::MAX), see
    Model/Kernel.v for the machine. *)
From Verif Require Import Base.Bytes Base.Res Model.Color565 Model.Ycc Model.Kernel.
Open Scope string_scope.
Open Scope list_scope.
Open Scope Z_scope.

(** Loop at src/core/dxt-lossless-transform-bc3/src/transform/with_split_alphas/transform/generic.rs:26. *)
Definition bc3_sa_t_generic_transform_with_split_alphas_loop1 : list instr :=
  [ILoad "alpha0" "input_ptr" 0 1;
    ILoad "alpha1" "input_ptr" 1 1;
    ILoad "alpha_indices_part1" "input_ptr" 2 2;
    ILoad "alpha_indices_part2" "input_ptr" 4 4;
    ILoad "colors" "input_ptr" 8 4;
    ILoad "color_indices" "input_ptr" 12 4;
    IStore "alpha0_out" 0 1 "alpha0";
    IStore "alpha1_out" 0 1 "alpha1";
    IStore "alpha_indices_out" 0 2 "alpha_indices_part1";
    IStore "alpha_indices_out" 2 4 "alpha_indices_part2";
    IStore "colors_out" 0 4 "colors";
    IStore "color_indices_out" 0 4 "color_indices";
    IAdd "input_ptr" 16;
    IAdd "alpha0_out" 1;
    IAdd "alpha1_out" 1;
    IAdd "alpha_indices_out" 6;
    IAdd "colors_out" 4;
    IAdd "color_indices_out" 4].

(** src/core/dxt-lossless-transform-bc3/src/transform/with_split_alphas/transform/generic.rs:15-60, fn transform_with_split_alphas *)
Definition bc3_sa_t_generic_transform_with_split_alphas (c : cfg) (input_ptr : ptr) (alpha0_out : ptr) (alpha1_out : ptr) (alpha_indices_out : ptr) (colors_out : ptr) (color_indices_out : ptr) (block_count : Z) (m : mem) : res mem :=
  do input_end <- ptr_add m input_ptr (block_count * 16) ;;
  do s <- while_lt (c_junk c) 0 bc3_sa_t_generic_transform_with_split_alphas_loop1 "input_ptr" input_end (St [] [("input_ptr", input_ptr); ("alpha0_out", alpha0_out); ("alpha1_out", alpha1_out); ("alpha_indices_out", alpha_indices_out); ("colors_out", colors_out); ("color_indices_out", color_indices_out)] m) ;;
  let m := mm s in
  do input_ptr <- getp s "input_ptr" ;;
  do alpha0_out <- getp s "alpha0_out" ;;
  do alpha1_out <- getp s "alpha1_out" ;;
  do alpha_indices_out <- getp s "alpha_indices_out" ;;
  do colors_out <- getp s "colors_out" ;;
  do color_indices_out <- getp s "color_indices_out" ;;
  Ok m.

(** Constants of the loop at src/core/dxt-lossless-transform-bc3/src/transform/with_split_alphas/transform/avx512vbmi.rs:203 *)
Definition bc3_sa_t_avx512vbmi_transform_with_split_alphas_loop1_alpha_bytes_permute_mask : list byte := [x00; x10; x20; x30; x40; x50; x60; x70; x01; x11; x21; x31; x41; x51; x61; x71; x00; x00; x00; x00; x00; x00; x00; x00; x00; x00; x00; x00; x00; x00; x00; x00; x00; x00; x00; x00; x00; x00; x00; x00; x00; x00; x00; x00; x00; x00; x00; x00; x00; x00; x00; x00; x00; x00; x00; x00; x00; x00; x00; x00; x00; x00; x00; x00].
Definition bc3_sa_t_avx512vbmi_transform_with_split_alphas_loop1_alpha_indices_permute_mask : list byte := [x02; x03; x04; x05; x06; x07; x12; x13; x14; x15; x16; x17; x22; x23; x24; x25; x26; x27; x32; x33; x34; x35; x36; x37; x42; x43; x44; x45; x46; x47; x52; x53; x54; x55; x56; x57; x62; x63; x64; x65; x66; x67; x72; x73; x74; x75; x76; x77; x00; x00; x00; x00; x00; x00; x00; x00; x00; x00; x00; x00; x00; x00; x00; x00].
Definition bc3_sa_t_avx512vbmi_transform_with_split_alphas_loop1_colors_permute_mask : list byte := [x08; x09; x0a; x0b; x18; x19; x1a; x1b; x28; x29; x2a; x2b; x38; x39; x3a; x3b; x48; x49; x4a; x4b; x58; x59; x5a; x5b; x68; x69; x6a; x6b; x78; x79; x7a; x7b; x00; x00; x00; x00; x00; x00; x00; x00; x00; x00; x00; x00; x00; x00; x00; x00; x00; x00; x00; x00; x00; x00; x00; x00; x00; x00; x00; x00; x00; x00; x00; x00].
Definition bc3_sa_t_avx512vbmi_transform_with_split_alphas_loop1_color_indices_permute_mask : list byte := [x0c; x0d; x0e; x0f; x1c; x1d; x1e; x1f; x2c; x2d; x2e; x2f; x3c; x3d; x3e; x3f; x4c; x4d; x4e; x4f; x5c; x5d; x5e; x5f; x6c; x6d; x6e; x6f; x7c; x7d; x7e; x7f; x00; x00; x00; x00; x00; x00; x00; x00; x00; x00; x00; x00; x00; x00; x00; x00; x00; x00; x00; x00; x00; x00; x00; x00; x00; x00; x00; x00; x00; x00; x00; x00].

(** Loop at src/core/dxt-lossless-transform-bc3/src/transform/with_split_alphas/transform/avx512vbmi.rs:203. *)
Definition bc3_sa_t_avx512vbmi_transform_with_split_alphas_loop1 : list instr :=
  [ILoad "block_0" "input_ptr" 0 64;
    ILoad "block_1" "input_ptr" 64 64;
    IAdd "input_ptr" 128;
    IOp "alpha_bytes" (OPermT2 1 64) ["block_0"; "alpha_bytes_permute_mask"; "block_1"];
    IOp "alpha_indices" (OPermT2 1 64) ["block_0"; "alpha_indices_permute_mask"; "block_1"];
    IOp "colors" (OPermT2 1 64) ["block_0"; "colors_permute_mask"; "block_1"];
    IOp "color_indices" (OPermT2 1 64) ["block_0"; "color_indices_permute_mask"; "block_1"];
    IOp "alpha_xmm" (OBytes 0 16) ["alpha_bytes"];
    IOp "t1" (OBytes 0 8) ["alpha_xmm"];
    IStore "alpha0_out" 0 8 "t1";
    IAdd "alpha0_out" 8;
    IOp "t2" (OBytes 8 8) ["alpha_xmm"];
    IStore "alpha1_out" 0 8 "t2";
    IAdd "alpha1_out" 8;
    IStore "alpha_indices_out" 0 64 "alpha_indices";
    IAdd "alpha_indices_out" 48;
    IOp "t3" (OBytes 0 32) ["colors"];
    IStore "colors_out" 0 32 "t3";
    IAdd "colors_out" 32;
    IOp "t4" (OBytes 0 32) ["color_indices"];
    IStore "color_indices_out" 0 32 "t4";
    IAdd "color_indices_out" 32].

(** src/core/dxt-lossless-transform-bc3/src/transform/with_split_alphas/transform/avx512vbmi.rs:23-256, fn transform_with_split_alphas *)
Definition bc3_sa_t_avx512vbmi_transform_with_split_alphas (c : cfg) (input_ptr : ptr) (alpha0_out : ptr) (alpha1_out : ptr) (alpha_indices_out : ptr) (colors_out : ptr) (color_indices_out : ptr) (block_count : Z) (m : mem) : res mem :=
  do _ <- cpu_has (c_sse2 c && c_avx2 c && c_avx512f c && c_avx512vbmi c) "sse2 avx2 avx512f avx512vbmi" ;;
  do _ <- debug_assert (c_debug c) (0 <? block_count) "block_count > 0" ;;
  let len := block_count * 16 in
  do aligned_len <- usub len (len mod 128) ;;
  let aligned_len := Z.max 0 (aligned_len - 128) in
  do d2 <- usub len aligned_len ;;
  let remaining_blocks := d2 / 16 in
  do input_aligned_end_ptr <- ptr_add m input_ptr (aligned_len) ;;
  do s <- while_lt (c_junk c) 0 bc3_sa_t_avx512vbmi_transform_with_split_alphas_loop1 "input_ptr" input_aligned_end_ptr (St [("alpha_bytes_permute_mask", bc3_sa_t_avx512vbmi_transform_with_split_alphas_loop1_alpha_bytes_permute_mask); ("alpha_indices_permute_mask", bc3_sa_t_avx512vbmi_transform_with_split_alphas_loop1_alpha_indices_permute_mask); ("colors_permute_mask", bc3_sa_t_avx512vbmi_transform_with_split_alphas_loop1_colors_permute_mask); ("color_indices_permute_mask", bc3_sa_t_avx512vbmi_transform_with_split_alphas_loop1_color_indices_permute_mask)] [("input_ptr", input_ptr); ("alpha0_out", alpha0_out); ("alpha1_out", alpha1_out); ("alpha_indices_out", alpha_indices_out); ("colors_out", colors_out); ("color_indices_out", color_indices_out)] m) ;;
  let m := mm s in
  do input_ptr <- getp s "input_ptr" ;;
  do alpha0_out <- getp s "alpha0_out" ;;
  do alpha1_out <- getp s "alpha1_out" ;;
  do alpha_indices_out <- getp s "alpha_indices_out" ;;
  do colors_out <- getp s "colors_out" ;;
  do color_indices_out <- getp s "color_indices_out" ;;
  if (0 <? remaining_blocks) then
    do m <- bc3_sa_t_generic_transform_with_split_alphas c input_ptr alpha0_out alpha1_out alpha_indices_out colors_out color_indices_out remaining_blocks m ;;
    Ok m
  else
    Ok m.

(** Loop at src/core/dxt-lossless-transform-bc3/src/transform/with_split_alphas/transform/avx2.rs:54. *)
Definition bc3_sa_t_avx2_transform_with_split_alphas_loop1 (x64 : bool) : list instr :=
  [ILoad "t1" "current_input_ptr" 8 4;
    ILoad "t2" "current_input_ptr" 24 4;
    IOp "t3" (OConcat) ["t1"; "t2"];
    ILoad "t4" "current_input_ptr" 40 4;
    IOp "t5" (OConcat) ["t3"; "t4"];
    ILoad "t6" "current_input_ptr" 56 4;
    IOp "t7" (OConcat) ["t5"; "t6"];
    ILoad "t8" "current_input_ptr" 72 4;
    IOp "t9" (OConcat) ["t7"; "t8"];
    ILoad "t10" "current_input_ptr" 88 4;
    IOp "t11" (OConcat) ["t9"; "t10"];
    ILoad "t12" "current_input_ptr" 104 4;
    IOp "t13" (OConcat) ["t11"; "t12"];
    ILoad "t14" "current_input_ptr" 120 4;
    IOp "colours" (OConcat) ["t13"; "t14"];
    ILoad "t15" "current_input_ptr" 12 4;
    ILoad "t16" "current_input_ptr" 28 4;
    IOp "t17" (OConcat) ["t15"; "t16"];
    ILoad "t18" "current_input_ptr" 44 4;
    IOp "t19" (OConcat) ["t17"; "t18"];
    ILoad "t20" "current_input_ptr" 60 4;
    IOp "t21" (OConcat) ["t19"; "t20"];
    ILoad "t22" "current_input_ptr" 76 4;
    IOp "t23" (OConcat) ["t21"; "t22"];
    ILoad "t24" "current_input_ptr" 92 4;
    IOp "t25" (OConcat) ["t23"; "t24"];
    ILoad "t26" "current_input_ptr" 108 4;
    IOp "t27" (OConcat) ["t25"; "t26"];
    ILoad "t28" "current_input_ptr" 124 4;
    IOp "indices" (OConcat) ["t27"; "t28"];
    ILoad "t30" "current_input_ptr" 0 1;
    IOp "write_alpha_bytes_u6429_b0" (OZext 8) ["t30"];
    ILoad "t31" "current_input_ptr" 16 1;
    IOp "write_alpha_bytes_u6429_b1" (OZext 8) ["t31"];
    ILoad "t32" "current_input_ptr" 32 1;
    IOp "write_alpha_bytes_u6429_b2" (OZext 8) ["t32"];
    ILoad "t33" "current_input_ptr" 48 1;
    IOp "write_alpha_bytes_u6429_b3" (OZext 8) ["t33"];
    ILoad "t34" "current_input_ptr" 64 1;
    IOp "write_alpha_bytes_u6429_b4" (OZext 8) ["t34"];
    ILoad "t35" "current_input_ptr" 80 1;
    IOp "write_alpha_bytes_u6429_b5" (OZext 8) ["t35"];
    ILoad "t36" "current_input_ptr" 96 1;
    IOp "write_alpha_bytes_u6429_b6" (OZext 8) ["t36"];
    ILoad "t37" "current_input_ptr" 112 1;
    IOp "write_alpha_bytes_u6429_b7" (OZext 8) ["t37"];
    IOp "t38" (OShl 1) ["write_alpha_bytes_u6429_b1"];
    IOp "t39" (OOr) ["write_alpha_bytes_u6429_b0"; "t38"];
    IOp "t40" (OShl 2) ["write_alpha_bytes_u6429_b2"];
    IOp "t41" (OOr) ["t39"; "t40"];
    IOp "t42" (OShl 3) ["write_alpha_bytes_u6429_b3"];
    IOp "t43" (OOr) ["t41"; "t42"];
    IOp "t44" (OShl 4) ["write_alpha_bytes_u6429_b4"];
    IOp "t45" (OOr) ["t43"; "t44"];
    IOp "t46" (OShl 5) ["write_alpha_bytes_u6429_b5"];
    IOp "t47" (OOr) ["t45"; "t46"];
    IOp "t48" (OShl 6) ["write_alpha_bytes_u6429_b6"];
    IOp "t49" (OOr) ["t47"; "t48"];
    IOp "t50" (OShl 7) ["write_alpha_bytes_u6429_b7"];
    IOp "write_alpha_bytes_u6429_combined" (OOr) ["t49"; "t50"];
    IStore "current_alpha0_out" 0 8 "write_alpha_bytes_u6429_combined";
    IAdd "current_alpha0_out" 8;
    ILoad "t52" "current_input_ptr" 1 1;
    IOp "write_alpha_bytes_u6451_b0" (OZext 8) ["t52"];
    ILoad "t53" "current_input_ptr" 17 1;
    IOp "write_alpha_bytes_u6451_b1" (OZext 8) ["t53"];
    ILoad "t54" "current_input_ptr" 33 1;
    IOp "write_alpha_bytes_u6451_b2" (OZext 8) ["t54"];
    ILoad "t55" "current_input_ptr" 49 1;
    IOp "write_alpha_bytes_u6451_b3" (OZext 8) ["t55"];
    ILoad "t56" "current_input_ptr" 65 1;
    IOp "write_alpha_bytes_u6451_b4" (OZext 8) ["t56"];
    ILoad "t57" "current_input_ptr" 81 1;
    IOp "write_alpha_bytes_u6451_b5" (OZext 8) ["t57"];
    ILoad "t58" "current_input_ptr" 97 1;
    IOp "write_alpha_bytes_u6451_b6" (OZext 8) ["t58"];
    ILoad "t59" "current_input_ptr" 113 1;
    IOp "write_alpha_bytes_u6451_b7" (OZext 8) ["t59"];
    IOp "t60" (OShl 1) ["write_alpha_bytes_u6451_b1"];
    IOp "t61" (OOr) ["write_alpha_bytes_u6451_b0"; "t60"];
    IOp "t62" (OShl 2) ["write_alpha_bytes_u6451_b2"];
    IOp "t63" (OOr) ["t61"; "t62"];
    IOp "t64" (OShl 3) ["write_alpha_bytes_u6451_b3"];
    IOp "t65" (OOr) ["t63"; "t64"];
    IOp "t66" (OShl 4) ["write_alpha_bytes_u6451_b4"];
    IOp "t67" (OOr) ["t65"; "t66"];
    IOp "t68" (OShl 5) ["write_alpha_bytes_u6451_b5"];
    IOp "t69" (OOr) ["t67"; "t68"];
    IOp "t70" (OShl 6) ["write_alpha_bytes_u6451_b6"];
    IOp "t71" (OOr) ["t69"; "t70"];
    IOp "t72" (OShl 7) ["write_alpha_bytes_u6451_b7"];
    IOp "write_alpha_bytes_u6451_combined" (OOr) ["t71"; "t72"];
    IStore "current_alpha1_out" 0 8 "write_alpha_bytes_u6451_combined";
    IAdd "current_alpha1_out" 8] ++
  (if x64 then
    [ILoad "write_alpha_bits_u6473_first_part" "current_input_ptr" 2 2;
    ILoad "write_alpha_bits_u6473_second_part" "current_input_ptr" 4 4;
    IOp "t74" (OZext 8) ["write_alpha_bits_u6473_second_part"];
    IOp "t75" (OShl 2) ["t74"];
    IOp "t76" (OZext 8) ["write_alpha_bits_u6473_first_part"];
    IOp "write_alpha_bits_u6473_combined_value" (OOr) ["t75"; "t76"];
    IStore "current_alpha_indices_out" 0 8 "write_alpha_bits_u6473_combined_value";
    ILoad "write_alpha_bits_u6477_first_part" "current_input_ptr" 18 2;
    ILoad "write_alpha_bits_u6477_second_part" "current_input_ptr" 20 4;
    IOp "t78" (OZext 8) ["write_alpha_bits_u6477_second_part"];
    IOp "t79" (OShl 2) ["t78"];
    IOp "t80" (OZext 8) ["write_alpha_bits_u6477_first_part"];
    IOp "write_alpha_bits_u6477_combined_value" (OOr) ["t79"; "t80"];
    IStore "current_alpha_indices_out" 6 8 "write_alpha_bits_u6477_combined_value";
    ILoad "write_alpha_bits_u6481_first_part" "current_input_ptr" 34 2;
    ILoad "write_alpha_bits_u6481_second_part" "current_input_ptr" 36 4;
    IOp "t82" (OZext 8) ["write_alpha_bits_u6481_second_part"];
    IOp "t83" (OShl 2) ["t82"];
    IOp "t84" (OZext 8) ["write_alpha_bits_u6481_first_part"];
    IOp "write_alpha_bits_u6481_combined_value" (OOr) ["t83"; "t84"];
    IStore "current_alpha_indices_out" 12 8 "write_alpha_bits_u6481_combined_value";
    ILoad "write_alpha_bits_u6485_first_part" "current_input_ptr" 50 2;
    ILoad "write_alpha_bits_u6485_second_part" "current_input_ptr" 52 4;
    IOp "t86" (OZext 8) ["write_alpha_bits_u6485_second_part"];
    IOp "t87" (OShl 2) ["t86"];
    IOp "t88" (OZext 8) ["write_alpha_bits_u6485_first_part"];
    IOp "write_alpha_bits_u6485_combined_value" (OOr) ["t87"; "t88"];
    IStore "current_alpha_indices_out" 18 8 "write_alpha_bits_u6485_combined_value";
    ILoad "write_alpha_bits_u6489_first_part" "current_input_ptr" 66 2;
    ILoad "write_alpha_bits_u6489_second_part" "current_input_ptr" 68 4;
    IOp "t90" (OZext 8) ["write_alpha_bits_u6489_second_part"];
    IOp "t91" (OShl 2) ["t90"];
    IOp "t92" (OZext 8) ["write_alpha_bits_u6489_first_part"];
    IOp "write_alpha_bits_u6489_combined_value" (OOr) ["t91"; "t92"];
    IStore "current_alpha_indices_out" 24 8 "write_alpha_bits_u6489_combined_value";
    ILoad "write_alpha_bits_u6493_first_part" "current_input_ptr" 82 2;
    ILoad "write_alpha_bits_u6493_second_part" "current_input_ptr" 84 4;
    IOp "t94" (OZext 8) ["write_alpha_bits_u6493_second_part"];
    IOp "t95" (OShl 2) ["t94"];
    IOp "t96" (OZext 8) ["write_alpha_bits_u6493_first_part"];
    IOp "write_alpha_bits_u6493_combined_value" (OOr) ["t95"; "t96"];
    IStore "current_alpha_indices_out" 30 8 "write_alpha_bits_u6493_combined_value";
    ILoad "write_alpha_bits_u6497_first_part" "current_input_ptr" 98 2;
    ILoad "write_alpha_bits_u6497_second_part" "current_input_ptr" 100 4;
    IOp "t98" (OZext 8) ["write_alpha_bits_u6497_second_part"];
    IOp "t99" (OShl 2) ["t98"];
    IOp "t100" (OZext 8) ["write_alpha_bits_u6497_first_part"];
    IOp "write_alpha_bits_u6497_combined_value" (OOr) ["t99"; "t100"];
    IStore "current_alpha_indices_out" 36 8 "write_alpha_bits_u6497_combined_value";
    ILoad "t102" "current_input_ptr" 114 2;
    IStore "current_alpha_indices_out" 42 2 "t102";
    ILoad "t104" "current_input_ptr" 116 4;
    IStore "current_alpha_indices_out" 44 4 "t104"]
  else
    [ILoad "t106" "current_input_ptr" 2 2;
    IStore "current_alpha_indices_out" 0 2 "t106";
    ILoad "t108" "current_input_ptr" 4 4;
    IStore "current_alpha_indices_out" 2 4 "t108";
    ILoad "t110" "current_input_ptr" 18 2;
    IStore "current_alpha_indices_out" 6 2 "t110";
    ILoad "t112" "current_input_ptr" 20 4;
    IStore "current_alpha_indices_out" 8 4 "t112";
    ILoad "t114" "current_input_ptr" 34 2;
    IStore "current_alpha_indices_out" 12 2 "t114";
    ILoad "t116" "current_input_ptr" 36 4;
    IStore "current_alpha_indices_out" 14 4 "t116";
    ILoad "t118" "current_input_ptr" 50 2;
    IStore "current_alpha_indices_out" 18 2 "t118";
    ILoad "t120" "current_input_ptr" 52 4;
    IStore "current_alpha_indices_out" 20 4 "t120";
    ILoad "t122" "current_input_ptr" 66 2;
    IStore "current_alpha_indices_out" 24 2 "t122";
    ILoad "t124" "current_input_ptr" 68 4;
    IStore "current_alpha_indices_out" 26 4 "t124";
    ILoad "t126" "current_input_ptr" 82 2;
    IStore "current_alpha_indices_out" 30 2 "t126";
    ILoad "t128" "current_input_ptr" 84 4;
    IStore "current_alpha_indices_out" 32 4 "t128";
    ILoad "t130" "current_input_ptr" 98 2;
    IStore "current_alpha_indices_out" 36 2 "t130";
    ILoad "t132" "current_input_ptr" 100 4;
    IStore "current_alpha_indices_out" 38 4 "t132";
    ILoad "t134" "current_input_ptr" 114 2;
    IStore "current_alpha_indices_out" 42 2 "t134";
    ILoad "t136" "current_input_ptr" 116 4;
    IStore "current_alpha_indices_out" 44 4 "t136"]) ++
  [IAdd "current_alpha_indices_out" 48;
    IStore "current_colors_out" 0 32 "colours";
    IStore "current_color_indices_out" 0 32 "indices";
    IAdd "current_input_ptr" 128;
    IAdd "current_colors_out" 32;
    IAdd "current_color_indices_out" 32].

(** src/core/dxt-lossless-transform-bc3/src/transform/with_split_alphas/transform/avx2.rs:20-159, fn transform_with_split_alphas *)
Definition bc3_sa_t_avx2_transform_with_split_alphas (c : cfg) (input_ptr : ptr) (alpha0_out : ptr) (alpha1_out : ptr) (alpha_indices_out : ptr) (colors_out : ptr) (color_indices_out : ptr) (block_count : Z) (m : mem) : res mem :=
  do _ <- cpu_has (c_avx2 c) "avx2" ;;
  let len := block_count * 16 in
  do aligned_len <- usub len (len mod 128) ;;
  do remaining_len <- usub len aligned_len ;;
  let current_input_ptr := input_ptr in
  do input_aligned_end_ptr <- ptr_add m input_ptr (aligned_len) ;;
  let current_alpha0_out := alpha0_out in
  let current_alpha1_out := alpha1_out in
  let current_alpha_indices_out := alpha_indices_out in
  let current_colors_out := colors_out in
  let current_color_indices_out := color_indices_out in
  do s <- while_lt (c_junk c) 0 (bc3_sa_t_avx2_transform_with_split_alphas_loop1 (is_x64 c)) "current_input_ptr" input_aligned_end_ptr (St [] [("current_input_ptr", current_input_ptr); ("current_alpha0_out", current_alpha0_out); ("current_alpha1_out", current_alpha1_out); ("current_alpha_indices_out", current_alpha_indices_out); ("current_colors_out", current_colors_out); ("current_color_indices_out", current_color_indices_out)] m) ;;
  let m := mm s in
  do current_input_ptr <- getp s "current_input_ptr" ;;
  do current_alpha0_out <- getp s "current_alpha0_out" ;;
  do current_alpha1_out <- getp s "current_alpha1_out" ;;
  do current_alpha_indices_out <- getp s "current_alpha_indices_out" ;;
  do current_colors_out <- getp s "current_colors_out" ;;
  do current_color_indices_out <- getp s "current_color_indices_out" ;;
  if (0 <? remaining_len) then
    do m <- bc3_sa_t_generic_transform_with_split_alphas c current_input_ptr current_alpha0_out current_alpha1_out current_alpha_indices_out current_colors_out current_color_indices_out (remaining_len / 16) m ;;
    Ok m
  else
    Ok m.

(** src/core/dxt-lossless-transform-bc3/src/transform/with_split_alphas/transform/mod.rs:15-92, fn transform_with_split_alphas_x86 *)
Definition bc3_sa_t_transform_with_split_alphas_x86 (c : cfg) (input_ptr : ptr) (alpha0_out : ptr) (alpha1_out : ptr) (alpha_indices_out : ptr) (colors_out : ptr) (color_indices_out : ptr) (block_count : Z) (m : mem) : res mem :=
  if negb (c_static c) then
    if has_avx512vbmi c then
      do m <- bc3_sa_t_avx512vbmi_transform_with_split_alphas c input_ptr alpha0_out alpha1_out alpha_indices_out colors_out color_indices_out block_count m ;;
      Ok m
    else
      if has_avx2 c then
        do m <- bc3_sa_t_avx2_transform_with_split_alphas c input_ptr alpha0_out alpha1_out alpha_indices_out colors_out color_indices_out block_count m ;;
        Ok m
      else
        do m <- bc3_sa_t_generic_transform_with_split_alphas c input_ptr alpha0_out alpha1_out alpha_indices_out colors_out color_indices_out block_count m ;;
        Ok m
  else
    if c_avx512vbmi c then
      do m <- bc3_sa_t_avx512vbmi_transform_with_split_alphas c input_ptr alpha0_out alpha1_out alpha_indices_out colors_out color_indices_out block_count m ;;
      Ok m
    else
      if c_avx2 c then
        do m <- bc3_sa_t_avx2_transform_with_split_alphas c input_ptr alpha0_out alpha1_out alpha_indices_out colors_out color_indices_out block_count m ;;
        Ok m
      else
        do m <- bc3_sa_t_generic_transform_with_split_alphas c input_ptr alpha0_out alpha1_out alpha_indices_out colors_out color_indices_out block_count m ;;
        Ok m.

(** src/core/dxt-lossless-transform-bc3/src/transform/with_split_alphas/transform/mod.rs:107-141, fn transform_with_split_alphas *)
Definition bc3_sa_t_transform_with_split_alphas (c : cfg) (input_ptr : ptr) (alpha0_out : ptr) (alpha1_out : ptr) (alpha_indices_out : ptr) (colors_out : ptr) (color_indices_out : ptr) (block_count : Z) (m : mem) : res mem :=
  if is_x86 c then
    do m <- bc3_sa_t_transform_with_split_alphas_x86 c input_ptr alpha0_out alpha1_out alpha_indices_out colors_out color_indices_out block_count m ;;
    Ok m
  else
    do m <- bc3_sa_t_generic_transform_with_split_alphas c input_ptr alpha0_out alpha1_out alpha_indices_out colors_out color_indices_out block_count m ;;
    Ok m.

(** Loop at src/core/dxt-lossless-transform-bc3/src/transform/with_split_alphas/untransform/generic.rs:27. *)
Definition bc3_sa_u_generic_untransform_with_split_alphas_loop1 : list instr :=
  [ILoad "alpha0" "alpha0_ptr" 0 1;
    ILoad "alpha1" "alpha1_ptr" 0 1;
    ILoad "alpha_indices_part1" "alpha_indices_ptr" 0 2;
    ILoad "alpha_indices_part2" "alpha_indices_ptr" 2 4;
    ILoad "colors" "colors_ptr" 0 4;
    ILoad "color_indices" "color_indices_ptr" 0 4;
    IStore "output_ptr" 0 1 "alpha0";
    IStore "output_ptr" 1 1 "alpha1";
    IStore "output_ptr" 2 2 "alpha_indices_part1";
    IStore "output_ptr" 4 4 "alpha_indices_part2";
    IStore "output_ptr" 8 4 "colors";
    IStore "output_ptr" 12 4 "color_indices";
    IAdd "alpha0_ptr" 1;
    IAdd "alpha1_ptr" 1;
    IAdd "alpha_indices_ptr" 6;
    IAdd "colors_ptr" 4;
    IAdd "color_indices_ptr" 4;
    IAdd "output_ptr" 16].

(** src/core/dxt-lossless-transform-bc3/src/transform/with_split_alphas/untransform/generic.rs:15-58, fn untransform_with_split_alphas *)
Definition bc3_sa_u_generic_untransform_with_split_alphas (c : cfg) (alpha0_ptr : ptr) (alpha1_ptr : ptr) (alpha_indices_ptr : ptr) (colors_ptr : ptr) (color_indices_ptr : ptr) (output_ptr : ptr) (block_count : Z) (m : mem) : res mem :=
  do alpha0_ptr_end <- ptr_add m alpha0_ptr (block_count) ;;
  do s <- while_lt (c_junk c) 0 bc3_sa_u_generic_untransform_with_split_alphas_loop1 "alpha0_ptr" alpha0_ptr_end (St [] [("alpha0_ptr", alpha0_ptr); ("alpha1_ptr", alpha1_ptr); ("alpha_indices_ptr", alpha_indices_ptr); ("colors_ptr", colors_ptr); ("color_indices_ptr", color_indices_ptr); ("output_ptr", output_ptr)] m) ;;
  let m := mm s in
  do alpha0_ptr <- getp s "alpha0_ptr" ;;
  do alpha1_ptr <- getp s "alpha1_ptr" ;;
  do alpha_indices_ptr <- getp s "alpha_indices_ptr" ;;
  do colors_ptr <- getp s "colors_ptr" ;;
  do color_indices_ptr <- getp s "color_indices_ptr" ;;
  do output_ptr <- getp s "output_ptr" ;;
  Ok m.

(** Loop at src/core/dxt-lossless-transform-bc3/src/transform/with_split_alphas/untransform/sse2.rs:48. *)
Definition bc3_sa_u_sse2_untransform_with_split_alphas_sse2_loop1 : list instr :=
  [ILoad "alpha0_bytes" "alpha0_ptr" 0 4;
    ILoad "alpha1_bytes" "alpha1_ptr" 0 4;
    IOp "t2" (OBytes 0 1) ["alpha0_bytes"];
    IStore "output_ptr" 0 1 "t2";
    IOp "t5" (OBytes 0 1) ["alpha1_bytes"];
    IStore "output_ptr" 1 1 "t5";
    IOp "t8" (OShr 1) ["alpha0_bytes"];
    IOp "t9" (OBytes 0 1) ["t8"];
    IStore "output_ptr" 16 1 "t9";
    IOp "t12" (OShr 1) ["alpha1_bytes"];
    IOp "t13" (OBytes 0 1) ["t12"];
    IStore "output_ptr" 17 1 "t13";
    IOp "t16" (OShr 2) ["alpha0_bytes"];
    IOp "t17" (OBytes 0 1) ["t16"];
    IStore "output_ptr" 32 1 "t17";
    IOp "t20" (OShr 2) ["alpha1_bytes"];
    IOp "t21" (OBytes 0 1) ["t20"];
    IStore "output_ptr" 33 1 "t21";
    IOp "t24" (OShr 3) ["alpha0_bytes"];
    IOp "t25" (OBytes 0 1) ["t24"];
    IStore "output_ptr" 48 1 "t25";
    IOp "t28" (OShr 3) ["alpha1_bytes"];
    IOp "t29" (OBytes 0 1) ["t28"];
    IStore "output_ptr" 49 1 "t29";
    ILoad "alpha_bits_0" "alpha_indices_ptr" 0 8;
    IOp "t32" (OBytes 0 2) ["alpha_bits_0"];
    IStore "output_ptr" 2 2 "t32";
    IOp "t35" (OShr 2) ["alpha_bits_0"];
    IOp "t36" (OBytes 0 4) ["t35"];
    IStore "output_ptr" 4 4 "t36";
    IOp "t39" (OShr 6) ["alpha_bits_0"];
    IOp "t40" (OBytes 0 2) ["t39"];
    IStore "output_ptr" 18 2 "t40";
    ILoad "alpha_bits_1" "alpha_indices_ptr" 8 8;
    IOp "t43" (OBytes 0 4) ["alpha_bits_1"];
    IStore "output_ptr" 20 4 "t43";
    IOp "t46" (OShr 4) ["alpha_bits_1"];
    IOp "t47" (OBytes 0 4) ["t46"];
    IStore "output_ptr" 34 4 "t47";
    ILoad "alpha_bits_2" "alpha_indices_ptr" 16 8;
    IOp "t50" (OBytes 0 2) ["alpha_bits_2"];
    IStore "output_ptr" 38 2 "t50";
    IOp "t52" (OShr 2) ["alpha_bits_2"];
    IStore "output_ptr" 50 8 "t52";
    IAdd "alpha_indices_ptr" 24;
    ILoad "colors" "colors_ptr" 0 16;
    ILoad "indices" "color_indices_ptr" 0 16;
    IOp "low" (OUnpackLo 4 1) ["colors"; "indices"];
    IOp "high" (OUnpackHi 4 1) ["colors"; "indices"];
    IOp "t54" (OBytes 0 8) ["low"];
    IStore "output_ptr" 8 8 "t54";
    IOp "t55" (OBytes 8 8) ["low"];
    IStore "output_ptr" 24 8 "t55";
    IOp "t56" (OBytes 0 8) ["high"];
    IStore "output_ptr" 40 8 "t56";
    IOp "t57" (OBytes 8 8) ["high"];
    IStore "output_ptr" 56 8 "t57";
    IAdd "alpha0_ptr" 4;
    IAdd "alpha1_ptr" 4;
    IAdd "colors_ptr" 16;
    IAdd "color_indices_ptr" 16;
    IAdd "output_ptr" 64].

(** src/core/dxt-lossless-transform-bc3/src/transform/with_split_alphas/untransform/sse2.rs:32-118, fn untransform_with_split_alphas_sse2 *)
Definition bc3_sa_u_sse2_untransform_with_split_alphas_sse2 (c : cfg) (alpha0_ptr : ptr) (alpha1_ptr : ptr) (alpha_indices_ptr : ptr) (colors_ptr : ptr) (color_indices_ptr : ptr) (output_ptr : ptr) (block_count : Z) (m : mem) : res mem :=
  do _ <- cpu_has (c_sse2 c) "sse2" ;;
  do aligned_block_count <- usub block_count (block_count mod 4) ;;
  do (alpha0_ptr, alpha1_ptr, alpha_indices_ptr, color_indices_ptr, colors_ptr, output_ptr, m) <- (
    if (0 <? aligned_block_count) then
      do alpha0_end_ptr <- ptr_add m alpha0_ptr (aligned_block_count) ;;
      do s <- while_lt (c_junk c) 0 bc3_sa_u_sse2_untransform_with_split_alphas_sse2_loop1 "alpha0_ptr" alpha0_end_ptr (St [] [("alpha0_ptr", alpha0_ptr); ("alpha1_ptr", alpha1_ptr); ("output_ptr", output_ptr); ("alpha_indices_ptr", alpha_indices_ptr); ("colors_ptr", colors_ptr); ("color_indices_ptr", color_indices_ptr)] m) ;;
      let m := mm s in
      do alpha0_ptr <- getp s "alpha0_ptr" ;;
      do alpha1_ptr <- getp s "alpha1_ptr" ;;
      do output_ptr <- getp s "output_ptr" ;;
      do alpha_indices_ptr <- getp s "alpha_indices_ptr" ;;
      do colors_ptr <- getp s "colors_ptr" ;;
      do color_indices_ptr <- getp s "color_indices_ptr" ;;
      Ok (alpha0_ptr, alpha1_ptr, alpha_indices_ptr, color_indices_ptr, colors_ptr, output_ptr, m)
    else
      Ok (alpha0_ptr, alpha1_ptr, alpha_indices_ptr, color_indices_ptr, colors_ptr, output_ptr, m)
  ) ;;
  do d3 <- usub block_count aligned_block_count ;;
  do m <- bc3_sa_u_generic_untransform_with_split_alphas c alpha0_ptr alpha1_ptr alpha_indices_ptr colors_ptr color_indices_ptr output_ptr d3 m ;;
  Ok m.

(** src/core/dxt-lossless-transform-bc3/src/transform/with_split_alphas/untransform/mod.rs:12-43, fn untransform_with_split_alphas_x86 *)
Definition bc3_sa_u_untransform_with_split_alphas_x86 (c : cfg) (alpha0_ptr : ptr) (alpha1_ptr : ptr) (alpha_indices_ptr : ptr) (colors_ptr : ptr) (color_indices_ptr : ptr) (output_ptr : ptr) (block_count : Z) (m : mem) : res mem :=
  if has_sse2 c then
    do m <- bc3_sa_u_sse2_untransform_with_split_alphas_sse2 c alpha0_ptr alpha1_ptr alpha_indices_ptr colors_ptr color_indices_ptr output_ptr block_count m ;;
    Ok m
  else
    do m <- bc3_sa_u_generic_untransform_with_split_alphas c alpha0_ptr alpha1_ptr alpha_indices_ptr colors_ptr color_indices_ptr output_ptr block_count m ;;
    Ok m.

(** src/core/dxt-lossless-transform-bc3/src/transform/with_split_alphas/untransform/mod.rs:58-92, fn untransform_with_split_alphas *)
Definition bc3_sa_u_untransform_with_split_alphas (c : cfg) (alpha0_out : ptr) (alpha1_out : ptr) (alpha_indices_out : ptr) (colors_out : ptr) (color_indices_out : ptr) (output_ptr : ptr) (block_count : Z) (m : mem) : res mem :=
  if is_x86 c then
    do m <- bc3_sa_u_untransform_with_split_alphas_x86 c alpha0_out alpha1_out alpha_indices_out colors_out color_indices_out output_ptr block_count m ;;
    Ok m
  else
    do m <- bc3_sa_u_generic_untransform_with_split_alphas c alpha0_out alpha1_out alpha_indices_out colors_out color_indices_out output_ptr block_count m ;;
    Ok m.

