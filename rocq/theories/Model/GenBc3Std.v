(** Generated by tools/rs2v.py from the kernel sources cited below; do not edit.
    Simplifications: usize arithmetic is exact (lengths are below isize::MAX), see
    Model/Kernel.v for the machine. *)
From Verif Require Import Base.Bytes Base.Res Model.Color565 Model.Ycc Model.Kernel.
Open Scope string_scope.
Open Scope list_scope.
Open Scope Z_scope.

(** Loop at src/core/dxt-lossless-transform-bc3/src/transform/standard/transform/portable32.rs:46. *)
Definition bc3_std_t_portable32_u32_with_separate_endpoints_loop1 : list instr :=
  [ILoad "t1" "input_ptr" 0 2;
    IStore "alpha_byte_out_ptr" 0 2 "t1";
    IAdd "alpha_byte_out_ptr" 2;
    ILoad "t2" "input_ptr" 2 2;
    IStore "alpha_bit_out_ptr" 0 2 "t2";
    ILoad "t3" "input_ptr" 4 4;
    IStore "alpha_bit_out_ptr" 2 4 "t3";
    IAdd "alpha_bit_out_ptr" 6;
    ILoad "t4" "input_ptr" 8 4;
    IStore "color_byte_out_ptr" 0 4 "t4";
    IAdd "color_byte_out_ptr" 4;
    ILoad "t5" "input_ptr" 12 4;
    IStore "index_byte_out_ptr" 0 4 "t5";
    IAdd "index_byte_out_ptr" 4;
    IAdd "input_ptr" 16].

(** src/core/dxt-lossless-transform-bc3/src/transform/standard/transform/portable32.rs:38-65, fn u32_with_separate_endpoints *)
Definition bc3_std_t_portable32_u32_with_separate_endpoints (c : cfg) (input_ptr : ptr) (alpha_byte_out_ptr : ptr) (alpha_bit_out_ptr : ptr) (color_byte_out_ptr : ptr) (index_byte_out_ptr : ptr) (alpha_byte_end_ptr : ptr) (m : mem) : res mem :=
  do s <- while_lt (c_junk c) 0 bc3_std_t_portable32_u32_with_separate_endpoints_loop1 "alpha_byte_out_ptr" alpha_byte_end_ptr (St [] [("input_ptr", input_ptr); ("alpha_byte_out_ptr", alpha_byte_out_ptr); ("alpha_bit_out_ptr", alpha_bit_out_ptr); ("color_byte_out_ptr", color_byte_out_ptr); ("index_byte_out_ptr", index_byte_out_ptr)] m) ;;
  let m := mm s in
  do input_ptr <- getp s "input_ptr" ;;
  do alpha_byte_out_ptr <- getp s "alpha_byte_out_ptr" ;;
  do alpha_bit_out_ptr <- getp s "alpha_bit_out_ptr" ;;
  do color_byte_out_ptr <- getp s "color_byte_out_ptr" ;;
  do index_byte_out_ptr <- getp s "index_byte_out_ptr" ;;
  Ok m.

(** Constants of the loop at src/core/dxt-lossless-transform-bc3/src/transform/standard/transform/avx512vbmi.rs:223 *)
Definition bc3_std_t_avx512vbmi_avx512_vbmi_with_separate_pointers_loop1_alpha_bytes_permute_mask : list byte := [x00; x01; x10; x11; x20; x21; x30; x31; x40; x41; x50; x51; x60; x61; x70; x71; x00; x00; x00; x00; x00; x00; x00; x00; x00; x00; x00; x00; x00; x00; x00; x00; x00; x00; x00; x00; x00; x00; x00; x00; x00; x00; x00; x00; x00; x00; x00; x00; x00; x00; x00; x00; x00; x00; x00; x00; x00; x00; x00; x00; x00; x00; x00; x00].
Definition bc3_std_t_avx512vbmi_avx512_vbmi_with_separate_pointers_loop1_alpha_bits_permute_mask : list byte := [x02; x03; x04; x05; x06; x07; x12; x13; x14; x15; x16; x17; x22; x23; x24; x25; x26; x27; x32; x33; x34; x35; x36; x37; x42; x43; x44; x45; x46; x47; x52; x53; x54; x55; x56; x57; x62; x63; x64; x65; x66; x67; x72; x73; x74; x75; x76; x77; x00; x00; x00; x00; x00; x00; x00; x00; x00; x00; x00; x00; x00; x00; x00; x00].
Definition bc3_std_t_avx512vbmi_avx512_vbmi_with_separate_pointers_loop1_color_bytes_permute_mask : list byte := [x08; x09; x0a; x0b; x18; x19; x1a; x1b; x28; x29; x2a; x2b; x38; x39; x3a; x3b; x48; x49; x4a; x4b; x58; x59; x5a; x5b; x68; x69; x6a; x6b; x78; x79; x7a; x7b; x00; x00; x00; x00; x00; x00; x00; x00; x00; x00; x00; x00; x00; x00; x00; x00; x00; x00; x00; x00; x00; x00; x00; x00; x00; x00; x00; x00; x00; x00; x00; x00].
Definition bc3_std_t_avx512vbmi_avx512_vbmi_with_separate_pointers_loop1_index_bytes_permute_mask : list byte := [x0c; x0d; x0e; x0f; x1c; x1d; x1e; x1f; x2c; x2d; x2e; x2f; x3c; x3d; x3e; x3f; x4c; x4d; x4e; x4f; x5c; x5d; x5e; x5f; x6c; x6d; x6e; x6f; x7c; x7d; x7e; x7f; x00; x00; x00; x00; x00; x00; x00; x00; x00; x00; x00; x00; x00; x00; x00; x00; x00; x00; x00; x00; x00; x00; x00; x00; x00; x00; x00; x00; x00; x00; x00; x00].

(** Loop at src/core/dxt-lossless-transform-bc3/src/transform/standard/transform/avx512vbmi.rs:223. *)
Definition bc3_std_t_avx512vbmi_avx512_vbmi_with_separate_pointers_loop1 : list instr :=
  [ILoad "block_0" "input_ptr" 0 64;
    ILoad "block_1" "input_ptr" 64 64;
    IAdd "input_ptr" 128;
    IOp "alpha_bytes_0" (OPermT2 1 64) ["block_0"; "alpha_bytes_permute_mask"; "block_1"];
    IOp "alpha_bits_0" (OPermT2 1 64) ["block_0"; "alpha_bits_permute_mask"; "block_1"];
    IOp "color_bytes_0" (OPermT2 1 64) ["block_0"; "color_bytes_permute_mask"; "block_1"];
    IOp "index_bytes_0" (OPermT2 1 64) ["block_0"; "index_bytes_permute_mask"; "block_1"];
    IOp "t1" (OBytes 0 16) ["alpha_bytes_0"];
    IStore "alpha_byte_out_ptr" 0 16 "t1";
    IStore "alpha_bit_out_ptr" 0 64 "alpha_bits_0";
    IOp "t2" (OBytes 0 32) ["color_bytes_0"];
    IStore "color_out_ptr" 0 32 "t2";
    IOp "t3" (OBytes 0 32) ["index_bytes_0"];
    IStore "index_out_ptr" 0 32 "t3";
    IAdd "alpha_byte_out_ptr" 16;
    IAdd "alpha_bit_out_ptr" 48;
    IAdd "color_out_ptr" 32;
    IAdd "index_out_ptr" 32].

(** src/core/dxt-lossless-transform-bc3/src/transform/standard/transform/avx512vbmi.rs:51-266, fn avx512_vbmi_with_separate_pointers *)
Definition bc3_std_t_avx512vbmi_avx512_vbmi_with_separate_pointers (c : cfg) (input_ptr : ptr) (alpha_byte_out_ptr : ptr) (alpha_bit_out_ptr : ptr) (color_out_ptr : ptr) (index_out_ptr : ptr) (len : Z) (m : mem) : res mem :=
  do _ <- cpu_has (c_sse2 c && c_avx2 c && c_avx512f c && c_avx512vbmi c) "sse2 avx2 avx512f avx512vbmi" ;;
  do _ <- debug_assert (c_debug c) (len mod 16 =? 0) "len . is_multiple_of ( 16 )" ;;
  do aligned_len <- usub len (len mod 128) ;;
  let aligned_len := Z.max 0 (aligned_len - 128) in
  do remaining_len <- usub len aligned_len ;;
  do input_aligned_end_ptr <- ptr_add m input_ptr (aligned_len) ;;
  do alpha_byte_end_ptr <- ptr_add m alpha_byte_out_ptr ((len / 16) * 2) ;;
  do s <- while_lt (c_junk c) 0 bc3_std_t_avx512vbmi_avx512_vbmi_with_separate_pointers_loop1 "input_ptr" input_aligned_end_ptr (St [("alpha_bytes_permute_mask", bc3_std_t_avx512vbmi_avx512_vbmi_with_separate_pointers_loop1_alpha_bytes_permute_mask); ("alpha_bits_permute_mask", bc3_std_t_avx512vbmi_avx512_vbmi_with_separate_pointers_loop1_alpha_bits_permute_mask); ("color_bytes_permute_mask", bc3_std_t_avx512vbmi_avx512_vbmi_with_separate_pointers_loop1_color_bytes_permute_mask); ("index_bytes_permute_mask", bc3_std_t_avx512vbmi_avx512_vbmi_with_separate_pointers_loop1_index_bytes_permute_mask)] [("input_ptr", input_ptr); ("alpha_byte_out_ptr", alpha_byte_out_ptr); ("alpha_bit_out_ptr", alpha_bit_out_ptr); ("color_out_ptr", color_out_ptr); ("index_out_ptr", index_out_ptr)] m) ;;
  let m := mm s in
  do input_ptr <- getp s "input_ptr" ;;
  do alpha_byte_out_ptr <- getp s "alpha_byte_out_ptr" ;;
  do alpha_bit_out_ptr <- getp s "alpha_bit_out_ptr" ;;
  do color_out_ptr <- getp s "color_out_ptr" ;;
  do index_out_ptr <- getp s "index_out_ptr" ;;
  if (0 <? remaining_len) then
    do m <- bc3_std_t_portable32_u32_with_separate_endpoints c input_ptr alpha_byte_out_ptr alpha_bit_out_ptr color_out_ptr index_out_ptr alpha_byte_end_ptr m ;;
    Ok m
  else
    Ok m.

(** src/core/dxt-lossless-transform-bc3/src/transform/standard/transform/avx512vbmi.rs:18-35, fn avx512_vbmi *)
Definition bc3_std_t_avx512vbmi_avx512_vbmi (c : cfg) (input_ptr : ptr) (output_ptr : ptr) (len : Z) (m : mem) : res mem :=
  do _ <- cpu_has (c_avx512vbmi c) "avx512vbmi" ;;
  do _ <- debug_assert (c_debug c) (len mod 16 =? 0) "len . is_multiple_of ( 16 )" ;;
  let alpha_byte_out_ptr := output_ptr in
  do alpha_bit_out_ptr <- ptr_add m output_ptr ((len / 16) * 2) ;;
  do color_out_ptr <- ptr_add m output_ptr ((len / 16) * 8) ;;
  do index_out_ptr <- ptr_add m output_ptr ((len / 16) * 12) ;;
  do m <- bc3_std_t_avx512vbmi_avx512_vbmi_with_separate_pointers c input_ptr alpha_byte_out_ptr alpha_bit_out_ptr color_out_ptr index_out_ptr len m ;;
  Ok m.

(** Loop at src/core/dxt-lossless-transform-bc3/src/transform/standard/transform/avx2.rs:78. *)
Definition bc3_std_t_avx2_u32_avx2_with_separate_pointers_loop1 (x64 : bool) : list instr :=
  [ILoad "t1" "current_input_ptr" 8 4;
    ILoad "t2" "current_input_ptr" 24 4;
    IOp "t3" (OConcat) ["t1"; "t2"];
    ILoad "t4" "current_input_ptr" 40 4;
    IOp "t5" (OConcat) ["t3"; "t4"];
    ILoad "t6" "current_input_ptr" 56 4;
    IOp "t7" (OConcat) ["t5"; "t6"];
    ILoad "t8" "current_input_ptr" 72 4;
    IOp "t9" (OConcat) ["t7"; "t8"];
    ILoad "t10" "current_input_ptr" 88 4;
    IOp "t11" (OConcat) ["t9"; "t10"];
    ILoad "t12" "current_input_ptr" 104 4;
    IOp "t13" (OConcat) ["t11"; "t12"];
    ILoad "t14" "current_input_ptr" 120 4;
    IOp "colours" (OConcat) ["t13"; "t14"];
    ILoad "t15" "current_input_ptr" 12 4;
    ILoad "t16" "current_input_ptr" 28 4;
    IOp "t17" (OConcat) ["t15"; "t16"];
    ILoad "t18" "current_input_ptr" 44 4;
    IOp "t19" (OConcat) ["t17"; "t18"];
    ILoad "t20" "current_input_ptr" 60 4;
    IOp "t21" (OConcat) ["t19"; "t20"];
    ILoad "t22" "current_input_ptr" 76 4;
    IOp "t23" (OConcat) ["t21"; "t22"];
    ILoad "t24" "current_input_ptr" 92 4;
    IOp "t25" (OConcat) ["t23"; "t24"];
    ILoad "t26" "current_input_ptr" 108 4;
    IOp "t27" (OConcat) ["t25"; "t26"];
    ILoad "t28" "current_input_ptr" 124 4;
    IOp "indices" (OConcat) ["t27"; "t28"];
    ILoad "t30" "current_input_ptr" 0 2;
    IOp "write_alpha_endpoints_u6429_alpha_0" (OZext 8) ["t30"];
    ILoad "t31" "current_input_ptr" 16 2;
    IOp "write_alpha_endpoints_u6429_alpha_1" (OZext 8) ["t31"];
    ILoad "t32" "current_input_ptr" 32 2;
    IOp "write_alpha_endpoints_u6429_alpha_2" (OZext 8) ["t32"];
    ILoad "t33" "current_input_ptr" 48 2;
    IOp "write_alpha_endpoints_u6429_alpha_3" (OZext 8) ["t33"];
    IOp "t34" (OShl 2) ["write_alpha_endpoints_u6429_alpha_1"];
    IOp "t35" (OOr) ["write_alpha_endpoints_u6429_alpha_0"; "t34"];
    IOp "t36" (OShl 4) ["write_alpha_endpoints_u6429_alpha_2"];
    IOp "t37" (OOr) ["t35"; "t36"];
    IOp "t38" (OShl 6) ["write_alpha_endpoints_u6429_alpha_3"];
    IOp "write_alpha_endpoints_u6429_combined" (OOr) ["t37"; "t38"];
    IStore "alpha_byte_out_ptr" 0 8 "write_alpha_endpoints_u6429_combined";
    ILoad "t40" "current_input_ptr" 64 2;
    IOp "write_alpha_endpoints_u6439_alpha_0" (OZext 8) ["t40"];
    ILoad "t41" "current_input_ptr" 80 2;
    IOp "write_alpha_endpoints_u6439_alpha_1" (OZext 8) ["t41"];
    ILoad "t42" "current_input_ptr" 96 2;
    IOp "write_alpha_endpoints_u6439_alpha_2" (OZext 8) ["t42"];
    ILoad "t43" "current_input_ptr" 112 2;
    IOp "write_alpha_endpoints_u6439_alpha_3" (OZext 8) ["t43"];
    IOp "t44" (OShl 2) ["write_alpha_endpoints_u6439_alpha_1"];
    IOp "t45" (OOr) ["write_alpha_endpoints_u6439_alpha_0"; "t44"];
    IOp "t46" (OShl 4) ["write_alpha_endpoints_u6439_alpha_2"];
    IOp "t47" (OOr) ["t45"; "t46"];
    IOp "t48" (OShl 6) ["write_alpha_endpoints_u6439_alpha_3"];
    IOp "write_alpha_endpoints_u6439_combined" (OOr) ["t47"; "t48"];
    IStore "alpha_byte_out_ptr" 8 8 "write_alpha_endpoints_u6439_combined";
    IAdd "alpha_byte_out_ptr" 16] ++
  (if x64 then
    [ILoad "write_alpha_bits_u6449_first_part" "current_input_ptr" 2 2;
    ILoad "write_alpha_bits_u6449_second_part" "current_input_ptr" 4 4;
    IOp "t50" (OZext 8) ["write_alpha_bits_u6449_second_part"];
    IOp "t51" (OShl 2) ["t50"];
    IOp "t52" (OZext 8) ["write_alpha_bits_u6449_first_part"];
    IOp "write_alpha_bits_u6449_combined_value" (OOr) ["t51"; "t52"];
    IStore "alpha_bit_out_ptr" 0 8 "write_alpha_bits_u6449_combined_value";
    ILoad "write_alpha_bits_u6453_first_part" "current_input_ptr" 18 2;
    ILoad "write_alpha_bits_u6453_second_part" "current_input_ptr" 20 4;
    IOp "t54" (OZext 8) ["write_alpha_bits_u6453_second_part"];
    IOp "t55" (OShl 2) ["t54"];
    IOp "t56" (OZext 8) ["write_alpha_bits_u6453_first_part"];
    IOp "write_alpha_bits_u6453_combined_value" (OOr) ["t55"; "t56"];
    IStore "alpha_bit_out_ptr" 6 8 "write_alpha_bits_u6453_combined_value";
    ILoad "write_alpha_bits_u6457_first_part" "current_input_ptr" 34 2;
    ILoad "write_alpha_bits_u6457_second_part" "current_input_ptr" 36 4;
    IOp "t58" (OZext 8) ["write_alpha_bits_u6457_second_part"];
    IOp "t59" (OShl 2) ["t58"];
    IOp "t60" (OZext 8) ["write_alpha_bits_u6457_first_part"];
    IOp "write_alpha_bits_u6457_combined_value" (OOr) ["t59"; "t60"];
    IStore "alpha_bit_out_ptr" 12 8 "write_alpha_bits_u6457_combined_value";
    ILoad "write_alpha_bits_u6461_first_part" "current_input_ptr" 50 2;
    ILoad "write_alpha_bits_u6461_second_part" "current_input_ptr" 52 4;
    IOp "t62" (OZext 8) ["write_alpha_bits_u6461_second_part"];
    IOp "t63" (OShl 2) ["t62"];
    IOp "t64" (OZext 8) ["write_alpha_bits_u6461_first_part"];
    IOp "write_alpha_bits_u6461_combined_value" (OOr) ["t63"; "t64"];
    IStore "alpha_bit_out_ptr" 18 8 "write_alpha_bits_u6461_combined_value";
    ILoad "write_alpha_bits_u6465_first_part" "current_input_ptr" 66 2;
    ILoad "write_alpha_bits_u6465_second_part" "current_input_ptr" 68 4;
    IOp "t66" (OZext 8) ["write_alpha_bits_u6465_second_part"];
    IOp "t67" (OShl 2) ["t66"];
    IOp "t68" (OZext 8) ["write_alpha_bits_u6465_first_part"];
    IOp "write_alpha_bits_u6465_combined_value" (OOr) ["t67"; "t68"];
    IStore "alpha_bit_out_ptr" 24 8 "write_alpha_bits_u6465_combined_value";
    ILoad "write_alpha_bits_u6469_first_part" "current_input_ptr" 82 2;
    ILoad "write_alpha_bits_u6469_second_part" "current_input_ptr" 84 4;
    IOp "t70" (OZext 8) ["write_alpha_bits_u6469_second_part"];
    IOp "t71" (OShl 2) ["t70"];
    IOp "t72" (OZext 8) ["write_alpha_bits_u6469_first_part"];
    IOp "write_alpha_bits_u6469_combined_value" (OOr) ["t71"; "t72"];
    IStore "alpha_bit_out_ptr" 30 8 "write_alpha_bits_u6469_combined_value";
    ILoad "write_alpha_bits_u6473_first_part" "current_input_ptr" 98 2;
    ILoad "write_alpha_bits_u6473_second_part" "current_input_ptr" 100 4;
    IOp "t74" (OZext 8) ["write_alpha_bits_u6473_second_part"];
    IOp "t75" (OShl 2) ["t74"];
    IOp "t76" (OZext 8) ["write_alpha_bits_u6473_first_part"];
    IOp "write_alpha_bits_u6473_combined_value" (OOr) ["t75"; "t76"];
    IStore "alpha_bit_out_ptr" 36 8 "write_alpha_bits_u6473_combined_value";
    ILoad "t78" "current_input_ptr" 114 2;
    IStore "alpha_bit_out_ptr" 42 2 "t78";
    ILoad "t80" "current_input_ptr" 116 4;
    IStore "alpha_bit_out_ptr" 44 4 "t80"]
  else
    [ILoad "t82" "current_input_ptr" 2 2;
    IStore "alpha_bit_out_ptr" 0 2 "t82";
    ILoad "t84" "current_input_ptr" 4 4;
    IStore "alpha_bit_out_ptr" 2 4 "t84";
    ILoad "t86" "current_input_ptr" 18 2;
    IStore "alpha_bit_out_ptr" 6 2 "t86";
    ILoad "t88" "current_input_ptr" 20 4;
    IStore "alpha_bit_out_ptr" 8 4 "t88";
    ILoad "t90" "current_input_ptr" 34 2;
    IStore "alpha_bit_out_ptr" 12 2 "t90";
    ILoad "t92" "current_input_ptr" 36 4;
    IStore "alpha_bit_out_ptr" 14 4 "t92";
    ILoad "t94" "current_input_ptr" 50 2;
    IStore "alpha_bit_out_ptr" 18 2 "t94";
    ILoad "t96" "current_input_ptr" 52 4;
    IStore "alpha_bit_out_ptr" 20 4 "t96";
    ILoad "t98" "current_input_ptr" 66 2;
    IStore "alpha_bit_out_ptr" 24 2 "t98";
    ILoad "t100" "current_input_ptr" 68 4;
    IStore "alpha_bit_out_ptr" 26 4 "t100";
    ILoad "t102" "current_input_ptr" 82 2;
    IStore "alpha_bit_out_ptr" 30 2 "t102";
    ILoad "t104" "current_input_ptr" 84 4;
    IStore "alpha_bit_out_ptr" 32 4 "t104";
    ILoad "t106" "current_input_ptr" 98 2;
    IStore "alpha_bit_out_ptr" 36 2 "t106";
    ILoad "t108" "current_input_ptr" 100 4;
    IStore "alpha_bit_out_ptr" 38 4 "t108";
    ILoad "t110" "current_input_ptr" 114 2;
    IStore "alpha_bit_out_ptr" 42 2 "t110";
    ILoad "t112" "current_input_ptr" 116 4;
    IStore "alpha_bit_out_ptr" 44 4 "t112"]) ++
  [IAdd "alpha_bit_out_ptr" 48;
    IStore "color_out_ptr" 0 32 "colours";
    IStore "index_out_ptr" 0 32 "indices";
    IAdd "current_input_ptr" 128;
    IAdd "color_out_ptr" 32;
    IAdd "index_out_ptr" 32].

(** src/core/dxt-lossless-transform-bc3/src/transform/standard/transform/avx2.rs:47-177, fn u32_avx2_with_separate_pointers *)
Definition bc3_std_t_avx2_u32_avx2_with_separate_pointers (c : cfg) (input_ptr : ptr) (alpha_byte_out_ptr : ptr) (alpha_bit_out_ptr : ptr) (color_out_ptr : ptr) (index_out_ptr : ptr) (alpha_byte_end_ptr : ptr) (m : mem) : res mem :=
  do _ <- cpu_has (c_avx2 c) "avx2" ;;
  do d1 <- ptr_diff alpha_byte_end_ptr alpha_byte_out_ptr ;;
  let len := d1 * 8 in
  do aligned_len <- usub len (len mod 128) ;;
  do remaining_len <- usub len aligned_len ;;
  let current_input_ptr := input_ptr in
  do input_aligned_end_ptr <- ptr_add m input_ptr (aligned_len) ;;
  do s <- while_lt (c_junk c) 0 (bc3_std_t_avx2_u32_avx2_with_separate_pointers_loop1 (is_x64 c)) "current_input_ptr" input_aligned_end_ptr (St [] [("current_input_ptr", current_input_ptr); ("alpha_byte_out_ptr", alpha_byte_out_ptr); ("alpha_bit_out_ptr", alpha_bit_out_ptr); ("color_out_ptr", color_out_ptr); ("index_out_ptr", index_out_ptr)] m) ;;
  let m := mm s in
  do current_input_ptr <- getp s "current_input_ptr" ;;
  do alpha_byte_out_ptr <- getp s "alpha_byte_out_ptr" ;;
  do alpha_bit_out_ptr <- getp s "alpha_bit_out_ptr" ;;
  do color_out_ptr <- getp s "color_out_ptr" ;;
  do index_out_ptr <- getp s "index_out_ptr" ;;
  if (0 <? remaining_len) then
    do m <- bc3_std_t_portable32_u32_with_separate_endpoints c current_input_ptr alpha_byte_out_ptr alpha_bit_out_ptr color_out_ptr index_out_ptr alpha_byte_end_ptr m ;;
    Ok m
  else
    Ok m.

(** src/core/dxt-lossless-transform-bc3/src/transform/standard/transform/avx2.rs:16-34, fn u32_avx2 *)
Definition bc3_std_t_avx2_u32_avx2 (c : cfg) (input_ptr : ptr) (output_ptr : ptr) (len : Z) (m : mem) : res mem :=
  do _ <- cpu_has (c_avx2 c) "avx2" ;;
  do _ <- debug_assert (c_debug c) (len mod 16 =? 0) "len . is_multiple_of ( 16 )" ;;
  let alpha_byte_out_ptr := output_ptr in
  do alpha_bit_out_ptr <- ptr_add m output_ptr ((len / 16) * 2) ;;
  do color_out_ptr <- ptr_add m output_ptr ((len / 16) * 8) ;;
  do index_out_ptr <- ptr_add m output_ptr ((len / 16) * 12) ;;
  do alpha_byte_end_ptr <- ptr_add m output_ptr ((len / 16) * 2) ;;
  do m <- bc3_std_t_avx2_u32_avx2_with_separate_pointers c input_ptr alpha_byte_out_ptr alpha_bit_out_ptr color_out_ptr index_out_ptr alpha_byte_end_ptr m ;;
  Ok m.

(** src/core/dxt-lossless-transform-bc3/src/transform/standard/transform/portable32.rs:10-26, fn u32 *)
Definition bc3_std_t_portable32_u32 (c : cfg) (input_ptr : ptr) (output_ptr : ptr) (len : Z) (m : mem) : res mem :=
  do _ <- debug_assert (c_debug c) (len mod 16 =? 0) "len . is_multiple_of ( 16 )" ;;
  let alpha_byte_out_ptr := output_ptr in
  do alpha_bit_out_ptr <- ptr_add m output_ptr ((len / 16) * 2) ;;
  do color_byte_out_ptr <- ptr_add m output_ptr ((len / 16) * 8) ;;
  do index_byte_out_ptr <- ptr_add m output_ptr ((len / 16) * 12) ;;
  do m <- bc3_std_t_portable32_u32_with_separate_endpoints c input_ptr alpha_byte_out_ptr alpha_bit_out_ptr color_byte_out_ptr index_byte_out_ptr alpha_bit_out_ptr m ;;
  Ok m.

(** src/core/dxt-lossless-transform-bc3/src/transform/standard/transform/mod.rs:11-41, fn transform_x86 *)
Definition bc3_std_t_transform_x86 (c : cfg) (input_ptr : ptr) (output_ptr : ptr) (len : Z) (m : mem) : res mem :=
  if negb (c_static c) then
    if has_avx512vbmi c then
      do m <- bc3_std_t_avx512vbmi_avx512_vbmi c input_ptr output_ptr len m ;;
      Ok m
    else
      if has_avx2 c then
        do m <- bc3_std_t_avx2_u32_avx2 c input_ptr output_ptr len m ;;
        Ok m
      else
        do m <- bc3_std_t_portable32_u32 c input_ptr output_ptr len m ;;
        Ok m
  else
    if c_avx512vbmi c then
      do m <- bc3_std_t_avx512vbmi_avx512_vbmi c input_ptr output_ptr len m ;;
      Ok m
    else
      if c_avx2 c then
        do m <- bc3_std_t_avx2_u32_avx2 c input_ptr output_ptr len m ;;
        Ok m
      else
        do m <- bc3_std_t_portable32_u32 c input_ptr output_ptr len m ;;
        Ok m.

(** src/core/dxt-lossless-transform-bc3/src/transform/standard/transform/mod.rs:53-65, fn transform *)
Definition bc3_std_t_transform (c : cfg) (input_ptr : ptr) (output_ptr : ptr) (len : Z) (m : mem) : res mem :=
  do _ <- debug_assert (c_debug c) (len mod 16 =? 0) "len . is_multiple_of ( 16 )" ;;
  if is_x86 c then
    do m <- bc3_std_t_transform_x86 c input_ptr output_ptr len m ;;
    Ok m
  else
    do m <- bc3_std_t_portable32_u32 c input_ptr output_ptr len m ;;
    Ok m.

(** Loop at src/core/dxt-lossless-transform-bc3/src/transform/standard/untransform/portable32.rs:18. *)
Definition bc3_std_u_portable32_u32_untransform_with_separate_pointers_loop1 : list instr :=
  [ILoad "t1" "alpha_byte_in_ptr" 0 2;
    IStore "current_output_ptr" 0 2 "t1";
    IAdd "alpha_byte_in_ptr" 2;
    ILoad "t2" "alpha_bit_in_ptr" 0 2;
    IStore "current_output_ptr" 2 2 "t2";
    ILoad "t3" "alpha_bit_in_ptr" 2 4;
    IStore "current_output_ptr" 4 4 "t3";
    IAdd "alpha_bit_in_ptr" 6;
    ILoad "t4" "color_byte_in_ptr" 0 4;
    IStore "current_output_ptr" 8 4 "t4";
    IAdd "color_byte_in_ptr" 4;
    ILoad "t5" "index_byte_in_ptr" 0 4;
    IStore "current_output_ptr" 12 4 "t5";
    IAdd "index_byte_in_ptr" 4;
    IAdd "current_output_ptr" 16].

(** src/core/dxt-lossless-transform-bc3/src/transform/standard/untransform/portable32.rs:9-37, fn u32_untransform_with_separate_pointers *)
Definition bc3_std_u_portable32_u32_untransform_with_separate_pointers (c : cfg) (alpha_byte_in_ptr : ptr) (alpha_bit_in_ptr : ptr) (color_byte_in_ptr : ptr) (index_byte_in_ptr : ptr) (current_output_ptr : ptr) (len : Z) (m : mem) : res mem :=
  do alpha_byte_end_ptr <- ptr_add m alpha_byte_in_ptr ((len / 16) * 2) ;;
  do s <- while_lt (c_junk c) 0 bc3_std_u_portable32_u32_untransform_with_separate_pointers_loop1 "alpha_byte_in_ptr" alpha_byte_end_ptr (St [] [("alpha_byte_in_ptr", alpha_byte_in_ptr); ("current_output_ptr", current_output_ptr); ("alpha_bit_in_ptr", alpha_bit_in_ptr); ("color_byte_in_ptr", color_byte_in_ptr); ("index_byte_in_ptr", index_byte_in_ptr)] m) ;;
  let m := mm s in
  do alpha_byte_in_ptr <- getp s "alpha_byte_in_ptr" ;;
  do current_output_ptr <- getp s "current_output_ptr" ;;
  do alpha_bit_in_ptr <- getp s "alpha_bit_in_ptr" ;;
  do color_byte_in_ptr <- getp s "color_byte_in_ptr" ;;
  do index_byte_in_ptr <- getp s "index_byte_in_ptr" ;;
  Ok m.

(** Constants of the loop at src/core/dxt-lossless-transform-bc3/src/transform/standard/untransform/avx512vbmi_64.rs:328 *)
Definition bc3_std_u_avx512vbmi_64_avx512_untransform_separate_components_loop1_blocks_0_perm_alphabits : list byte := [x00; x01; x40; x41; x42; x43; x44; x45; x00; x00; x00; x00; x00; x00; x00; x00; x02; x03; x46; x47; x48; x49; x4a; x4b; x00; x00; x00; x00; x00; x00; x00; x00; x04; x05; x4c; x4d; x4e; x4f; x50; x51; x00; x00; x00; x00; x00; x00; x00; x00; x06; x07; x52; x53; x54; x55; x56; x57; x00; x00; x00; x00; x00; x00; x00; x00].
Definition bc3_std_u_avx512vbmi_64_avx512_untransform_separate_components_loop1_blocks_0_perm_colours : list byte := [x00; x01; x02; x03; x04; x05; x06; x07; x40; x41; x42; x43; x00; x00; x00; x00; x10; x11; x12; x13; x14; x15; x16; x17; x44; x45; x46; x47; x00; x00; x00; x00; x20; x21; x22; x23; x24; x25; x26; x27; x48; x49; x4a; x4b; x00; x00; x00; x00; x30; x31; x32; x33; x34; x35; x36; x37; x4c; x4d; x4e; x4f; x00; x00; x00; x00].
Definition bc3_std_u_avx512vbmi_64_avx512_untransform_separate_components_loop1_blocks_0_perm_indices : list byte := [x00; x01; x02; x03; x04; x05; x06; x07; x08; x09; x0a; x0b; x40; x41; x42; x43; x10; x11; x12; x13; x14; x15; x16; x17; x18; x19; x1a; x1b; x44; x45; x46; x47; x20; x21; x22; x23; x24; x25; x26; x27; x28; x29; x2a; x2b; x48; x49; x4a; x4b; x30; x31; x32; x33; x34; x35; x36; x37; x38; x39; x3a; x3b; x4c; x4d; x4e; x4f].
Definition bc3_std_u_avx512vbmi_64_avx512_untransform_separate_components_loop1_blocks_1_perm_alphabits : list byte := [x08; x09; x58; x59; x5a; x5b; x5c; x5d; x00; x00; x00; x00; x00; x00; x00; x00; x0a; x0b; x5e; x5f; x60; x61; x62; x63; x00; x00; x00; x00; x00; x00; x00; x00; x0c; x0d; x64; x65; x66; x67; x68; x69; x00; x00; x00; x00; x00; x00; x00; x00; x0e; x0f; x6a; x6b; x6c; x6d; x6e; x6f; x00; x00; x00; x00; x00; x00; x00; x00].
Definition bc3_std_u_avx512vbmi_64_avx512_untransform_separate_components_loop1_blocks_1_perm_colours : list byte := [x00; x01; x02; x03; x04; x05; x06; x07; x50; x51; x52; x53; x00; x00; x00; x00; x10; x11; x12; x13; x14; x15; x16; x17; x54; x55; x56; x57; x00; x00; x00; x00; x20; x21; x22; x23; x24; x25; x26; x27; x58; x59; x5a; x5b; x00; x00; x00; x00; x30; x31; x32; x33; x34; x35; x36; x37; x5c; x5d; x5e; x5f; x00; x00; x00; x00].
Definition bc3_std_u_avx512vbmi_64_avx512_untransform_separate_components_loop1_blocks_1_perm_indices : list byte := [x00; x01; x02; x03; x04; x05; x06; x07; x08; x09; x0a; x0b; x50; x51; x52; x53; x10; x11; x12; x13; x14; x15; x16; x17; x18; x19; x1a; x1b; x54; x55; x56; x57; x20; x21; x22; x23; x24; x25; x26; x27; x28; x29; x2a; x2b; x58; x59; x5a; x5b; x30; x31; x32; x33; x34; x35; x36; x37; x38; x39; x3a; x3b; x5c; x5d; x5e; x5f].
Definition bc3_std_u_avx512vbmi_64_avx512_untransform_separate_components_loop1_blocks_2_perm_alphabits : list byte := [x10; x11; x40; x41; x42; x43; x44; x45; x00; x00; x00; x00; x00; x00; x00; x00; x12; x13; x46; x47; x48; x49; x4a; x4b; x00; x00; x00; x00; x00; x00; x00; x00; x14; x15; x4c; x4d; x4e; x4f; x50; x51; x00; x00; x00; x00; x00; x00; x00; x00; x16; x17; x52; x53; x54; x55; x56; x57; x00; x00; x00; x00; x00; x00; x00; x00].
Definition bc3_std_u_avx512vbmi_64_avx512_untransform_separate_components_loop1_blocks_2_perm_colours : list byte := [x00; x01; x02; x03; x04; x05; x06; x07; x60; x61; x62; x63; x00; x00; x00; x00; x10; x11; x12; x13; x14; x15; x16; x17; x64; x65; x66; x67; x00; x00; x00; x00; x20; x21; x22; x23; x24; x25; x26; x27; x68; x69; x6a; x6b; x00; x00; x00; x00; x30; x31; x32; x33; x34; x35; x36; x37; x6c; x6d; x6e; x6f; x00; x00; x00; x00].
Definition bc3_std_u_avx512vbmi_64_avx512_untransform_separate_components_loop1_blocks_2_perm_indices : list byte := [x00; x01; x02; x03; x04; x05; x06; x07; x08; x09; x0a; x0b; x60; x61; x62; x63; x10; x11; x12; x13; x14; x15; x16; x17; x18; x19; x1a; x1b; x64; x65; x66; x67; x20; x21; x22; x23; x24; x25; x26; x27; x28; x29; x2a; x2b; x68; x69; x6a; x6b; x30; x31; x32; x33; x34; x35; x36; x37; x38; x39; x3a; x3b; x6c; x6d; x6e; x6f].
Definition bc3_std_u_avx512vbmi_64_avx512_untransform_separate_components_loop1_blocks_3_perm_alphabits : list byte := [x18; x19; x58; x59; x5a; x5b; x5c; x5d; x00; x00; x00; x00; x00; x00; x00; x00; x1a; x1b; x5e; x5f; x60; x61; x62; x63; x00; x00; x00; x00; x00; x00; x00; x00; x1c; x1d; x64; x65; x66; x67; x68; x69; x00; x00; x00; x00; x00; x00; x00; x00; x1e; x1f; x6a; x6b; x6c; x6d; x6e; x6f; x00; x00; x00; x00; x00; x00; x00; x00].
Definition bc3_std_u_avx512vbmi_64_avx512_untransform_separate_components_loop1_blocks_3_perm_colours : list byte := [x00; x01; x02; x03; x04; x05; x06; x07; x70; x71; x72; x73; x00; x00; x00; x00; x10; x11; x12; x13; x14; x15; x16; x17; x74; x75; x76; x77; x00; x00; x00; x00; x20; x21; x22; x23; x24; x25; x26; x27; x78; x79; x7a; x7b; x00; x00; x00; x00; x30; x31; x32; x33; x34; x35; x36; x37; x7c; x7d; x7e; x7f; x00; x00; x00; x00].
Definition bc3_std_u_avx512vbmi_64_avx512_untransform_separate_components_loop1_blocks_3_perm_indices : list byte := [x00; x01; x02; x03; x04; x05; x06; x07; x08; x09; x0a; x0b; x70; x71; x72; x73; x10; x11; x12; x13; x14; x15; x16; x17; x18; x19; x1a; x1b; x74; x75; x76; x77; x20; x21; x22; x23; x24; x25; x26; x27; x28; x29; x2a; x2b; x78; x79; x7a; x7b; x30; x31; x32; x33; x34; x35; x36; x37; x38; x39; x3a; x3b; x7c; x7d; x7e; x7f].
Definition bc3_std_u_avx512vbmi_64_avx512_untransform_separate_components_loop1_blocks_4_perm_alphabits : list byte := [x20; x21; x40; x41; x42; x43; x44; x45; x00; x00; x00; x00; x00; x00; x00; x00; x22; x23; x46; x47; x48; x49; x4a; x4b; x00; x00; x00; x00; x00; x00; x00; x00; x24; x25; x4c; x4d; x4e; x4f; x50; x51; x00; x00; x00; x00; x00; x00; x00; x00; x26; x27; x52; x53; x54; x55; x56; x57; x00; x00; x00; x00; x00; x00; x00; x00].
Definition bc3_std_u_avx512vbmi_64_avx512_untransform_separate_components_loop1_blocks_5_perm_alphabits : list byte := [x28; x29; x58; x59; x5a; x5b; x5c; x5d; x00; x00; x00; x00; x00; x00; x00; x00; x2a; x2b; x5e; x5f; x60; x61; x62; x63; x00; x00; x00; x00; x00; x00; x00; x00; x2c; x2d; x64; x65; x66; x67; x68; x69; x00; x00; x00; x00; x00; x00; x00; x00; x2e; x2f; x6a; x6b; x6c; x6d; x6e; x6f; x00; x00; x00; x00; x00; x00; x00; x00].
Definition bc3_std_u_avx512vbmi_64_avx512_untransform_separate_components_loop1_blocks_6_perm_alphabits : list byte := [x30; x31; x40; x41; x42; x43; x44; x45; x00; x00; x00; x00; x00; x00; x00; x00; x32; x33; x46; x47; x48; x49; x4a; x4b; x00; x00; x00; x00; x00; x00; x00; x00; x34; x35; x4c; x4d; x4e; x4f; x50; x51; x00; x00; x00; x00; x00; x00; x00; x00; x36; x37; x52; x53; x54; x55; x56; x57; x00; x00; x00; x00; x00; x00; x00; x00].
Definition bc3_std_u_avx512vbmi_64_avx512_untransform_separate_components_loop1_blocks_7_perm_alphabits : list byte := [x38; x39; x58; x59; x5a; x5b; x5c; x5d; x00; x00; x00; x00; x00; x00; x00; x00; x3a; x3b; x5e; x5f; x60; x61; x62; x63; x00; x00; x00; x00; x00; x00; x00; x00; x3c; x3d; x64; x65; x66; x67; x68; x69; x00; x00; x00; x00; x00; x00; x00; x00; x3e; x3f; x6a; x6b; x6c; x6d; x6e; x6f; x00; x00; x00; x00; x00; x00; x00; x00].

(** Loop at src/core/dxt-lossless-transform-bc3/src/transform/standard/untransform/avx512vbmi_64.rs:328. *)
Definition bc3_std_u_avx512vbmi_64_avx512_untransform_separate_components_loop1 : list instr :=
  [ILoad "alpha_bytes_0" "alpha_byte_in_ptr" 0 64;
    IAdd "alpha_byte_in_ptr" 64;
    ILoad "colors_0" "color_byte_in_ptr" 0 64;
    ILoad "colors_1" "color_byte_in_ptr" 64 64;
    IAdd "color_byte_in_ptr" 128;
    ILoad "indices_0" "index_byte_in_ptr" 0 64;
    ILoad "indices_1" "index_byte_in_ptr" 64 64;
    IAdd "index_byte_in_ptr" 128;
    ILoad "alpha_bit_0" "alpha_bit_in_ptr" 0 64;
    ILoad "alpha_bit_1" "alpha_bit_in_ptr" 48 64;
    ILoad "alpha_bit_2" "alpha_bit_in_ptr" 96 64;
    ILoad "alpha_bit_3" "alpha_bit_in_ptr" 144 64;
    IAdd "alpha_bit_in_ptr" 192;
    IOp "blocks_0" (OPermT2 1 64) ["alpha_bytes_0"; "blocks_0_perm_alphabits"; "alpha_bit_0"];
    IOp "blocks_0" (OPermT2 1 64) ["blocks_0"; "blocks_0_perm_colours"; "colors_0"];
    IOp "blocks_0" (OPermT2 1 64) ["blocks_0"; "blocks_0_perm_indices"; "indices_0"];
    IOp "blocks_1" (OPermT2 1 64) ["alpha_bytes_0"; "blocks_1_perm_alphabits"; "alpha_bit_0"];
    IOp "blocks_1" (OPermT2 1 64) ["blocks_1"; "blocks_1_perm_colours"; "colors_0"];
    IOp "blocks_1" (OPermT2 1 64) ["blocks_1"; "blocks_1_perm_indices"; "indices_0"];
    IOp "blocks_2" (OPermT2 1 64) ["alpha_bytes_0"; "blocks_2_perm_alphabits"; "alpha_bit_1"];
    IOp "blocks_2" (OPermT2 1 64) ["blocks_2"; "blocks_2_perm_colours"; "colors_0"];
    IOp "blocks_2" (OPermT2 1 64) ["blocks_2"; "blocks_2_perm_indices"; "indices_0"];
    IOp "blocks_3" (OPermT2 1 64) ["alpha_bytes_0"; "blocks_3_perm_alphabits"; "alpha_bit_1"];
    IOp "blocks_3" (OPermT2 1 64) ["blocks_3"; "blocks_3_perm_colours"; "colors_0"];
    IOp "blocks_3" (OPermT2 1 64) ["blocks_3"; "blocks_3_perm_indices"; "indices_0"];
    IOp "blocks_4" (OPermT2 1 64) ["alpha_bytes_0"; "blocks_4_perm_alphabits"; "alpha_bit_2"];
    IOp "blocks_4" (OPermT2 1 64) ["blocks_4"; "blocks_0_perm_colours"; "colors_1"];
    IOp "blocks_4" (OPermT2 1 64) ["blocks_4"; "blocks_0_perm_indices"; "indices_1"];
    IOp "blocks_5" (OPermT2 1 64) ["alpha_bytes_0"; "blocks_5_perm_alphabits"; "alpha_bit_2"];
    IOp "blocks_5" (OPermT2 1 64) ["blocks_5"; "blocks_1_perm_colours"; "colors_1"];
    IOp "blocks_5" (OPermT2 1 64) ["blocks_5"; "blocks_1_perm_indices"; "indices_1"];
    IOp "blocks_6" (OPermT2 1 64) ["alpha_bytes_0"; "blocks_6_perm_alphabits"; "alpha_bit_3"];
    IOp "blocks_6" (OPermT2 1 64) ["blocks_6"; "blocks_2_perm_colours"; "colors_1"];
    IOp "blocks_6" (OPermT2 1 64) ["blocks_6"; "blocks_2_perm_indices"; "indices_1"];
    IOp "blocks_7" (OPermT2 1 64) ["alpha_bytes_0"; "blocks_7_perm_alphabits"; "alpha_bit_3"];
    IOp "blocks_7" (OPermT2 1 64) ["blocks_7"; "blocks_3_perm_colours"; "colors_1"];
    IOp "blocks_7" (OPermT2 1 64) ["blocks_7"; "blocks_3_perm_indices"; "indices_1"];
    IStore "current_output_ptr" 0 64 "blocks_0";
    IStore "current_output_ptr" 64 64 "blocks_1";
    IStore "current_output_ptr" 128 64 "blocks_2";
    IStore "current_output_ptr" 192 64 "blocks_3";
    IStore "current_output_ptr" 256 64 "blocks_4";
    IStore "current_output_ptr" 320 64 "blocks_5";
    IStore "current_output_ptr" 384 64 "blocks_6";
    IStore "current_output_ptr" 448 64 "blocks_7";
    IAdd "current_output_ptr" 512].

(** src/core/dxt-lossless-transform-bc3/src/transform/standard/untransform/avx512vbmi_64.rs:61-444, fn avx512_untransform_separate_components *)
Definition bc3_std_u_avx512vbmi_64_avx512_untransform_separate_components (c : cfg) (alpha_byte_in_ptr : ptr) (alpha_bit_in_ptr : ptr) (color_byte_in_ptr : ptr) (index_byte_in_ptr : ptr) (current_output_ptr : ptr) (len : Z) (m : mem) : res mem :=
  do _ <- cpu_has (c_avx512f c && c_avx512vbmi c) "avx512f avx512vbmi" ;;
  do _ <- debug_assert (c_debug c) (len mod 16 =? 0) "len . is_multiple_of ( 16 )" ;;
  do aligned_len <- usub len (len mod 512) ;;
  do alpha_byte_end_ptr <- ptr_add m alpha_byte_in_ptr ((aligned_len / 16) * 2) ;;
  do s <- while_lt (c_junk c) 0 bc3_std_u_avx512vbmi_64_avx512_untransform_separate_components_loop1 "alpha_byte_in_ptr" alpha_byte_end_ptr (St [("blocks_0_perm_alphabits", bc3_std_u_avx512vbmi_64_avx512_untransform_separate_components_loop1_blocks_0_perm_alphabits); ("blocks_0_perm_colours", bc3_std_u_avx512vbmi_64_avx512_untransform_separate_components_loop1_blocks_0_perm_colours); ("blocks_0_perm_indices", bc3_std_u_avx512vbmi_64_avx512_untransform_separate_components_loop1_blocks_0_perm_indices); ("blocks_1_perm_alphabits", bc3_std_u_avx512vbmi_64_avx512_untransform_separate_components_loop1_blocks_1_perm_alphabits); ("blocks_1_perm_colours", bc3_std_u_avx512vbmi_64_avx512_untransform_separate_components_loop1_blocks_1_perm_colours); ("blocks_1_perm_indices", bc3_std_u_avx512vbmi_64_avx512_untransform_separate_components_loop1_blocks_1_perm_indices); ("blocks_2_perm_alphabits", bc3_std_u_avx512vbmi_64_avx512_untransform_separate_components_loop1_blocks_2_perm_alphabits); ("blocks_2_perm_colours", bc3_std_u_avx512vbmi_64_avx512_untransform_separate_components_loop1_blocks_2_perm_colours); ("blocks_2_perm_indices", bc3_std_u_avx512vbmi_64_avx512_untransform_separate_components_loop1_blocks_2_perm_indices); ("blocks_3_perm_alphabits", bc3_std_u_avx512vbmi_64_avx512_untransform_separate_components_loop1_blocks_3_perm_alphabits); ("blocks_3_perm_colours", bc3_std_u_avx512vbmi_64_avx512_untransform_separate_components_loop1_blocks_3_perm_colours); ("blocks_3_perm_indices", bc3_std_u_avx512vbmi_64_avx512_untransform_separate_components_loop1_blocks_3_perm_indices); ("blocks_4_perm_alphabits", bc3_std_u_avx512vbmi_64_avx512_untransform_separate_components_loop1_blocks_4_perm_alphabits); ("blocks_5_perm_alphabits", bc3_std_u_avx512vbmi_64_avx512_untransform_separate_components_loop1_blocks_5_perm_alphabits); ("blocks_6_perm_alphabits", bc3_std_u_avx512vbmi_64_avx512_untransform_separate_components_loop1_blocks_6_perm_alphabits); ("blocks_7_perm_alphabits", bc3_std_u_avx512vbmi_64_avx512_untransform_separate_components_loop1_blocks_7_perm_alphabits)] [("alpha_byte_in_ptr", alpha_byte_in_ptr); ("color_byte_in_ptr", color_byte_in_ptr); ("index_byte_in_ptr", index_byte_in_ptr); ("alpha_bit_in_ptr", alpha_bit_in_ptr); ("current_output_ptr", current_output_ptr)] m) ;;
  let m := mm s in
  do alpha_byte_in_ptr <- getp s "alpha_byte_in_ptr" ;;
  do color_byte_in_ptr <- getp s "color_byte_in_ptr" ;;
  do index_byte_in_ptr <- getp s "index_byte_in_ptr" ;;
  do alpha_bit_in_ptr <- getp s "alpha_bit_in_ptr" ;;
  do current_output_ptr <- getp s "current_output_ptr" ;;
  let alpha_byte_in_ptr_u16 := alpha_byte_in_ptr in
  let alpha_bit_in_ptr_u16 := alpha_bit_in_ptr in
  let color_byte_in_ptr_u32 := color_byte_in_ptr in
  let index_byte_in_ptr_u32 := index_byte_in_ptr in
  do d3 <- usub len aligned_len ;;
  do m <- bc3_std_u_portable32_u32_untransform_with_separate_pointers c alpha_byte_in_ptr_u16 alpha_bit_in_ptr_u16 color_byte_in_ptr_u32 index_byte_in_ptr_u32 current_output_ptr d3 m ;;
  Ok m.

(** src/core/dxt-lossless-transform-bc3/src/transform/standard/untransform/avx512vbmi_64.rs:16-35, fn avx512_untransform *)
Definition bc3_std_u_avx512vbmi_64_avx512_untransform (c : cfg) (input_ptr : ptr) (output_ptr : ptr) (len : Z) (m : mem) : res mem :=
  do _ <- cpu_has (c_avx512vbmi c) "avx512vbmi" ;;
  do _ <- debug_assert (c_debug c) (len mod 16 =? 0) "len . is_multiple_of ( 16 )" ;;
  let current_output_ptr := output_ptr in
  let alpha_byte_in_ptr := input_ptr in
  do alpha_bit_in_ptr <- ptr_add m input_ptr ((len / 16) * 2) ;;
  do color_byte_in_ptr <- ptr_add m input_ptr ((len / 16) * 8) ;;
  do index_byte_in_ptr <- ptr_add m input_ptr ((len / 16) * 12) ;;
  do m <- bc3_std_u_avx512vbmi_64_avx512_untransform_separate_components c alpha_byte_in_ptr alpha_bit_in_ptr color_byte_in_ptr index_byte_in_ptr current_output_ptr len m ;;
  Ok m.

(** Constants of the loop at src/core/dxt-lossless-transform-bc3/src/transform/standard/untransform/avx512vbmi_32.rs:133 *)
Definition bc3_std_u_avx512vbmi_32_avx512_untransform_separate_components_32_loop1_blocks_0_perm_alphabits : list byte := [x00; x01; x40; x41; x42; x43; x44; x45; x00; x00; x00; x00; x00; x00; x00; x00; x02; x03; x46; x47; x48; x49; x4a; x4b; x00; x00; x00; x00; x00; x00; x00; x00; x04; x05; x4c; x4d; x4e; x4f; x50; x51; x00; x00; x00; x00; x00; x00; x00; x00; x06; x07; x52; x53; x54; x55; x56; x57; x00; x00; x00; x00; x00; x00; x00; x00].
Definition bc3_std_u_avx512vbmi_32_avx512_untransform_separate_components_32_loop1_blocks_0_perm_colours : list byte := [x00; x01; x02; x03; x04; x05; x06; x07; x40; x41; x42; x43; x00; x00; x00; x00; x10; x11; x12; x13; x14; x15; x16; x17; x44; x45; x46; x47; x00; x00; x00; x00; x20; x21; x22; x23; x24; x25; x26; x27; x48; x49; x4a; x4b; x00; x00; x00; x00; x30; x31; x32; x33; x34; x35; x36; x37; x4c; x4d; x4e; x4f; x00; x00; x00; x00].
Definition bc3_std_u_avx512vbmi_32_avx512_untransform_separate_components_32_loop1_blocks_0_perm_indices : list byte := [x00; x01; x02; x03; x04; x05; x06; x07; x08; x09; x0a; x0b; x40; x41; x42; x43; x10; x11; x12; x13; x14; x15; x16; x17; x18; x19; x1a; x1b; x44; x45; x46; x47; x20; x21; x22; x23; x24; x25; x26; x27; x28; x29; x2a; x2b; x48; x49; x4a; x4b; x30; x31; x32; x33; x34; x35; x36; x37; x38; x39; x3a; x3b; x4c; x4d; x4e; x4f].

(** Loop at src/core/dxt-lossless-transform-bc3/src/transform/standard/untransform/avx512vbmi_32.rs:133. *)
Definition bc3_std_u_avx512vbmi_32_avx512_untransform_separate_components_32_loop1 : list instr :=
  [ILoad "t1" "alpha_byte_in_ptr" 0 16;
    IOp "alpha_bytes_0" (OCastUp 64) ["t1"];
    IAdd "alpha_byte_in_ptr" 8;
    ILoad "t2" "color_byte_in_ptr" 0 16;
    IOp "colors_0" (OCastUp 64) ["t2"];
    IAdd "color_byte_in_ptr" 16;
    ILoad "t3" "index_byte_in_ptr" 0 16;
    IOp "indices_0" (OCastUp 64) ["t3"];
    IAdd "index_byte_in_ptr" 16;
    ILoad "t4" "alpha_bit_in_ptr" 0 32;
    IOp "alpha_bit_0" (OCastUp 64) ["t4"];
    IAdd "alpha_bit_in_ptr" 24;
    IOp "blocks_0" (OPermT2 1 64) ["alpha_bytes_0"; "blocks_0_perm_alphabits"; "alpha_bit_0"];
    IOp "blocks_0" (OPermT2 1 64) ["blocks_0"; "blocks_0_perm_colours"; "colors_0"];
    IOp "blocks_0" (OPermT2 1 64) ["blocks_0"; "blocks_0_perm_indices"; "indices_0"];
    IStore "current_output_ptr" 0 64 "blocks_0";
    IAdd "current_output_ptr" 64].

(** src/core/dxt-lossless-transform-bc3/src/transform/standard/untransform/avx512vbmi_32.rs:63-183, fn avx512_untransform_separate_components_32 *)
Definition bc3_std_u_avx512vbmi_32_avx512_untransform_separate_components_32 (c : cfg) (alpha_byte_in_ptr : ptr) (alpha_bit_in_ptr : ptr) (color_byte_in_ptr : ptr) (index_byte_in_ptr : ptr) (current_output_ptr : ptr) (len : Z) (m : mem) : res mem :=
  do _ <- cpu_has (c_sse2 c && c_avx2 c && c_avx512f c && c_avx512vbmi c) "sse2 avx2 avx512f avx512vbmi" ;;
  do _ <- debug_assert (c_debug c) (len mod 16 =? 0) "len . is_multiple_of ( 16 )" ;;
  do aligned_len <- usub len (len mod 64) ;;
  do alpha_byte_end_ptr <- ptr_add m alpha_byte_in_ptr ((aligned_len / 16) * 2) ;;
  do s <- while_lt (c_junk c) 0 bc3_std_u_avx512vbmi_32_avx512_untransform_separate_components_32_loop1 "alpha_byte_in_ptr" alpha_byte_end_ptr (St [("blocks_0_perm_alphabits", bc3_std_u_avx512vbmi_32_avx512_untransform_separate_components_32_loop1_blocks_0_perm_alphabits); ("blocks_0_perm_colours", bc3_std_u_avx512vbmi_32_avx512_untransform_separate_components_32_loop1_blocks_0_perm_colours); ("blocks_0_perm_indices", bc3_std_u_avx512vbmi_32_avx512_untransform_separate_components_32_loop1_blocks_0_perm_indices)] [("alpha_byte_in_ptr", alpha_byte_in_ptr); ("color_byte_in_ptr", color_byte_in_ptr); ("index_byte_in_ptr", index_byte_in_ptr); ("alpha_bit_in_ptr", alpha_bit_in_ptr); ("current_output_ptr", current_output_ptr)] m) ;;
  let m := mm s in
  do alpha_byte_in_ptr <- getp s "alpha_byte_in_ptr" ;;
  do color_byte_in_ptr <- getp s "color_byte_in_ptr" ;;
  do index_byte_in_ptr <- getp s "index_byte_in_ptr" ;;
  do alpha_bit_in_ptr <- getp s "alpha_bit_in_ptr" ;;
  do current_output_ptr <- getp s "current_output_ptr" ;;
  let alpha_byte_in_ptr_u16 := alpha_byte_in_ptr in
  let alpha_bit_in_ptr_u16 := alpha_bit_in_ptr in
  let color_byte_in_ptr_u32 := color_byte_in_ptr in
  let index_byte_in_ptr_u32 := index_byte_in_ptr in
  do d3 <- usub len aligned_len ;;
  do m <- bc3_std_u_portable32_u32_untransform_with_separate_pointers c alpha_byte_in_ptr_u16 alpha_bit_in_ptr_u16 color_byte_in_ptr_u32 index_byte_in_ptr_u32 current_output_ptr d3 m ;;
  Ok m.

(** src/core/dxt-lossless-transform-bc3/src/transform/standard/untransform/avx512vbmi_32.rs:16-36, fn avx512_untransform_32 *)
Definition bc3_std_u_avx512vbmi_32_avx512_untransform_32 (c : cfg) (input_ptr : ptr) (output_ptr : ptr) (len : Z) (m : mem) : res mem :=
  do _ <- cpu_has (c_avx512vbmi c) "avx512vbmi" ;;
  do _ <- debug_assert (c_debug c) (len mod 16 =? 0) "len . is_multiple_of ( 16 )" ;;
  let current_output_ptr := output_ptr in
  let alpha_byte_in_ptr := input_ptr in
  do alpha_bit_in_ptr <- ptr_add m input_ptr ((len / 16) * 2) ;;
  do color_byte_in_ptr <- ptr_add m input_ptr ((len / 16) * 8) ;;
  do index_byte_in_ptr <- ptr_add m input_ptr ((len / 16) * 12) ;;
  do m <- bc3_std_u_avx512vbmi_32_avx512_untransform_separate_components_32 c alpha_byte_in_ptr alpha_bit_in_ptr color_byte_in_ptr index_byte_in_ptr current_output_ptr len m ;;
  Ok m.

(** Loop at src/core/dxt-lossless-transform-bc3/src/transform/standard/untransform/sse2_64.rs:73. *)
Definition bc3_std_u_sse2_64_u64_untransform_sse2_separate_components_loop1 : list instr :=
  [ILoad "alpha_bytes" "alpha_byte_in_ptr" 0 8;
    IAdd "alpha_byte_in_ptr" 8;
    IOp "t2" (OBytes 0 2) ["alpha_bytes"];
    IStore "current_output_ptr" 0 2 "t2";
    IOp "t5" (OShr 2) ["alpha_bytes"];
    IOp "t6" (OBytes 0 2) ["t5"];
    IStore "current_output_ptr" 16 2 "t6";
    IOp "t9" (OShr 4) ["alpha_bytes"];
    IOp "t10" (OBytes 0 2) ["t9"];
    IStore "current_output_ptr" 32 2 "t10";
    IOp "t13" (OShr 6) ["alpha_bytes"];
    IOp "t14" (OBytes 0 2) ["t13"];
    IStore "current_output_ptr" 48 2 "t14";
    ILoad "alpha_bits_0" "alpha_bit_in_ptr" 0 8;
    IOp "t17" (OBytes 0 2) ["alpha_bits_0"];
    IStore "current_output_ptr" 2 2 "t17";
    IOp "t20" (OShr 2) ["alpha_bits_0"];
    IOp "t21" (OBytes 0 4) ["t20"];
    IStore "current_output_ptr" 4 4 "t21";
    IOp "t24" (OShr 6) ["alpha_bits_0"];
    IOp "t25" (OBytes 0 2) ["t24"];
    IStore "current_output_ptr" 18 2 "t25";
    ILoad "alpha_bits_1" "alpha_bit_in_ptr" 8 8;
    IOp "t28" (OBytes 0 4) ["alpha_bits_1"];
    IStore "current_output_ptr" 20 4 "t28";
    IOp "t31" (OShr 4) ["alpha_bits_1"];
    IOp "t32" (OBytes 0 4) ["t31"];
    IStore "current_output_ptr" 34 4 "t32";
    ILoad "alpha_bits_2" "alpha_bit_in_ptr" 16 8;
    IOp "t35" (OBytes 0 2) ["alpha_bits_2"];
    IStore "current_output_ptr" 38 2 "t35";
    IOp "t37" (OShr 2) ["alpha_bits_2"];
    IStore "current_output_ptr" 50 8 "t37";
    IAdd "alpha_bit_in_ptr" 24;
    ILoad "colors" "color_byte_in_ptr" 0 16;
    ILoad "indices" "index_byte_in_ptr" 0 16;
    IOp "low" (OUnpackLo 4 1) ["colors"; "indices"];
    IOp "high" (OUnpackHi 4 1) ["colors"; "indices"];
    IOp "t39" (OBytes 0 8) ["low"];
    IStore "current_output_ptr" 8 8 "t39";
    IOp "t40" (OBytes 8 8) ["low"];
    IStore "current_output_ptr" 24 8 "t40";
    IOp "t41" (OBytes 0 8) ["high"];
    IStore "current_output_ptr" 40 8 "t41";
    IOp "t42" (OBytes 8 8) ["high"];
    IStore "current_output_ptr" 56 8 "t42";
    IAdd "color_byte_in_ptr" 16;
    IAdd "index_byte_in_ptr" 16;
    IAdd "current_output_ptr" 64].

(** src/core/dxt-lossless-transform-bc3/src/transform/standard/untransform/sse2_64.rs:59-142, fn u64_untransform_sse2_separate_components *)
Definition bc3_std_u_sse2_64_u64_untransform_sse2_separate_components (c : cfg) (alpha_byte_in_ptr : ptr) (alpha_bit_in_ptr : ptr) (color_byte_in_ptr : ptr) (index_byte_in_ptr : ptr) (current_output_ptr : ptr) (len : Z) (m : mem) : res mem :=
  do _ <- cpu_has (c_sse2 c) "sse2" ;;
  do _ <- debug_assert (c_debug c) (len mod 16 =? 0) "len . is_multiple_of ( 16 )" ;;
  do aligned_len <- usub len (len mod 64) ;;
  do (alpha_bit_in_ptr, alpha_byte_in_ptr, color_byte_in_ptr, current_output_ptr, index_byte_in_ptr, m) <- (
    if (0 <? aligned_len) then
      do alpha_byte_end_ptr <- ptr_add m alpha_byte_in_ptr ((((aligned_len / 16) * 2) / 8) * 8) ;;
      do s <- while_lt (c_junk c) 0 bc3_std_u_sse2_64_u64_untransform_sse2_separate_components_loop1 "alpha_byte_in_ptr" alpha_byte_end_ptr (St [] [("alpha_byte_in_ptr", alpha_byte_in_ptr); ("current_output_ptr", current_output_ptr); ("alpha_bit_in_ptr", alpha_bit_in_ptr); ("color_byte_in_ptr", color_byte_in_ptr); ("index_byte_in_ptr", index_byte_in_ptr)] m) ;;
      let m := mm s in
      do alpha_byte_in_ptr <- getp s "alpha_byte_in_ptr" ;;
      do current_output_ptr <- getp s "current_output_ptr" ;;
      do alpha_bit_in_ptr <- getp s "alpha_bit_in_ptr" ;;
      do color_byte_in_ptr <- getp s "color_byte_in_ptr" ;;
      do index_byte_in_ptr <- getp s "index_byte_in_ptr" ;;
      Ok (alpha_bit_in_ptr, alpha_byte_in_ptr, color_byte_in_ptr, current_output_ptr, index_byte_in_ptr, m)
    else
      Ok (alpha_bit_in_ptr, alpha_byte_in_ptr, color_byte_in_ptr, current_output_ptr, index_byte_in_ptr, m)
  ) ;;
  let alpha_byte_in_ptr_u16 := alpha_byte_in_ptr in
  let alpha_bit_in_ptr_u16 := alpha_bit_in_ptr in
  let color_byte_in_ptr_u32 := color_byte_in_ptr in
  let index_byte_in_ptr_u32 := index_byte_in_ptr in
  do d3 <- usub len aligned_len ;;
  do m <- bc3_std_u_portable32_u32_untransform_with_separate_pointers c alpha_byte_in_ptr_u16 alpha_bit_in_ptr_u16 color_byte_in_ptr_u32 index_byte_in_ptr_u32 current_output_ptr d3 m ;;
  Ok m.

(** src/core/dxt-lossless-transform-bc3/src/transform/standard/untransform/sse2_64.rs:16-36, fn u64_untransform_sse2 *)
Definition bc3_std_u_sse2_64_u64_untransform_sse2 (c : cfg) (input_ptr : ptr) (output_ptr : ptr) (len : Z) (m : mem) : res mem :=
  do _ <- cpu_has (c_sse2 c) "sse2" ;;
  do _ <- debug_assert (c_debug c) (len mod 16 =? 0) "len . is_multiple_of ( 16 )" ;;
  let current_output_ptr := output_ptr in
  let alpha_byte_in_ptr := input_ptr in
  do alpha_bit_in_ptr <- ptr_add m input_ptr ((len / 16) * 2) ;;
  do color_byte_in_ptr <- ptr_add m input_ptr ((len / 16) * 8) ;;
  do index_byte_in_ptr <- ptr_add m input_ptr ((len / 16) * 12) ;;
  do m <- bc3_std_u_sse2_64_u64_untransform_sse2_separate_components c alpha_byte_in_ptr alpha_bit_in_ptr color_byte_in_ptr index_byte_in_ptr current_output_ptr len m ;;
  Ok m.

(** Loop at src/core/dxt-lossless-transform-bc3/src/transform/standard/untransform/sse2_32.rs:33. *)
Definition bc3_std_u_sse2_32_u32_untransform_sse2_loop1 : list instr :=
  [ILoad "alpha_bytes" "alpha_byte_in_ptr" 0 4;
    IOp "t2" (OBytes 0 2) ["alpha_bytes"];
    IStore "current_output_ptr" 0 2 "t2";
    IOp "t5" (OShr 2) ["alpha_bytes"];
    IOp "t6" (OBytes 0 2) ["t5"];
    IStore "current_output_ptr" 16 2 "t6";
    ILoad "alpha_bytes" "alpha_byte_in_ptr" 4 4;
    IOp "t9" (OBytes 0 2) ["alpha_bytes"];
    IStore "current_output_ptr" 32 2 "t9";
    IOp "t12" (OShr 2) ["alpha_bytes"];
    IOp "t13" (OBytes 0 2) ["t12"];
    IStore "current_output_ptr" 48 2 "t13";
    IAdd "alpha_byte_in_ptr" 8;
    ILoad "alpha_bits" "alpha_bit_in_ptr" 0 4;
    ILoad "alpha_bits_2" "alpha_bit_in_ptr" 4 4;
    IStore "current_output_ptr" 2 4 "alpha_bits";
    IOp "t17" (OBytes 0 2) ["alpha_bits_2"];
    IStore "current_output_ptr" 6 2 "t17";
    IOp "t20" (OShr 2) ["alpha_bits_2"];
    IOp "t21" (OBytes 0 2) ["t20"];
    IStore "current_output_ptr" 18 2 "t21";
    ILoad "alpha_bits_3" "alpha_bit_in_ptr" 8 4;
    ILoad "alpha_bits_4" "alpha_bit_in_ptr" 12 4;
    IStore "current_output_ptr" 20 4 "alpha_bits_3";
    IStore "current_output_ptr" 34 4 "alpha_bits_4";
    ILoad "alpha_bits_5" "alpha_bit_in_ptr" 16 4;
    ILoad "alpha_bits_6" "alpha_bit_in_ptr" 20 4;
    IOp "t26" (OBytes 0 2) ["alpha_bits_5"];
    IStore "current_output_ptr" 38 2 "t26";
    IOp "t29" (OShr 2) ["alpha_bits_5"];
    IOp "t30" (OBytes 0 2) ["t29"];
    IStore "current_output_ptr" 50 2 "t30";
    IStore "current_output_ptr" 52 4 "alpha_bits_6";
    IAdd "alpha_bit_in_ptr" 24;
    ILoad "colors" "color_byte_in_ptr" 0 16;
    ILoad "indices" "index_byte_in_ptr" 0 16;
    IOp "low" (OUnpackLo 4 1) ["colors"; "indices"];
    IOp "high" (OUnpackHi 4 1) ["colors"; "indices"];
    IOp "t33" (OBytes 0 8) ["low"];
    IStore "current_output_ptr" 8 8 "t33";
    IOp "t34" (OBytes 8 8) ["low"];
    IStore "current_output_ptr" 24 8 "t34";
    IOp "t35" (OBytes 0 8) ["high"];
    IStore "current_output_ptr" 40 8 "t35";
    IOp "t36" (OBytes 8 8) ["high"];
    IStore "current_output_ptr" 56 8 "t36";
    IAdd "color_byte_in_ptr" 16;
    IAdd "index_byte_in_ptr" 16;
    IAdd "current_output_ptr" 64].

(** src/core/dxt-lossless-transform-bc3/src/transform/standard/untransform/sse2_32.rs:16-104, fn u32_untransform_sse2 *)
Definition bc3_std_u_sse2_32_u32_untransform_sse2 (c : cfg) (input_ptr : ptr) (output_ptr : ptr) (len : Z) (m : mem) : res mem :=
  do _ <- cpu_has (c_sse2 c) "sse2" ;;
  do _ <- debug_assert (c_debug c) (len mod 16 =? 0) "len . is_multiple_of ( 16 )" ;;
  do aligned_len <- usub len (len mod 64) ;;
  let current_output_ptr := output_ptr in
  let alpha_byte_in_ptr := input_ptr in
  do alpha_bit_in_ptr <- ptr_add m input_ptr ((len / 16) * 2) ;;
  do color_byte_in_ptr <- ptr_add m input_ptr ((len / 16) * 8) ;;
  do index_byte_in_ptr <- ptr_add m input_ptr ((len / 16) * 12) ;;
  do (alpha_bit_in_ptr, alpha_byte_in_ptr, color_byte_in_ptr, current_output_ptr, index_byte_in_ptr, m) <- (
    if (0 <? aligned_len) then
      do alpha_byte_aligned_end_ptr <- ptr_add m input_ptr ((aligned_len / 16) * 2) ;;
      do s <- while_lt (c_junk c) 0 bc3_std_u_sse2_32_u32_untransform_sse2_loop1 "alpha_byte_in_ptr" alpha_byte_aligned_end_ptr (St [] [("alpha_byte_in_ptr", alpha_byte_in_ptr); ("current_output_ptr", current_output_ptr); ("alpha_bit_in_ptr", alpha_bit_in_ptr); ("color_byte_in_ptr", color_byte_in_ptr); ("index_byte_in_ptr", index_byte_in_ptr)] m) ;;
      let m := mm s in
      do alpha_byte_in_ptr <- getp s "alpha_byte_in_ptr" ;;
      do current_output_ptr <- getp s "current_output_ptr" ;;
      do alpha_bit_in_ptr <- getp s "alpha_bit_in_ptr" ;;
      do color_byte_in_ptr <- getp s "color_byte_in_ptr" ;;
      do index_byte_in_ptr <- getp s "index_byte_in_ptr" ;;
      Ok (alpha_bit_in_ptr, alpha_byte_in_ptr, color_byte_in_ptr, current_output_ptr, index_byte_in_ptr, m)
    else
      Ok (alpha_bit_in_ptr, alpha_byte_in_ptr, color_byte_in_ptr, current_output_ptr, index_byte_in_ptr, m)
  ) ;;
  let alpha_byte_in_ptr_u16 := alpha_byte_in_ptr in
  let alpha_bit_in_ptr_u16 := alpha_bit_in_ptr in
  let color_byte_in_ptr_u32 := color_byte_in_ptr in
  let index_byte_in_ptr_u32 := index_byte_in_ptr in
  do d6 <- usub len aligned_len ;;
  do m <- bc3_std_u_portable32_u32_untransform_with_separate_pointers c alpha_byte_in_ptr_u16 alpha_bit_in_ptr_u16 color_byte_in_ptr_u32 index_byte_in_ptr_u32 current_output_ptr d6 m ;;
  Ok m.

(** Loop at src/core/dxt-lossless-transform-bc3/src/transform/standard/untransform/portable32.rs:59. *)
Definition bc3_std_u_portable32_u32_untransform_v2_loop1 : list instr :=
  [ILoad "alpha_bytes" "alpha_byte_in_ptr" 0 4;
    IAdd "alpha_byte_in_ptr" 4;
    IOp "t1" (OBytes 0 2) ["alpha_bytes"];
    IStore "output_ptr" 0 2 "t1";
    IOp "t2" (OShr 2) ["alpha_bytes"];
    IOp "t3" (OBytes 0 2) ["t2"];
    IStore "output_ptr" 16 2 "t3";
    ILoad "t4" "alpha_bit_in_ptr" 0 2;
    IStore "output_ptr" 2 2 "t4";
    ILoad "t5" "alpha_bit_in_ptr" 2 4;
    IStore "output_ptr" 4 4 "t5";
    ILoad "t6" "alpha_bit_in_ptr" 6 2;
    IStore "output_ptr" 18 2 "t6";
    ILoad "t7" "alpha_bit_in_ptr" 8 4;
    IStore "output_ptr" 20 4 "t7";
    IAdd "alpha_bit_in_ptr" 12;
    ILoad "t8" "color_byte_in_ptr" 0 4;
    IStore "output_ptr" 8 4 "t8";
    ILoad "t9" "color_byte_in_ptr" 4 4;
    IStore "output_ptr" 24 4 "t9";
    IAdd "color_byte_in_ptr" 8;
    ILoad "t10" "index_byte_in_ptr" 0 4;
    IStore "output_ptr" 12 4 "t10";
    ILoad "t11" "index_byte_in_ptr" 4 4;
    IStore "output_ptr" 28 4 "t11";
    IAdd "index_byte_in_ptr" 8;
    IAdd "output_ptr" 32].

(** src/core/dxt-lossless-transform-bc3/src/transform/standard/untransform/portable32.rs:45-105, fn u32_untransform_v2 *)
Definition bc3_std_u_portable32_u32_untransform_v2 (c : cfg) (input_ptr : ptr) (output_ptr : ptr) (len : Z) (m : mem) : res mem :=
  do _ <- debug_assert (c_debug c) (len mod 16 =? 0) "len . is_multiple_of ( 16 )" ;;
  do aligned_len <- usub len (len mod 32) ;;
  let alpha_byte_in_ptr := input_ptr in
  do alpha_bit_in_ptr <- ptr_add m input_ptr ((len / 16) * 2) ;;
  do color_byte_in_ptr <- ptr_add m input_ptr ((len / 16) * 8) ;;
  do index_byte_in_ptr <- ptr_add m input_ptr ((len / 16) * 12) ;;
  do (alpha_bit_in_ptr, alpha_byte_in_ptr, color_byte_in_ptr, index_byte_in_ptr, output_ptr, m) <- (
    if (0 <? aligned_len) then
      do alpha_byte_aligned_end_ptr <- ptr_add m input_ptr ((aligned_len / 16) * 2) ;;
      do s <- while_lt (c_junk c) 0 bc3_std_u_portable32_u32_untransform_v2_loop1 "alpha_byte_in_ptr" alpha_byte_aligned_end_ptr (St [] [("alpha_byte_in_ptr", alpha_byte_in_ptr); ("output_ptr", output_ptr); ("alpha_bit_in_ptr", alpha_bit_in_ptr); ("color_byte_in_ptr", color_byte_in_ptr); ("index_byte_in_ptr", index_byte_in_ptr)] m) ;;
      let m := mm s in
      do alpha_byte_in_ptr <- getp s "alpha_byte_in_ptr" ;;
      do output_ptr <- getp s "output_ptr" ;;
      do alpha_bit_in_ptr <- getp s "alpha_bit_in_ptr" ;;
      do color_byte_in_ptr <- getp s "color_byte_in_ptr" ;;
      do index_byte_in_ptr <- getp s "index_byte_in_ptr" ;;
      Ok (alpha_bit_in_ptr, alpha_byte_in_ptr, color_byte_in_ptr, index_byte_in_ptr, output_ptr, m)
    else
      Ok (alpha_bit_in_ptr, alpha_byte_in_ptr, color_byte_in_ptr, index_byte_in_ptr, output_ptr, m)
  ) ;;
  do d6 <- usub len aligned_len ;;
  do m <- bc3_std_u_portable32_u32_untransform_with_separate_pointers c alpha_byte_in_ptr alpha_bit_in_ptr color_byte_in_ptr index_byte_in_ptr output_ptr d6 m ;;
  Ok m.

(** src/core/dxt-lossless-transform-bc3/src/transform/standard/untransform/mod.rs:20-82, fn untransform_x86 *)
Definition bc3_std_u_untransform_x86 (c : cfg) (input_ptr : ptr) (output_ptr : ptr) (len : Z) (m : mem) : res mem :=
  if negb (c_static c) then
    if has_avx512vbmi c then
      if is_x64 c then
        do m <- bc3_std_u_avx512vbmi_64_avx512_untransform c input_ptr output_ptr len m ;;
        if is_i686 c then
          do m <- bc3_std_u_avx512vbmi_32_avx512_untransform_32 c input_ptr output_ptr len m ;;
          Ok m
        else
          Ok m
      else
        if is_i686 c then
          do m <- bc3_std_u_avx512vbmi_32_avx512_untransform_32 c input_ptr output_ptr len m ;;
          Ok m
        else
          Ok m
    else
      if is_x64 c then
        do m <- bc3_std_u_sse2_64_u64_untransform_sse2 c input_ptr output_ptr len m ;;
        if is_i686 c then
          if has_sse2 c then
            do m <- bc3_std_u_sse2_32_u32_untransform_sse2 c input_ptr output_ptr len m ;;
            Ok m
          else
            do m <- bc3_std_u_portable32_u32_untransform_v2 c input_ptr output_ptr len m ;;
            Ok m
        else
          Ok m
      else
        if is_i686 c then
          if has_sse2 c then
            do m <- bc3_std_u_sse2_32_u32_untransform_sse2 c input_ptr output_ptr len m ;;
            Ok m
          else
            do m <- bc3_std_u_portable32_u32_untransform_v2 c input_ptr output_ptr len m ;;
            Ok m
        else
          Ok m
  else
    if c_avx512vbmi c then
      if is_x64 c then
        do m <- bc3_std_u_avx512vbmi_64_avx512_untransform c input_ptr output_ptr len m ;;
        if is_i686 c then
          do m <- bc3_std_u_avx512vbmi_32_avx512_untransform_32 c input_ptr output_ptr len m ;;
          Ok m
        else
          Ok m
      else
        if is_i686 c then
          do m <- bc3_std_u_avx512vbmi_32_avx512_untransform_32 c input_ptr output_ptr len m ;;
          Ok m
        else
          Ok m
    else
      if is_x64 c then
        do m <- bc3_std_u_sse2_64_u64_untransform_sse2 c input_ptr output_ptr len m ;;
        if is_i686 c then
          if c_sse2 c then
            do m <- bc3_std_u_sse2_32_u32_untransform_sse2 c input_ptr output_ptr len m ;;
            Ok m
          else
            do m <- bc3_std_u_portable32_u32_untransform_v2 c input_ptr output_ptr len m ;;
            Ok m
        else
          Ok m
      else
        if is_i686 c then
          if c_sse2 c then
            do m <- bc3_std_u_sse2_32_u32_untransform_sse2 c input_ptr output_ptr len m ;;
            Ok m
          else
            do m <- bc3_std_u_portable32_u32_untransform_v2 c input_ptr output_ptr len m ;;
            Ok m
        else
          Ok m.

(** src/core/dxt-lossless-transform-bc3/src/transform/standard/untransform/mod.rs:94-106, fn untransform *)
Definition bc3_std_u_untransform (c : cfg) (input_ptr : ptr) (output_ptr : ptr) (len : Z) (m : mem) : res mem :=
  do _ <- debug_assert (c_debug c) (len mod 16 =? 0) "len . is_multiple_of ( 16 )" ;;
  if is_x86 c then
    do m <- bc3_std_u_untransform_x86 c input_ptr output_ptr len m ;;
    Ok m
  else
    do m <- bc3_std_u_portable32_u32_untransform_v2 c input_ptr output_ptr len m ;;
    Ok m.

