(** Generated by tools/rs2v.py --big from the kernel sources cited below: the same
    sources as Model/Gen*.v, compiled for a big-endian machine that is not an x86.
    Do not edit. Simplifications: usize arithmetic is exact (lengths are below
    isize::MAX), see Model/Kernel.v and Model/BigEndian.v for the machine. *)
From Verif Require Import Base.Bytes Base.Res Model.Color565 Model.Ycc Model.Kernel Model.BigEndian.
Open Scope string_scope.
Open Scope list_scope.
Open Scope Z_scope.

(** Loop at src/core/dxt-lossless-transform-bc3/src/transform/standard/transform/portable32.rs:46. *)
Definition be_bc3_std_t_portable32_u32_with_separate_endpoints_loop1 : list instr :=
  be_body
  [ILoad "t1" "input_ptr" 0 2;
    IStore "alpha_byte_out_ptr" 0 2 "t1";
    IAdd "alpha_byte_out_ptr" 2;
    ILoad "t2" "input_ptr" 2 2;
    IStore "alpha_bit_out_ptr" 0 2 "t2";
    ILoad "t3" "input_ptr" 4 4;
    IStore "alpha_bit_out_ptr" 2 4 "t3";
    IAdd "alpha_bit_out_ptr" 6;
    ILoad "t4" "input_ptr" 8 4;
    IStore "color_byte_out_ptr" 0 4 "t4";
    IAdd "color_byte_out_ptr" 4;
    ILoad "t5" "input_ptr" 12 4;
    IStore "index_byte_out_ptr" 0 4 "t5";
    IAdd "index_byte_out_ptr" 4;
    IAdd "input_ptr" 16].

(** src/core/dxt-lossless-transform-bc3/src/transform/standard/transform/portable32.rs:38-65, fn u32_with_separate_endpoints *)
Definition be_bc3_std_t_portable32_u32_with_separate_endpoints (c : cfg) (input_ptr : ptr) (alpha_byte_out_ptr : ptr) (alpha_bit_out_ptr : ptr) (color_byte_out_ptr : ptr) (index_byte_out_ptr : ptr) (alpha_byte_end_ptr : ptr) (m : mem) : res mem :=
  do s <- while_lt (c_junk c) 0 be_bc3_std_t_portable32_u32_with_separate_endpoints_loop1 "alpha_byte_out_ptr" alpha_byte_end_ptr (St [] [("input_ptr", input_ptr); ("alpha_byte_out_ptr", alpha_byte_out_ptr); ("alpha_bit_out_ptr", alpha_bit_out_ptr); ("color_byte_out_ptr", color_byte_out_ptr); ("index_byte_out_ptr", index_byte_out_ptr)] m) ;;
  let m := mm s in
  do input_ptr <- getp s "input_ptr" ;;
  do alpha_byte_out_ptr <- getp s "alpha_byte_out_ptr" ;;
  do alpha_bit_out_ptr <- getp s "alpha_bit_out_ptr" ;;
  do color_byte_out_ptr <- getp s "color_byte_out_ptr" ;;
  do index_byte_out_ptr <- getp s "index_byte_out_ptr" ;;
  Ok m.

(** src/core/dxt-lossless-transform-bc3/src/transform/standard/transform/portable32.rs:10-26, fn u32 *)
Definition be_bc3_std_t_portable32_u32 (c : cfg) (input_ptr : ptr) (output_ptr : ptr) (len : Z) (m : mem) : res mem :=
  do _ <- debug_assert (c_debug c) (len mod 16 =? 0) "len . is_multiple_of ( 16 )" ;;
  let alpha_byte_out_ptr := output_ptr in
  do alpha_bit_out_ptr <- ptr_add m output_ptr ((len / 16) * 2) ;;
  do color_byte_out_ptr <- ptr_add m output_ptr ((len / 16) * 8) ;;
  do index_byte_out_ptr <- ptr_add m output_ptr ((len / 16) * 12) ;;
  do m <- be_bc3_std_t_portable32_u32_with_separate_endpoints c input_ptr alpha_byte_out_ptr alpha_bit_out_ptr color_byte_out_ptr index_byte_out_ptr alpha_bit_out_ptr m ;;
  Ok m.

(** src/core/dxt-lossless-transform-bc3/src/transform/standard/transform/mod.rs:53-65, fn transform *)
Definition be_bc3_std_t_transform (c : cfg) (input_ptr : ptr) (output_ptr : ptr) (len : Z) (m : mem) : res mem :=
  do _ <- debug_assert (c_debug c) (len mod 16 =? 0) "len . is_multiple_of ( 16 )" ;;
  do m <- be_bc3_std_t_portable32_u32 c input_ptr output_ptr len m ;;
  Ok m.

(** Loop at src/core/dxt-lossless-transform-bc3/src/transform/standard/untransform/portable32.rs:18. *)
Definition be_bc3_std_u_portable32_u32_untransform_with_separate_pointers_loop1 : list instr :=
  be_body
  [ILoad "t1" "alpha_byte_in_ptr" 0 2;
    IStore "current_output_ptr" 0 2 "t1";
    IAdd "alpha_byte_in_ptr" 2;
    ILoad "t2" "alpha_bit_in_ptr" 0 2;
    IStore "current_output_ptr" 2 2 "t2";
    ILoad "t3" "alpha_bit_in_ptr" 2 4;
    IStore "current_output_ptr" 4 4 "t3";
    IAdd "alpha_bit_in_ptr" 6;
    ILoad "t4" "color_byte_in_ptr" 0 4;
    IStore "current_output_ptr" 8 4 "t4";
    IAdd "color_byte_in_ptr" 4;
    ILoad "t5" "index_byte_in_ptr" 0 4;
    IStore "current_output_ptr" 12 4 "t5";
    IAdd "index_byte_in_ptr" 4;
    IAdd "current_output_ptr" 16].

(** src/core/dxt-lossless-transform-bc3/src/transform/standard/untransform/portable32.rs:9-37, fn u32_untransform_with_separate_pointers *)
Definition be_bc3_std_u_portable32_u32_untransform_with_separate_pointers (c : cfg) (alpha_byte_in_ptr : ptr) (alpha_bit_in_ptr : ptr) (color_byte_in_ptr : ptr) (index_byte_in_ptr : ptr) (current_output_ptr : ptr) (len : Z) (m : mem) : res mem :=
  do alpha_byte_end_ptr <- ptr_add m alpha_byte_in_ptr ((len / 16) * 2) ;;
  do s <- while_lt (c_junk c) 0 be_bc3_std_u_portable32_u32_untransform_with_separate_pointers_loop1 "alpha_byte_in_ptr" alpha_byte_end_ptr (St [] [("alpha_byte_in_ptr", alpha_byte_in_ptr); ("current_output_ptr", current_output_ptr); ("alpha_bit_in_ptr", alpha_bit_in_ptr); ("color_byte_in_ptr", color_byte_in_ptr); ("index_byte_in_ptr", index_byte_in_ptr)] m) ;;
  let m := mm s in
  do alpha_byte_in_ptr <- getp s "alpha_byte_in_ptr" ;;
  do current_output_ptr <- getp s "current_output_ptr" ;;
  do alpha_bit_in_ptr <- getp s "alpha_bit_in_ptr" ;;
  do color_byte_in_ptr <- getp s "color_byte_in_ptr" ;;
  do index_byte_in_ptr <- getp s "index_byte_in_ptr" ;;
  Ok m.

(** Loop at src/core/dxt-lossless-transform-bc3/src/transform/standard/untransform/portable32.rs:59. *)
Definition be_bc3_std_u_portable32_u32_untransform_v2_loop1 : list instr :=
  be_body
  [ILoad "alpha_bytes" "alpha_byte_in_ptr" 0 4;
    IAdd "alpha_byte_in_ptr" 4;
    IOp "t1" (OShr 2) ["alpha_bytes"];
    IOp "t2" (OBytes 0 2) ["t1"];
    IStore "output_ptr" 0 2 "t2";
    IOp "t3" (OBytes 0 2) ["alpha_bytes"];
    IStore "output_ptr" 16 2 "t3";
    ILoad "t4" "alpha_bit_in_ptr" 0 2;
    IStore "output_ptr" 2 2 "t4";
    ILoad "t5" "alpha_bit_in_ptr" 2 4;
    IStore "output_ptr" 4 4 "t5";
    ILoad "t6" "alpha_bit_in_ptr" 6 2;
    IStore "output_ptr" 18 2 "t6";
    ILoad "t7" "alpha_bit_in_ptr" 8 4;
    IStore "output_ptr" 20 4 "t7";
    IAdd "alpha_bit_in_ptr" 12;
    ILoad "t8" "color_byte_in_ptr" 0 4;
    IStore "output_ptr" 8 4 "t8";
    ILoad "t9" "color_byte_in_ptr" 4 4;
    IStore "output_ptr" 24 4 "t9";
    IAdd "color_byte_in_ptr" 8;
    ILoad "t10" "index_byte_in_ptr" 0 4;
    IStore "output_ptr" 12 4 "t10";
    ILoad "t11" "index_byte_in_ptr" 4 4;
    IStore "output_ptr" 28 4 "t11";
    IAdd "index_byte_in_ptr" 8;
    IAdd "output_ptr" 32].

(** src/core/dxt-lossless-transform-bc3/src/transform/standard/untransform/portable32.rs:45-105, fn u32_untransform_v2 *)
Definition be_bc3_std_u_portable32_u32_untransform_v2 (c : cfg) (input_ptr : ptr) (output_ptr : ptr) (len : Z) (m : mem) : res mem :=
  do _ <- debug_assert (c_debug c) (len mod 16 =? 0) "len . is_multiple_of ( 16 )" ;;
  do aligned_len <- usub len (len mod 32) ;;
  let alpha_byte_in_ptr := input_ptr in
  do alpha_bit_in_ptr <- ptr_add m input_ptr ((len / 16) * 2) ;;
  do color_byte_in_ptr <- ptr_add m input_ptr ((len / 16) * 8) ;;
  do index_byte_in_ptr <- ptr_add m input_ptr ((len / 16) * 12) ;;
  do (alpha_bit_in_ptr, alpha_byte_in_ptr, color_byte_in_ptr, index_byte_in_ptr, output_ptr, m) <- (
    if (0 <? aligned_len) then
      do alpha_byte_aligned_end_ptr <- ptr_add m input_ptr ((aligned_len / 16) * 2) ;;
      do s <- while_lt (c_junk c) 0 be_bc3_std_u_portable32_u32_untransform_v2_loop1 "alpha_byte_in_ptr" alpha_byte_aligned_end_ptr (St [] [("alpha_byte_in_ptr", alpha_byte_in_ptr); ("output_ptr", output_ptr); ("alpha_bit_in_ptr", alpha_bit_in_ptr); ("color_byte_in_ptr", color_byte_in_ptr); ("index_byte_in_ptr", index_byte_in_ptr)] m) ;;
      let m := mm s in
      do alpha_byte_in_ptr <- getp s "alpha_byte_in_ptr" ;;
      do output_ptr <- getp s "output_ptr" ;;
      do alpha_bit_in_ptr <- getp s "alpha_bit_in_ptr" ;;
      do color_byte_in_ptr <- getp s "color_byte_in_ptr" ;;
      do index_byte_in_ptr <- getp s "index_byte_in_ptr" ;;
      Ok (alpha_bit_in_ptr, alpha_byte_in_ptr, color_byte_in_ptr, index_byte_in_ptr, output_ptr, m)
    else
      Ok (alpha_bit_in_ptr, alpha_byte_in_ptr, color_byte_in_ptr, index_byte_in_ptr, output_ptr, m)
  ) ;;
  do d6 <- usub len aligned_len ;;
  do m <- be_bc3_std_u_portable32_u32_untransform_with_separate_pointers c alpha_byte_in_ptr alpha_bit_in_ptr color_byte_in_ptr index_byte_in_ptr output_ptr d6 m ;;
  Ok m.

(** src/core/dxt-lossless-transform-bc3/src/transform/standard/untransform/mod.rs:94-106, fn untransform *)
Definition be_bc3_std_u_untransform (c : cfg) (input_ptr : ptr) (output_ptr : ptr) (len : Z) (m : mem) : res mem :=
  do _ <- debug_assert (c_debug c) (len mod 16 =? 0) "len . is_multiple_of ( 16 )" ;;
  do m <- be_bc3_std_u_portable32_u32_untransform_v2 c input_ptr output_ptr len m ;;
  Ok m.

