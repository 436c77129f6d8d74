(** Generated by tools/rs2v.py --big from the kernel sources cited below: the same
    sources as Model/Gen*.v, compiled for a big-endian machine that is not an x86.
    Do not edit. Simplifications: usize arithmetic is exact (lengths are below
    isize::MAX), see Model/Kernel.v and Model/BigEndian.v for the machine. *)
From Verif Require Import Base.Bytes Base.Res Model.Color565 Model.Ycc Model.Kernel Model.BigEndian.
Open Scope string_scope.
Open Scope list_scope.
Open Scope Z_scope.

(** Loop at src/core/dxt-lossless-transform-bc2/src/transform/standard/transform/portable32.rs:40. *)
Definition be_bc2_std_t_portable32_u32_with_separate_pointers_loop1 : list instr :=
  be_body
  [ILoad "alpha_value" "input_ptr" 0 8;
    ILoad "color_value" "input_ptr" 8 4;
    ILoad "index_value" "input_ptr" 12 4;
    IAdd "input_ptr" 16;
    IStore "alphas_ptr" 0 8 "alpha_value";
    IStore "colours_ptr" 0 4 "color_value";
    IStore "indices_ptr" 0 4 "index_value";
    IAdd "alphas_ptr" 8;
    IAdd "colours_ptr" 4;
    IAdd "indices_ptr" 4].

(** src/core/dxt-lossless-transform-bc2/src/transform/standard/transform/portable32.rs:28-56, fn u32_with_separate_pointers *)
Definition be_bc2_std_t_portable32_u32_with_separate_pointers (c : cfg) (input_ptr : ptr) (alphas_ptr : ptr) (colours_ptr : ptr) (indices_ptr : ptr) (len : Z) (m : mem) : res mem :=
  do _ <- debug_assert (c_debug c) (len mod 16 =? 0) "len . is_multiple_of ( 16 )" ;;
  do max_ptr <- ptr_add m input_ptr (len) ;;
  do s <- while_lt (c_junk c) 0 be_bc2_std_t_portable32_u32_with_separate_pointers_loop1 "input_ptr" max_ptr (St [] [("input_ptr", input_ptr); ("alphas_ptr", alphas_ptr); ("colours_ptr", colours_ptr); ("indices_ptr", indices_ptr)] m) ;;
  let m := mm s in
  do input_ptr <- getp s "input_ptr" ;;
  do alphas_ptr <- getp s "alphas_ptr" ;;
  do colours_ptr <- getp s "colours_ptr" ;;
  do indices_ptr <- getp s "indices_ptr" ;;
  Ok m.

(** src/core/dxt-lossless-transform-bc2/src/transform/standard/transform/portable32.rs:6-17, fn u32 *)
Definition be_bc2_std_t_portable32_u32 (c : cfg) (input_ptr : ptr) (output_ptr : ptr) (len : Z) (m : mem) : res mem :=
  do _ <- debug_assert (c_debug c) (len mod 16 =? 0) "len . is_multiple_of ( 16 )" ;;
  let alphas_ptr := output_ptr in
  do colours_ptr <- ptr_add m output_ptr (len / 2) ;;
  do indices_ptr <- ptr_add m output_ptr ((len / 2) + (len / 4)) ;;
  do m <- be_bc2_std_t_portable32_u32_with_separate_pointers c input_ptr alphas_ptr colours_ptr indices_ptr len m ;;
  Ok m.

(** src/core/dxt-lossless-transform-bc2/src/transform/standard/transform/mod.rs:25-37, fn transform *)
Definition be_bc2_std_t_transform (c : cfg) (input_ptr : ptr) (output_ptr : ptr) (len : Z) (m : mem) : res mem :=
  do _ <- debug_assert (c_debug c) (len mod 16 =? 0) "len . is_multiple_of ( 16 )" ;;
  do m <- be_bc2_std_t_portable32_u32 c input_ptr output_ptr len m ;;
  Ok m.

(** Loop at src/core/dxt-lossless-transform-bc2/src/transform/standard/untransform/portable32.rs:38. *)
Definition be_bc2_std_u_portable32_u32_untransform_with_separate_pointers_loop1 : list instr :=
  be_body
  [ILoad "alpha_value" "alphas_ptr" 0 8;
    IAdd "alphas_ptr" 8;
    ILoad "color_value" "colours_ptr" 0 4;
    IAdd "colours_ptr" 4;
    ILoad "index_value" "indices_ptr" 0 4;
    IAdd "indices_ptr" 4;
    IStore "output_ptr" 0 8 "alpha_value";
    IStore "output_ptr" 8 4 "color_value";
    IStore "output_ptr" 12 4 "index_value";
    IAdd "output_ptr" 16].

(** src/core/dxt-lossless-transform-bc2/src/transform/standard/untransform/portable32.rs:26-55, fn u32_untransform_with_separate_pointers *)
Definition be_bc2_std_u_portable32_u32_untransform_with_separate_pointers (c : cfg) (alphas_ptr : ptr) (colours_ptr : ptr) (indices_ptr : ptr) (output_ptr : ptr) (len : Z) (m : mem) : res mem :=
  do _ <- debug_assert (c_debug c) (len mod 16 =? 0) "len . is_multiple_of ( 16 )" ;;
  do max_input <- ptr_add m alphas_ptr (len / 2) ;;
  do s <- while_lt (c_junk c) 0 be_bc2_std_u_portable32_u32_untransform_with_separate_pointers_loop1 "alphas_ptr" max_input (St [] [("alphas_ptr", alphas_ptr); ("colours_ptr", colours_ptr); ("indices_ptr", indices_ptr); ("output_ptr", output_ptr)] m) ;;
  let m := mm s in
  do alphas_ptr <- getp s "alphas_ptr" ;;
  do colours_ptr <- getp s "colours_ptr" ;;
  do indices_ptr <- getp s "indices_ptr" ;;
  do output_ptr <- getp s "output_ptr" ;;
  Ok m.

(** src/core/dxt-lossless-transform-bc2/src/transform/standard/untransform/portable32.rs:8-17, fn u32_untransform *)
Definition be_bc2_std_u_portable32_u32_untransform (c : cfg) (input_ptr : ptr) (output_ptr : ptr) (len : Z) (m : mem) : res mem :=
  do _ <- debug_assert (c_debug c) (len mod 16 =? 0) "len . is_multiple_of ( 16 )" ;;
  let alphas_ptr := input_ptr in
  do colours_ptr <- ptr_add m input_ptr (len / 2) ;;
  do indices_ptr <- ptr_add m colours_ptr (len / 4) ;;
  do m <- be_bc2_std_u_portable32_u32_untransform_with_separate_pointers c alphas_ptr colours_ptr indices_ptr output_ptr len m ;;
  Ok m.

(** src/core/dxt-lossless-transform-bc2/src/transform/standard/untransform/mod.rs:65-77, fn untransform *)
Definition be_bc2_std_u_untransform (c : cfg) (input_ptr : ptr) (output_ptr : ptr) (len : Z) (m : mem) : res mem :=
  do _ <- debug_assert (c_debug c) (len mod 16 =? 0) "len . is_multiple_of ( 16 )" ;;
  do m <- be_bc2_std_u_portable32_u32_untransform c input_ptr output_ptr len m ;;
  Ok m.

