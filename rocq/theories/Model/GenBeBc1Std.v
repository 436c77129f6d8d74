(** Generated by tools/rs2v.py --big from the kernel sources cited below: the same
    sources as Model/Gen*.v, compiled for a big-endian machine that is not an x86.
    Do not edit. Simplifications: usize arithmetic is exact (lengths are below
    isize::MAX), see Model/Kernel.v and Model/BigEndian.v for the machine. *)
From Verif Require Import Base.Bytes Base.Res Model.Color565 Model.Ycc Model.Kernel Model.BigEndian.
Open Scope string_scope.
Open Scope list_scope.
Open Scope Z_scope.

(** Loop at src/core/dxt-lossless-transform-bc1/src/transform/standard/transform/portable32.rs:34. *)
Definition be_bc1_std_t_portable32_u32_with_separate_pointers_loop1 : list instr :=
  be_body
  [ILoad "color_value" "input_ptr" 0 4;
    ILoad "index_value" "input_ptr" 4 4;
    IAdd "input_ptr" 8;
    IStore "colours_out" 0 4 "color_value";
    IStore "indices_out" 0 4 "index_value";
    IAdd "colours_out" 4;
    IAdd "indices_out" 4].

(** src/core/dxt-lossless-transform-bc1/src/transform/standard/transform/portable32.rs:25-47, fn u32_with_separate_pointers *)
Definition be_bc1_std_t_portable32_u32_with_separate_pointers (c : cfg) (input_ptr : ptr) (colours_out : ptr) (indices_out : ptr) (len : Z) (m : mem) : res mem :=
  do _ <- debug_assert (c_debug c) (len mod 8 =? 0) "len . is_multiple_of ( 8 )" ;;
  do max_ptr <- ptr_add m input_ptr (len) ;;
  do s <- while_lt (c_junk c) 0 be_bc1_std_t_portable32_u32_with_separate_pointers_loop1 "input_ptr" max_ptr (St [] [("input_ptr", input_ptr); ("colours_out", colours_out); ("indices_out", indices_out)] m) ;;
  let m := mm s in
  do input_ptr <- getp s "input_ptr" ;;
  do colours_out <- getp s "colours_out" ;;
  do indices_out <- getp s "indices_out" ;;
  Ok m.

(** src/core/dxt-lossless-transform-bc1/src/transform/standard/transform/portable32.rs:8-16, fn u32 *)
Definition be_bc1_std_t_portable32_u32 (c : cfg) (input_ptr : ptr) (output_ptr : ptr) (len : Z) (m : mem) : res mem :=
  do _ <- debug_assert (c_debug c) (len mod 8 =? 0) "len . is_multiple_of ( 8 )" ;;
  let colours_ptr := output_ptr in
  do indices_ptr <- ptr_add m output_ptr (len / 2) ;;
  do m <- be_bc1_std_t_portable32_u32_with_separate_pointers c input_ptr colours_ptr indices_ptr len m ;;
  Ok m.

(** src/core/dxt-lossless-transform-bc1/src/transform/standard/transform/mod.rs:25-37, fn transform *)
Definition be_bc1_std_t_transform (c : cfg) (input_ptr : ptr) (output_ptr : ptr) (len : Z) (m : mem) : res mem :=
  do _ <- debug_assert (c_debug c) (len mod 8 =? 0) "len . is_multiple_of ( 8 )" ;;
  do m <- be_bc1_std_t_portable32_u32 c input_ptr output_ptr len m ;;
  Ok m.

(** Loop at src/core/dxt-lossless-transform-bc1/src/transform/standard/untransform/portable32.rs:36. *)
Definition be_bc1_std_u_portable32_u32_untransform_with_separate_pointers_loop1 : list instr :=
  be_body
  [ILoad "index_value" "indices_ptr" 0 4;
    IAdd "indices_ptr" 4;
    ILoad "color_value" "colours_ptr" 0 4;
    IAdd "colours_ptr" 4;
    IStore "output_ptr" 0 4 "color_value";
    IStore "output_ptr" 4 4 "index_value";
    IAdd "output_ptr" 8].

(** src/core/dxt-lossless-transform-bc1/src/transform/standard/untransform/portable32.rs:25-51, fn u32_untransform_with_separate_pointers *)
Definition be_bc1_std_u_portable32_u32_untransform_with_separate_pointers (c : cfg) (colours_ptr : ptr) (indices_ptr : ptr) (output_ptr : ptr) (len : Z) (m : mem) : res mem :=
  do _ <- debug_assert (c_debug c) (len mod 8 =? 0) "len . is_multiple_of ( 8 )" ;;
  do max_indices_ptr <- ptr_add m indices_ptr ((len / 8) * 4) ;;
  do s <- while_lt (c_junk c) 0 be_bc1_std_u_portable32_u32_untransform_with_separate_pointers_loop1 "indices_ptr" max_indices_ptr (St [] [("indices_ptr", indices_ptr); ("colours_ptr", colours_ptr); ("output_ptr", output_ptr)] m) ;;
  let m := mm s in
  do indices_ptr <- getp s "indices_ptr" ;;
  do colours_ptr <- getp s "colours_ptr" ;;
  do output_ptr <- getp s "output_ptr" ;;
  Ok m.

(** src/core/dxt-lossless-transform-bc1/src/transform/standard/untransform/portable32.rs:8-16, fn u32_untransform *)
Definition be_bc1_std_u_portable32_u32_untransform (c : cfg) (input_ptr : ptr) (output_ptr : ptr) (len : Z) (m : mem) : res mem :=
  do _ <- debug_assert (c_debug c) (len mod 8 =? 0) "len . is_multiple_of ( 8 )" ;;
  let colours_ptr := input_ptr in
  do indices_ptr <- ptr_add m input_ptr (len / 2) ;;
  do m <- be_bc1_std_u_portable32_u32_untransform_with_separate_pointers c colours_ptr indices_ptr output_ptr len m ;;
  Ok m.

(** src/core/dxt-lossless-transform-bc1/src/transform/standard/untransform/mod.rs:68-80, fn untransform *)
Definition be_bc1_std_u_untransform (c : cfg) (input_ptr : ptr) (output_ptr : ptr) (len : Z) (m : mem) : res mem :=
  do _ <- debug_assert (c_debug c) (len mod 8 =? 0) "len . is_multiple_of ( 8 )" ;;
  do m <- be_bc1_std_u_portable32_u32_untransform c input_ptr output_ptr len m ;;
  Ok m.

(** src/core/dxt-lossless-transform-bc1/src/transform/standard/transform/mod.rs:56-73, fn transform_with_separate_pointers *)
Definition be_bc1_std_t_transform_with_separate_pointers (c : cfg) (input_ptr : ptr) (colors_ptr : ptr) (indices_ptr : ptr) (len : Z) (m : mem) : res mem :=
  do _ <- debug_assert (c_debug c) (len mod 8 =? 0) "len . is_multiple_of ( 8 )" ;;
  do m <- be_bc1_std_t_portable32_u32_with_separate_pointers c input_ptr colors_ptr indices_ptr len m ;;
  Ok m.

(** src/core/dxt-lossless-transform-bc1/src/transform/standard/untransform/mod.rs:174-191, fn untransform_with_separate_pointers *)
Definition be_bc1_std_u_untransform_with_separate_pointers (c : cfg) (colors_ptr : ptr) (indices_ptr : ptr) (output_ptr : ptr) (len : Z) (m : mem) : res mem :=
  do _ <- debug_assert (c_debug c) (len mod 8 =? 0) "len % 8 == 0" ;;
  do m <- be_bc1_std_u_portable32_u32_untransform_with_separate_pointers c colors_ptr indices_ptr output_ptr len m ;;
  Ok m.

