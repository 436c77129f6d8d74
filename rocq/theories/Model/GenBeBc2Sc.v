(** Generated by tools/rs2v.py --big from the kernel sources cited below: the same
    sources as Model/Gen*.v, compiled for a big-endian machine that is not an x86.
    Do not edit. Simplifications: usize arithmetic is exact (lengths are below
    isize::MAX), see Model/Kernel.v and Model/BigEndian.v for the machine. *)
From Verif Require Import Base.Bytes Base.Res Model.Color565 Model.Ycc Model.Kernel Model.BigEndian.
Open Scope string_scope.
Open Scope list_scope.
Open Scope Z_scope.

(** Loop at src/core/dxt-lossless-transform-bc2/src/transform/with_split_colour/transform/generic.rs:29. *)
Definition be_bc2_sc_t_generic_transform_with_split_colour_loop1 : list instr :=
  be_body
  [ILoad "alpha" "input_ptr" 0 8;
    ILoad "color0" "input_ptr" 8 2;
    ILoad "color1" "input_ptr" 10 2;
    ILoad "indices" "input_ptr" 12 4;
    IStore "alpha_ptr" 0 8 "alpha";
    IStore "color0_ptr" 0 2 "color0";
    IStore "color1_ptr" 0 2 "color1";
    IStore "indices_ptr" 0 4 "indices";
    IAdd "input_ptr" 16;
    IAdd "alpha_ptr" 8;
    IAdd "color0_ptr" 2;
    IAdd "color1_ptr" 2;
    IAdd "indices_ptr" 4].

(** src/core/dxt-lossless-transform-bc2/src/transform/with_split_colour/transform/generic.rs:12-49, fn transform_with_split_colour *)
Definition be_bc2_sc_t_generic_transform_with_split_colour (c : cfg) (input_ptr : ptr) (alpha_out : ptr) (color0_out : ptr) (color1_out : ptr) (indices_out : ptr) (block_count : Z) (m : mem) : res mem :=
  let alpha_ptr := alpha_out in
  let color0_ptr := color0_out in
  let color1_ptr := color1_out in
  let indices_ptr := indices_out in
  do input_end <- ptr_add m input_ptr (block_count * 16) ;;
  do s <- while_lt (c_junk c) 0 be_bc2_sc_t_generic_transform_with_split_colour_loop1 "input_ptr" input_end (St [] [("input_ptr", input_ptr); ("alpha_ptr", alpha_ptr); ("color0_ptr", color0_ptr); ("color1_ptr", color1_ptr); ("indices_ptr", indices_ptr)] m) ;;
  let m := mm s in
  do input_ptr <- getp s "input_ptr" ;;
  do alpha_ptr <- getp s "alpha_ptr" ;;
  do color0_ptr <- getp s "color0_ptr" ;;
  do color1_ptr <- getp s "color1_ptr" ;;
  do indices_ptr <- getp s "indices_ptr" ;;
  Ok m.

(** src/core/dxt-lossless-transform-bc2/src/transform/with_split_colour/transform/mod.rs:26-57, fn transform_with_split_colour *)
Definition be_bc2_sc_t_transform_with_split_colour (c : cfg) (input_ptr : ptr) (alpha_ptr : ptr) (color0_ptr : ptr) (color1_ptr : ptr) (indices_ptr : ptr) (block_count : Z) (m : mem) : res mem :=
  do m <- be_bc2_sc_t_generic_transform_with_split_colour c input_ptr alpha_ptr color0_ptr color1_ptr indices_ptr block_count m ;;
  Ok m.

(** Loop at src/core/dxt-lossless-transform-bc2/src/transform/with_split_colour/untransform/generic.rs:23. *)
Definition be_bc2_sc_u_generic_untransform_with_split_colour_loop1 : list instr :=
  be_body
  [ILoad "alpha" "alpha_ptr" 0 8;
    ILoad "color0" "color0_ptr" 0 2;
    ILoad "color1" "color1_ptr" 0 2;
    ILoad "indices" "indices_ptr" 0 4;
    IStore "output_ptr" 0 8 "alpha";
    IStore "output_ptr" 8 2 "color0";
    IStore "output_ptr" 10 2 "color1";
    IStore "output_ptr" 12 4 "indices";
    IAdd "alpha_ptr" 8;
    IAdd "color0_ptr" 2;
    IAdd "color1_ptr" 2;
    IAdd "indices_ptr" 4;
    IAdd "output_ptr" 16].

(** src/core/dxt-lossless-transform-bc2/src/transform/with_split_colour/untransform/generic.rs:12-43, fn untransform_with_split_colour *)
Definition be_bc2_sc_u_generic_untransform_with_split_colour (c : cfg) (alpha_ptr : ptr) (color0_ptr : ptr) (color1_ptr : ptr) (indices_ptr : ptr) (output_ptr : ptr) (block_count : Z) (m : mem) : res mem :=
  do alpha_ptr_end <- ptr_add m alpha_ptr (block_count * 8) ;;
  do s <- while_lt (c_junk c) 0 be_bc2_sc_u_generic_untransform_with_split_colour_loop1 "alpha_ptr" alpha_ptr_end (St [] [("alpha_ptr", alpha_ptr); ("color0_ptr", color0_ptr); ("color1_ptr", color1_ptr); ("indices_ptr", indices_ptr); ("output_ptr", output_ptr)] m) ;;
  let m := mm s in
  do alpha_ptr <- getp s "alpha_ptr" ;;
  do color0_ptr <- getp s "color0_ptr" ;;
  do color1_ptr <- getp s "color1_ptr" ;;
  do indices_ptr <- getp s "indices_ptr" ;;
  do output_ptr <- getp s "output_ptr" ;;
  Ok m.

(** src/core/dxt-lossless-transform-bc2/src/transform/with_split_colour/untransform/mod.rs:24-55, fn untransform_with_split_colour *)
Definition be_bc2_sc_u_untransform_with_split_colour (c : cfg) (alpha_ptr : ptr) (color0_ptr : ptr) (color1_ptr : ptr) (indices_ptr : ptr) (output_ptr : ptr) (block_count : Z) (m : mem) : res mem :=
  do m <- be_bc2_sc_u_generic_untransform_with_split_colour c alpha_ptr color0_ptr color1_ptr indices_ptr output_ptr block_count m ;;
  Ok m.

