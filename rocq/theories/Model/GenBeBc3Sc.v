(** Generated by tools/rs2v.py --big from the kernel sources cited below: the same
    sources as Model/Gen*.v, compiled for a big-endian machine that is not an x86.
    Do not edit. Simplifications: usize arithmetic is exact (lengths are below
    isize::MAX), see Model/Kernel.v and Model/BigEndian.v for the machine. *)
From Verif Require Import Base.Bytes Base.Res Model.Color565 Model.Ycc Model.Kernel Model.BigEndian.
Open Scope string_scope.
Open Scope list_scope.
Open Scope Z_scope.

(** Loop at src/core/dxt-lossless-transform-bc3/src/transform/with_split_colour/transform/generic.rs:25. *)
Definition be_bc3_sc_t_generic_transform_with_split_colour_loop1 : list instr :=
  be_body
  [ILoad "alpha_endpoints" "input_ptr" 0 2;
    ILoad "alpha_indices_part1" "input_ptr" 2 2;
    ILoad "alpha_indices_part2" "input_ptr" 4 4;
    ILoad "color0" "input_ptr" 8 2;
    ILoad "color1" "input_ptr" 10 2;
    ILoad "color_indices" "input_ptr" 12 4;
    IStore "alpha_endpoints_out" 0 2 "alpha_endpoints";
    IStore "alpha_indices_out" 0 2 "alpha_indices_part1";
    IStore "alpha_indices_out" 2 4 "alpha_indices_part2";
    IStore "color0_out" 0 2 "color0";
    IStore "color1_out" 0 2 "color1";
    IStore "color_indices_out" 0 4 "color_indices";
    IAdd "input_ptr" 16;
    IAdd "alpha_endpoints_out" 2;
    IAdd "alpha_indices_out" 6;
    IAdd "color0_out" 2;
    IAdd "color1_out" 2;
    IAdd "color_indices_out" 4].

(** src/core/dxt-lossless-transform-bc3/src/transform/with_split_colour/transform/generic.rs:15-61, fn transform_with_split_colour *)
Definition be_bc3_sc_t_generic_transform_with_split_colour (c : cfg) (input_ptr : ptr) (alpha_endpoints_out : ptr) (alpha_indices_out : ptr) (color0_out : ptr) (color1_out : ptr) (color_indices_out : ptr) (block_count : Z) (m : mem) : res mem :=
  do input_end <- ptr_add m input_ptr (block_count * 16) ;;
  do s <- while_lt (c_junk c) 0 be_bc3_sc_t_generic_transform_with_split_colour_loop1 "input_ptr" input_end (St [] [("input_ptr", input_ptr); ("alpha_endpoints_out", alpha_endpoints_out); ("alpha_indices_out", alpha_indices_out); ("color0_out", color0_out); ("color1_out", color1_out); ("color_indices_out", color_indices_out)] m) ;;
  let m := mm s in
  do input_ptr <- getp s "input_ptr" ;;
  do alpha_endpoints_out <- getp s "alpha_endpoints_out" ;;
  do alpha_indices_out <- getp s "alpha_indices_out" ;;
  do color0_out <- getp s "color0_out" ;;
  do color1_out <- getp s "color1_out" ;;
  do color_indices_out <- getp s "color_indices_out" ;;
  Ok m.

(** src/core/dxt-lossless-transform-bc3/src/transform/with_split_colour/transform/mod.rs:20-38, fn transform_with_split_colour *)
Definition be_bc3_sc_t_transform_with_split_colour (c : cfg) (input_ptr : ptr) (alpha_endpoints_out : ptr) (alpha_indices_out : ptr) (color0_out : ptr) (color1_out : ptr) (color_indices_out : ptr) (block_count : Z) (m : mem) : res mem :=
  do m <- be_bc3_sc_t_generic_transform_with_split_colour c input_ptr alpha_endpoints_out alpha_indices_out color0_out color1_out color_indices_out block_count m ;;
  Ok m.

(** Loop at src/core/dxt-lossless-transform-bc3/src/transform/with_split_colour/untransform/generic.rs:27. *)
Definition be_bc3_sc_u_generic_untransform_with_split_colour_loop1 : list instr :=
  be_body
  [ILoad "alpha_endpoints" "alpha_endpoints_ptr" 0 2;
    ILoad "alpha_indices_part1" "alpha_indices_ptr" 0 2;
    ILoad "alpha_indices_part2" "alpha_indices_ptr" 2 4;
    ILoad "color0" "color0_ptr" 0 2;
    ILoad "color1" "color1_ptr" 0 2;
    ILoad "color_indices" "color_indices_ptr" 0 4;
    IStore "output_ptr" 0 2 "alpha_endpoints";
    IStore "output_ptr" 2 2 "alpha_indices_part1";
    IStore "output_ptr" 4 4 "alpha_indices_part2";
    IStore "output_ptr" 8 2 "color0";
    IStore "output_ptr" 10 2 "color1";
    IStore "output_ptr" 12 4 "color_indices";
    IAdd "alpha_endpoints_ptr" 2;
    IAdd "alpha_indices_ptr" 6;
    IAdd "color0_ptr" 2;
    IAdd "color1_ptr" 2;
    IAdd "color_indices_ptr" 4;
    IAdd "output_ptr" 16].

(** src/core/dxt-lossless-transform-bc3/src/transform/with_split_colour/untransform/generic.rs:15-63, fn untransform_with_split_colour *)
Definition be_bc3_sc_u_generic_untransform_with_split_colour (c : cfg) (alpha_endpoints_ptr : ptr) (alpha_indices_ptr : ptr) (color0_ptr : ptr) (color1_ptr : ptr) (color_indices_ptr : ptr) (output_ptr : ptr) (block_count : Z) (m : mem) : res mem :=
  do alpha_endpoints_ptr_end <- ptr_add m alpha_endpoints_ptr (block_count * 2) ;;
  do s <- while_lt (c_junk c) 0 be_bc3_sc_u_generic_untransform_with_split_colour_loop1 "alpha_endpoints_ptr" alpha_endpoints_ptr_end (St [] [("alpha_endpoints_ptr", alpha_endpoints_ptr); ("alpha_indices_ptr", alpha_indices_ptr); ("color0_ptr", color0_ptr); ("color1_ptr", color1_ptr); ("color_indices_ptr", color_indices_ptr); ("output_ptr", output_ptr)] m) ;;
  let m := mm s in
  do alpha_endpoints_ptr <- getp s "alpha_endpoints_ptr" ;;
  do alpha_indices_ptr <- getp s "alpha_indices_ptr" ;;
  do color0_ptr <- getp s "color0_ptr" ;;
  do color1_ptr <- getp s "color1_ptr" ;;
  do color_indices_ptr <- getp s "color_indices_ptr" ;;
  do output_ptr <- getp s "output_ptr" ;;
  Ok m.

(** src/core/dxt-lossless-transform-bc3/src/transform/with_split_colour/untransform/mod.rs:20-38, fn untransform_with_split_colour *)
Definition be_bc3_sc_u_untransform_with_split_colour (c : cfg) (alpha_endpoints_out : ptr) (alpha_indices_out : ptr) (color0_out : ptr) (color1_out : ptr) (color_indices_out : ptr) (output_ptr : ptr) (block_count : Z) (m : mem) : res mem :=
  do m <- be_bc3_sc_u_generic_untransform_with_split_colour c alpha_endpoints_out alpha_indices_out color0_out color1_out color_indices_out output_ptr block_count m ;;
  Ok m.

