(** Generated by tools/rs2v.py --big from the kernel sources cited below: the same
    sources as Model/Gen*.v, compiled for a big-endian machine that is not an x86.
    Do not edit. Simplifications: usize arithmetic is exact (lengths are below
    isize::MAX), see Model/Kernel.v and Model/BigEndian.v for the machine. *)
From Verif Require Import Base.Bytes Base.Res Model.Color565 Model.Ycc Model.Kernel Model.BigEndian.
Open Scope string_scope.
Open Scope list_scope.
Open Scope Z_scope.

(** Loop at src/core/dxt-lossless-transform-bc3/src/transform/with_split_alphas/transform/generic.rs:26. *)
Definition be_bc3_sa_t_generic_transform_with_split_alphas_loop1 : list instr :=
  be_body
  [ILoad "alpha0" "input_ptr" 0 1;
    ILoad "alpha1" "input_ptr" 1 1;
    ILoad "alpha_indices_part1" "input_ptr" 2 2;
    ILoad "alpha_indices_part2" "input_ptr" 4 4;
    ILoad "colors" "input_ptr" 8 4;
    ILoad "color_indices" "input_ptr" 12 4;
    IStore "alpha0_out" 0 1 "alpha0";
    IStore "alpha1_out" 0 1 "alpha1";
    IStore "alpha_indices_out" 0 2 "alpha_indices_part1";
    IStore "alpha_indices_out" 2 4 "alpha_indices_part2";
    IStore "colors_out" 0 4 "colors";
    IStore "color_indices_out" 0 4 "color_indices";
    IAdd "input_ptr" 16;
    IAdd "alpha0_out" 1;
    IAdd "alpha1_out" 1;
    IAdd "alpha_indices_out" 6;
    IAdd "colors_out" 4;
    IAdd "color_indices_out" 4].

(** src/core/dxt-lossless-transform-bc3/src/transform/with_split_alphas/transform/generic.rs:15-60, fn transform_with_split_alphas *)
Definition be_bc3_sa_t_generic_transform_with_split_alphas (c : cfg) (input_ptr : ptr) (alpha0_out : ptr) (alpha1_out : ptr) (alpha_indices_out : ptr) (colors_out : ptr) (color_indices_out : ptr) (block_count : Z) (m : mem) : res mem :=
  do input_end <- ptr_add m input_ptr (block_count * 16) ;;
  do s <- while_lt (c_junk c) 0 be_bc3_sa_t_generic_transform_with_split_alphas_loop1 "input_ptr" input_end (St [] [("input_ptr", input_ptr); ("alpha0_out", alpha0_out); ("alpha1_out", alpha1_out); ("alpha_indices_out", alpha_indices_out); ("colors_out", colors_out); ("color_indices_out", color_indices_out)] m) ;;
  let m := mm s in
  do input_ptr <- getp s "input_ptr" ;;
  do alpha0_out <- getp s "alpha0_out" ;;
  do alpha1_out <- getp s "alpha1_out" ;;
  do alpha_indices_out <- getp s "alpha_indices_out" ;;
  do colors_out <- getp s "colors_out" ;;
  do color_indices_out <- getp s "color_indices_out" ;;
  Ok m.

(** src/core/dxt-lossless-transform-bc3/src/transform/with_split_alphas/transform/mod.rs:107-141, fn transform_with_split_alphas *)
Definition be_bc3_sa_t_transform_with_split_alphas (c : cfg) (input_ptr : ptr) (alpha0_out : ptr) (alpha1_out : ptr) (alpha_indices_out : ptr) (colors_out : ptr) (color_indices_out : ptr) (block_count : Z) (m : mem) : res mem :=
  do m <- be_bc3_sa_t_generic_transform_with_split_alphas c input_ptr alpha0_out alpha1_out alpha_indices_out colors_out color_indices_out block_count m ;;
  Ok m.

(** Loop at src/core/dxt-lossless-transform-bc3/src/transform/with_split_alphas/untransform/generic.rs:27. *)
Definition be_bc3_sa_u_generic_untransform_with_split_alphas_loop1 : list instr :=
  be_body
  [ILoad "alpha0" "alpha0_ptr" 0 1;
    ILoad "alpha1" "alpha1_ptr" 0 1;
    ILoad "alpha_indices_part1" "alpha_indices_ptr" 0 2;
    ILoad "alpha_indices_part2" "alpha_indices_ptr" 2 4;
    ILoad "colors" "colors_ptr" 0 4;
    ILoad "color_indices" "color_indices_ptr" 0 4;
    IStore "output_ptr" 0 1 "alpha0";
    IStore "output_ptr" 1 1 "alpha1";
    IStore "output_ptr" 2 2 "alpha_indices_part1";
    IStore "output_ptr" 4 4 "alpha_indices_part2";
    IStore "output_ptr" 8 4 "colors";
    IStore "output_ptr" 12 4 "color_indices";
    IAdd "alpha0_ptr" 1;
    IAdd "alpha1_ptr" 1;
    IAdd "alpha_indices_ptr" 6;
    IAdd "colors_ptr" 4;
    IAdd "color_indices_ptr" 4;
    IAdd "output_ptr" 16].

(** src/core/dxt-lossless-transform-bc3/src/transform/with_split_alphas/untransform/generic.rs:15-58, fn untransform_with_split_alphas *)
Definition be_bc3_sa_u_generic_untransform_with_split_alphas (c : cfg) (alpha0_ptr : ptr) (alpha1_ptr : ptr) (alpha_indices_ptr : ptr) (colors_ptr : ptr) (color_indices_ptr : ptr) (output_ptr : ptr) (block_count : Z) (m : mem) : res mem :=
  do alpha0_ptr_end <- ptr_add m alpha0_ptr (block_count) ;;
  do s <- while_lt (c_junk c) 0 be_bc3_sa_u_generic_untransform_with_split_alphas_loop1 "alpha0_ptr" alpha0_ptr_end (St [] [("alpha0_ptr", alpha0_ptr); ("alpha1_ptr", alpha1_ptr); ("alpha_indices_ptr", alpha_indices_ptr); ("colors_ptr", colors_ptr); ("color_indices_ptr", color_indices_ptr); ("output_ptr", output_ptr)] m) ;;
  let m := mm s in
  do alpha0_ptr <- getp s "alpha0_ptr" ;;
  do alpha1_ptr <- getp s "alpha1_ptr" ;;
  do alpha_indices_ptr <- getp s "alpha_indices_ptr" ;;
  do colors_ptr <- getp s "colors_ptr" ;;
  do color_indices_ptr <- getp s "color_indices_ptr" ;;
  do output_ptr <- getp s "output_ptr" ;;
  Ok m.

(** src/core/dxt-lossless-transform-bc3/src/transform/with_split_alphas/untransform/mod.rs:58-92, fn untransform_with_split_alphas *)
Definition be_bc3_sa_u_untransform_with_split_alphas (c : cfg) (alpha0_out : ptr) (alpha1_out : ptr) (alpha_indices_out : ptr) (colors_out : ptr) (color_indices_out : ptr) (output_ptr : ptr) (block_count : Z) (m : mem) : res mem :=
  do m <- be_bc3_sa_u_generic_untransform_with_split_alphas c alpha0_out alpha1_out alpha_indices_out colors_out color_indices_out output_ptr block_count m ;;
  Ok m.

