(** Generated by tools/rs2v.py --big from the kernel sources cited below: the same
    sources as Model/Gen*.v, compiled for a big-endian machine that is not an x86.
    Do not edit. Simplifications: usize arithmetic is exact (lengths are below
    isize::MAX), see Model/Kernel.v and Model/BigEndian.v for the machine. *)
From Verif Require Import Base.Bytes Base.Res Model.Color565 Model.Ycc Model.Kernel Model.BigEndian.
Open Scope string_scope.
Open Scope list_scope.
Open Scope Z_scope.

(** Loop at src/core/dxt-lossless-transform-bc2/src/transform/with_split_colour_and_recorr/transform/generic.rs:35. *)
Definition be_bc2_scr_t_generic_transform_with_split_colour_and_recorr_loop1 : list instr :=
  be_body
  [ILoad "alpha" "input_ptr" 0 8;
    ILoad "color0_raw" "input_ptr" 8 2;
    ILoad "color1_raw" "input_ptr" 10 2;
    ILoad "indices" "input_ptr" 12 4;
    IOp "color0" (OMov) ["color0_raw"];
    IOp "color1" (OMov) ["color1_raw"];
    IOp "decorr_color0" (OYcc Scalar Dec V1 V2 V3) ["color0"];
    IOp "decorr_color1" (OYcc Scalar Dec V1 V2 V3) ["color1"];
    IStore "alpha_ptr" 0 8 "alpha";
    IStore "color0_ptr" 0 2 "decorr_color0";
    IStore "color1_ptr" 0 2 "decorr_color1";
    IStore "indices_ptr" 0 4 "indices";
    IAdd "input_ptr" 16;
    IAdd "alpha_ptr" 8;
    IAdd "color0_ptr" 2;
    IAdd "color1_ptr" 2;
    IAdd "indices_ptr" 4].

(** src/core/dxt-lossless-transform-bc2/src/transform/with_split_colour_and_recorr/transform/generic.rs:17-73, fn transform_with_split_colour_and_recorr *)
Definition be_bc2_scr_t_generic_transform_with_split_colour_and_recorr (c : cfg) (input_ptr : ptr) (alpha_out : ptr) (color0_out : ptr) (color1_out : ptr) (indices_out : ptr) (block_count : Z) (decorrelation_mode : variant) (m : mem) : res mem :=
  let alpha_ptr := alpha_out in
  let color0_ptr := color0_out in
  let color1_ptr := color1_out in
  let indices_ptr := indices_out in
  do input_end <- ptr_add m input_ptr (block_count * 16) ;;
  do s <- while_lt (c_junk c) (vnum decorrelation_mode) be_bc2_scr_t_generic_transform_with_split_colour_and_recorr_loop1 "input_ptr" input_end (St [] [("input_ptr", input_ptr); ("alpha_ptr", alpha_ptr); ("color0_ptr", color0_ptr); ("color1_ptr", color1_ptr); ("indices_ptr", indices_ptr)] m) ;;
  let m := mm s in
  do input_ptr <- getp s "input_ptr" ;;
  do alpha_ptr <- getp s "alpha_ptr" ;;
  do color0_ptr <- getp s "color0_ptr" ;;
  do color1_ptr <- getp s "color1_ptr" ;;
  do indices_ptr <- getp s "indices_ptr" ;;
  Ok m.

(** src/core/dxt-lossless-transform-bc2/src/transform/with_split_colour_and_recorr/transform/mod.rs:31-65, fn transform_with_split_colour_and_recorr *)
Definition be_bc2_scr_t_transform_with_split_colour_and_recorr (c : cfg) (input_ptr : ptr) (alpha_ptr : ptr) (color0_ptr : ptr) (color1_ptr : ptr) (indices_ptr : ptr) (block_count : Z) (decorrelation_mode : variant) (m : mem) : res mem :=
  do m <- be_bc2_scr_t_generic_transform_with_split_colour_and_recorr c input_ptr alpha_ptr color0_ptr color1_ptr indices_ptr block_count decorrelation_mode m ;;
  Ok m.

(** Loop at src/core/dxt-lossless-transform-bc2/src/transform/with_split_colour_and_recorr/untransform/generic.rs:140. *)
Definition be_bc2_scr_u_generic_untransform_split_colour_recorr_loop1 : list instr :=
  be_body
  [ILoad "alpha" "alpha_ptr" 0 8;
    ILoad "color0_raw" "color0_ptr" 0 2;
    ILoad "color1_raw" "color1_ptr" 0 2;
    ILoad "indices" "indices_ptr" 0 4;
    IOp "color0" (OMov) ["color0_raw"];
    IOp "color1" (OMov) ["color1_raw"];
    IOp "recorr_color0" (OYcc Scalar Rec V1 V2 V3) ["color0"];
    IOp "recorr_color1" (OYcc Scalar Rec V1 V2 V3) ["color1"];
    IStore "output_ptr" 0 8 "alpha";
    IStore "output_ptr" 8 2 "recorr_color0";
    IStore "output_ptr" 10 2 "recorr_color1";
    IStore "output_ptr" 12 4 "indices";
    IAdd "alpha_ptr" 8;
    IAdd "color0_ptr" 2;
    IAdd "color1_ptr" 2;
    IAdd "indices_ptr" 4;
    IAdd "output_ptr" 16].

(** src/core/dxt-lossless-transform-bc2/src/transform/with_split_colour_and_recorr/untransform/generic.rs:129-178, fn untransform_split_colour_recorr *)
Definition be_bc2_scr_u_generic_untransform_split_colour_recorr (c : cfg) (VARIANT : Z) (alpha_ptr : ptr) (color0_ptr : ptr) (color1_ptr : ptr) (indices_ptr : ptr) (output_ptr : ptr) (block_count : Z) (m : mem) : res mem :=
  do alpha_ptr_end <- ptr_add m alpha_ptr (block_count * 8) ;;
  do s <- while_lt (c_junk c) VARIANT be_bc2_scr_u_generic_untransform_split_colour_recorr_loop1 "alpha_ptr" alpha_ptr_end (St [] [("alpha_ptr", alpha_ptr); ("color0_ptr", color0_ptr); ("color1_ptr", color1_ptr); ("indices_ptr", indices_ptr); ("output_ptr", output_ptr)] m) ;;
  let m := mm s in
  do alpha_ptr <- getp s "alpha_ptr" ;;
  do color0_ptr <- getp s "color0_ptr" ;;
  do color1_ptr <- getp s "color1_ptr" ;;
  do indices_ptr <- getp s "indices_ptr" ;;
  do output_ptr <- getp s "output_ptr" ;;
  Ok m.

(** src/core/dxt-lossless-transform-bc2/src/transform/with_split_colour_and_recorr/untransform/generic.rs:62-78, fn untransform_split_colour_recorr_var1 *)
Definition be_bc2_scr_u_generic_untransform_split_colour_recorr_var1 (c : cfg) (alpha_ptr : ptr) (color0_ptr : ptr) (color1_ptr : ptr) (indices_ptr : ptr) (output_ptr : ptr) (block_count : Z) (m : mem) : res mem :=
  do m <- be_bc2_scr_u_generic_untransform_split_colour_recorr c 1 alpha_ptr color0_ptr color1_ptr indices_ptr output_ptr block_count m ;;
  Ok m.

(** src/core/dxt-lossless-transform-bc2/src/transform/with_split_colour_and_recorr/untransform/generic.rs:80-96, fn untransform_split_colour_recorr_var2 *)
Definition be_bc2_scr_u_generic_untransform_split_colour_recorr_var2 (c : cfg) (alpha_ptr : ptr) (color0_ptr : ptr) (color1_ptr : ptr) (indices_ptr : ptr) (output_ptr : ptr) (block_count : Z) (m : mem) : res mem :=
  do m <- be_bc2_scr_u_generic_untransform_split_colour_recorr c 2 alpha_ptr color0_ptr color1_ptr indices_ptr output_ptr block_count m ;;
  Ok m.

(** src/core/dxt-lossless-transform-bc2/src/transform/with_split_colour_and_recorr/untransform/generic.rs:98-114, fn untransform_split_colour_recorr_var3 *)
Definition be_bc2_scr_u_generic_untransform_split_colour_recorr_var3 (c : cfg) (alpha_ptr : ptr) (color0_ptr : ptr) (color1_ptr : ptr) (indices_ptr : ptr) (output_ptr : ptr) (block_count : Z) (m : mem) : res mem :=
  do m <- be_bc2_scr_u_generic_untransform_split_colour_recorr c 3 alpha_ptr color0_ptr color1_ptr indices_ptr output_ptr block_count m ;;
  Ok m.

(** src/core/dxt-lossless-transform-bc2/src/transform/with_split_colour_and_recorr/untransform/generic.rs:17-59, fn untransform_with_split_colour_and_recorr *)
Definition be_bc2_scr_u_generic_untransform_with_split_colour_and_recorr (c : cfg) (alpha_ptr : ptr) (color0_ptr : ptr) (color1_ptr : ptr) (indices_ptr : ptr) (output_ptr : ptr) (block_count : Z) (recorrelation_mode : variant) (m : mem) : res mem :=
  match recorrelation_mode with
  | V1 =>
    do m <- be_bc2_scr_u_generic_untransform_split_colour_recorr_var1 c alpha_ptr color0_ptr color1_ptr indices_ptr output_ptr block_count m ;;
    Ok m
  | V2 =>
    do m <- be_bc2_scr_u_generic_untransform_split_colour_recorr_var2 c alpha_ptr color0_ptr color1_ptr indices_ptr output_ptr block_count m ;;
    Ok m
  | V3 =>
    do m <- be_bc2_scr_u_generic_untransform_split_colour_recorr_var3 c alpha_ptr color0_ptr color1_ptr indices_ptr output_ptr block_count m ;;
    Ok m
  | VNone =>
    do m <- Ub "unreachable_unchecked" ;;
    Ok m
  end.

(** src/core/dxt-lossless-transform-bc2/src/transform/with_split_colour_and_recorr/untransform/mod.rs:29-63, fn untransform_with_split_colour_and_recorr *)
Definition be_bc2_scr_u_untransform_with_split_colour_and_recorr (c : cfg) (alpha_ptr : ptr) (color0_ptr : ptr) (color1_ptr : ptr) (indices_ptr : ptr) (output_ptr : ptr) (block_count : Z) (recorrelation_mode : variant) (m : mem) : res mem :=
  do m <- be_bc2_scr_u_generic_untransform_with_split_colour_and_recorr c alpha_ptr color0_ptr color1_ptr indices_ptr output_ptr block_count recorrelation_mode m ;;
  Ok m.

