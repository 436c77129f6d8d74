(** Generated by tools/rs2v.py --big from the kernel sources cited below: the same
    sources as Model/Gen*.v, compiled for a big-endian machine that is not an x86.
    Do not edit. Simplifications: usize arithmetic is exact (lengths are below
    isize::MAX), see Model/Kernel.v and Model/BigEndian.v for the machine. *)
From Verif Require Import Base.Bytes Base.Res Model.Color565 Model.Ycc Model.Kernel Model.BigEndian.
Open Scope string_scope.
Open Scope list_scope.
Open Scope Z_scope.

(** Loop at src/core/dxt-lossless-transform-bc2/src/transform/with_recorrelate/transform/generic.rs:48. *)
Definition be_bc2_rec_t_generic_transform_decorr_loop1 : list instr :=
  be_body
  [ILoad "alpha_data" "input_ptr" 0 8;
    ILoad "color_raw" "input_ptr" 8 4;
    ILoad "index_value" "input_ptr" 12 4;
    IAdd "input_ptr" 16;
    IOp "t1" (OBytes 0 2) ["color_raw"];
    IOp "color0" (OMov) ["t1"];
    IOp "t2" (OShr 2) ["color_raw"];
    IOp "t3" (OBytes 0 2) ["t2"];
    IOp "color1" (OMov) ["t3"];
    IOp "decorr0" (OYcc Scalar Dec V1 V2 V3) ["color0"];
    IOp "decorr1" (OYcc Scalar Dec V1 V2 V3) ["color1"];
    IOp "t4" (OZext 4) ["decorr0"];
    IOp "t5" (OZext 4) ["decorr1"];
    IOp "t6" (OShl 2) ["t5"];
    IOp "decorrelated_colors" (OOr) ["t4"; "t6"];
    IStore "alphas_out" 0 8 "alpha_data";
    IStore "colors_out" 0 4 "decorrelated_colors";
    IStore "indices_out" 0 4 "index_value";
    IAdd "alphas_out" 8;
    IAdd "colors_out" 4;
    IAdd "indices_out" 4].

(** src/core/dxt-lossless-transform-bc2/src/transform/with_recorrelate/transform/generic.rs:40-95, fn transform_decorr *)
Definition be_bc2_rec_t_generic_transform_decorr (c : cfg) (VARIANT : Z) (input_ptr : ptr) (alphas_out : ptr) (colors_out : ptr) (indices_out : ptr) (num_blocks : Z) (m : mem) : res mem :=
  do input_end <- ptr_add m input_ptr (num_blocks * 16) ;;
  do s <- while_lt (c_junk c) VARIANT be_bc2_rec_t_generic_transform_decorr_loop1 "input_ptr" input_end (St [] [("input_ptr", input_ptr); ("alphas_out", alphas_out); ("colors_out", colors_out); ("indices_out", indices_out)] m) ;;
  let m := mm s in
  do input_ptr <- getp s "input_ptr" ;;
  do alphas_out <- getp s "alphas_out" ;;
  do colors_out <- getp s "colors_out" ;;
  do indices_out <- getp s "indices_out" ;;
  Ok m.

(** src/core/dxt-lossless-transform-bc2/src/transform/with_recorrelate/transform/generic.rs:99-107, fn transform_decorr_var1 *)
Definition be_bc2_rec_t_generic_transform_decorr_var1 (c : cfg) (input_ptr : ptr) (alphas_out : ptr) (colors_out : ptr) (indices_out : ptr) (num_blocks : Z) (m : mem) : res mem :=
  do m <- be_bc2_rec_t_generic_transform_decorr c 1 input_ptr alphas_out colors_out indices_out num_blocks m ;;
  Ok m.

(** src/core/dxt-lossless-transform-bc2/src/transform/with_recorrelate/transform/generic.rs:110-118, fn transform_decorr_var2 *)
Definition be_bc2_rec_t_generic_transform_decorr_var2 (c : cfg) (input_ptr : ptr) (alphas_out : ptr) (colors_out : ptr) (indices_out : ptr) (num_blocks : Z) (m : mem) : res mem :=
  do m <- be_bc2_rec_t_generic_transform_decorr c 2 input_ptr alphas_out colors_out indices_out num_blocks m ;;
  Ok m.

(** src/core/dxt-lossless-transform-bc2/src/transform/with_recorrelate/transform/generic.rs:121-129, fn transform_decorr_var3 *)
Definition be_bc2_rec_t_generic_transform_decorr_var3 (c : cfg) (input_ptr : ptr) (alphas_out : ptr) (colors_out : ptr) (indices_out : ptr) (num_blocks : Z) (m : mem) : res mem :=
  do m <- be_bc2_rec_t_generic_transform_decorr c 3 input_ptr alphas_out colors_out indices_out num_blocks m ;;
  Ok m.

(** src/core/dxt-lossless-transform-bc2/src/transform/with_recorrelate/transform/generic.rs:18-38, fn transform_with_decorrelate_generic *)
Definition be_bc2_rec_t_generic_transform_with_decorrelate_generic (c : cfg) (input_ptr : ptr) (alphas_out : ptr) (colors_out : ptr) (indices_out : ptr) (num_blocks : Z) (decorrelation_mode : variant) (m : mem) : res mem :=
  match decorrelation_mode with
  | V1 =>
    do m <- be_bc2_rec_t_generic_transform_decorr_var1 c input_ptr alphas_out colors_out indices_out num_blocks m ;;
    Ok m
  | V2 =>
    do m <- be_bc2_rec_t_generic_transform_decorr_var2 c input_ptr alphas_out colors_out indices_out num_blocks m ;;
    Ok m
  | V3 =>
    do m <- be_bc2_rec_t_generic_transform_decorr_var3 c input_ptr alphas_out colors_out indices_out num_blocks m ;;
    Ok m
  | VNone =>
    do m <- Ub "unreachable_unchecked" ;;
    Ok m
  end.

(** src/core/dxt-lossless-transform-bc2/src/transform/with_recorrelate/transform/mod.rs:20-56, fn transform_with_decorrelate *)
Definition be_bc2_rec_t_transform_with_decorrelate (c : cfg) (input_ptr : ptr) (output_ptr : ptr) (len : Z) (decorrelation_mode : variant) (m : mem) : res mem :=
  do _ <- debug_assert (c_debug c) (len mod 16 =? 0) "len . is_multiple_of ( 16 )" ;;
  let alphas_ptr := output_ptr in
  do colors_ptr <- ptr_add m output_ptr (len / 2) ;;
  do indices_ptr <- ptr_add m output_ptr ((len / 2) + (len / 4)) ;;
  let num_blocks := len / 16 in
  do m <- be_bc2_rec_t_generic_transform_with_decorrelate_generic c input_ptr alphas_ptr colors_ptr indices_ptr num_blocks decorrelation_mode m ;;
  Ok m.

(** Loop at src/core/dxt-lossless-transform-bc2/src/transform/with_recorrelate/untransform/generic.rs:79. *)
Definition be_bc2_rec_u_generic_untransform_recorr_loop1 : list instr :=
  be_body
  [ILoad "alpha_data" "alphas_in" 0 8;
    ILoad "color_raw" "colors_in" 0 4;
    ILoad "index_value" "indices_in" 0 4;
    IAdd "alphas_in" 8;
    IAdd "colors_in" 4;
    IAdd "indices_in" 4;
    IOp "t1" (OBytes 0 2) ["color_raw"];
    IOp "color0" (OMov) ["t1"];
    IOp "t2" (OShr 2) ["color_raw"];
    IOp "t3" (OBytes 0 2) ["t2"];
    IOp "color1" (OMov) ["t3"];
    IOp "recorr_color0" (OYcc Scalar Rec V1 V2 V3) ["color0"];
    IOp "recorr_color1" (OYcc Scalar Rec V1 V2 V3) ["color1"];
    IOp "t4" (OZext 4) ["recorr_color0"];
    IOp "t5" (OZext 4) ["recorr_color1"];
    IOp "t6" (OShl 2) ["t5"];
    IOp "recorrelated_colors" (OOr) ["t4"; "t6"];
    IStore "output_ptr" 0 8 "alpha_data";
    IStore "output_ptr" 8 4 "recorrelated_colors";
    IStore "output_ptr" 12 4 "index_value";
    IAdd "output_ptr" 16].

(** src/core/dxt-lossless-transform-bc2/src/transform/with_recorrelate/untransform/generic.rs:71-121, fn untransform_recorr *)
Definition be_bc2_rec_u_generic_untransform_recorr (c : cfg) (VARIANT : Z) (alphas_in : ptr) (colors_in : ptr) (indices_in : ptr) (output_ptr : ptr) (num_blocks : Z) (m : mem) : res mem :=
  do alphas_end <- ptr_add m alphas_in (num_blocks * 8) ;;
  do s <- while_lt (c_junk c) VARIANT be_bc2_rec_u_generic_untransform_recorr_loop1 "alphas_in" alphas_end (St [] [("alphas_in", alphas_in); ("colors_in", colors_in); ("indices_in", indices_in); ("output_ptr", output_ptr)] m) ;;
  let m := mm s in
  do alphas_in <- getp s "alphas_in" ;;
  do colors_in <- getp s "colors_in" ;;
  do indices_in <- getp s "indices_in" ;;
  do output_ptr <- getp s "output_ptr" ;;
  Ok m.

(** src/core/dxt-lossless-transform-bc2/src/transform/with_recorrelate/untransform/generic.rs:41-49, fn untransform_recorr_var1 *)
Definition be_bc2_rec_u_generic_untransform_recorr_var1 (c : cfg) (alphas_in : ptr) (colors_in : ptr) (indices_in : ptr) (output_ptr : ptr) (num_blocks : Z) (m : mem) : res mem :=
  do m <- be_bc2_rec_u_generic_untransform_recorr c 1 alphas_in colors_in indices_in output_ptr num_blocks m ;;
  Ok m.

(** src/core/dxt-lossless-transform-bc2/src/transform/with_recorrelate/untransform/generic.rs:51-59, fn untransform_recorr_var2 *)
Definition be_bc2_rec_u_generic_untransform_recorr_var2 (c : cfg) (alphas_in : ptr) (colors_in : ptr) (indices_in : ptr) (output_ptr : ptr) (num_blocks : Z) (m : mem) : res mem :=
  do m <- be_bc2_rec_u_generic_untransform_recorr c 2 alphas_in colors_in indices_in output_ptr num_blocks m ;;
  Ok m.

(** src/core/dxt-lossless-transform-bc2/src/transform/with_recorrelate/untransform/generic.rs:61-69, fn untransform_recorr_var3 *)
Definition be_bc2_rec_u_generic_untransform_recorr_var3 (c : cfg) (alphas_in : ptr) (colors_in : ptr) (indices_in : ptr) (output_ptr : ptr) (num_blocks : Z) (m : mem) : res mem :=
  do m <- be_bc2_rec_u_generic_untransform_recorr c 3 alphas_in colors_in indices_in output_ptr num_blocks m ;;
  Ok m.

(** src/core/dxt-lossless-transform-bc2/src/transform/with_recorrelate/untransform/generic.rs:18-38, fn untransform_with_recorrelate_generic *)
Definition be_bc2_rec_u_generic_untransform_with_recorrelate_generic (c : cfg) (alphas_in : ptr) (colors_in : ptr) (indices_in : ptr) (output_ptr : ptr) (num_blocks : Z) (recorrelation_mode : variant) (m : mem) : res mem :=
  match recorrelation_mode with
  | V1 =>
    do m <- be_bc2_rec_u_generic_untransform_recorr_var1 c alphas_in colors_in indices_in output_ptr num_blocks m ;;
    Ok m
  | V2 =>
    do m <- be_bc2_rec_u_generic_untransform_recorr_var2 c alphas_in colors_in indices_in output_ptr num_blocks m ;;
    Ok m
  | V3 =>
    do m <- be_bc2_rec_u_generic_untransform_recorr_var3 c alphas_in colors_in indices_in output_ptr num_blocks m ;;
    Ok m
  | VNone =>
    do m <- Ub "unreachable_unchecked" ;;
    Ok m
  end.

(** src/core/dxt-lossless-transform-bc2/src/transform/with_recorrelate/untransform/mod.rs:23-60, fn untransform_with_recorrelate *)
Definition be_bc2_rec_u_untransform_with_recorrelate (c : cfg) (input_ptr : ptr) (output_ptr : ptr) (len : Z) (recorrelation_mode : variant) (m : mem) : res mem :=
  do _ <- debug_assert (c_debug c) (len mod 16 =? 0) "len . is_multiple_of ( 16 )" ;;
  let alphas_ptr := input_ptr in
  do colors_ptr <- ptr_add m input_ptr (len / 2) ;;
  do indices_ptr <- ptr_add m input_ptr ((len / 2) + (len / 4)) ;;
  let num_blocks := len / 16 in
  do m <- be_bc2_rec_u_generic_untransform_with_recorrelate_generic c alphas_ptr colors_ptr indices_ptr output_ptr num_blocks recorrelation_mode m ;;
  Ok m.

