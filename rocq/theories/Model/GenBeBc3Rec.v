(** Generated by tools/rs2v.py --big from the kernel sources cited below: the same
    sources as Model/Gen*.v, compiled for a big-endian machine that is not an x86.
    Do not edit. Simplifications: usize arithmetic is exact (lengths are below
    isize::MAX), see Model/Kernel.v and Model/BigEndian.v for the machine. *)
From Verif Require Import Base.Bytes Base.Res Model.Color565 Model.Ycc Model.Kernel Model.BigEndian.
Open Scope string_scope.
Open Scope list_scope.
Open Scope Z_scope.

(** Loop at src/core/dxt-lossless-transform-bc3/src/transform/with_recorrelate/transform/generic.rs:66. *)
Definition be_bc3_rec_t_generic_transform_decorr_loop1 : list instr :=
  be_body
  [ILoad "alpha_endpoints" "input_ptr" 0 2;
    ILoad "alpha_indices_1" "input_ptr" 2 2;
    ILoad "alpha_indices_2" "input_ptr" 4 4;
    ILoad "color_raw" "input_ptr" 8 4;
    ILoad "color_indices" "input_ptr" 12 4;
    IAdd "input_ptr" 16;
    IOp "t1" (OBytes 0 2) ["color_raw"];
    IOp "color0" (OMov) ["t1"];
    IOp "t2" (OShr 2) ["color_raw"];
    IOp "t3" (OBytes 0 2) ["t2"];
    IOp "color1" (OMov) ["t3"];
    IOp "decorr0" (OYcc Scalar Dec V1 V2 V3) ["color0"];
    IOp "decorr1" (OYcc Scalar Dec V1 V2 V3) ["color1"];
    IOp "t4" (OZext 4) ["decorr0"];
    IOp "t5" (OZext 4) ["decorr1"];
    IOp "t6" (OShl 2) ["t5"];
    IOp "decorrelated_colors" (OOr) ["t4"; "t6"];
    IStore "alpha_endpoints_out" 0 2 "alpha_endpoints";
    IStore "alpha_indices_out" 0 2 "alpha_indices_1";
    IStore "alpha_indices_out" 2 4 "alpha_indices_2";
    IStore "colors_out" 0 4 "decorrelated_colors";
    IStore "color_indices_out" 0 4 "color_indices";
    IAdd "alpha_endpoints_out" 2;
    IAdd "alpha_indices_out" 6;
    IAdd "colors_out" 4;
    IAdd "color_indices_out" 4].

(** src/core/dxt-lossless-transform-bc3/src/transform/with_recorrelate/transform/generic.rs:57-120, fn transform_decorr *)
Definition be_bc3_rec_t_generic_transform_decorr (c : cfg) (VARIANT : Z) (input_ptr : ptr) (alpha_endpoints_out : ptr) (alpha_indices_out : ptr) (colors_out : ptr) (color_indices_out : ptr) (num_blocks : Z) (m : mem) : res mem :=
  do input_end <- ptr_add m input_ptr (num_blocks * 16) ;;
  do s <- while_lt (c_junk c) VARIANT be_bc3_rec_t_generic_transform_decorr_loop1 "input_ptr" input_end (St [] [("input_ptr", input_ptr); ("alpha_endpoints_out", alpha_endpoints_out); ("alpha_indices_out", alpha_indices_out); ("colors_out", colors_out); ("color_indices_out", color_indices_out)] m) ;;
  let m := mm s in
  do input_ptr <- getp s "input_ptr" ;;
  do alpha_endpoints_out <- getp s "alpha_endpoints_out" ;;
  do alpha_indices_out <- getp s "alpha_indices_out" ;;
  do colors_out <- getp s "colors_out" ;;
  do color_indices_out <- getp s "color_indices_out" ;;
  Ok m.

(** src/core/dxt-lossless-transform-bc3/src/transform/with_recorrelate/transform/generic.rs:124-140, fn transform_decorr_var1 *)
Definition be_bc3_rec_t_generic_transform_decorr_var1 (c : cfg) (input_ptr : ptr) (alpha_endpoints_out : ptr) (alpha_indices_out : ptr) (colors_out : ptr) (color_indices_out : ptr) (num_blocks : Z) (m : mem) : res mem :=
  do m <- be_bc3_rec_t_generic_transform_decorr c 1 input_ptr alpha_endpoints_out alpha_indices_out colors_out color_indices_out num_blocks m ;;
  Ok m.

(** src/core/dxt-lossless-transform-bc3/src/transform/with_recorrelate/transform/generic.rs:143-159, fn transform_decorr_var2 *)
Definition be_bc3_rec_t_generic_transform_decorr_var2 (c : cfg) (input_ptr : ptr) (alpha_endpoints_out : ptr) (alpha_indices_out : ptr) (colors_out : ptr) (color_indices_out : ptr) (num_blocks : Z) (m : mem) : res mem :=
  do m <- be_bc3_rec_t_generic_transform_decorr c 2 input_ptr alpha_endpoints_out alpha_indices_out colors_out color_indices_out num_blocks m ;;
  Ok m.

(** src/core/dxt-lossless-transform-bc3/src/transform/with_recorrelate/transform/generic.rs:162-178, fn transform_decorr_var3 *)
Definition be_bc3_rec_t_generic_transform_decorr_var3 (c : cfg) (input_ptr : ptr) (alpha_endpoints_out : ptr) (alpha_indices_out : ptr) (colors_out : ptr) (color_indices_out : ptr) (num_blocks : Z) (m : mem) : res mem :=
  do m <- be_bc3_rec_t_generic_transform_decorr c 3 input_ptr alpha_endpoints_out alpha_indices_out colors_out color_indices_out num_blocks m ;;
  Ok m.

(** src/core/dxt-lossless-transform-bc3/src/transform/with_recorrelate/transform/generic.rs:19-55, fn transform_with_decorrelate_generic *)
Definition be_bc3_rec_t_generic_transform_with_decorrelate_generic (c : cfg) (input_ptr : ptr) (alpha_endpoints_out : ptr) (alpha_indices_out : ptr) (colors_out : ptr) (color_indices_out : ptr) (num_blocks : Z) (decorrelation_mode : variant) (m : mem) : res mem :=
  match decorrelation_mode with
  | V1 =>
    do m <- be_bc3_rec_t_generic_transform_decorr_var1 c input_ptr alpha_endpoints_out alpha_indices_out colors_out color_indices_out num_blocks m ;;
    Ok m
  | V2 =>
    do m <- be_bc3_rec_t_generic_transform_decorr_var2 c input_ptr alpha_endpoints_out alpha_indices_out colors_out color_indices_out num_blocks m ;;
    Ok m
  | V3 =>
    do m <- be_bc3_rec_t_generic_transform_decorr_var3 c input_ptr alpha_endpoints_out alpha_indices_out colors_out color_indices_out num_blocks m ;;
    Ok m
  | VNone =>
    do m <- Ub "unreachable_unchecked" ;;
    Ok m
  end.

(** src/core/dxt-lossless-transform-bc3/src/transform/with_recorrelate/transform/mod.rs:18-58, fn transform_with_decorrelate *)
Definition be_bc3_rec_t_transform_with_decorrelate (c : cfg) (input_ptr : ptr) (output_ptr : ptr) (len : Z) (decorrelation_mode : variant) (m : mem) : res mem :=
  do _ <- debug_assert (c_debug c) (len mod 16 =? 0) "len . is_multiple_of ( 16 )" ;;
  let alpha_endpoints_ptr := output_ptr in
  do alpha_indices_ptr <- ptr_add m output_ptr (len / 8) ;;
  do colors_ptr <- ptr_add m output_ptr (len / 2) ;;
  do color_indices_ptr <- ptr_add m output_ptr ((len / 2) + (len / 4)) ;;
  let num_blocks := len / 16 in
  do m <- be_bc3_rec_t_generic_transform_with_decorrelate_generic c input_ptr alpha_endpoints_ptr alpha_indices_ptr colors_ptr color_indices_ptr num_blocks decorrelation_mode m ;;
  Ok m.

(** Loop at src/core/dxt-lossless-transform-bc3/src/transform/with_recorrelate/untransform/generic.rs:127. *)
Definition be_bc3_rec_u_generic_untransform_recorr_loop1 : list instr :=
  be_body
  [ILoad "alpha_endpoints" "alpha_endpoints_in" 0 2;
    ILoad "alpha_indices_1" "alpha_indices_in" 0 2;
    ILoad "alpha_indices_2" "alpha_indices_in" 2 4;
    ILoad "color_raw" "colors_in" 0 4;
    ILoad "color_indices" "color_indices_in" 0 4;
    IAdd "alpha_endpoints_in" 2;
    IAdd "alpha_indices_in" 6;
    IAdd "colors_in" 4;
    IAdd "color_indices_in" 4;
    IOp "t1" (OBytes 0 2) ["color_raw"];
    IOp "color0" (OMov) ["t1"];
    IOp "t2" (OShr 2) ["color_raw"];
    IOp "t3" (OBytes 0 2) ["t2"];
    IOp "color1" (OMov) ["t3"];
    IOp "recorr_color0" (OYcc Scalar Rec V1 V2 V3) ["color0"];
    IOp "recorr_color1" (OYcc Scalar Rec V1 V2 V3) ["color1"];
    IOp "t4" (OZext 4) ["recorr_color0"];
    IOp "t5" (OZext 4) ["recorr_color1"];
    IOp "t6" (OShl 2) ["t5"];
    IOp "recorrelated_colors" (OOr) ["t4"; "t6"];
    IStore "output_ptr" 0 2 "alpha_endpoints";
    IStore "output_ptr" 2 2 "alpha_indices_1";
    IStore "output_ptr" 4 4 "alpha_indices_2";
    IStore "output_ptr" 8 4 "recorrelated_colors";
    IStore "output_ptr" 12 4 "color_indices";
    IAdd "output_ptr" 16].

(** src/core/dxt-lossless-transform-bc3/src/transform/with_recorrelate/untransform/generic.rs:118-174, fn untransform_recorr *)
Definition be_bc3_rec_u_generic_untransform_recorr (c : cfg) (VARIANT : Z) (alpha_endpoints_in : ptr) (alpha_indices_in : ptr) (colors_in : ptr) (color_indices_in : ptr) (output_ptr : ptr) (num_blocks : Z) (m : mem) : res mem :=
  do alpha_endpoints_end <- ptr_add m alpha_endpoints_in (num_blocks * 2) ;;
  do s <- while_lt (c_junk c) VARIANT be_bc3_rec_u_generic_untransform_recorr_loop1 "alpha_endpoints_in" alpha_endpoints_end (St [] [("alpha_endpoints_in", alpha_endpoints_in); ("alpha_indices_in", alpha_indices_in); ("colors_in", colors_in); ("color_indices_in", color_indices_in); ("output_ptr", output_ptr)] m) ;;
  let m := mm s in
  do alpha_endpoints_in <- getp s "alpha_endpoints_in" ;;
  do alpha_indices_in <- getp s "alpha_indices_in" ;;
  do colors_in <- getp s "colors_in" ;;
  do color_indices_in <- getp s "color_indices_in" ;;
  do output_ptr <- getp s "output_ptr" ;;
  Ok m.

(** src/core/dxt-lossless-transform-bc3/src/transform/with_recorrelate/untransform/generic.rs:64-80, fn untransform_recorr_var1 *)
Definition be_bc3_rec_u_generic_untransform_recorr_var1 (c : cfg) (alpha_endpoints_in : ptr) (alpha_indices_in : ptr) (colors_in : ptr) (color_indices_in : ptr) (output_ptr : ptr) (num_blocks : Z) (m : mem) : res mem :=
  do m <- be_bc3_rec_u_generic_untransform_recorr c 1 alpha_endpoints_in alpha_indices_in colors_in color_indices_in output_ptr num_blocks m ;;
  Ok m.

(** src/core/dxt-lossless-transform-bc3/src/transform/with_recorrelate/untransform/generic.rs:82-98, fn untransform_recorr_var2 *)
Definition be_bc3_rec_u_generic_untransform_recorr_var2 (c : cfg) (alpha_endpoints_in : ptr) (alpha_indices_in : ptr) (colors_in : ptr) (color_indices_in : ptr) (output_ptr : ptr) (num_blocks : Z) (m : mem) : res mem :=
  do m <- be_bc3_rec_u_generic_untransform_recorr c 2 alpha_endpoints_in alpha_indices_in colors_in color_indices_in output_ptr num_blocks m ;;
  Ok m.

(** src/core/dxt-lossless-transform-bc3/src/transform/with_recorrelate/untransform/generic.rs:100-116, fn untransform_recorr_var3 *)
Definition be_bc3_rec_u_generic_untransform_recorr_var3 (c : cfg) (alpha_endpoints_in : ptr) (alpha_indices_in : ptr) (colors_in : ptr) (color_indices_in : ptr) (output_ptr : ptr) (num_blocks : Z) (m : mem) : res mem :=
  do m <- be_bc3_rec_u_generic_untransform_recorr c 3 alpha_endpoints_in alpha_indices_in colors_in color_indices_in output_ptr num_blocks m ;;
  Ok m.

(** src/core/dxt-lossless-transform-bc3/src/transform/with_recorrelate/untransform/generic.rs:19-61, fn untransform_with_recorrelate_generic *)
Definition be_bc3_rec_u_generic_untransform_with_recorrelate_generic (c : cfg) (alpha_endpoints_in : ptr) (alpha_indices_in : ptr) (colors_in : ptr) (color_indices_in : ptr) (output_ptr : ptr) (num_blocks : Z) (recorrelation_mode : variant) (m : mem) : res mem :=
  match recorrelation_mode with
  | V1 =>
    do m <- be_bc3_rec_u_generic_untransform_recorr_var1 c alpha_endpoints_in alpha_indices_in colors_in color_indices_in output_ptr num_blocks m ;;
    Ok m
  | V2 =>
    do m <- be_bc3_rec_u_generic_untransform_recorr_var2 c alpha_endpoints_in alpha_indices_in colors_in color_indices_in output_ptr num_blocks m ;;
    Ok m
  | V3 =>
    do m <- be_bc3_rec_u_generic_untransform_recorr_var3 c alpha_endpoints_in alpha_indices_in colors_in color_indices_in output_ptr num_blocks m ;;
    Ok m
  | VNone =>
    do m <- Ub "unreachable_unchecked" ;;
    Ok m
  end.

(** src/core/dxt-lossless-transform-bc3/src/transform/with_recorrelate/untransform/mod.rs:26-66, fn untransform_with_recorrelate *)
Definition be_bc3_rec_u_untransform_with_recorrelate (c : cfg) (input_ptr : ptr) (output_ptr : ptr) (len : Z) (recorrelation_mode : variant) (m : mem) : res mem :=
  do _ <- debug_assert (c_debug c) (len mod 16 =? 0) "len . is_multiple_of ( 16 )" ;;
  let alpha_endpoints_ptr := input_ptr in
  do alpha_indices_ptr <- ptr_add m input_ptr (len / 8) ;;
  do colors_ptr <- ptr_add m input_ptr (len / 2) ;;
  do color_indices_ptr <- ptr_add m input_ptr ((len / 2) + (len / 4)) ;;
  let num_blocks := len / 16 in
  do m <- be_bc3_rec_u_generic_untransform_with_recorrelate_generic c alpha_endpoints_ptr alpha_indices_ptr colors_ptr color_indices_ptr output_ptr num_blocks recorrelation_mode m ;;
  Ok m.

