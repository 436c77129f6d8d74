(** Generated by tools/rs2v.py from the kernel sources cited below; do not edit.
    Simplifications: usize arithmetic is exact (lengths are below isize::MAX), see
    Model/Kernel.v for the machine. *)
From Verif Require Import Base.Bytes Base.Res Model.Color565 Model.Ycc Model.Kernel.
Open Scope string_scope.
Open Scope list_scope.
Open Scope Z_scope.

(** Loop at src/core/dxt-lossless-transform-bc3/src/transform/with_split_alphas_and_recorr/transform/generic.rs:33. *)
Definition bc3_sar_t_generic_transform_with_split_alphas_and_recorr_loop1 : list instr :=
  [ILoad "alpha0" "input_ptr" 0 1;
    ILoad "alpha1" "input_ptr" 1 1;
    ILoad "alpha_indices_part1" "input_ptr" 2 2;
    ILoad "alpha_indices_part2" "input_ptr" 4 4;
    ILoad "colors_combined" "input_ptr" 8 4;
    IOp "t2" (OBytes 0 2) ["colors_combined"];
    IOp "color0_raw" (OMov) ["t2"];
    IOp "t4" (OShr 2) ["colors_combined"];
    IOp "t5" (OBytes 0 2) ["t4"];
    IOp "color1_raw" (OMov) ["t5"];
    ILoad "color_indices" "input_ptr" 12 4;
    IOp "color0" (OMov) ["color0_raw"];
    IOp "color1" (OMov) ["color1_raw"];
    IOp "decorr_color0" (OYcc Scalar Dec V1 V2 V3) ["color0"];
    IOp "decorr_color1" (OYcc Scalar Dec V1 V2 V3) ["color1"];
    IOp "t7" (OZext 4) ["decorr_color0"];
    IOp "t8" (OZext 4) ["decorr_color1"];
    IOp "t9" (OShl 2) ["t8"];
    IOp "t10" (OOr) ["t7"; "t9"];
    IOp "packed_colors" (OMov) ["t10"];
    IStore "alpha0_out" 0 1 "alpha0";
    IStore "alpha1_out" 0 1 "alpha1";
    IStore "alpha_indices_out" 0 2 "alpha_indices_part1";
    IStore "alpha_indices_out" 2 4 "alpha_indices_part2";
    IStore "decorrelated_colors_out" 0 4 "packed_colors";
    IStore "color_indices_out" 0 4 "color_indices";
    IAdd "input_ptr" 16;
    IAdd "alpha0_out" 1;
    IAdd "alpha1_out" 1;
    IAdd "alpha_indices_out" 6;
    IAdd "decorrelated_colors_out" 4;
    IAdd "color_indices_out" 4].

(** src/core/dxt-lossless-transform-bc3/src/transform/with_split_alphas_and_recorr/transform/generic.rs:21-88, fn transform_with_split_alphas_and_recorr *)
Definition bc3_sar_t_generic_transform_with_split_alphas_and_recorr (c : cfg) (input_ptr : ptr) (alpha0_out : ptr) (alpha1_out : ptr) (alpha_indices_out : ptr) (decorrelated_colors_out : ptr) (color_indices_out : ptr) (block_count : Z) (decorrelation_mode : variant) (m : mem) : res mem :=
  do input_end <- ptr_add m input_ptr (block_count * 16) ;;
  do s <- while_lt (c_junk c) (vnum decorrelation_mode) bc3_sar_t_generic_transform_with_split_alphas_and_recorr_loop1 "input_ptr" input_end (St [] [("input_ptr", input_ptr); ("alpha0_out", alpha0_out); ("alpha1_out", alpha1_out); ("alpha_indices_out", alpha_indices_out); ("decorrelated_colors_out", decorrelated_colors_out); ("color_indices_out", color_indices_out)] m) ;;
  let m := mm s in
  do input_ptr <- getp s "input_ptr" ;;
  do alpha0_out <- getp s "alpha0_out" ;;
  do alpha1_out <- getp s "alpha1_out" ;;
  do alpha_indices_out <- getp s "alpha_indices_out" ;;
  do decorrelated_colors_out <- getp s "decorrelated_colors_out" ;;
  do color_indices_out <- getp s "color_indices_out" ;;
  Ok m.

(** src/core/dxt-lossless-transform-bc3/src/transform/with_split_alphas_and_recorr/transform/mod.rs:19-39, fn transform_with_split_alphas_and_recorr *)
Definition bc3_sar_t_transform_with_split_alphas_and_recorr (c : cfg) (input_ptr : ptr) (alpha0_out : ptr) (alpha1_out : ptr) (alpha_indices_out : ptr) (decorrelated_colors_out : ptr) (color_indices_out : ptr) (block_count : Z) (decorrelation_mode : variant) (m : mem) : res mem :=
  do m <- bc3_sar_t_generic_transform_with_split_alphas_and_recorr c input_ptr alpha0_out alpha1_out alpha_indices_out decorrelated_colors_out color_indices_out block_count decorrelation_mode m ;;
  Ok m.

(** Loop at src/core/dxt-lossless-transform-bc3/src/transform/with_split_alphas_and_recorr/untransform/generic.rs:34. *)
Definition bc3_sar_u_generic_untransform_with_split_alphas_and_recorr_loop1 : list instr :=
  [ILoad "alpha0" "alpha0_out" 0 1;
    ILoad "alpha1" "alpha1_out" 0 1;
    ILoad "alpha_indices_part1" "alpha_indices_out" 0 2;
    ILoad "alpha_indices_part2" "alpha_indices_out" 2 4;
    ILoad "packed_colors" "decorrelated_colors_out" 0 4;
    ILoad "color_indices" "color_indices_out" 0 4;
    IOp "t2" (OBytes 0 2) ["packed_colors"];
    IOp "decorr_color0_raw" (OMov) ["t2"];
    IOp "t4" (OShr 2) ["packed_colors"];
    IOp "t5" (OBytes 0 2) ["t4"];
    IOp "decorr_color1_raw" (OMov) ["t5"];
    IOp "decorr_color0" (OMov) ["decorr_color0_raw"];
    IOp "decorr_color1" (OMov) ["decorr_color1_raw"];
    IOp "color0" (OYcc Scalar Rec V1 V2 V3) ["decorr_color0"];
    IOp "color1" (OYcc Scalar Rec V1 V2 V3) ["decorr_color1"];
    IStore "output_ptr" 0 1 "alpha0";
    IStore "output_ptr" 1 1 "alpha1";
    IStore "output_ptr" 2 2 "alpha_indices_part1";
    IStore "output_ptr" 4 4 "alpha_indices_part2";
    IOp "t7" (OZext 4) ["color0"];
    IOp "t8" (OZext 4) ["color1"];
    IOp "t9" (OShl 2) ["t8"];
    IOp "t10" (OOr) ["t7"; "t9"];
    IOp "colors_combined" (OMov) ["t10"];
    IStore "output_ptr" 8 4 "colors_combined";
    IStore "output_ptr" 12 4 "color_indices";
    IAdd "alpha0_out" 1;
    IAdd "alpha1_out" 1;
    IAdd "alpha_indices_out" 6;
    IAdd "decorrelated_colors_out" 4;
    IAdd "color_indices_out" 4;
    IAdd "output_ptr" 16].

(** src/core/dxt-lossless-transform-bc3/src/transform/with_split_alphas_and_recorr/untransform/generic.rs:22-88, fn untransform_with_split_alphas_and_recorr *)
Definition bc3_sar_u_generic_untransform_with_split_alphas_and_recorr (c : cfg) (alpha0_out : ptr) (alpha1_out : ptr) (alpha_indices_out : ptr) (decorrelated_colors_out : ptr) (color_indices_out : ptr) (output_ptr : ptr) (block_count : Z) (recorrelation_mode : variant) (m : mem) : res mem :=
  do alpha0_end <- ptr_add m alpha0_out (block_count) ;;
  do s <- while_lt (c_junk c) (vnum recorrelation_mode) bc3_sar_u_generic_untransform_with_split_alphas_and_recorr_loop1 "alpha0_out" alpha0_end (St [] [("alpha0_out", alpha0_out); ("alpha1_out", alpha1_out); ("alpha_indices_out", alpha_indices_out); ("decorrelated_colors_out", decorrelated_colors_out); ("color_indices_out", color_indices_out); ("output_ptr", output_ptr)] m) ;;
  let m := mm s in
  do alpha0_out <- getp s "alpha0_out" ;;
  do alpha1_out <- getp s "alpha1_out" ;;
  do alpha_indices_out <- getp s "alpha_indices_out" ;;
  do decorrelated_colors_out <- getp s "decorrelated_colors_out" ;;
  do color_indices_out <- getp s "color_indices_out" ;;
  do output_ptr <- getp s "output_ptr" ;;
  Ok m.

(** src/core/dxt-lossless-transform-bc3/src/transform/with_split_alphas_and_recorr/untransform/mod.rs:19-39, fn untransform_with_split_alphas_and_recorr *)
Definition bc3_sar_u_untransform_with_split_alphas_and_recorr (c : cfg) (alpha0_out : ptr) (alpha1_out : ptr) (alpha_indices_out : ptr) (decorrelated_colors_out : ptr) (color_indices_out : ptr) (output_ptr : ptr) (block_count : Z) (recorrelation_mode : variant) (m : mem) : res mem :=
  do m <- bc3_sar_u_generic_untransform_with_split_alphas_and_recorr c alpha0_out alpha1_out alpha_indices_out decorrelated_colors_out color_indices_out output_ptr block_count recorrelation_mode m ;;
  Ok m.

