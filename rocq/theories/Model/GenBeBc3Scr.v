(** Generated by tools/rs2v.py --big from the kernel sources cited below: the same
    sources as Model/Gen*.v, compiled for a big-endian machine that is not an x86.
    Do not edit. Simplifications: usize arithmetic is exact (lengths are below
    isize::MAX), see Model/Kernel.v and Model/BigEndian.v for the machine. *)
From Verif Require Import Base.Bytes Base.Res Model.Color565 Model.Ycc Model.Kernel Model.BigEndian.
Open Scope string_scope.
Open Scope list_scope.
Open Scope Z_scope.

(** Loop at src/core/dxt-lossless-transform-bc3/src/transform/with_split_colour_and_recorr/transform/generic.rs:34. *)
Definition be_bc3_scr_t_generic_transform_with_split_colour_and_recorr_loop1 : list instr :=
  be_body
  [ILoad "alpha_endpoints" "input_ptr" 0 2;
    ILoad "alpha_indices_part1" "input_ptr" 2 2;
    ILoad "alpha_indices_part2" "input_ptr" 4 4;
    ILoad "colors_combined" "input_ptr" 8 4;
    IOp "t2" (OShr 2) ["colors_combined"];
    IOp "t3" (OBytes 0 2) ["t2"];
    IOp "color0_raw" (OMov) ["t3"];
    IOp "t5" (OBytes 0 2) ["colors_combined"];
    IOp "color1_raw" (OMov) ["t5"];
    ILoad "color_indices" "input_ptr" 12 4;
    IOp "color0" (OMov) ["color0_raw"];
    IOp "color1" (OMov) ["color1_raw"];
    IOp "decorr_color0" (OYcc Scalar Dec V1 V2 V3) ["color0"];
    IOp "decorr_color1" (OYcc Scalar Dec V1 V2 V3) ["color1"];
    IStore "alpha_endpoints_out" 0 2 "alpha_endpoints";
    IStore "alpha_indices_out" 0 2 "alpha_indices_part1";
    IStore "alpha_indices_out" 2 4 "alpha_indices_part2";
    IStore "decorrelated_color0_out" 0 2 "decorr_color0";
    IStore "decorrelated_color1_out" 0 2 "decorr_color1";
    IStore "color_indices_out" 0 4 "color_indices";
    IAdd "input_ptr" 16;
    IAdd "alpha_endpoints_out" 2;
    IAdd "alpha_indices_out" 6;
    IAdd "decorrelated_color0_out" 2;
    IAdd "decorrelated_color1_out" 2;
    IAdd "color_indices_out" 4].

(** src/core/dxt-lossless-transform-bc3/src/transform/with_split_colour_and_recorr/transform/generic.rs:22-84, fn transform_with_split_colour_and_recorr *)
Definition be_bc3_scr_t_generic_transform_with_split_colour_and_recorr (c : cfg) (input_ptr : ptr) (alpha_endpoints_out : ptr) (alpha_indices_out : ptr) (decorrelated_color0_out : ptr) (decorrelated_color1_out : ptr) (color_indices_out : ptr) (block_count : Z) (decorrelation_mode : variant) (m : mem) : res mem :=
  do input_end <- ptr_add m input_ptr (block_count * 16) ;;
  do s <- while_lt (c_junk c) (vnum decorrelation_mode) be_bc3_scr_t_generic_transform_with_split_colour_and_recorr_loop1 "input_ptr" input_end (St [] [("input_ptr", input_ptr); ("alpha_endpoints_out", alpha_endpoints_out); ("alpha_indices_out", alpha_indices_out); ("decorrelated_color0_out", decorrelated_color0_out); ("decorrelated_color1_out", decorrelated_color1_out); ("color_indices_out", color_indices_out)] m) ;;
  let m := mm s in
  do input_ptr <- getp s "input_ptr" ;;
  do alpha_endpoints_out <- getp s "alpha_endpoints_out" ;;
  do alpha_indices_out <- getp s "alpha_indices_out" ;;
  do decorrelated_color0_out <- getp s "decorrelated_color0_out" ;;
  do decorrelated_color1_out <- getp s "decorrelated_color1_out" ;;
  do color_indices_out <- getp s "color_indices_out" ;;
  Ok m.

(** src/core/dxt-lossless-transform-bc3/src/transform/with_split_colour_and_recorr/transform/mod.rs:19-39, fn transform_with_split_colour_and_recorr *)
Definition be_bc3_scr_t_transform_with_split_colour_and_recorr (c : cfg) (input_ptr : ptr) (alpha_endpoints_out : ptr) (alpha_indices_out : ptr) (decorrelated_color0_out : ptr) (decorrelated_color1_out : ptr) (color_indices_out : ptr) (block_count : Z) (decorrelation_mode : variant) (m : mem) : res mem :=
  do m <- be_bc3_scr_t_generic_transform_with_split_colour_and_recorr c input_ptr alpha_endpoints_out alpha_indices_out decorrelated_color0_out decorrelated_color1_out color_indices_out block_count decorrelation_mode m ;;
  Ok m.

(** Loop at src/core/dxt-lossless-transform-bc3/src/transform/with_split_colour_and_recorr/untransform/generic.rs:42. *)
Definition be_bc3_scr_u_generic_untransform_with_split_colour_and_recorr_loop1 : list instr :=
  be_body
  [ILoad "alpha_endpoints" "alpha_endpoints_ptr" 0 2;
    ILoad "alpha_indices_part1" "alpha_indices_ptr" 0 2;
    ILoad "alpha_indices_part2" "alpha_indices_ptr" 2 4;
    ILoad "decorr_color0_raw" "decorrelated_color0_ptr" 0 2;
    ILoad "decorr_color1_raw" "decorrelated_color1_ptr" 0 2;
    ILoad "color_indices" "color_indices_ptr" 0 4;
    IOp "decorr_color0" (OMov) ["decorr_color0_raw"];
    IOp "decorr_color1" (OMov) ["decorr_color1_raw"];
    IOp "color0" (OYcc Scalar Rec V1 V2 V3) ["decorr_color0"];
    IOp "color1" (OYcc Scalar Rec V1 V2 V3) ["decorr_color1"];
    IStore "output_ptr" 0 2 "alpha_endpoints";
    IStore "output_ptr" 2 2 "alpha_indices_part1";
    IStore "output_ptr" 4 4 "alpha_indices_part2";
    IOp "t2" (OZext 4) ["color0"];
    IOp "t3" (OShl 2) ["t2"];
    IOp "t4" (OZext 4) ["color1"];
    IOp "t5" (OOr) ["t3"; "t4"];
    IOp "colors_combined" (OMov) ["t5"];
    IStore "output_ptr" 8 4 "colors_combined";
    IStore "output_ptr" 12 4 "color_indices";
    IAdd "alpha_endpoints_ptr" 2;
    IAdd "alpha_indices_ptr" 6;
    IAdd "decorrelated_color0_ptr" 2;
    IAdd "decorrelated_color1_ptr" 2;
    IAdd "color_indices_ptr" 4;
    IAdd "output_ptr" 16].

(** src/core/dxt-lossless-transform-bc3/src/transform/with_split_colour_and_recorr/untransform/generic.rs:22-91, fn untransform_with_split_colour_and_recorr *)
Definition be_bc3_scr_u_generic_untransform_with_split_colour_and_recorr (c : cfg) (alpha_endpoints_out : ptr) (alpha_indices_out : ptr) (decorrelated_color0_out : ptr) (decorrelated_color1_out : ptr) (color_indices_out : ptr) (output_ptr : ptr) (block_count : Z) (recorrelation_mode : variant) (m : mem) : res mem :=
  let alpha_endpoints_ptr := alpha_endpoints_out in
  let alpha_indices_ptr := alpha_indices_out in
  let decorrelated_color0_ptr := decorrelated_color0_out in
  let decorrelated_color1_ptr := decorrelated_color1_out in
  let color_indices_ptr := color_indices_out in
  do alpha_endpoints_end <- ptr_add m alpha_endpoints_ptr (block_count * 2) ;;
  do s <- while_lt (c_junk c) (vnum recorrelation_mode) be_bc3_scr_u_generic_untransform_with_split_colour_and_recorr_loop1 "alpha_endpoints_ptr" alpha_endpoints_end (St [] [("alpha_endpoints_ptr", alpha_endpoints_ptr); ("alpha_indices_ptr", alpha_indices_ptr); ("decorrelated_color0_ptr", decorrelated_color0_ptr); ("decorrelated_color1_ptr", decorrelated_color1_ptr); ("color_indices_ptr", color_indices_ptr); ("output_ptr", output_ptr)] m) ;;
  let m := mm s in
  do alpha_endpoints_ptr <- getp s "alpha_endpoints_ptr" ;;
  do alpha_indices_ptr <- getp s "alpha_indices_ptr" ;;
  do decorrelated_color0_ptr <- getp s "decorrelated_color0_ptr" ;;
  do decorrelated_color1_ptr <- getp s "decorrelated_color1_ptr" ;;
  do color_indices_ptr <- getp s "color_indices_ptr" ;;
  do output_ptr <- getp s "output_ptr" ;;
  Ok m.

(** src/core/dxt-lossless-transform-bc3/src/transform/with_split_colour_and_recorr/untransform/mod.rs:19-39, fn untransform_with_split_colour_and_recorr *)
Definition be_bc3_scr_u_untransform_with_split_colour_and_recorr (c : cfg) (alpha_endpoints_out : ptr) (alpha_indices_out : ptr) (decorrelated_color0_out : ptr) (decorrelated_color1_out : ptr) (color_indices_out : ptr) (output_ptr : ptr) (block_count : Z) (recorrelation_mode : variant) (m : mem) : res mem :=
  do m <- be_bc3_scr_u_generic_untransform_with_split_colour_and_recorr c alpha_endpoints_out alpha_indices_out decorrelated_color0_out decorrelated_color1_out color_indices_out output_ptr block_count recorrelation_mode m ;;
  Ok m.

