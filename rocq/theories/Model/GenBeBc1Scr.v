(** Generated by tools/rs2v.py --big from the kernel sources cited below: the same
    sources as Model/Gen*.v, compiled for a big-endian machine that is not an x86.
    Do not edit. Simplifications: usize arithmetic is exact (lengths are below
    isize::MAX), see Model/Kernel.v and Model/BigEndian.v for the machine. *)
From Verif Require Import Base.Bytes Base.Res Model.Color565 Model.Ycc Model.Kernel Model.BigEndian Model.GenBeBc1Std.
Open Scope string_scope.
Open Scope list_scope.
Open Scope Z_scope.

(** Loop at src/core/dxt-lossless-transform-bc1/src/transform/with_split_colour_and_recorr/transform/generic.rs:47. *)
Definition be_bc1_scr_t_generic_transform_split_decorr_loop1 : list instr :=
  be_body
  [ILoad "color0_raw" "input_ptr" 0 2;
    ILoad "color1_raw" "input_ptr" 2 2;
    ILoad "indices" "input_ptr" 4 4;
    IAdd "input_ptr" 8;
    IOp "color0" (OMov) ["color0_raw"];
    IOp "color1" (OMov) ["color1_raw"];
    IOp "decorr0" (OYcc Scalar Dec V1 V2 V3) ["color0"];
    IOp "decorr1" (OYcc Scalar Dec V1 V2 V3) ["color1"];
    IStore "color0_ptr" 0 2 "decorr0";
    IStore "color1_ptr" 0 2 "decorr1";
    IStore "indices_ptr" 0 4 "indices";
    IAdd "color0_ptr" 2;
    IAdd "color1_ptr" 2;
    IAdd "indices_ptr" 4].

(** src/core/dxt-lossless-transform-bc1/src/transform/with_split_colour_and_recorr/transform/generic.rs:39-84, fn transform_split_decorr *)
Definition be_bc1_scr_t_generic_transform_split_decorr (c : cfg) (VARIANT : Z) (input_ptr : ptr) (color0_ptr : ptr) (color1_ptr : ptr) (indices_ptr : ptr) (block_count : Z) (m : mem) : res mem :=
  do input_end <- ptr_add m input_ptr (block_count * 8) ;;
  do s <- while_lt (c_junk c) VARIANT be_bc1_scr_t_generic_transform_split_decorr_loop1 "input_ptr" input_end (St [] [("input_ptr", input_ptr); ("color0_ptr", color0_ptr); ("color1_ptr", color1_ptr); ("indices_ptr", indices_ptr)] m) ;;
  let m := mm s in
  do input_ptr <- getp s "input_ptr" ;;
  do color0_ptr <- getp s "color0_ptr" ;;
  do color1_ptr <- getp s "color1_ptr" ;;
  do indices_ptr <- getp s "indices_ptr" ;;
  Ok m.

(** src/core/dxt-lossless-transform-bc1/src/transform/with_split_colour_and_recorr/transform/generic.rs:17-37, fn transform_with_split_colour_and_decorr_generic *)
Definition be_bc1_scr_t_generic_transform_with_split_colour_and_decorr_generic (c : cfg) (input_ptr : ptr) (color0_ptr : ptr) (color1_ptr : ptr) (indices_ptr : ptr) (block_count : Z) (decorrelation_mode : variant) (m : mem) : res mem :=
  match decorrelation_mode with
  | V1 =>
    do m <- be_bc1_scr_t_generic_transform_split_decorr c 1 input_ptr color0_ptr color1_ptr indices_ptr block_count m ;;
    Ok m
  | V2 =>
    do m <- be_bc1_scr_t_generic_transform_split_decorr c 2 input_ptr color0_ptr color1_ptr indices_ptr block_count m ;;
    Ok m
  | V3 =>
    do m <- be_bc1_scr_t_generic_transform_split_decorr c 3 input_ptr color0_ptr color1_ptr indices_ptr block_count m ;;
    Ok m
  | VNone =>
    do m <- Ub "unreachable_unchecked" ;;
    Ok m
  end.

(** src/core/dxt-lossless-transform-bc1/src/transform/with_split_colour_and_recorr/transform/mod.rs:33-66, fn transform_with_split_colour_and_recorr *)
Definition be_bc1_scr_t_transform_with_split_colour_and_recorr (c : cfg) (input_ptr : ptr) (color0_out : ptr) (color1_out : ptr) (indices_out : ptr) (block_count : Z) (decorrelation_mode : variant) (m : mem) : res mem :=
  do _ <- debug_assert (c_debug c) (negb (vnum decorrelation_mode =? 0)) "decorrelation_mode != YCoCgVariant :: None" ;;
  do m <- be_bc1_scr_t_generic_transform_with_split_colour_and_decorr_generic c input_ptr color0_out color1_out indices_out block_count decorrelation_mode m ;;
  Ok m.

(** Loop at src/core/dxt-lossless-transform-bc1/src/transform/with_split_colour_and_recorr/untransform/generic.rs:106. *)
Definition be_bc1_scr_u_generic_untransform_recorr_loop1 : list instr :=
  be_body
  [ILoad "t1" "color0_in" 0 2;
    IOp "color0_obj" (OMov) ["t1"];
    ILoad "t2" "color1_in" 0 2;
    IOp "color1_obj" (OMov) ["t2"];
    IOp "recorrelated_color0" (OYcc Scalar Rec V1 V2 V3) ["color0_obj"];
    IOp "recorrelated_color1" (OYcc Scalar Rec V1 V2 V3) ["color1_obj"];
    ILoad "indices" "indices_in" 0 4;
    IStore "output_ptr" 0 2 "recorrelated_color0";
    IStore "output_ptr" 2 2 "recorrelated_color1";
    IStore "output_ptr" 4 4 "indices";
    IAdd "color0_in" 2;
    IAdd "color1_in" 2;
    IAdd "indices_in" 4;
    IAdd "output_ptr" 8].

(** src/core/dxt-lossless-transform-bc1/src/transform/with_split_colour_and_recorr/untransform/generic.rs:98-141, fn untransform_recorr *)
Definition be_bc1_scr_u_generic_untransform_recorr (c : cfg) (VARIANT : Z) (color0_in : ptr) (color1_in : ptr) (indices_in : ptr) (output_ptr : ptr) (block_count : Z) (m : mem) : res mem :=
  do color0_end <- ptr_add m color0_in (block_count * 2) ;;
  do s <- while_lt (c_junk c) VARIANT be_bc1_scr_u_generic_untransform_recorr_loop1 "color0_in" color0_end (St [] [("color0_in", color0_in); ("color1_in", color1_in); ("indices_in", indices_in); ("output_ptr", output_ptr)] m) ;;
  let m := mm s in
  do color0_in <- getp s "color0_in" ;;
  do color1_in <- getp s "color1_in" ;;
  do indices_in <- getp s "indices_in" ;;
  do output_ptr <- getp s "output_ptr" ;;
  Ok m.

(** src/core/dxt-lossless-transform-bc1/src/transform/with_split_colour_and_recorr/untransform/generic.rs:68-76, fn untransform_recorr_var1 *)
Definition be_bc1_scr_u_generic_untransform_recorr_var1 (c : cfg) (color0_in : ptr) (color1_in : ptr) (indices_in : ptr) (output_ptr : ptr) (block_count : Z) (m : mem) : res mem :=
  do m <- be_bc1_scr_u_generic_untransform_recorr c 1 color0_in color1_in indices_in output_ptr block_count m ;;
  Ok m.

(** src/core/dxt-lossless-transform-bc1/src/transform/with_split_colour_and_recorr/untransform/generic.rs:78-86, fn untransform_recorr_var2 *)
Definition be_bc1_scr_u_generic_untransform_recorr_var2 (c : cfg) (color0_in : ptr) (color1_in : ptr) (indices_in : ptr) (output_ptr : ptr) (block_count : Z) (m : mem) : res mem :=
  do m <- be_bc1_scr_u_generic_untransform_recorr c 2 color0_in color1_in indices_in output_ptr block_count m ;;
  Ok m.

(** src/core/dxt-lossless-transform-bc1/src/transform/with_split_colour_and_recorr/untransform/generic.rs:88-96, fn untransform_recorr_var3 *)
Definition be_bc1_scr_u_generic_untransform_recorr_var3 (c : cfg) (color0_in : ptr) (color1_in : ptr) (indices_in : ptr) (output_ptr : ptr) (block_count : Z) (m : mem) : res mem :=
  do m <- be_bc1_scr_u_generic_untransform_recorr c 3 color0_in color1_in indices_in output_ptr block_count m ;;
  Ok m.

(** src/core/dxt-lossless-transform-bc1/src/transform/with_split_colour_and_recorr/untransform/generic.rs:4-65, fn untransform_with_split_colour_and_recorr_generic (written by hand)
    Simplification: the allocation of the work buffer succeeds; its contents are
    arbitrary (the junk byte). *)
Definition be_bc1_scr_u_generic_untransform_with_split_colour_and_recorr_generic (c : cfg) (color0_in : ptr) (color1_in : ptr) (indices_in : ptr) (output_ptr : ptr) (block_count : Z) (recorrelation_mode : variant) (m : mem) : res mem :=
  if (128 <=? block_count) then
    let work := List.repeat (c_junk c) (Z.to_nat (block_count * 8)) in
    do m1 <- be_color_batch_recorrelate_ptr_split c color0_in color1_in (Ptr BOut 0) (block_count * 2) recorrelation_mode
               (Mem (m_in m) (m_aux m) work) ;;
    do m2 <- be_bc1_std_u_untransform_with_separate_pointers c (Ptr BAux 0) indices_in output_ptr (block_count * 8)
               (Mem (m_in m) (m_out m1) (m_out m)) ;;
    Ok (Mem (m_in m) (m_aux m) (m_out m2))
  else
    match recorrelation_mode with
    | VNone => Ub "unreachable_unchecked"
    | V1 => be_bc1_scr_u_generic_untransform_recorr_var1 c color0_in color1_in indices_in output_ptr block_count m
    | V2 => be_bc1_scr_u_generic_untransform_recorr_var2 c color0_in color1_in indices_in output_ptr block_count m
    | V3 => be_bc1_scr_u_generic_untransform_recorr_var3 c color0_in color1_in indices_in output_ptr block_count m
    end.

(** src/core/dxt-lossless-transform-bc1/src/transform/with_split_colour_and_recorr/untransform/mod.rs:14-45, fn untransform_with_split_colour_and_recorr *)
Definition be_bc1_scr_u_untransform_with_split_colour_and_recorr (c : cfg) (color0_ptr : ptr) (color1_ptr : ptr) (indices_ptr : ptr) (output_ptr : ptr) (block_count : Z) (decorrelation_mode : variant) (m : mem) : res mem :=
  do m <- be_bc1_scr_u_generic_untransform_with_split_colour_and_recorr_generic c color0_ptr color1_ptr indices_ptr output_ptr block_count decorrelation_mode m ;;
  Ok m.

