(** The entry points of Model/Transform.v compiled for a big-endian machine: the
    same code, calling the big-endian kernels (generated by tools/gen_be.py). *)
From Verif Require Import Base.Bytes Base.Res Model.Color565 Model.Ycc Model.Kernel Model.Transform
  Model.GenBeBc1Std Model.GenBeBc1Rec Model.GenBeBc1Sc Model.GenBeBc1Scr
  Model.GenBeBc2Std Model.GenBeBc2Rec Model.GenBeBc2Sc Model.GenBeBc2Scr
  Model.GenBeBc3Std Model.GenBeBc3Rec Model.GenBeBc3Sc Model.GenBeBc3Scr
  Model.GenBeBc3Sa Model.GenBeBc3Sar Model.GenBeBc3Sac Model.GenBeBc3Sacr.
Open Scope string_scope.
Open Scope list_scope.
Open Scope Z_scope.

(** src/core/dxt-lossless-transform-bc1/src/transform/transform_with_settings.rs:31-72 *)
Definition be_transform_bc1_with_settings (c : cfg) (input_ptr output_ptr : ptr) (len : Z) (s : settings) (m : mem) : res mem :=
  do _ <- debug_assert (c_debug c) (len mod 8 =? 0) "len.is_multiple_of(8)" ;;
  if split_colour_endpoints s then
    do p1 <- ptr_add m output_ptr (len / 4) ;;
    do p2 <- ptr_add m output_ptr (len / 2) ;;
    if variant_eqb (decorrelation_mode s) VNone
    then be_bc1_sc_t_transform_with_split_colour c input_ptr output_ptr p1 p2 (len / 8) m
    else be_bc1_scr_t_transform_with_split_colour_and_recorr c input_ptr output_ptr p1 p2 (len / 8) (decorrelation_mode s) m
  else if variant_eqb (decorrelation_mode s) VNone
  then be_bc1_std_t_transform c input_ptr output_ptr len m
  else be_bc1_rec_t_transform_with_decorrelate c input_ptr output_ptr len (decorrelation_mode s) m.

(** src/core/dxt-lossless-transform-bc1/src/transform/transform_with_settings.rs:92-135 *)
Definition be_untransform_bc1_with_settings (c : cfg) (input_ptr output_ptr : ptr) (len : Z) (s : settings) (m : mem) : res mem :=
  do _ <- debug_assert (c_debug c) (len mod 8 =? 0) "len.is_multiple_of(8)" ;;
  if split_colour_endpoints s then
    do p1 <- ptr_add m input_ptr (len / 4) ;;
    do p2 <- ptr_add m input_ptr (len / 2) ;;
    if variant_eqb (decorrelation_mode s) VNone
    then be_bc1_sc_u_untransform_with_split_colour c input_ptr p1 p2 output_ptr (len / 8) m
    else be_bc1_scr_u_untransform_with_split_colour_and_recorr c input_ptr p1 p2 output_ptr (len / 8) (decorrelation_mode s) m
  else if variant_eqb (decorrelation_mode s) VNone
  then be_bc1_std_u_untransform c input_ptr output_ptr len m
  else be_bc1_rec_u_untransform_with_recorrelate c input_ptr output_ptr len (decorrelation_mode s) m.

(** src/core/dxt-lossless-transform-bc2/src/transform/transform_with_settings.rs:30-73 *)
Definition be_transform_bc2_with_settings (c : cfg) (input_ptr output_ptr : ptr) (len : Z) (s : settings) (m : mem) : res mem :=
  do _ <- debug_assert (c_debug c) (len mod 16 =? 0) "len.is_multiple_of(16)" ;;
  if split_colour_endpoints s then
    do p1 <- ptr_add m output_ptr (len / 2) ;;
    do p2 <- ptr_add m output_ptr (len / 2 + len / 8) ;;
    do p3 <- ptr_add m output_ptr (len / 2 + len / 4) ;;
    if variant_eqb (decorrelation_mode s) VNone
    then be_bc2_sc_t_transform_with_split_colour c input_ptr output_ptr p1 p2 p3 (len / 16) m
    else be_bc2_scr_t_transform_with_split_colour_and_recorr c input_ptr output_ptr p1 p2 p3 (len / 16) (decorrelation_mode s) m
  else if variant_eqb (decorrelation_mode s) VNone
  then be_bc2_std_t_transform c input_ptr output_ptr len m
  else be_bc2_rec_t_transform_with_decorrelate c input_ptr output_ptr len (decorrelation_mode s) m.

(** src/core/dxt-lossless-transform-bc2/src/transform/transform_with_settings.rs:93-138 *)
Definition be_untransform_bc2_with_settings (c : cfg) (input_ptr output_ptr : ptr) (len : Z) (s : settings) (m : mem) : res mem :=
  do _ <- debug_assert (c_debug c) (len mod 16 =? 0) "len.is_multiple_of(16)" ;;
  if split_colour_endpoints s then
    do p1 <- ptr_add m input_ptr (len / 2) ;;
    do p2 <- ptr_add m input_ptr (len / 2 + len / 8) ;;
    do p3 <- ptr_add m input_ptr (len / 2 + len / 4) ;;
    if variant_eqb (decorrelation_mode s) VNone
    then be_bc2_sc_u_untransform_with_split_colour c input_ptr p1 p2 p3 output_ptr (len / 16) m
    else be_bc2_scr_u_untransform_with_split_colour_and_recorr c input_ptr p1 p2 p3 output_ptr (len / 16) (decorrelation_mode s) m
  else if variant_eqb (decorrelation_mode s) VNone
  then be_bc2_std_u_untransform c input_ptr output_ptr len m
  else be_bc2_rec_u_untransform_with_recorrelate c input_ptr output_ptr len (decorrelation_mode s) m.

(** src/core/dxt-lossless-transform-bc3/src/transform/transform_with_settings.rs:32-142 *)
Definition be_transform_bc3_with_settings (c : cfg) (input_ptr output_ptr : ptr) (len : Z) (s : settings3) (m : mem) : res mem :=
  do _ <- debug_assert (c_debug c) (len mod 16 =? 0) "len.is_multiple_of(16)" ;;
  let v := decorrelation_mode3 s in
  let block_count := len / 16 in
  match split_alpha_endpoints s, split_colour_endpoints3 s, negb (variant_eqb v VNone) with
  | false, false, false => be_bc3_std_t_transform c input_ptr output_ptr len m
  | true, false, false =>
      do a1 <- ptr_add m output_ptr block_count ;;
      do ai <- ptr_add m output_ptr (block_count * 2) ;;
      do cs <- ptr_add m output_ptr (block_count * 8) ;;
      do ci <- ptr_add m output_ptr (block_count * 12) ;;
      be_bc3_sa_t_transform_with_split_alphas c input_ptr output_ptr a1 ai cs ci block_count m
  | false, false, true => be_bc3_rec_t_transform_with_decorrelate c input_ptr output_ptr len v m
  | false, true, false =>
      do ai <- ptr_add m output_ptr (block_count * 2) ;;
      do c0 <- ptr_add m output_ptr (block_count * 8) ;;
      do c1 <- ptr_add m output_ptr (block_count * 10) ;;
      do ci <- ptr_add m output_ptr (block_count * 12) ;;
      be_bc3_sc_t_transform_with_split_colour c input_ptr output_ptr ai c0 c1 ci block_count m
  | true, false, true =>
      do a1 <- ptr_add m output_ptr block_count ;;
      do ai <- ptr_add m output_ptr (block_count * 2) ;;
      do cs <- ptr_add m output_ptr (block_count * 8) ;;
      do ci <- ptr_add m output_ptr (block_count * 12) ;;
      be_bc3_sar_t_transform_with_split_alphas_and_recorr c input_ptr output_ptr a1 ai cs ci block_count v m
  | true, true, false =>
      do a1 <- ptr_add m output_ptr block_count ;;
      do ai <- ptr_add m output_ptr (block_count * 2) ;;
      do c0 <- ptr_add m output_ptr (block_count * 8) ;;
      do c1 <- ptr_add m output_ptr (block_count * 10) ;;
      do ci <- ptr_add m output_ptr (block_count * 12) ;;
      be_bc3_sac_t_transform_with_split_alphas_and_colour c input_ptr output_ptr a1 ai c0 c1 ci block_count m
  | false, true, true =>
      do ai <- ptr_add m output_ptr (block_count * 2) ;;
      do c0 <- ptr_add m output_ptr (block_count * 8) ;;
      do c1 <- ptr_add m output_ptr (block_count * 10) ;;
      do ci <- ptr_add m output_ptr (block_count * 12) ;;
      be_bc3_scr_t_transform_with_split_colour_and_recorr c input_ptr output_ptr ai c0 c1 ci block_count v m
  | true, true, true =>
      do a1 <- ptr_add m output_ptr block_count ;;
      do ai <- ptr_add m output_ptr (block_count * 2) ;;
      do c0 <- ptr_add m output_ptr (block_count * 8) ;;
      do c1 <- ptr_add m output_ptr (block_count * 10) ;;
      do ci <- ptr_add m output_ptr (block_count * 12) ;;
      be_bc3_sacr_t_transform_with_split_alphas_colour_and_recorr c input_ptr output_ptr a1 ai c0 c1 ci block_count v m
  end.

(** src/core/dxt-lossless-transform-bc3/src/transform/transform_with_settings.rs:162-272 *)
Definition be_untransform_bc3_with_settings (c : cfg) (input_ptr output_ptr : ptr) (len : Z) (s : settings3) (m : mem) : res mem :=
  do _ <- debug_assert (c_debug c) (len mod 16 =? 0) "len.is_multiple_of(16)" ;;
  let v := decorrelation_mode3 s in
  let block_count := len / 16 in
  match split_alpha_endpoints s, split_colour_endpoints3 s, negb (variant_eqb v VNone) with
  | false, false, false => be_bc3_std_u_untransform c input_ptr output_ptr len m
  | true, false, false =>
      do a1 <- ptr_add m input_ptr block_count ;;
      do ai <- ptr_add m input_ptr (block_count * 2) ;;
      do cs <- ptr_add m input_ptr (block_count * 8) ;;
      do ci <- ptr_add m input_ptr (block_count * 12) ;;
      be_bc3_sa_u_untransform_with_split_alphas c input_ptr a1 ai cs ci output_ptr block_count m
  | false, false, true => be_bc3_rec_u_untransform_with_recorrelate c input_ptr output_ptr len v m
  | false, true, false =>
      do ai <- ptr_add m input_ptr (block_count * 2) ;;
      do c0 <- ptr_add m input_ptr (block_count * 8) ;;
      do c1 <- ptr_add m input_ptr (block_count * 10) ;;
      do ci <- ptr_add m input_ptr (block_count * 12) ;;
      be_bc3_sc_u_untransform_with_split_colour c input_ptr ai c0 c1 ci output_ptr block_count m
  | true, false, true =>
      do a1 <- ptr_add m input_ptr block_count ;;
      do ai <- ptr_add m input_ptr (block_count * 2) ;;
      do cs <- ptr_add m input_ptr (block_count * 8) ;;
      do ci <- ptr_add m input_ptr (block_count * 12) ;;
      be_bc3_sar_u_untransform_with_split_alphas_and_recorr c input_ptr a1 ai cs ci output_ptr block_count v m
  | true, true, false =>
      do a1 <- ptr_add m input_ptr block_count ;;
      do ai <- ptr_add m input_ptr (block_count * 2) ;;
      do c0 <- ptr_add m input_ptr (block_count * 8) ;;
      do c1 <- ptr_add m input_ptr (block_count * 10) ;;
      do ci <- ptr_add m input_ptr (block_count * 12) ;;
      be_bc3_sac_u_untransform_with_split_alphas_and_colour c input_ptr a1 ai c0 c1 ci output_ptr block_count m
  | false, true, true =>
      do ai <- ptr_add m input_ptr (block_count * 2) ;;
      do c0 <- ptr_add m input_ptr (block_count * 8) ;;
      do c1 <- ptr_add m input_ptr (block_count * 10) ;;
      do ci <- ptr_add m input_ptr (block_count * 12) ;;
      be_bc3_scr_u_untransform_with_split_colour_and_recorr c input_ptr ai c0 c1 ci output_ptr block_count v m
  | true, true, true =>
      do a1 <- ptr_add m input_ptr block_count ;;
      do ai <- ptr_add m input_ptr (block_count * 2) ;;
      do c0 <- ptr_add m input_ptr (block_count * 8) ;;
      do c1 <- ptr_add m input_ptr (block_count * 10) ;;
      do ci <- ptr_add m input_ptr (block_count * 12) ;;
      be_bc3_sacr_u_untransform_with_split_alphas_colour_and_recorr c input_ptr a1 ai c0 c1 ci output_ptr block_count v m
  end.

(** ** Slice versions *)

(** src/core/dxt-lossless-transform-bc1/src/transform/safe/transform_with_settings.rs:88-117, 192-221 *)
Definition be_transform_bc1 (c : cfg) (s : settings) (input output : list byte) :=
  checked 8 (fun i o n m => be_transform_bc1_with_settings c i o n s m) input output.
Definition be_untransform_bc1 (c : cfg) (s : settings) (input output : list byte) :=
  checked 8 (fun i o n m => be_untransform_bc1_with_settings c i o n s m) input output.
(** src/core/dxt-lossless-transform-bc2/src/transform/safe/transform_with_settings.rs:88-117, 192-221 *)
Definition be_transform_bc2 (c : cfg) (s : settings) (input output : list byte) :=
  checked 16 (fun i o n m => be_transform_bc2_with_settings c i o n s m) input output.
Definition be_untransform_bc2 (c : cfg) (s : settings) (input output : list byte) :=
  checked 16 (fun i o n m => be_untransform_bc2_with_settings c i o n s m) input output.
(** src/core/dxt-lossless-transform-bc3/src/transform/safe/transform_with_settings.rs:90-119, 196-225 *)
Definition be_transform_bc3 (c : cfg) (s : settings3) (input output : list byte) :=
  checked 16 (fun i o n m => be_transform_bc3_with_settings c i o n s m) input output.
Definition be_untransform_bc3 (c : cfg) (s : settings3) (input output : list byte) :=
  checked 16 (fun i o n m => be_untransform_bc3_with_settings c i o n s m) input output.
