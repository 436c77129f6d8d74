(** The entry points that pick a kernel from the settings, and their checked
    slice versions.

    A call through raw pointers runs on a [mem] whose [m_in] and [m_out] are the
    caller's two buffers. Lengths are exact integers: every length below is at
    most the length of a Rust slice, so no [usize] computation can overflow. *)
From Verif Require Import Base.Bytes Base.Res Model.Color565 Model.Ycc Model.Kernel
  Model.GenBc1Std Model.GenBc1Rec Model.GenBc1Sc Model.GenBc1Scr
  Model.GenBc2Std Model.GenBc2Rec Model.GenBc2Sc Model.GenBc2Scr
  Model.GenBc3Std Model.GenBc3Rec Model.GenBc3Sc Model.GenBc3Scr
  Model.GenBc3Sa Model.GenBc3Sar Model.GenBc3Sac Model.GenBc3Sacr.
Open Scope string_scope.
Open Scope list_scope.
Open Scope Z_scope.

(** src/core/dxt-lossless-transform-bc1/src/transform/settings.rs:16-27 Bc1TransformSettings, src/core/dxt-lossless-transform-bc2/src/transform/settings.rs
    Bc2TransformSettings (the same two fields); the untransform settings are the
    same types (src/core/dxt-lossless-transform-bc1/src/transform/settings.rs:33). *)
Record settings := Settings { decorrelation_mode : variant; split_colour_endpoints : bool }.
(** src/core/dxt-lossless-transform-bc3/src/transform/settings.rs:16-31 Bc3TransformSettings *)
Record settings3 := Settings3 {
  decorrelation_mode3 : variant; split_alpha_endpoints : bool; split_colour_endpoints3 : bool }.

(** src/core/dxt-lossless-transform-bc1/src/transform/transform_with_settings.rs:31-72 *)
Definition transform_bc1_with_settings (c : cfg) (input_ptr output_ptr : ptr) (len : Z) (s : settings) (m : mem) : res mem :=
  do _ <- debug_assert (c_debug c) (len mod 8 =? 0) "len.is_multiple_of(8)" ;;
  if split_colour_endpoints s then
    do p1 <- ptr_add m output_ptr (len / 4) ;;
    do p2 <- ptr_add m output_ptr (len / 2) ;;
    if variant_eqb (decorrelation_mode s) VNone
    then bc1_sc_t_transform_with_split_colour c input_ptr output_ptr p1 p2 (len / 8) m
    else bc1_scr_t_transform_with_split_colour_and_recorr c input_ptr output_ptr p1 p2 (len / 8) (decorrelation_mode s) m
  else if variant_eqb (decorrelation_mode s) VNone
  then bc1_std_t_transform c input_ptr output_ptr len m
  else bc1_rec_t_transform_with_decorrelate c input_ptr output_ptr len (decorrelation_mode s) m.

(** src/core/dxt-lossless-transform-bc1/src/transform/transform_with_settings.rs:92-135 *)
Definition untransform_bc1_with_settings (c : cfg) (input_ptr output_ptr : ptr) (len : Z) (s : settings) (m : mem) : res mem :=
  do _ <- debug_assert (c_debug c) (len mod 8 =? 0) "len.is_multiple_of(8)" ;;
  if split_colour_endpoints s then
    do p1 <- ptr_add m input_ptr (len / 4) ;;
    do p2 <- ptr_add m input_ptr (len / 2) ;;
    if variant_eqb (decorrelation_mode s) VNone
    then bc1_sc_u_untransform_with_split_colour c input_ptr p1 p2 output_ptr (len / 8) m
    else bc1_scr_u_untransform_with_split_colour_and_recorr c input_ptr p1 p2 output_ptr (len / 8) (decorrelation_mode s) m
  else if variant_eqb (decorrelation_mode s) VNone
  then bc1_std_u_untransform c input_ptr output_ptr len m
  else bc1_rec_u_untransform_with_recorrelate c input_ptr output_ptr len (decorrelation_mode s) m.

(** src/core/dxt-lossless-transform-bc2/src/transform/transform_with_settings.rs:30-73 *)
Definition transform_bc2_with_settings (c : cfg) (input_ptr output_ptr : ptr) (len : Z) (s : settings) (m : mem) : res mem :=
  do _ <- debug_assert (c_debug c) (len mod 16 =? 0) "len.is_multiple_of(16)" ;;
  if split_colour_endpoints s then
    do p1 <- ptr_add m output_ptr (len / 2) ;;
    do p2 <- ptr_add m output_ptr (len / 2 + len / 8) ;;
    do p3 <- ptr_add m output_ptr (len / 2 + len / 4) ;;
    if variant_eqb (decorrelation_mode s) VNone
    then bc2_sc_t_transform_with_split_colour c input_ptr output_ptr p1 p2 p3 (len / 16) m
    else bc2_scr_t_transform_with_split_colour_and_recorr c input_ptr output_ptr p1 p2 p3 (len / 16) (decorrelation_mode s) m
  else if variant_eqb (decorrelation_mode s) VNone
  then bc2_std_t_transform c input_ptr output_ptr len m
  else bc2_rec_t_transform_with_decorrelate c input_ptr output_ptr len (decorrelation_mode s) m.

(** src/core/dxt-lossless-transform-bc2/src/transform/transform_with_settings.rs:93-138 *)
Definition untransform_bc2_with_settings (c : cfg) (input_ptr output_ptr : ptr) (len : Z) (s : settings) (m : mem) : res mem :=
  do _ <- debug_assert (c_debug c) (len mod 16 =? 0) "len.is_multiple_of(16)" ;;
  if split_colour_endpoints s then
    do p1 <- ptr_add m input_ptr (len / 2) ;;
    do p2 <- ptr_add m input_ptr (len / 2 + len / 8) ;;
    do p3 <- ptr_add m input_ptr (len / 2 + len / 4) ;;
    if variant_eqb (decorrelation_mode s) VNone
    then bc2_sc_u_untransform_with_split_colour c input_ptr p1 p2 p3 output_ptr (len / 16) m
    else bc2_scr_u_untransform_with_split_colour_and_recorr c input_ptr p1 p2 p3 output_ptr (len / 16) (decorrelation_mode s) m
  else if variant_eqb (decorrelation_mode s) VNone
  then bc2_std_u_untransform c input_ptr output_ptr len m
  else bc2_rec_u_untransform_with_recorrelate c input_ptr output_ptr len (decorrelation_mode s) m.

(** src/core/dxt-lossless-transform-bc3/src/transform/transform_with_settings.rs:32-142 *)
Definition transform_bc3_with_settings (c : cfg) (input_ptr output_ptr : ptr) (len : Z) (s : settings3) (m : mem) : res mem :=
  do _ <- debug_assert (c_debug c) (len mod 16 =? 0) "len.is_multiple_of(16)" ;;
  let v := decorrelation_mode3 s in
  let block_count := len / 16 in
  match split_alpha_endpoints s, split_colour_endpoints3 s, negb (variant_eqb v VNone) with
  | false, false, false => bc3_std_t_transform c input_ptr output_ptr len m
  | true, false, false =>
      do a1 <- ptr_add m output_ptr block_count ;;
      do ai <- ptr_add m output_ptr (block_count * 2) ;;
      do cs <- ptr_add m output_ptr (block_count * 8) ;;
      do ci <- ptr_add m output_ptr (block_count * 12) ;;
      bc3_sa_t_transform_with_split_alphas c input_ptr output_ptr a1 ai cs ci block_count m
  | false, false, true => bc3_rec_t_transform_with_decorrelate c input_ptr output_ptr len v m
  | false, true, false =>
      do ai <- ptr_add m output_ptr (block_count * 2) ;;
      do c0 <- ptr_add m output_ptr (block_count * 8) ;;
      do c1 <- ptr_add m output_ptr (block_count * 10) ;;
      do ci <- ptr_add m output_ptr (block_count * 12) ;;
      bc3_sc_t_transform_with_split_colour c input_ptr output_ptr ai c0 c1 ci block_count m
  | true, false, true =>
      do a1 <- ptr_add m output_ptr block_count ;;
      do ai <- ptr_add m output_ptr (block_count * 2) ;;
      do cs <- ptr_add m output_ptr (block_count * 8) ;;
      do ci <- ptr_add m output_ptr (block_count * 12) ;;
      bc3_sar_t_transform_with_split_alphas_and_recorr c input_ptr output_ptr a1 ai cs ci block_count v m
  | true, true, false =>
      do a1 <- ptr_add m output_ptr block_count ;;
      do ai <- ptr_add m output_ptr (block_count * 2) ;;
      do c0 <- ptr_add m output_ptr (block_count * 8) ;;
      do c1 <- ptr_add m output_ptr (block_count * 10) ;;
      do ci <- ptr_add m output_ptr (block_count * 12) ;;
      bc3_sac_t_transform_with_split_alphas_and_colour c input_ptr output_ptr a1 ai c0 c1 ci block_count m
  | false, true, true =>
      do ai <- ptr_add m output_ptr (block_count * 2) ;;
      do c0 <- ptr_add m output_ptr (block_count * 8) ;;
      do c1 <- ptr_add m output_ptr (block_count * 10) ;;
      do ci <- ptr_add m output_ptr (block_count * 12) ;;
      bc3_scr_t_transform_with_split_colour_and_recorr c input_ptr output_ptr ai c0 c1 ci block_count v m
  | true, true, true =>
      do a1 <- ptr_add m output_ptr block_count ;;
      do ai <- ptr_add m output_ptr (block_count * 2) ;;
      do c0 <- ptr_add m output_ptr (block_count * 8) ;;
      do c1 <- ptr_add m output_ptr (block_count * 10) ;;
      do ci <- ptr_add m output_ptr (block_count * 12) ;;
      bc3_sacr_t_transform_with_split_alphas_colour_and_recorr c input_ptr output_ptr a1 ai c0 c1 ci block_count v m
  end.

(** src/core/dxt-lossless-transform-bc3/src/transform/transform_with_settings.rs:162-272 *)
Definition untransform_bc3_with_settings (c : cfg) (input_ptr output_ptr : ptr) (len : Z) (s : settings3) (m : mem) : res mem :=
  do _ <- debug_assert (c_debug c) (len mod 16 =? 0) "len.is_multiple_of(16)" ;;
  let v := decorrelation_mode3 s in
  let block_count := len / 16 in
  match split_alpha_endpoints s, split_colour_endpoints3 s, negb (variant_eqb v VNone) with
  | false, false, false => bc3_std_u_untransform c input_ptr output_ptr len m
  | true, false, false =>
      do a1 <- ptr_add m input_ptr block_count ;;
      do ai <- ptr_add m input_ptr (block_count * 2) ;;
      do cs <- ptr_add m input_ptr (block_count * 8) ;;
      do ci <- ptr_add m input_ptr (block_count * 12) ;;
      bc3_sa_u_untransform_with_split_alphas c input_ptr a1 ai cs ci output_ptr block_count m
  | false, false, true => bc3_rec_u_untransform_with_recorrelate c input_ptr output_ptr len v m
  | false, true, false =>
      do ai <- ptr_add m input_ptr (block_count * 2) ;;
      do c0 <- ptr_add m input_ptr (block_count * 8) ;;
      do c1 <- ptr_add m input_ptr (block_count * 10) ;;
      do ci <- ptr_add m input_ptr (block_count * 12) ;;
      bc3_sc_u_untransform_with_split_colour c input_ptr ai c0 c1 ci output_ptr block_count m
  | true, false, true =>
      do a1 <- ptr_add m input_ptr block_count ;;
      do ai <- ptr_add m input_ptr (block_count * 2) ;;
      do cs <- ptr_add m input_ptr (block_count * 8) ;;
      do ci <- ptr_add m input_ptr (block_count * 12) ;;
      bc3_sar_u_untransform_with_split_alphas_and_recorr c input_ptr a1 ai cs ci output_ptr block_count v m
  | true, true, false =>
      do a1 <- ptr_add m input_ptr block_count ;;
      do ai <- ptr_add m input_ptr (block_count * 2) ;;
      do c0 <- ptr_add m input_ptr (block_count * 8) ;;
      do c1 <- ptr_add m input_ptr (block_count * 10) ;;
      do ci <- ptr_add m input_ptr (block_count * 12) ;;
      bc3_sac_u_untransform_with_split_alphas_and_colour c input_ptr a1 ai c0 c1 ci output_ptr block_count m
  | false, true, true =>
      do ai <- ptr_add m input_ptr (block_count * 2) ;;
      do c0 <- ptr_add m input_ptr (block_count * 8) ;;
      do c1 <- ptr_add m input_ptr (block_count * 10) ;;
      do ci <- ptr_add m input_ptr (block_count * 12) ;;
      bc3_scr_u_untransform_with_split_colour_and_recorr c input_ptr ai c0 c1 ci output_ptr block_count v m
  | true, true, true =>
      do a1 <- ptr_add m input_ptr block_count ;;
      do ai <- ptr_add m input_ptr (block_count * 2) ;;
      do c0 <- ptr_add m input_ptr (block_count * 8) ;;
      do c1 <- ptr_add m input_ptr (block_count * 10) ;;
      do ci <- ptr_add m input_ptr (block_count * 12) ;;
      bc3_sacr_u_untransform_with_split_alphas_colour_and_recorr c input_ptr a1 ai c0 c1 ci output_ptr block_count v m
  end.

(** ** Slice versions

    src/core/dxt-lossless-transform-bc1/src/transform/safe/transform_with_settings.rs:18-31 Bc1ValidationError (and the
    BC2, BC3 ones). *)
Inductive validation_error :=
| InvalidLength (len : Z)
| OutputBufferTooSmall (needed actual : Z).

(** Rust's [Result].
    src/core/dxt-lossless-transform-bc1/src/transform/safe/transform_with_settings.rs *)
Inductive result (A E : Type) := ROk (a : A) | RErr (e : E).
Arguments ROk {A E}. Arguments RErr {A E}.

(** A call through slices: the answer and the output buffer afterwards. The
    input is a shared slice and cannot change.
    src/core/dxt-lossless-transform-bc1/src/transform/safe/transform_with_settings.rs *)
Definition checked (block : Z) (run : ptr -> ptr -> Z -> mem -> res mem) (input output : list byte)
  : res (result unit validation_error * list byte) :=
  if negb (zlen input mod block =? 0) then Ok (RErr (InvalidLength (zlen input)), output)
  else if zlen output <? zlen input then Ok (RErr (OutputBufferTooSmall (zlen input) (zlen output)), output)
  else
    do m <- run (Ptr BIn 0) (Ptr BOut 0) (zlen input) (Mem input [] output) ;;
    Ok (ROk tt, m_out m).

(** src/core/dxt-lossless-transform-bc1/src/transform/safe/transform_with_settings.rs:88-117, 192-221 *)
Definition transform_bc1 (c : cfg) (s : settings) (input output : list byte) :=
  checked 8 (fun i o n m => transform_bc1_with_settings c i o n s m) input output.
Definition untransform_bc1 (c : cfg) (s : settings) (input output : list byte) :=
  checked 8 (fun i o n m => untransform_bc1_with_settings c i o n s m) input output.
(** src/core/dxt-lossless-transform-bc2/src/transform/safe/transform_with_settings.rs:88-117, 192-221 *)
Definition transform_bc2 (c : cfg) (s : settings) (input output : list byte) :=
  checked 16 (fun i o n m => transform_bc2_with_settings c i o n s m) input output.
Definition untransform_bc2 (c : cfg) (s : settings) (input output : list byte) :=
  checked 16 (fun i o n m => untransform_bc2_with_settings c i o n s m) input output.
(** src/core/dxt-lossless-transform-bc3/src/transform/safe/transform_with_settings.rs:90-119, 196-225 *)
Definition transform_bc3 (c : cfg) (s : settings3) (input output : list byte) :=
  checked 16 (fun i o n m => transform_bc3_with_settings c i o n s m) input output.
Definition untransform_bc3 (c : cfg) (s : settings3) (input output : list byte) :=
  checked 16 (fun i o n m => untransform_bc3_with_settings c i o n s m) input output.
