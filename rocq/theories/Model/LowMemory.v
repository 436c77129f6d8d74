(** Restoring BC1 textures when memory runs out. On machines without x86 the
    untransform with split colours and decorrelation allocates a work buffer for
    large textures and panics if it cannot; Model/GenBc1Scr.v takes that
    allocation to succeed. Here [room n] says whether [n] bytes can be allocated;
    apart from that the functions are those of Model/GenBc1Scr.v, Transform.v, Bundle.v and Dds.v
    (and their big-endian versions), line for line. *)
From Verif Require Import Base.Bytes Base.Res Model.Color565 Model.Ycc Model.Kernel Model.GenBc1Scr Model.GenBeBc1Scr Model.GenBc1Sc Model.GenBeBc1Sc Model.GenBc1Std Model.GenBeBc1Std Model.GenBc1Rec Model.GenBeBc1Rec
  Model.Transform Model.Auto Model.Builders Model.Embed Model.Bundle Model.Dds Model.BeTransform Model.BeFiles.
From Coq Require Import String.
Open Scope string_scope.
Open Scope list_scope.
Open Scope Z_scope.

Section Room.
(** [allocate_align_64] gives a buffer of so many bytes;
    src/core/dxt-lossless-transform-common/src/allocate.rs:97-103 *)
Variable room : Z -> bool.

(** src/core/dxt-lossless-transform-bc1/src/transform/with_split_colour_and_recorr/untransform/generic.rs:4-65: lines 30-31 allocate *)
Definition generic_within (c : cfg) (color0_in color1_in indices_in output_ptr : ptr) (block_count : Z) (recorrelation_mode : variant) (m : mem) : res mem :=
  if (negb (is_x86 c) && (128 <=? block_count)) && negb (room (block_count * 8)) then Panic "Failed to allocate work buffer"
  else bc1_scr_u_generic_untransform_with_split_colour_and_recorr_generic c color0_in color1_in indices_in output_ptr block_count recorrelation_mode m.
(** src/core/dxt-lossless-transform-bc1/src/transform/with_split_colour_and_recorr/untransform/mod.rs:14-45 *)
Definition scr_within (c : cfg) (color0_ptr color1_ptr indices_ptr output_ptr : ptr) (block_count : Z) (decorrelation_mode : variant) (m : mem) : res mem :=
  if is_x86 c then bc1_scr_u_untransform_with_split_colour_and_recorr_x86 c color0_ptr color1_ptr indices_ptr output_ptr block_count decorrelation_mode m
  else generic_within c color0_ptr color1_ptr indices_ptr output_ptr block_count decorrelation_mode m.
(** src/core/dxt-lossless-transform-bc1/src/transform/transform_with_settings.rs:92-135 *)
Definition untransform_bc1_with_settings_within (c : cfg) (input_ptr output_ptr : ptr) (len : Z) (s : settings) (m : mem) : res mem :=
  do _ <- debug_assert (c_debug c) (len mod 8 =? 0) "len.is_multiple_of(8)" ;;
  if split_colour_endpoints s then
    do p1 <- ptr_add m input_ptr (len / 4) ;;
    do p2 <- ptr_add m input_ptr (len / 2) ;;
    if variant_eqb (decorrelation_mode s) VNone
    then bc1_sc_u_untransform_with_split_colour c input_ptr p1 p2 output_ptr (len / 8) m
    else scr_within c input_ptr p1 p2 output_ptr (len / 8) (decorrelation_mode s) m
  else if variant_eqb (decorrelation_mode s) VNone
  then bc1_std_u_untransform c input_ptr output_ptr len m
  else bc1_rec_u_untransform_with_recorrelate c input_ptr output_ptr len (decorrelation_mode s) m.
(** src/core/dxt-lossless-transform-bc1/src/transform/safe/transform_with_settings.rs:192-221 *)
Definition untransform_bc1_within (c : cfg) (s : settings) (input output : list byte) :=
  checked 8 (fun i o n m => untransform_bc1_with_settings_within c i o n s m) input output.
(** src/api/dxt-lossless-transform-file-formats-api/src/handlers/dispatch.rs:39-100 *)
Definition dispatch_untransform_within (c : cfg) (h : header) (input output : list byte) : res (result unit transform_error * list byte) :=
  if zlen output <? zlen input then Ok (RErr (EFormatHandler (FhOutputBufferTooSmall (zlen input) (zlen output))), output)
  else
    let run (k : codec) (e : embeddable settings) :=
      match from_header e h with
      | RErr e1 => Ok (RErr (EEmbed e1), output)
      | ROk details =>
          if negb (zlen input mod codec_block k =? 0) then Ok (RErr (InvalidDataAlignment (zlen input) (codec_block k)), output)
          else
            do m <- match k with CBc1 => untransform_bc1_with_settings_within | CBc2 => untransform_bc2_with_settings end c (Ptr BIn 0) (Ptr BOut 0) (zlen input) details (Mem input [] output) ;;
            Ok (ROk tt, m_out m)
      end in
    match header_format h with
    | Some FBc1 => run CBc1 bc1_details
    | Some FBc2 => run CBc2 bc2_details
    | _ => Ok (RErr UnknownTransformFormat, output)
    end.
(** src/extensions/file-formats/dxt-lossless-transform-dds/src/handler/file_format_handler.rs:80-139 *)
Definition dds_untransform_within (c : cfg) (v : env) (input output : list byte) : res (result unit transform_error * list byte) :=
  if zlen input <? 4 then Ok (RErr (EFormatHandler (InputTooShort 4 (zlen input))), output)
  else if zlen output <? zlen input then Ok (RErr (EFormatHandler (FhOutputBufferTooSmall (zlen input) (zlen output))), output)
  else
    let header := read_from_ptr input 0 in
    do info <- parse_dds_ignore_magic (c_debug c) input ;;
    match info with
    | None => Ok (RErr (EFormatHandler InvalidRestoredFileHeader), output)
    | Some info =>
        let data_offset := i_data_offset info in
        let data_length := i_data_length info in
        do total_required <- usize_add (c_debug c) v data_offset data_length ;;
        if zlen input <? total_required
        then Ok (RErr (EFormatHandler (InputTooShortForStatedTextureSize total_required (zlen input))), output)
        else
          do output <- copy_range output 0 4 (u32_bytes DDS_MAGIC) ;;
          do head <- range input 4 data_offset ;;
          do output <- copy_range output 4 data_offset head ;;
          do texture_end <- usize_add (c_debug c) v data_offset data_length ;;
          do texture <- range input data_offset texture_end ;;
          do target <- range output data_offset texture_end ;;
          do r <- dispatch_untransform_within c header texture target ;;
          match r with
          | (RErr e, target) => Ok (RErr e, splice output data_offset target)
          | (ROk _, target) =>
              let output := splice output data_offset target in
              do output <-
                (if texture_end <? zlen input
                 then do leftover <- range input texture_end (zlen input) ;;
                      copy_range output texture_end (zlen output) leftover
                 else Ok output) ;;
              Ok (ROk tt, output)
          end
    end.

(** src/core/dxt-lossless-transform-bc1/src/transform/with_split_colour_and_recorr/untransform/generic.rs:4-65: lines 30-31 allocate *)
Definition be_generic_within (c : cfg) (color0_in color1_in indices_in output_ptr : ptr) (block_count : Z) (recorrelation_mode : variant) (m : mem) : res mem :=
  if ((128 <=? block_count)) && negb (room (block_count * 8)) then Panic "Failed to allocate work buffer"
  else be_bc1_scr_u_generic_untransform_with_split_colour_and_recorr_generic c color0_in color1_in indices_in output_ptr block_count recorrelation_mode m.
(** src/core/dxt-lossless-transform-bc1/src/transform/with_split_colour_and_recorr/untransform/mod.rs:14-45 *)
Definition be_scr_within (c : cfg) (color0_ptr color1_ptr indices_ptr output_ptr : ptr) (block_count : Z) (decorrelation_mode : variant) (m : mem) : res mem :=
  be_generic_within c color0_ptr color1_ptr indices_ptr output_ptr block_count decorrelation_mode m.
(** src/core/dxt-lossless-transform-bc1/src/transform/transform_with_settings.rs:92-135 *)
Definition be_untransform_bc1_with_settings_within (c : cfg) (input_ptr output_ptr : ptr) (len : Z) (s : settings) (m : mem) : res mem :=
  do _ <- debug_assert (c_debug c) (len mod 8 =? 0) "len.is_multiple_of(8)" ;;
  if split_colour_endpoints s then
    do p1 <- ptr_add m input_ptr (len / 4) ;;
    do p2 <- ptr_add m input_ptr (len / 2) ;;
    if variant_eqb (decorrelation_mode s) VNone
    then be_bc1_sc_u_untransform_with_split_colour c input_ptr p1 p2 output_ptr (len / 8) m
    else be_scr_within c input_ptr p1 p2 output_ptr (len / 8) (decorrelation_mode s) m
  else if variant_eqb (decorrelation_mode s) VNone
  then be_bc1_std_u_untransform c input_ptr output_ptr len m
  else be_bc1_rec_u_untransform_with_recorrelate c input_ptr output_ptr len (decorrelation_mode s) m.
(** src/core/dxt-lossless-transform-bc1/src/transform/safe/transform_with_settings.rs:192-221 *)
Definition be_untransform_bc1_within (c : cfg) (s : settings) (input output : list byte) :=
  checked 8 (fun i o n m => be_untransform_bc1_with_settings_within c i o n s m) input output.
(** src/api/dxt-lossless-transform-file-formats-api/src/handlers/dispatch.rs:39-100 *)
Definition be_dispatch_untransform_within (c : cfg) (h : header) (input output : list byte) : res (result unit transform_error * list byte) :=
  if zlen output <? zlen input then Ok (RErr (EFormatHandler (FhOutputBufferTooSmall (zlen input) (zlen output))), output)
  else
    let run (k : codec) (e : embeddable settings) :=
      match from_header e h with
      | RErr e1 => Ok (RErr (EEmbed e1), output)
      | ROk details =>
          if negb (zlen input mod codec_block k =? 0) then Ok (RErr (InvalidDataAlignment (zlen input) (codec_block k)), output)
          else
            do m <- match k with CBc1 => be_untransform_bc1_with_settings_within | CBc2 => be_untransform_bc2_with_settings end c (Ptr BIn 0) (Ptr BOut 0) (zlen input) details (Mem input [] output) ;;
            Ok (ROk tt, m_out m)
      end in
    match header_format h with
    | Some FBc1 => run CBc1 bc1_details
    | Some FBc2 => run CBc2 bc2_details
    | _ => Ok (RErr UnknownTransformFormat, output)
    end.
(** src/extensions/file-formats/dxt-lossless-transform-dds/src/handler/file_format_handler.rs:80-139 *)
Definition be_dds_untransform_within (c : cfg) (v : env) (input output : list byte) : res (result unit transform_error * list byte) :=
  if zlen input <? 4 then Ok (RErr (EFormatHandler (InputTooShort 4 (zlen input))), output)
  else if zlen output <? zlen input then Ok (RErr (EFormatHandler (FhOutputBufferTooSmall (zlen input) (zlen output))), output)
  else
    let header := read_from_ptr input 0 in
    do info <- parse_dds_ignore_magic (c_debug c) input ;;
    match info with
    | None => Ok (RErr (EFormatHandler InvalidRestoredFileHeader), output)
    | Some info =>
        let data_offset := i_data_offset info in
        let data_length := i_data_length info in
        do total_required <- usize_add (c_debug c) v data_offset data_length ;;
        if zlen input <? total_required
        then Ok (RErr (EFormatHandler (InputTooShortForStatedTextureSize total_required (zlen input))), output)
        else
          do output <- copy_range output 0 4 (u32_bytes DDS_MAGIC) ;;
          do head <- range input 4 data_offset ;;
          do output <- copy_range output 4 data_offset head ;;
          do texture_end <- usize_add (c_debug c) v data_offset data_length ;;
          do texture <- range input data_offset texture_end ;;
          do target <- range output data_offset texture_end ;;
          do r <- be_dispatch_untransform_within c header texture target ;;
          match r with
          | (RErr e, target) => Ok (RErr e, splice output data_offset target)
          | (ROk _, target) =>
              let output := splice output data_offset target in
              do output <-
                (if texture_end <? zlen input
                 then do leftover <- range input texture_end (zlen input) ;;
                      copy_range output texture_end (zlen output) leftover
                 else Ok output) ;;
              Ok (ROk tt, output)
          end
    end.
End Room.
