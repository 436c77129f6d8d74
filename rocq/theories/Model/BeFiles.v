(** The automatic search, the builders, the dispatch and the DDS handler compiled
    for a big-endian machine: the same code as in Model/Auto.v, Builders.v,
    Bundle.v, Dds.v and Handlers.v, calling the big-endian entry points of
    Model/BeTransform.v (generated by tools/gen_be.py). Words are read from and
    written to files in little-endian order on every machine
    (src/api/dxt-lossless-transform-file-formats-api/src/embed/mod.rs:142-161;
    the DDS header is read through LittleEndianReader and its magic written with
    to_le_bytes,
    src/extensions/file-formats/dxt-lossless-transform-dds/src/dds/parse_dds.rs:86, 176, 240, 356, src/extensions/file-formats/dxt-lossless-transform-dds/src/handler/file_format_handler.rs:120). *)
From Verif Require Import Base.Bytes Base.Res Model.Color565 Model.Ycc Model.Kernel Model.Transform Model.Auto Model.Builders Model.Embed
  Model.Bundle Model.Dds Model.Handlers Model.BeTransform.
Open Scope string_scope.
Open Scope list_scope.
Open Scope Z_scope.

Section Auto.
Context {St Er : Type}.
Variables (c : cfg) (v : env) (e : estimator St Er) (use_all_decorrelation_modes : bool).

(** src/core/dxt-lossless-transform-bc1/src/transform/transform_auto.rs:200-270; the estimate is of the first half *)
Definition be_transform_bc1_auto_ptr (input_ptr output_ptr : ptr) (len : Z) : mem -> St -> _ :=
  search v e (len / 2) (fun s m => be_transform_bc1_with_settings c input_ptr output_ptr len s m)
    (fun scratch m st => estimate_at e output_ptr (len / 2) scratch m st)
    settings_eqb default_settings (if use_all_decorrelation_modes then comprehensive_test_order else fast_test_order).

(** src/core/dxt-lossless-transform-bc2/src/transform/transform_auto.rs:196-272; the estimate is of the colour endpoints *)
Definition be_transform_bc2_auto_ptr (input_ptr output_ptr : ptr) (len : Z) : mem -> St -> _ :=
  search v e (len / 4) (fun s m => be_transform_bc2_with_settings c input_ptr output_ptr len s m)
    (fun scratch m st => do p <- ptr_add m output_ptr (len / 2) ;; estimate_at e p (len / 4) scratch m st)
    settings_eqb default_settings (if use_all_decorrelation_modes then comprehensive_test_order else fast_test_order).

(** src/core/dxt-lossless-transform-bc3/src/transform/transform_auto.rs:196-294 *)
Definition be_transform_bc3_auto_ptr (input_ptr output_ptr : ptr) (len : Z) : mem -> St -> _ :=
  search v e (len / 4) (fun s m => be_transform_bc3_with_settings c input_ptr output_ptr len s m)
    (fun scratch m st => estimate_bc3 c v e output_ptr len scratch m st)
    settings3_eqb default_settings3 (if use_all_decorrelation_modes then comprehensive_test_order3 else fast_test_order3).
End Auto.
(** src/core/dxt-lossless-transform-bc1/src/transform/safe/transform_auto.rs:95-122 (BC2: 95-122, BC3: 95-121) *)
Definition be_transform_bc1_auto {St Er} c v (e : estimator St Er) use_all := auto_checked 8 (be_transform_bc1_auto_ptr c v e use_all).
Definition be_transform_bc2_auto {St Er} c v (e : estimator St Er) use_all := auto_checked 16 (be_transform_bc2_auto_ptr c v e use_all).
Definition be_transform_bc3_auto {St Er} c v (e : estimator St Er) use_all := auto_checked 16 (be_transform_bc3_auto_ptr c v e use_all).

(** the slice functions and the pointer function of the core crates
    (Model.Transform, Model.Auto);
    src/api/dxt-lossless-transform-bc1-api/src/transform/manual_transform_builder.rs:106-149 *)
Definition be_core_transform (k : codec) := match k with CBc1 => be_transform_bc1 | CBc2 => be_transform_bc2 end.
Definition be_core_untransform (k : codec) := match k with CBc1 => be_untransform_bc1 | CBc2 => be_untransform_bc2 end.
Definition be_core_untransform_ptr (k : codec) := match k with CBc1 => be_untransform_bc1_with_settings | CBc2 => be_untransform_bc2_with_settings end.
Definition be_core_auto {St Er} (k : codec) c v (e : estimator St Er) use_all input output st :=
  match k with
  | CBc1 => be_transform_bc1_auto c v e use_all input output st
  | CBc2 => be_transform_bc2_auto c v e use_all input output st
  end.

(** src/api/dxt-lossless-transform-bc1-api/src/transform/manual_transform_builder.rs:106-109; the error type's parameter defaults to
    [String] *)
Definition be_manual_transform (k : codec) (c : cfg) (b : manual_builder) (input output : list byte)
  : res (result unit (bc_error string) * list byte) :=
  do r <- be_core_transform k c (mb_settings b) input output ;;
  Ok (map_err from_validation_error (fst r), snd r).
(** src/api/dxt-lossless-transform-bc1-api/src/transform/manual_transform_builder.rs:144-148 *)
Definition be_manual_untransform (k : codec) (c : cfg) (b : manual_builder) (input output : list byte)
  : res (result unit (bc_error string) * list byte) :=
  do r <- be_core_untransform k c (mb_settings b) input output ;;
  Ok (map_err from_validation_error (fst r), snd r).

(** src/api/dxt-lossless-transform-bc1-api/src/transform/auto_transform_builder.rs:123-141 *)
Definition be_auto_transform {St Er} (k : codec) (c : cfg) (v : env) (b : auto_builder St Er) (input output : list byte) (st : St)
  : res (result manual_builder (bc_error Er) * list byte * St) :=
  do r <- be_core_auto k c v (ab_estimator b) (ab_use_all b) input output st ;;
  match r with
  | (RErr e, out, st1) => Ok (RErr (from_auto_transform_error e), out, st1)
  | (ROk optimal, out, st1) =>
      let b1 := manual_decorrelation_mode manual_new (from_internal_variant (decorrelation_mode optimal)) in
      Ok (ROk (manual_split_colour_endpoints b1 (split_colour_endpoints optimal)), out, st1)
  end.

Section Bundle.
Context {St Er : Type}.
Variable show : Er -> string.
(** src/api/dxt-lossless-transform-file-formats-api/src/bundle/bc1.rs:43-71 (src/api/dxt-lossless-transform-file-formats-api/src/bundle/bc2.rs the same) *)
Definition be_transform_slice_with_details (k : codec) (c : cfg) (v : env) (b : builder St Er) (input output : list byte) (st : St)
  : res (result settings transform_error * list byte * St) :=
  match b with
  | Manual b =>
      let settings := get_settings b in
      do r <- be_manual_transform k c b input output ;;
      match r with
      | (RErr e, out) => Ok (RErr (codec_error k e), out, st)
      | (ROk _, out) => Ok (ROk settings, out, st)
      end
  | Auto b =>
      do r <- be_auto_transform k c v b input output st ;;
      match r with
      | (RErr e, out, st1) => Ok (RErr (codec_error k (printed show e)), out, st1)
      | (ROk m, out, st1) => Ok (ROk (get_settings m), out, st1)
      end
  end.

(** src/api/dxt-lossless-transform-file-formats-api/src/bundle/mod.rs:125-169, src/api/dxt-lossless-transform-file-formats-api/src/handlers/dispatch.rs:130-141 *)
Definition be_dispatch_transform (c : cfg) (v : env) (t : bundle St Er) (format : transform_format) (input output : list byte) (st : St)
  : res (result header transform_error * list byte * St) :=
  if zlen output <? zlen input then Ok (RErr (EFormatHandler (FhOutputBufferTooSmall (zlen input) (zlen output))), output, st)
  else
    let run (k : codec) (b : option (builder St Er)) (e : embeddable settings) :=
      match b with
      | None => Ok (RErr (EFormatHandler (NoBuilderForFormat format)), output, st)
      | Some b =>
          do r <- be_transform_slice_with_details k c v b input output st ;;
          match r with
          | (RErr e1, out, st1) => Ok (RErr e1, out, st1)
          | (ROk details, out, st1) => Ok (ROk (to_header e details), out, st1)
          end
      end in
    match format with
    | FBc1 => run CBc1 (b_bc1 t) bc1_details
    | FBc2 => run CBc2 (b_bc2 t) bc2_details
    | _ => Ok (RErr UnknownTransformFormat, output, st)
    end.
End Bundle.
(** src/api/dxt-lossless-transform-file-formats-api/src/handlers/dispatch.rs:39-100 *)
Definition be_dispatch_untransform (c : cfg) (h : header) (input output : list byte) : res (result unit transform_error * list byte) :=
  if zlen output <? zlen input then Ok (RErr (EFormatHandler (FhOutputBufferTooSmall (zlen input) (zlen output))), output)
  else
    let run (k : codec) (e : embeddable settings) :=
      match from_header e h with
      | RErr e1 => Ok (RErr (EEmbed e1), output)
      | ROk details =>
          if negb (zlen input mod codec_block k =? 0) then Ok (RErr (InvalidDataAlignment (zlen input) (codec_block k)), output)
          else
            do m <- be_core_untransform_ptr k c (Ptr BIn 0) (Ptr BOut 0) (zlen input) details (Mem input [] output) ;;
            Ok (ROk tt, m_out m)
      end in
    match header_format h with
    | Some FBc1 => run CBc1 bc1_details
    | Some FBc2 => run CBc2 bc2_details
    | _ => Ok (RErr UnknownTransformFormat, output)
    end.

Section Handler.
Context {St Er : Type}.
Variable show : Er -> string.
Variables (c : cfg) (v : env).

(** src/extensions/file-formats/dxt-lossless-transform-dds/src/handler/file_format_handler.rs:16-78 *)
Definition be_dds_transform_bundle (t : bundle St Er) (input output : list byte) (st : St)
  : res (result unit transform_error * list byte * St) :=
  if zlen output <? zlen input then Ok (RErr (EFormatHandler (FhOutputBufferTooSmall (zlen input) (zlen output))), output, st)
  else
    do info <- parse_dds (c_debug c) input ;;
    match info with
    | None => Ok (RErr (EFormatHandler InvalidInputFileHeader), output, st)
    | Some info =>
        let data_offset := i_data_offset info in
        let data_length := i_data_length info in
        do total_required <- usize_add (c_debug c) v data_offset data_length ;;
        if zlen input <? total_required
        then Ok (RErr (EFormatHandler (InputTooShortForStatedTextureSize total_required (zlen input))), output, st)
        else
          do head <- range input 0 data_offset ;;
          do output <- copy_range output 0 data_offset head ;;
          match dds_format_to_transform_format (i_format info) false with
          | RErr e => Ok (RErr e, output, st)
          | ROk transform_format =>
              do texture_end <- usize_add (c_debug c) v data_offset data_length ;;
              do texture <- range input data_offset texture_end ;;
              do target <- range output data_offset texture_end ;;
              do r <- be_dispatch_transform show c v t transform_format texture target st ;;
              match r with
              | (RErr e, target, st) => Ok (RErr e, splice output data_offset target, st)
              | (ROk header, target, st) =>
                  let output := splice output data_offset target in
                  do output <-
                    (if texture_end <? zlen input
                     then do leftover <- range input texture_end (zlen input) ;;
                          copy_range output texture_end (zlen output) leftover
                     else Ok output) ;;
                  Ok (ROk tt, write_to_ptr header output 0, st)
              end
          end
    end.

(** src/extensions/file-formats/dxt-lossless-transform-dds/src/handler/file_format_handler.rs:80-139 *)
Definition be_dds_untransform (input output : list byte) : res (result unit transform_error * list byte) :=
  if zlen input <? 4 then Ok (RErr (EFormatHandler (InputTooShort 4 (zlen input))), output)
  else if zlen output <? zlen input then Ok (RErr (EFormatHandler (FhOutputBufferTooSmall (zlen input) (zlen output))), output)
  else
    let header := read_from_ptr input 0 in
    do info <- parse_dds_ignore_magic (c_debug c) input ;;
    match info with
    | None => Ok (RErr (EFormatHandler InvalidRestoredFileHeader), output)
    | Some info =>
        let data_offset := i_data_offset info in
        let data_length := i_data_length info in
        do total_required <- usize_add (c_debug c) v data_offset data_length ;;
        if zlen input <? total_required
        then Ok (RErr (EFormatHandler (InputTooShortForStatedTextureSize total_required (zlen input))), output)
        else
          do output <- copy_range output 0 4 (u32_bytes DDS_MAGIC) ;;
          do head <- range input 4 data_offset ;;
          do output <- copy_range output 4 data_offset head ;;
          do texture_end <- usize_add (c_debug c) v data_offset data_length ;;
          do texture <- range input data_offset texture_end ;;
          do target <- range output data_offset texture_end ;;
          do r <- be_dispatch_untransform c header texture target ;;
          match r with
          | (RErr e, target) => Ok (RErr e, splice output data_offset target)
          | (ROk _, target) =>
              let output := splice output data_offset target in
              do output <-
                (if texture_end <? zlen input
                 then do leftover <- range input texture_end (zlen input) ;;
                      copy_range output texture_end (zlen output) leftover
                 else Ok output) ;;
              Ok (ROk tt, output)
          end
    end.
End Handler.

(** The DDS handler as one of them; its world is the estimator's state.
    src/extensions/file-formats/dxt-lossless-transform-dds/src/handler/file_format_handler.rs:15-139 *)
Definition be_dds_handler {St Er} (show : Er -> string) (c : cfg) (v : env) : handler (bundle St Er) St := {|
  h_transform := fun t input output st => be_dds_transform_bundle show c v t input output st;
  h_untransform := fun input output st => do r <- be_dds_untransform c v input output ;; Ok (fst r, snd r, st);
  h_can_handle := fun input ext st => do b <- dds_can_handle (c_debug c) input ext ;; Ok (b, st);
  h_can_handle_untransform := fun input ext st => do b <- dds_can_handle_untransform (c_debug c) input ext ;; Ok (b, st) |}.

