(** Transform bundles and the dispatch on the texture format. *)
From Verif Require Import Base.Bytes Base.Res Model.Color565 Model.Ycc Model.Kernel Model.Transform Model.Auto Model.Builders Model.Embed.
Open Scope string_scope.
Open Scope list_scope.
Open Scope Z_scope.

(** src/api/dxt-lossless-transform-file-formats-api/src/error.rs:16-49 *)
Inductive format_handler_error :=
| UnknownFileFormat
| InvalidInputFileHeader
| InvalidRestoredFileHeader
| FormatNotImplemented (f : transform_format)
| NoBuilderForFormat (f : transform_format)
| FhOutputBufferTooSmall (required actual : Z)
| InputTooShort (required actual : Z)
| InputTooShortForStatedTextureSize (required actual : Z).
(** src/api/dxt-lossless-transform-file-formats-api/src/error.rs:55-87 *)
Inductive transform_error :=
| EEmbed (e : embed_error)
| EFormatHandler (e : format_handler_error)
| EBc1 (e : bc_error string)
| EBc2 (e : bc_error string)
| UnknownTransformFormat
| InvalidDataAlignment (size required_divisor : Z)
| NoSupportedHandler.

Definition codec_error (k : codec) : bc_error string -> transform_error := match k with CBc1 => EBc1 | CBc2 => EBc2 end.

Section Bundle.
Context {St Er : Type}.
(** Rust's [format!("{err:?}")] of an estimator error *)
Variable show : Er -> string.

(** src/api/dxt-lossless-transform-file-formats-api/src/bundle/bc1.rs:16-24 (src/api/dxt-lossless-transform-file-formats-api/src/bundle/bc2.rs the same) *)
Inductive builder := Manual (b : manual_builder) | Auto (b : auto_builder St Er).

(** src/api/dxt-lossless-transform-file-formats-api/src/bundle/bc1.rs:56-67: the error with the estimator's part printed *)
Definition printed (e : bc_error Er) : bc_error string :=
  match e with
  | BcInvalidLength len => BcInvalidLength len
  | BcOutputBufferTooSmall needed actual => BcOutputBufferTooSmall needed actual
  | BcAllocationFailed => BcAllocationFailed
  | BcSizeEstimationFailed err => BcSizeEstimationFailed (show err)
  end.

(** src/api/dxt-lossless-transform-file-formats-api/src/bundle/bc1.rs:43-71 (src/api/dxt-lossless-transform-file-formats-api/src/bundle/bc2.rs the same) *)
Definition transform_slice_with_details (k : codec) (c : cfg) (v : env) (b : builder) (input output : list byte) (st : St)
  : res (result settings transform_error * list byte * St) :=
  match b with
  | Manual b =>
      let settings := get_settings b in
      do r <- manual_transform k c b input output ;;
      match r with
      | (RErr e, out) => Ok (RErr (codec_error k e), out, st)
      | (ROk _, out) => Ok (ROk settings, out, st)
      end
  | Auto b =>
      do r <- auto_transform k c v b input output st ;;
      match r with
      | (RErr e, out, st1) => Ok (RErr (codec_error k (printed e)), out, st1)
      | (ROk m, out, st1) => Ok (ROk (get_settings m), out, st1)
      end
  end.

(** src/api/dxt-lossless-transform-file-formats-api/src/bundle/mod.rs:37-49; the BC3 and BC7 fields hold nothing *)
Record bundle := Bundle { b_bc1 : option builder; b_bc2 : option builder }.
(** src/api/dxt-lossless-transform-file-formats-api/src/bundle/mod.rs:55-62, 73-75 *)
Definition bundle_new : bundle := Bundle None None.
(** src/api/dxt-lossless-transform-file-formats-api/src/bundle/mod.rs:78-84, 87-93, 96-102, 105-111 *)
Definition with_bc1_manual (t : bundle) (b : manual_builder) : bundle := Bundle (Some (Manual b)) (b_bc2 t).
Definition with_bc1_auto (t : bundle) (b : auto_builder St Er) : bundle := Bundle (Some (Auto b)) (b_bc2 t).
Definition with_bc2_manual (t : bundle) (b : manual_builder) : bundle := Bundle (b_bc1 t) (Some (Manual b)).
Definition with_bc2_auto (t : bundle) (b : auto_builder St Er) : bundle := Bundle (b_bc1 t) (Some (Auto b)).
(** src/api/dxt-lossless-transform-file-formats-api/src/bundle/mod.rs:180-187 *)
Definition default_all : bundle := Bundle (Some (Manual manual_new)) (Some (Manual manual_new)).

(** src/api/dxt-lossless-transform-file-formats-api/src/bundle/mod.rs:125-169, src/api/dxt-lossless-transform-file-formats-api/src/handlers/dispatch.rs:130-141 *)
Definition dispatch_transform (c : cfg) (v : env) (t : bundle) (format : transform_format) (input output : list byte) (st : St)
  : res (result header transform_error * list byte * St) :=
  if zlen output <? zlen input then Ok (RErr (EFormatHandler (FhOutputBufferTooSmall (zlen input) (zlen output))), output, st)
  else
    let run (k : codec) (b : option builder) (e : embeddable settings) :=
      match b with
      | None => Ok (RErr (EFormatHandler (NoBuilderForFormat format)), output, st)
      | Some b =>
          do r <- transform_slice_with_details k c v b input output st ;;
          match r with
          | (RErr e1, out, st1) => Ok (RErr e1, out, st1)
          | (ROk details, out, st1) => Ok (ROk (to_header e details), out, st1)
          end
      end in
    match format with
    | FBc1 => run CBc1 (b_bc1 t) bc1_details
    | FBc2 => run CBc2 (b_bc2 t) bc2_details
    | _ => Ok (RErr UnknownTransformFormat, output, st)
    end.
End Bundle.
Arguments builder : clear implicits. Arguments bundle : clear implicits.

(** src/api/dxt-lossless-transform-file-formats-api/src/handlers/dispatch.rs:39-100 *)
Definition dispatch_untransform (c : cfg) (h : header) (input output : list byte) : res (result unit transform_error * list byte) :=
  if zlen output <? zlen input then Ok (RErr (EFormatHandler (FhOutputBufferTooSmall (zlen input) (zlen output))), output)
  else
    let run (k : codec) (e : embeddable settings) :=
      match from_header e h with
      | RErr e1 => Ok (RErr (EEmbed e1), output)
      | ROk details =>
          if negb (zlen input mod codec_block k =? 0) then Ok (RErr (InvalidDataAlignment (zlen input) (codec_block k)), output)
          else
            do m <- core_untransform_ptr k c (Ptr BIn 0) (Ptr BOut 0) (zlen input) details (Mem input [] output) ;;
            Ok (ROk tt, m_out m)
      end in
    match header_format h with
    | Some FBc1 => run CBc1 bc1_details
    | Some FBc2 => run CBc2 bc2_details
    | _ => Ok (RErr UnknownTransformFormat, output)
    end.
