(** The C functions compiled for a big-endian machine: the code of Model/CApi.v,
    calling the builders and the slice functions of Model/BeFiles.v. Making,
    copying, changing and freeing builders does not depend on the byte order. *)
From Verif Require Import Base.Bytes Base.Res Model.Color565 Model.Ycc Model.Kernel Model.Transform Model.Auto Model.Builders Model.CApi Model.BeTransform Model.BeFiles.
Open Scope string_scope.
Open Scope list_scope.
Open Scope Z_scope.

Section Calls.
Context {St : Type}.
Variables (k : codec) (c : cfg) (v : env).
Notation heap := (heap St).

(** src/api/dxt-lossless-transform-bc1-api/src/c_api/transform/manual_transform_builder.rs:256-286 *)
Definition be_manual_transform_c := @manual_call St (be_manual_transform k c).
(** src/api/dxt-lossless-transform-bc1-api/src/c_api/transform/manual_transform_builder.rs:323-353 *)
Definition be_manual_untransform_c := @manual_call St (be_manual_untransform k c).

(** src/api/dxt-lossless-transform-bc1-api/src/c_api/transform/auto_transform_builder.rs:190-250 *)
Definition be_auto_transform_c (b : handle) (data : option (list byte)) (data_len : Z) (output : option (list byte)) (output_len : Z)
    (out_manual_builder : option handle) (h : heap) (st : St)
  : res (error_code * option (list byte) * option handle * heap * St) :=
  match b with
  | None => Ok (NullBuilderPointer, output, out_manual_builder, h, st)
  | Some n =>
      match data with
      | None => Ok (NullDataPointer, output, out_manual_builder, h, st)
      | Some d =>
          match output with
          | None => Ok (NullOutputBufferPointer, output, out_manual_builder, h, st)
          | Some o =>
              match out_manual_builder with
              | None => Ok (NullManualBuilderOutputPointer, output, out_manual_builder, h, st)
              | Some _ =>
                  do a <- lookup (autos h) n ;;
                  do input_slice <- from_raw_parts d data_len ;;
                  do output_slice <- from_raw_parts o output_len ;;
                  let rust := auto_use_all (auto_new (of_c_estimator (ca_estimator a))) (ca_use_all a) in
                  do r <- be_auto_transform k c v rust input_slice output_slice st ;;
                  match r with
                  | (ROk m, o1, st1) =>
                      Ok (Success, Some (put_back o o1), Some (Some (List.length (manuals h))), Heap (manuals h ++ [Some m]) (autos h), st1)
                  | (RErr e, o1, st1) => Ok (code_of_error e, Some (put_back o o1), Some None, h, st1)
                  end
              end
          end
      end
  end.
End Calls.

(** src/core/dxt-lossless-transform-bc1/src/c_api/transform_with_settings.rs:73-100, 119-146 *)
Definition be_core_transform_c (k : codec) (c : cfg) (s : settings) := core_call (be_core_transform k c s).
Definition be_core_untransform_c (k : codec) (c : cfg) (s : settings) := core_call (be_core_untransform k c s).

(** src/core/dxt-lossless-transform-bc1/src/c_api/transform_auto.rs:143-190 *)
Definition be_core_transform_auto_c {St} (k : codec) (c : cfg) (v : env) (data : option (list byte)) (data_len : Z) (output : option (list byte)) (output_len : Z)
    (e : option (c_estimator St)) (use_all_modes : bool) (out_details : option settings) (st : St)
  : res (core_code * option (list byte) * option settings * St) :=
  match data with
  | None => Ok (CoreNullDataPointer, output, out_details, st)
  | Some d =>
      match output with
      | None => Ok (CoreNullOutputBufferPointer, output, out_details, st)
      | Some o =>
          match e with
          | None => Ok (CoreNullEstimatorPointer, output, out_details, st)
          | Some e =>
              match out_details with
              | None => Ok (CoreNullTransformSettingsPointer, output, out_details, st)
              | Some old =>
                  do input_slice <- from_raw_parts d data_len ;;
                  do output_slice <- from_raw_parts o output_len ;;
                  do r <- be_core_auto k c v (of_c_estimator e) use_all_modes input_slice output_slice st ;;
                  match r with
                  | (ROk s, o1, st1) => Ok (CoreSuccess, Some (put_back o o1), Some s, st1)
                  | (RErr err, o1, st1) => Ok (core_code_of_auto err, Some (put_back o o1), Some old, st1)
                  end
              end
          end
      end
  end.
