(** The C functions of the bc1 and bc2 crates.

    The bc1 crates are cited; the bc2 crates have the same functions, up to names,
    comments and the block size.

    A C caller's pointer to bytes is [None] (null) or the bytes that are readable
    or writable there. A handle is [None] (null) or a number: the builders a
    program has made are numbered in the order of their making, and a freed one
    is [None] in the table. Using a handle after freeing it, or one never
    returned, is undefined. Simplifications: allocating a builder never fails
    (Rust would abort the process), the address of a freed builder is not used
    again, a length never exceeds isize::MAX, and an enum argument has one of its
    values. *)
From Verif Require Import Base.Bytes Base.Res Model.Color565 Model.Ycc Model.Kernel Model.Transform Model.Auto Model.Builders.
Open Scope string_scope.
Open Scope list_scope.
Open Scope Z_scope.

(** src/api/dxt-lossless-transform-api-common/src/c_api/size_estimation.rs:17-52 DltSizeEstimator: two C
    functions over a context, each returning a code and perhaps storing a size *)
Record c_estimator (St : Type) := CEstimator {
  c_max_compressed_size : St -> Z -> Z * option Z * St;
  c_estimate_compressed_size : St -> list byte -> Z -> Z * option Z * St }.
Arguments CEstimator {St}. Arguments c_max_compressed_size {St}. Arguments c_estimate_compressed_size {St}.
(** src/api/dxt-lossless-transform-api-common/src/c_api/size_estimation.rs:80-87, 97-113: out_size starts as 0 *)
Definition c_answer {St} (a : Z * option Z * St) : result Z Z * St :=
  let '(code, out, st) := a in
  (if code =? 0 then ROk (match out with Some n => n | None => 0 end) else RErr code, st).
(** src/api/dxt-lossless-transform-api-common/src/c_api/size_estimation.rs:76-134 *)
Definition of_c_estimator {St} (e : c_estimator St) : estimator St Z :=
  Estimator (fun st n => c_answer (c_max_compressed_size e st n)) (fun st d scratch => c_answer (c_estimate_compressed_size e st d scratch)).

(** src/api/dxt-lossless-transform-bc1-api/src/c_api/error.rs:12-39 *)
Inductive error_code :=
| Success | CInvalidLength | COutputBufferTooSmall | CAllocationFailed | CSizeEstimationFailed | NullDataPointer | NullEstimatorPointer
| NullTransformSettingsPointer | NullInputPointer | NullOutputBufferPointer | NullManualTransformBuilderPointer | NullBuilderPointer
| NullManualBuilderOutputPointer.
Definition code_number (e : error_code) : Z :=
  match e with
  | Success => 0 | CInvalidLength => 1 | COutputBufferTooSmall => 2 | CAllocationFailed => 3 | CSizeEstimationFailed => 4 | NullDataPointer => 5
  | NullEstimatorPointer => 6 | NullTransformSettingsPointer => 7 | NullInputPointer => 8 | NullOutputBufferPointer => 9
  | NullManualTransformBuilderPointer => 10 | NullBuilderPointer => 11 | NullManualBuilderOutputPointer => 12
  end.
(** src/api/dxt-lossless-transform-bc1-api/src/c_api/error.rs:76-89 *)
Definition code_of_error {E} (e : bc_error E) : error_code :=
  match e with
  | BcInvalidLength _ => CInvalidLength
  | BcOutputBufferTooSmall _ _ => COutputBufferTooSmall
  | BcAllocationFailed => CAllocationFailed
  | BcSizeEstimationFailed _ => CSizeEstimationFailed
  end.
(** src/api/dxt-lossless-transform-bc1-api/src/c_api/error.rs:131-172; BC2 says 16 for 8 and Bc2 for Bc1 *)
Definition error_message (k : codec) (e : error_code) : string :=
  match e with
  | Success => "Success"
  | CInvalidLength =>
      match k with
      | CBc1 => "Invalid input length: Length must be divisible by 8 (BC1 block size)"
      | CBc2 => "Invalid input length: Length must be divisible by 16 (BC2 block size)"
      end
  | COutputBufferTooSmall => "Output buffer too small for the operation"
  | CAllocationFailed => "Memory allocation failed"
  | CSizeEstimationFailed => "Size estimation failed during transform optimization"
  | NullDataPointer => "Null pointer provided for data parameter"
  | NullEstimatorPointer => "Null pointer provided for DltSizeEstimator parameter"
  | NullTransformSettingsPointer =>
      match k with
      | CBc1 => "Null pointer provided for Dltbc1TransformSettings parameter"
      | CBc2 => "Null pointer provided for Dltbc2TransformSettings parameter"
      end
  | NullInputPointer => "Null pointer provided for input parameter"
  | NullOutputBufferPointer => "Null pointer provided for output parameter"
  | NullManualTransformBuilderPointer =>
      match k with
      | CBc1 => "Null pointer provided for Dltbc1ManualTransformBuilder parameter"
      | CBc2 => "Null pointer provided for Dltbc2ManualTransformBuilder parameter"
      end
  | NullBuilderPointer =>
      match k with
      | CBc1 => "Null pointer provided for Dltbc1EstimateSettingsBuilder parameter"
      | CBc2 => "Null pointer provided for Dltbc2EstimateSettingsBuilder parameter"
      end
  | NullManualBuilderOutputPointer => "Null pointer provided for manual builder output parameter"
  end.

(** core::slice::from_raw_parts and from_raw_parts_mut;
    src/api/dxt-lossless-transform-bc1-api/src/c_api/transform/manual_transform_builder.rs:275-276 *)
Definition from_raw_parts (readable : list byte) (len : Z) : res (list byte) :=
  if (0 <=? len) && (len <=? zlen readable) then Ok (firstn (Z.to_nat len) readable) else Ub "slice over memory the caller does not own".

(** ** Handles *)
(** src/api/dxt-lossless-transform-bc1-api/src/c_api/transform/manual_transform_builder.rs:76, 91, 119 *)
Definition handle := option nat.
(** src/api/dxt-lossless-transform-bc1-api/src/c_api/transform/auto_transform_builder.rs:35-38 *)
Record c_auto_builder (St : Type) := CAutoBuilder { ca_estimator : c_estimator St; ca_use_all : bool }.
Arguments CAutoBuilder {St}. Arguments ca_estimator {St}. Arguments ca_use_all {St}.
Record heap (St : Type) := Heap { manuals : list (option manual_builder); autos : list (option (c_auto_builder St)) }.
Arguments Heap {St}. Arguments manuals {St}. Arguments autos {St}.

Definition lookup {A} (t : list (option A)) (n : nat) : res A :=
  match nth_error t n with
  | Some (Some a) => Ok a
  | _ => Ub "use of a builder that does not exist"
  end.
Fixpoint update {A} (t : list (option A)) (n : nat) (a : option A) : list (option A) :=
  match t, n with
  | [], _ => []
  | _ :: t1, O => a :: t1
  | x :: t1, S n1 => x :: update t1 n1 a
  end.

Section Calls.
Context {St : Type}.
Variables (k : codec) (c : cfg) (v : env).
Notation heap := (heap St).

(** src/api/dxt-lossless-transform-bc1-api/src/c_api/transform/manual_transform_builder.rs:71-77 *)
Definition new_manual (h : heap) : handle * heap :=
  (Some (List.length (manuals h)), Heap (manuals h ++ [Some manual_new]) (autos h)).
(** src/api/dxt-lossless-transform-bc1-api/src/c_api/transform/manual_transform_builder.rs:86-94 *)
Definition free_manual (b : handle) (h : heap) : res heap :=
  match b with
  | None => Ok h
  | Some n => do _ <- lookup (manuals h) n ;; Ok (Heap (update (manuals h) n None) (autos h))
  end.
(** src/api/dxt-lossless-transform-bc1-api/src/c_api/transform/manual_transform_builder.rs:107-120 *)
Definition clone_manual (b : handle) (h : heap) : res (handle * heap) :=
  match b with
  | None => Ok (None, h)
  | Some n => do m <- lookup (manuals h) n ;; Ok (Some (List.length (manuals h)), Heap (manuals h ++ [Some m]) (autos h))
  end.
(** src/api/dxt-lossless-transform-bc1-api/src/c_api/transform/manual_transform_builder.rs:50-55 and the assignments after it *)
Definition change_manual (f : manual_builder -> manual_builder) (b : handle) (h : heap) : res heap :=
  match b with
  | None => Ok h
  | Some n => do m <- lookup (manuals h) n ;; Ok (Heap (update (manuals h) n (Some (f m))) (autos h))
  end.
(** src/api/dxt-lossless-transform-bc1-api/src/c_api/transform/manual_transform_builder.rs:150-160 *)
Definition set_decorrelation_mode (b : handle) (mode : stable_variant) := change_manual (fun m => manual_decorrelation_mode m mode) b.
(** src/api/dxt-lossless-transform-bc1-api/src/c_api/transform/manual_transform_builder.rs:183-193 *)
Definition set_split_colour_endpoints (b : handle) (split : bool) := change_manual (fun m => manual_split_colour_endpoints m split) b.
(** src/api/dxt-lossless-transform-bc1-api/src/c_api/transform/manual_transform_builder.rs:203-212 *)
Definition reset_to_defaults (b : handle) := change_manual (fun _ => manual_new) b.

(** The bytes behind the output pointer after a call that was given [len] of
    them and left [new] there.
    src/api/dxt-lossless-transform-bc1-api/src/c_api/transform/manual_transform_builder.rs:276 *)
Definition put_back (out new : list byte) : list byte := splice out 0 new.

(** src/api/dxt-lossless-transform-bc1-api/src/c_api/transform/manual_transform_builder.rs:256-286, 323-353 with the builder's method *)
Definition manual_call (run : manual_builder -> list byte -> list byte -> res (result unit (bc_error string) * list byte))
    (input : option (list byte)) (input_len : Z) (output : option (list byte)) (output_len : Z) (b : handle) (h : heap)
  : res (error_code * option (list byte)) :=
  match input with
  | None => Ok (NullDataPointer, output)
  | Some i =>
      match output with
      | None => Ok (NullOutputBufferPointer, output)
      | Some o =>
          match b with
          | None => Ok (NullManualTransformBuilderPointer, output)
          | Some n =>
              do input_slice <- from_raw_parts i input_len ;;
              do output_slice <- from_raw_parts o output_len ;;
              do m <- lookup (manuals h) n ;;
              do r <- run m input_slice output_slice ;;
              Ok (match fst r with ROk _ => Success | RErr e => code_of_error e end, Some (put_back o (snd r)))
          end
      end
  end.
Definition manual_transform_c := manual_call (manual_transform k c).
Definition manual_untransform_c := manual_call (manual_untransform k c).

(** src/api/dxt-lossless-transform-bc1-api/src/c_api/transform/auto_transform_builder.rs:63-79 *)
Definition new_auto (e : option (c_estimator St)) (h : heap) : handle * heap :=
  match e with
  | None => (None, h)
  | Some e => (Some (List.length (autos h)), Heap (manuals h) (autos h ++ [Some (CAutoBuilder e false)]))
  end.
(** src/api/dxt-lossless-transform-bc1-api/src/c_api/transform/auto_transform_builder.rs:88-96 *)
Definition free_auto (b : handle) (h : heap) : res heap :=
  match b with
  | None => Ok h
  | Some n => do _ <- lookup (autos h) n ;; Ok (Heap (manuals h) (update (autos h) n None))
  end.
(** src/api/dxt-lossless-transform-bc1-api/src/c_api/transform/auto_transform_builder.rs:121-132 *)
Definition set_use_all_decorrelation_modes (b : handle) (use_all : bool) (h : heap) : res (error_code * heap) :=
  match b with
  | None => Ok (NullBuilderPointer, h)
  | Some n =>
      do a <- lookup (autos h) n ;;
      Ok (Success, Heap (manuals h) (update (autos h) n (Some (CAutoBuilder (ca_estimator a) use_all))))
  end.
(** src/api/dxt-lossless-transform-bc1-api/src/c_api/transform/auto_transform_builder.rs:190-250. [out_manual_builder] is null or points to
    a handle variable; its contents afterwards are returned. *)
Definition auto_transform_c (b : handle) (data : option (list byte)) (data_len : Z) (output : option (list byte)) (output_len : Z)
    (out_manual_builder : option handle) (h : heap) (st : St)
  : res (error_code * option (list byte) * option handle * heap * St) :=
  match b with
  | None => Ok (NullBuilderPointer, output, out_manual_builder, h, st)
  | Some n =>
      match data with
      | None => Ok (NullDataPointer, output, out_manual_builder, h, st)
      | Some d =>
          match output with
          | None => Ok (NullOutputBufferPointer, output, out_manual_builder, h, st)
          | Some o =>
              match out_manual_builder with
              | None => Ok (NullManualBuilderOutputPointer, output, out_manual_builder, h, st)
              | Some _ =>
                  do a <- lookup (autos h) n ;;
                  do input_slice <- from_raw_parts d data_len ;;
                  do output_slice <- from_raw_parts o output_len ;;
                  let rust := auto_use_all (auto_new (of_c_estimator (ca_estimator a))) (ca_use_all a) in
                  do r <- auto_transform k c v rust input_slice output_slice st ;;
                  match r with
                  | (ROk m, o1, st1) =>
                      Ok (Success, Some (put_back o o1), Some (Some (List.length (manuals h))), Heap (manuals h ++ [Some m]) (autos h), st1)
                  | (RErr e, o1, st1) => Ok (code_of_error e, Some (put_back o o1), Some None, h, st1)
                  end
              end
          end
      end
  end.
End Calls.

(** ** The core crates' C functions *)

(** src/core/dxt-lossless-transform-bc1/src/c_api/transform_auto.rs:39-58 *)
Inductive core_code :=
| CoreSuccess | CoreNullDataPointer | CoreNullOutputBufferPointer | CoreNullEstimatorPointer | CoreNullTransformSettingsPointer
| CoreInvalidDataLength | CoreOutputBufferTooSmall | CoreSizeEstimationError | CoreTransformationError.
Definition core_code_number (e : core_code) : Z :=
  match e with
  | CoreSuccess => 0 | CoreNullDataPointer => 1 | CoreNullOutputBufferPointer => 2 | CoreNullEstimatorPointer => 3
  | CoreNullTransformSettingsPointer => 4 | CoreInvalidDataLength => 5 | CoreOutputBufferTooSmall => 6 | CoreSizeEstimationError => 7
  | CoreTransformationError => 8
  end.
(** src/core/dxt-lossless-transform-bc1/src/c_api/transform_with_settings.rs:41-51 *)
Definition core_code_of_validation (e : validation_error) : core_code :=
  match e with InvalidLength _ => CoreInvalidDataLength | OutputBufferTooSmall _ _ => CoreOutputBufferTooSmall end.
(** src/core/dxt-lossless-transform-bc1/src/c_api/transform_auto.rs:87-100 *)
Definition core_code_of_auto {E} (e : auto_error E) : core_code :=
  match e with
  | AutoInvalidLength _ => CoreInvalidDataLength
  | AutoOutputBufferTooSmall _ _ => CoreOutputBufferTooSmall
  | DetermineBestTransform _ => CoreSizeEstimationError
  end.

(** src/core/dxt-lossless-transform-bc1/src/c_api/transform_with_settings.rs:73-100, 119-146; the settings structs
    (src/core/dxt-lossless-transform-bc1/src/c_api/transform_with_settings.rs:14-39, src/core/dxt-lossless-transform-bc1/src/c_api/transform_auto.rs:27-34) are [settings] *)
Definition core_call (run : list byte -> list byte -> res (result unit validation_error * list byte))
    (input : option (list byte)) (input_len : Z) (output : option (list byte)) (output_len : Z) : res (core_code * option (list byte)) :=
  match input with
  | None => Ok (CoreNullDataPointer, output)
  | Some i =>
      match output with
      | None => Ok (CoreNullOutputBufferPointer, output)
      | Some o =>
          do input_slice <- from_raw_parts i input_len ;;
          do output_slice <- from_raw_parts o output_len ;;
          do r <- run input_slice output_slice ;;
          Ok (match fst r with ROk _ => CoreSuccess | RErr e => core_code_of_validation e end, Some (put_back o (snd r)))
      end
  end.
Definition core_transform_c (k : codec) (c : cfg) (s : settings) := core_call (core_transform k c s).
Definition core_untransform_c (k : codec) (c : cfg) (s : settings) := core_call (core_untransform k c s).

(** src/core/dxt-lossless-transform-bc1/src/c_api/transform_auto.rs:143-190; [out_details] is null or points to a
    settings variable *)
Definition core_transform_auto_c {St} (k : codec) (c : cfg) (v : env) (data : option (list byte)) (data_len : Z) (output : option (list byte)) (output_len : Z)
    (e : option (c_estimator St)) (use_all_modes : bool) (out_details : option settings) (st : St)
  : res (core_code * option (list byte) * option settings * St) :=
  match data with
  | None => Ok (CoreNullDataPointer, output, out_details, st)
  | Some d =>
      match output with
      | None => Ok (CoreNullOutputBufferPointer, output, out_details, st)
      | Some o =>
          match e with
          | None => Ok (CoreNullEstimatorPointer, output, out_details, st)
          | Some e =>
              match out_details with
              | None => Ok (CoreNullTransformSettingsPointer, output, out_details, st)
              | Some old =>
                  do input_slice <- from_raw_parts d data_len ;;
                  do output_slice <- from_raw_parts o output_len ;;
                  do r <- core_auto k c v (of_c_estimator e) use_all_modes input_slice output_slice st ;;
                  match r with
                  | (ROk s, o1, st1) => Ok (CoreSuccess, Some (put_back o o1), Some s, st1)
                  | (RErr err, o1, st1) => Ok (core_code_of_auto err, Some (put_back o o1), Some old, st1)
                  end
              end
          end
      end
  end.
