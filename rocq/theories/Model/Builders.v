(** The stable Rust builders.

    The files of the bc1-api crate are cited; the bc2-api crate has the same, up to
    names and the block size. *)
From Verif Require Import Base.Bytes Base.Res Model.Color565 Model.Ycc Model.Kernel Model.Transform Model.Auto.
Open Scope string_scope.
Open Scope list_scope.
Open Scope Z_scope.

(** which of the two API crates;
    src/api/dxt-lossless-transform-bc1-api, dxt-lossless-transform-bc2-api; block sizes src/core/dxt-lossless-transform-bc1/src/transform/safe/transform_with_settings.rs *)
Inductive codec := CBc1 | CBc2.
Definition codec_block (k : codec) : Z := match k with CBc1 => 8 | CBc2 => 16 end.
(** the slice functions and the pointer function of the core crates
    (Model.Transform, Model.Auto);
    src/api/dxt-lossless-transform-bc1-api/src/transform/manual_transform_builder.rs:106-149 *)
Definition core_transform (k : codec) := match k with CBc1 => transform_bc1 | CBc2 => transform_bc2 end.
Definition core_untransform (k : codec) := match k with CBc1 => untransform_bc1 | CBc2 => untransform_bc2 end.
Definition core_untransform_ptr (k : codec) := match k with CBc1 => untransform_bc1_with_settings | CBc2 => untransform_bc2_with_settings end.
Definition core_auto {St Er} (k : codec) c v (e : estimator St Er) use_all input output st :=
  match k with
  | CBc1 => transform_bc1_auto c v e use_all input output st
  | CBc2 => transform_bc2_auto c v e use_all input output st
  end.

(** src/api/dxt-lossless-transform-api-common/src/reexports/color_565.rs:65-91 *)
Inductive stable_variant := Variant1 | Variant2 | Variant3 | VariantNone.
(** src/api/dxt-lossless-transform-api-common/src/reexports/color_565.rs:134-142 *)
Definition to_internal_variant (v : stable_variant) : variant :=
  match v with Variant1 => V1 | Variant2 => V2 | Variant3 => V3 | VariantNone => VNone end.
(** src/api/dxt-lossless-transform-api-common/src/reexports/color_565.rs:156-166 *)
Definition from_internal_variant (v : variant) : stable_variant :=
  match v with V1 => Variant1 | V2 => Variant2 | V3 => Variant3 | VNone => VariantNone end.

(** src/api/dxt-lossless-transform-bc1-api/src/error.rs:10-35 Bc1Error *)
Inductive bc_error (E : Type) :=
| BcInvalidLength (len : Z)
| BcOutputBufferTooSmall (needed actual : Z)
| BcAllocationFailed
| BcSizeEstimationFailed (e : E).
Arguments BcInvalidLength {E}. Arguments BcOutputBufferTooSmall {E}. Arguments BcAllocationFailed {E}. Arguments BcSizeEstimationFailed {E}.
(** src/api/dxt-lossless-transform-bc1-api/src/error.rs:44-51 *)
Definition from_validation_error {E} (err : validation_error) : bc_error E :=
  match err with
  | InvalidLength len => BcInvalidLength len
  | OutputBufferTooSmall needed actual => BcOutputBufferTooSmall needed actual
  end.
(** src/api/dxt-lossless-transform-bc1-api/src/error.rs:54-67 *)
Definition from_auto_transform_error {E} (err : auto_error E) : bc_error E :=
  match err with
  | AutoInvalidLength len => BcInvalidLength len
  | AutoOutputBufferTooSmall needed actual => BcOutputBufferTooSmall needed actual
  | DetermineBestTransform AllocateError => BcAllocationFailed
  | DetermineBestTransform (SizeEstimationError e) => BcSizeEstimationFailed e
  end.

(** Result::map_err;
    src/api/dxt-lossless-transform-bc1-api/src/transform/manual_transform_builder.rs:108 *)
Definition map_err {A E F} (f : E -> F) (r : result A E) : result A F :=
  match r with ROk a => ROk a | RErr e => RErr (f e) end.

(** src/api/dxt-lossless-transform-bc1-api/src/transform/manual_transform_builder.rs:17-20 *)
Record manual_builder := ManualBuilder { mb_settings : settings }.
(** src/api/dxt-lossless-transform-bc1-api/src/transform/manual_transform_builder.rs:24-28 *)
Definition manual_new : manual_builder := ManualBuilder default_settings.
(** src/api/dxt-lossless-transform-bc1-api/src/transform/manual_transform_builder.rs:37-39 *)
Definition get_settings (b : manual_builder) : settings := mb_settings b.
(** src/api/dxt-lossless-transform-bc1-api/src/transform/manual_transform_builder.rs:52-55 *)
Definition manual_decorrelation_mode (b : manual_builder) (mode : stable_variant) : manual_builder :=
  ManualBuilder (Settings (to_internal_variant mode) (split_colour_endpoints (mb_settings b))).
(** src/api/dxt-lossless-transform-bc1-api/src/transform/manual_transform_builder.rs:65-68 *)
Definition manual_split_colour_endpoints (b : manual_builder) (split : bool) : manual_builder :=
  ManualBuilder (Settings (decorrelation_mode (mb_settings b)) split).
(** src/api/dxt-lossless-transform-bc1-api/src/transform/manual_transform_builder.rs:106-109; the error type's parameter defaults to
    [String] *)
Definition manual_transform (k : codec) (c : cfg) (b : manual_builder) (input output : list byte)
  : res (result unit (bc_error string) * list byte) :=
  do r <- core_transform k c (mb_settings b) input output ;;
  Ok (map_err from_validation_error (fst r), snd r).
(** src/api/dxt-lossless-transform-bc1-api/src/transform/manual_transform_builder.rs:144-148 *)
Definition manual_untransform (k : codec) (c : cfg) (b : manual_builder) (input output : list byte)
  : res (result unit (bc_error string) * list byte) :=
  do r <- core_untransform k c (mb_settings b) input output ;;
  Ok (map_err from_validation_error (fst r), snd r).

(** src/api/dxt-lossless-transform-bc1-api/src/transform/auto_transform_builder.rs:15-20 *)
Record auto_builder (St Er : Type) := AutoBuilder { ab_estimator : estimator St Er; ab_use_all : bool }.
Arguments AutoBuilder {St Er}. Arguments ab_estimator {St Er}. Arguments ab_use_all {St Er}.
(** src/api/dxt-lossless-transform-bc1-api/src/transform/auto_transform_builder.rs:36-43 *)
Definition auto_new {St Er} (e : estimator St Er) : auto_builder St Er := AutoBuilder e false.
(** src/api/dxt-lossless-transform-bc1-api/src/transform/auto_transform_builder.rs:57-64 *)
Definition auto_new_ultra {St Er} (e : estimator St Er) : auto_builder St Er := AutoBuilder e true.
(** src/api/dxt-lossless-transform-bc1-api/src/transform/auto_transform_builder.rs:75-78 *)
Definition auto_use_all {St Er} (b : auto_builder St Er) (use_all : bool) : auto_builder St Er := AutoBuilder (ab_estimator b) use_all.
(** src/api/dxt-lossless-transform-bc1-api/src/transform/auto_transform_builder.rs:123-141 *)
Definition auto_transform {St Er} (k : codec) (c : cfg) (v : env) (b : auto_builder St Er) (input output : list byte) (st : St)
  : res (result manual_builder (bc_error Er) * list byte * St) :=
  do r <- core_auto k c v (ab_estimator b) (ab_use_all b) input output st ;;
  match r with
  | (RErr e, out, st1) => Ok (RErr (from_auto_transform_error e), out, st1)
  | (ROk optimal, out, st1) =>
      let b1 := manual_decorrelation_mode manual_new (from_internal_variant (decorrelation_mode optimal)) in
      Ok (ROk (manual_split_colour_endpoints b1 (split_colour_endpoints optimal)), out, st1)
  end.
