(** The bundled size estimator (extensions/estimators/dxt-lossless-transform-ltu)
    and its C wrapper.

    The match counter [estimate_num_lz_matches_fast] belongs to another crate
    (lossless-transform-utils). It is the function argument [matches]: nothing is
    assumed about it except, where stated, that its [usize] result is not negative. *)
From Verif Require Import Base.Bytes Base.Res Model.Transform Model.Auto Model.CApi.

(** src/extensions/estimators/dxt-lossless-transform-ltu/src/lib.rs:22-31 LosslessTransformUtilsError; the allocation error keeps no detail *)
Inductive ltu_error := LtuAllocateError | LtuInvalidInput.

Section Ltu.
Variable matches : list byte -> Z.

(** [usize::saturating_sub] (core);
    src/extensions/estimators/dxt-lossless-transform-ltu/src/lib.rs:77 *)
Definition saturating_sub (a b : Z) : Z := Z.max 0 (a - b).

(** src/extensions/estimators/dxt-lossless-transform-ltu/src/lib.rs:67-78 estimate_size *)
Definition ltu_estimate_size (data : list byte) : Z :=
  if zlen data =? 0 then 0 else saturating_sub (zlen data) (matches data).

(** src/extensions/estimators/dxt-lossless-transform-ltu/src/lib.rs:90-94 *)
Definition ltu_max (len_bytes : Z) : result Z ltu_error := ROk 0.

(** src/extensions/estimators/dxt-lossless-transform-ltu/src/lib.rs:96-118. The input pointer is null ([None]) or points to the bytes that
    [len_bytes] counts; the output buffer is represented by its length and never used. *)
Definition ltu_estimate (input : option (list byte)) (output_len : Z) : result Z ltu_error :=
  match input with
  | None => ROk 0
  | Some data => if zlen data =? 0 then ROk 0 else ROk (ltu_estimate_size data)
  end.

(** src/extensions/estimators/dxt-lossless-transform-ltu/src/lib.rs:87-119: the trait implementation, as the estimators of Model/Auto.v
    (whose data pointers are never null) *)
Definition ltu : estimator unit ltu_error :=
  Estimator (fun st n => (ltu_max n, st)) (fun st d scratch => (ltu_estimate (Some d) scratch, st)).

(** src/extensions/estimators/dxt-lossless-transform-ltu/src/c_api.rs:104-122 ltu_max_compressed_size. Result: the code, and the value
    stored through [out_size], if any. [context] and [out_size] may be null. *)
Definition ltu_max_compressed_size (context_null : bool) (len_bytes : Z) (out_size_null : bool) : Z * option Z :=
  if context_null || out_size_null then (1, None)
  else match ltu_max len_bytes with
       | ROk size => (0, Some size)
       | RErr _ => (2, None)
       end.

(** src/extensions/estimators/dxt-lossless-transform-ltu/src/c_api.rs:125-145 ltu_estimate_compressed_size *)
Definition ltu_estimate_compressed_size (context_null : bool) (input : option (list byte)) (output_len : Z) (out_size_null : bool) : Z * option Z :=
  if context_null || out_size_null then (1, None)
  else match ltu_estimate input output_len with
       | ROk size => (0, Some size)
       | RErr _ => (3, None)
       end.

(** src/extensions/estimators/dxt-lossless-transform-ltu/src/c_api.rs:148-154 create_c_size_estimator, 74-78 dltltu_new_size_estimator: the
    context is not null, and the library passes a non-null [out_size]
    (src/api/dxt-lossless-transform-api-common/src/c_api/size_estimation.rs:80-87, 97-113). The context is never
    written to. *)
Definition dltltu_new_size_estimator : c_estimator unit :=
  CEstimator
    (fun st n => let '(code, out) := ltu_max_compressed_size false n false in (code, out, st))
    (fun st d scratch => let '(code, out) := ltu_estimate_compressed_size false (Some d) scratch false in (code, out, st)).
End Ltu.
