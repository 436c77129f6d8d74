(** Automatic choice of settings. *)
From Verif Require Import Base.Bytes Base.Res Model.Color565 Model.Ycc Model.Kernel Model.Transform.
Open Scope string_scope.
Open Scope list_scope.
Open Scope Z_scope.

(** src/api/dxt-lossless-transform-api-common/src/estimate/mod.rs:24-65
    SizeEstimationOperations. An estimator is arbitrary user code behind [&self]:
    it may keep state ([St]) and answer differently each time. It sees the bytes
    of the input range, and a scratch buffer of a given length (0: null pointer)
    whose contents it may use as more private state. It does not panic. *)
Record estimator (St Er : Type) := Estimator {
  max_compressed_size : St -> Z -> result Z Er * St;
  estimate_compressed_size : St -> list byte -> Z -> result Z Er * St
}.
Arguments max_compressed_size {St Er}. Arguments estimate_compressed_size {St Er}. Arguments Estimator {St Er}.

(** src/api/dxt-lossless-transform-api-common/src/estimate/mod.rs:102-121 NoEstimation *)
Definition no_estimation : estimator unit unit := Estimator (fun st _ => (ROk 0, st)) (fun st _ _ => (ROk 0, st)).

(** src/core/dxt-lossless-transform-bc1/src/transform/transform_auto.rs:15-23 DetermineBestTransformError (also BC2, BC3) *)
Inductive determine_error (Er : Type) := AllocateError | SizeEstimationError (e : Er).
Arguments AllocateError {Er}. Arguments SizeEstimationError {Er}.

(** What surrounds a call: the largest [usize], and whether allocating that many
    bytes succeeds (src/core/dxt-lossless-transform-common/src/allocate.rs:97-100 allocate_align_64). *)
Record env := Env { usize_max : Z; alloc_ok : Z -> bool }.

Section Search.
Context {St Er S : Type}.
(** the transform with given settings, and one estimate of the current output *)
Variable transform : S -> mem -> res mem.
Variable estimate : mem -> St -> res (result Z Er * St).

(** src/core/dxt-lossless-transform-bc1/src/transform/transform_auto.rs:237-261 (BC2: 233-263, BC3: 234-285), the loop over
    the candidates. [best], [best_size] and [last] are the Rust variables of
    those names. *)
Fixpoint search_loop (order : list S) (best : S) (best_size : Z) (last : S) (m : mem) (st : St)
  : res (result (S * S) Er * mem * St) :=
  match order with
  | [] => Ok (ROk (best, last), m, st)
  | current :: rest =>
      do m1 <- transform current m ;;
      do r <- estimate m1 st ;;
      match r with
      | (RErr e, st1) => Ok (RErr e, m1, st1)
      | (ROk size, st1) =>
          if size <? best_size then search_loop rest current size current m1 st1
          else search_loop rest best best_size current m1 st1
      end
  end.
End Search.

Definition settings_eqb (a b : settings) : bool :=
  variant_eqb (decorrelation_mode a) (decorrelation_mode b) && Bool.eqb (split_colour_endpoints a) (split_colour_endpoints b).
Definition settings3_eqb (a b : settings3) : bool :=
  variant_eqb (decorrelation_mode3 a) (decorrelation_mode3 b) && Bool.eqb (split_alpha_endpoints a) (split_alpha_endpoints b)
  && Bool.eqb (split_colour_endpoints3 a) (split_colour_endpoints3 b).

(** src/core/dxt-lossless-transform-bc1/src/transform/settings.rs:35-43, src/core/dxt-lossless-transform-bc2/src/transform/settings.rs:35-43, src/core/dxt-lossless-transform-bc3/src/transform/settings.rs:39-48 *)
Definition default_settings : settings := Settings V1 true.
Definition default_settings3 : settings3 := Settings3 V1 true true.

(** src/core/dxt-lossless-transform-bc1/src/transform/settings.rs:81-98, src/core/dxt-lossless-transform-bc2/src/transform/settings.rs:81-98 (the same lists) *)
Definition fast_test_order : list settings :=
  [Settings VNone false; Settings VNone true; Settings V1 false; Settings V1 true].
Definition comprehensive_test_order : list settings :=
  [Settings V2 false; Settings VNone false; Settings VNone true; Settings V3 false;
   Settings V3 true; Settings V2 true; Settings V1 false; Settings V1 true].
(** src/core/dxt-lossless-transform-bc3/src/transform/settings.rs:91-121 *)
Definition fast_test_order3 : list settings3 :=
  [Settings3 V1 true false; Settings3 V1 true true; Settings3 VNone true false; Settings3 VNone false true;
   Settings3 VNone true true; Settings3 V1 false true; Settings3 VNone false false; Settings3 V1 false false].
Definition comprehensive_test_order3 : list settings3 :=
  [Settings3 V2 true false; Settings3 V2 true true; Settings3 V3 true true; Settings3 V3 true false;
   Settings3 V1 true false; Settings3 V3 false true; Settings3 V1 true true; Settings3 V2 false true;
   Settings3 V2 false false; Settings3 V3 false false; Settings3 VNone true false; Settings3 VNone false true;
   Settings3 VNone true true; Settings3 V1 false true; Settings3 VNone false false; Settings3 V1 false false].

Section Auto.
Context {St Er : Type}.
Variables (c : cfg) (v : env) (e : estimator St Er) (use_all_decorrelation_modes : bool).

(** One estimator call on [n] bytes at [p].
    src/core/dxt-lossless-transform-bc1/src/transform/transform_auto.rs:255 *)
Definition estimate_at (p : ptr) (n scratch : Z) (m : mem) (st : St) : res (result Z Er * St) :=
  do d <- mload m p n ;; Ok (estimate_compressed_size e st d scratch).

(** src/core/dxt-lossless-transform-bc1/src/transform/transform_auto.rs:200-270 (BC2: 196-272, BC3: 196-294): ask for the
    scratch size for [n] bytes, allocate it, run the loop, and transform once more
    unless the best candidate was tried last. *)
Definition search {S} (n : Z) (transform : S -> mem -> res mem)
  (estimate : Z -> mem -> St -> res (result Z Er * St)) (same : S -> S -> bool) (default : S) (order : list S)
  (m : mem) (st : St) : res (result S (determine_error Er) * mem * St) :=
  match max_compressed_size e st n with
  | (RErr e1, st1) => Ok (RErr (SizeEstimationError e1), m, st1)
  | (ROk max_comp_size, st1) =>
      if negb (max_comp_size =? 0) && negb (alloc_ok v max_comp_size) then Ok (RErr AllocateError, m, st1)
      else
        do r <- search_loop transform (estimate max_comp_size) order default (usize_max v) default m st1 ;;
        match r with
        | (RErr e1, m1, st2) => Ok (RErr (SizeEstimationError e1), m1, st2)
        | (ROk (best, last), m1, st2) =>
            if same best last then Ok (ROk best, m1, st2)
            else do m2 <- transform best m1 ;; Ok (ROk best, m2, st2)
        end
  end.

(** src/core/dxt-lossless-transform-bc1/src/transform/transform_auto.rs:200-270; the estimate is of the first half *)
Definition transform_bc1_auto_ptr (input_ptr output_ptr : ptr) (len : Z) : mem -> St -> _ :=
  search (len / 2) (fun s m => transform_bc1_with_settings c input_ptr output_ptr len s m)
    (fun scratch m st => estimate_at output_ptr (len / 2) scratch m st)
    settings_eqb default_settings (if use_all_decorrelation_modes then comprehensive_test_order else fast_test_order).

(** src/core/dxt-lossless-transform-bc2/src/transform/transform_auto.rs:196-272; the estimate is of the colour endpoints *)
Definition transform_bc2_auto_ptr (input_ptr output_ptr : ptr) (len : Z) : mem -> St -> _ :=
  search (len / 4) (fun s m => transform_bc2_with_settings c input_ptr output_ptr len s m)
    (fun scratch m st => do p <- ptr_add m output_ptr (len / 2) ;; estimate_at p (len / 4) scratch m st)
    settings_eqb default_settings (if use_all_decorrelation_modes then comprehensive_test_order else fast_test_order).

(** src/core/dxt-lossless-transform-bc3/src/transform/transform_auto.rs:249-280: alpha endpoints and colour endpoints are
    estimated separately and added. The addition is on [usize]: it panics on
    overflow when overflow checks are on (debug builds), and wraps otherwise. *)
Definition estimate_bc3 (output_ptr : ptr) (len scratch : Z) (m : mem) (st : St) : res (result Z Er * St) :=
  let num_blocks := len / 16 in
  do ra <- estimate_at output_ptr (num_blocks * 2) scratch m st ;;
  match ra with
  | (RErr e1, st1) => Ok (RErr e1, st1)
  | (ROk alpha_result_size, st1) =>
      do p <- ptr_add m output_ptr (len / 2) ;;
      do rc <- estimate_at p (num_blocks * 4) scratch m st1 ;;
      match rc with
      | (RErr e1, st2) => Ok (RErr e1, st2)
      | (ROk color_result_size, st2) =>
          let total := alpha_result_size + color_result_size in
          if total <=? usize_max v then Ok (ROk total, st2)
          else if c_debug c then Panic "attempt to add with overflow"
          else Ok (ROk (total mod (usize_max v + 1)), st2)
      end
  end.

(** src/core/dxt-lossless-transform-bc3/src/transform/transform_auto.rs:196-294 *)
Definition transform_bc3_auto_ptr (input_ptr output_ptr : ptr) (len : Z) : mem -> St -> _ :=
  search (len / 4) (fun s m => transform_bc3_with_settings c input_ptr output_ptr len s m)
    (fun scratch m st => estimate_bc3 output_ptr len scratch m st)
    settings3_eqb default_settings3 (if use_all_decorrelation_modes then comprehensive_test_order3 else fast_test_order3).
End Auto.

(** src/core/dxt-lossless-transform-bc1/src/transform/safe/transform_auto.rs:17-29 Bc1AutoTransformError (also BC2, BC3) *)
Inductive auto_error (Er : Type) :=
| AutoInvalidLength (len : Z)
| AutoOutputBufferTooSmall (needed actual : Z)
| DetermineBestTransform (e : determine_error Er).
Arguments AutoInvalidLength {Er}. Arguments AutoOutputBufferTooSmall {Er}. Arguments DetermineBestTransform {Er}.

(** src/core/dxt-lossless-transform-bc1/src/transform/safe/transform_auto.rs:95-122 (BC2: 95-122, BC3: 95-121) *)
Definition auto_checked {St Er S} (block : Z)
  (run : ptr -> ptr -> Z -> mem -> St -> res (result S (determine_error Er) * mem * St))
  (input output : list byte) (st : St) : res (result S (auto_error Er) * list byte * St) :=
  if negb (zlen input mod block =? 0) then Ok (RErr (AutoInvalidLength (zlen input)), output, st)
  else if zlen output <? zlen input then Ok (RErr (AutoOutputBufferTooSmall (zlen input) (zlen output)), output, st)
  else
    do r <- run (Ptr BIn 0) (Ptr BOut 0) (zlen input) (Mem input [] output) st ;;
    match r with
    | (ROk s, m, st1) => Ok (ROk s, m_out m, st1)
    | (RErr e, m, st1) => Ok (RErr (DetermineBestTransform e), m_out m, st1)
    end.

Definition transform_bc1_auto {St Er} c v (e : estimator St Er) use_all := auto_checked 8 (transform_bc1_auto_ptr c v e use_all).
Definition transform_bc2_auto {St Er} c v (e : estimator St Er) use_all := auto_checked 16 (transform_bc2_auto_ptr c v e use_all).
Definition transform_bc3_auto {St Er} c v (e : estimator St Er) use_all := auto_checked 16 (transform_bc3_auto_ptr c v e use_all).
