(** The size estimator that compresses with Zstandard
    (extensions/compressors/dxt-lossless-transform-zstd).

    Zstandard itself is a C library outside the repository. It is a record of
    functions on a library state [L], about which nothing is assumed unless a
    theorem says so. A compression context is named by a number; the null pointer
    is [None]. *)
From Verif Require Import Base.Bytes Base.Res Model.Transform Model.Auto.
Open Scope list_scope.
Open Scope Z_scope.

(** the five of zstd_sys::ZSTD_cParameter that src/extensions/compressors/dxt-lossless-transform-zstd/src/lib.rs:183-199 uses *)
Inductive zstd_parameter := ZCompressionLevel | ZFormat | ZContentSizeFlag | ZChecksumFlag | ZDictIDFlag.

(** zstd_sys. [z_set_parameter] also returns a code, which src/extensions/compressors/dxt-lossless-transform-zstd/src/lib.rs ignores. The
    destination of [z_compress2] is represented by its length. *)
Record zstd_lib (L : Type) := ZstdLib {
  z_compress_bound : Z -> Z;
  z_create_cctx : L -> option Z * L;
  z_set_parameter : Z -> zstd_parameter -> Z -> L -> L;
  z_compress2 : Z -> Z -> list byte -> L -> Z * L;
  z_free_cctx : Z -> L -> L;
  z_is_error : Z -> bool;
  z_get_error_code : Z -> Z }.
Arguments ZstdLib {L}. Arguments z_compress_bound {L}. Arguments z_create_cctx {L}. Arguments z_set_parameter {L}.
Arguments z_compress2 {L}. Arguments z_free_cctx {L}. Arguments z_is_error {L}. Arguments z_get_error_code {L}.

(** src/extensions/compressors/dxt-lossless-transform-zstd/src/lib.rs:22-44 ZStandardError: the cases that are made *)
Inductive zstd_error := ZInvalidLevel (level : Z) | ZStandardInternal (code : Z).
(** ZSTD_ErrorCode::ZSTD_error_GENERIC;
    src/extensions/compressors/dxt-lossless-transform-zstd/src/lib.rs:151 *)
Definition ZSTD_error_GENERIC : Z := 1.
(** ZSTD_f_zstd1_magicless as i32;
    src/extensions/compressors/dxt-lossless-transform-zstd/src/lib.rs:193 *)
Definition ZSTD_f_zstd1_magicless : Z := 1.

(** src/extensions/compressors/dxt-lossless-transform-zstd/src/lib.rs:62-69: the estimator is its level *)
Definition zstd_new (compression_level : Z) : result Z zstd_error :=
  if negb ((1 <=? compression_level) && (compression_level <=? 22)) then RErr (ZInvalidLevel compression_level)
  else ROk compression_level.
(** src/extensions/compressors/dxt-lossless-transform-zstd/src/lib.rs:72-76 *)
Definition zstd_new_fast : Z := 1.
(** src/extensions/compressors/dxt-lossless-transform-zstd/src/lib.rs:79-83 *)
Definition zstd_new_default : Z := 3.
(** src/extensions/compressors/dxt-lossless-transform-zstd/src/lib.rs:86-90 *)
Definition zstd_new_best : Z := 22.
(** src/extensions/compressors/dxt-lossless-transform-zstd/src/lib.rs:93-97 *)
Definition zstd_default : Z := zstd_new_default.

Section Zstd.
Context {L : Type}.
Variable lib : zstd_lib L.

(** src/extensions/compressors/dxt-lossless-transform-zstd/src/lib.rs:185-199 *)
Definition zstd_setcommoncompressparams (cctx : Z) (level : option Z) (st : L) : L :=
  let st := match level with Some lv => z_set_parameter lib cctx ZCompressionLevel lv st | None => st end in
  let st := z_set_parameter lib cctx ZFormat ZSTD_f_zstd1_magicless st in
  let st := z_set_parameter lib cctx ZContentSizeFlag 0 st in
  let st := z_set_parameter lib cctx ZChecksumFlag 0 st in
  z_set_parameter lib cctx ZDictIDFlag 0 st.

(** src/extensions/compressors/dxt-lossless-transform-zstd/src/lib.rs:146-181 *)
Definition zstd_compress (level : Z) (source : list byte) (destination_len : Z) (st : L) : result Z zstd_error * L :=
  match z_create_cctx lib st with
  | (None, st) => (RErr (ZStandardInternal ZSTD_error_GENERIC), st)
  | (Some cctx, st) =>
      let st := zstd_setcommoncompressparams cctx (Some level) st in
      let '(result, st) := z_compress2 lib cctx destination_len source st in
      let st := z_free_cctx lib cctx st in
      if negb (z_is_error lib result) then (ROk result, st)
      else (RErr (ZStandardInternal (z_get_error_code lib result)), st)
  end.

(** src/extensions/compressors/dxt-lossless-transform-zstd/src/lib.rs:102-110 *)
Definition zstd_max (len_bytes : Z) : result Z zstd_error :=
  if len_bytes =? 0 then ROk 0 else ROk (z_compress_bound lib len_bytes).

(** src/extensions/compressors/dxt-lossless-transform-zstd/src/lib.rs:112-135. The input pointer is null ([None]) or points to the bytes
    that [len_bytes] counts. The output pointer is taken not to be null, as the
    comment there says. *)
Definition zstd_estimate (compression_level : Z) (input : option (list byte)) (output_len : Z) (st : L) : result Z zstd_error * L :=
  match input with
  | None => (ROk 0, st)
  | Some data => if zlen data =? 0 then (ROk 0, st) else zstd_compress compression_level data output_len st
  end.

(** src/extensions/compressors/dxt-lossless-transform-zstd/src/lib.rs:99-136: the trait implementation, as the estimators of Model/Auto.v *)
Definition zstd (compression_level : Z) : estimator L zstd_error :=
  Estimator (fun st n => (zstd_max n, st)) (fun st d scratch => zstd_estimate compression_level (Some d) scratch st).
End Zstd.
