(** What the debug commands of the command line tool remember between calls and
    between runs: sizes, and compressed data. *)
From Verif Require Import Base.Bytes Base.Res Model.Transform Model.Auto Model.Handlers Model.Cli Model.Ltu Model.Zstd Model.Inspect.
From Coq Require Import Ascii String.
From Coq Require DecimalString HexadecimalString DecimalZ HexadecimalZ.
Open Scope string_scope.
Open Scope list_scope.
Open Scope Z_scope.

(** src/tools/dxt-lossless-transform-cli/src/debug_format/compression/mod.rs:29-35 *)
Inductive algorithm := ZStandard | LosslessTransformUtils.
Definition algorithm_eqb (a b : algorithm) : bool :=
  match a, b with ZStandard, ZStandard | LosslessTransformUtils, LosslessTransformUtils => true | _, _ => false end.
(** src/tools/dxt-lossless-transform-cli/src/debug_format/compression/mod.rs:39-44 *)
Definition file_extension (a : algorithm) : string := match a with ZStandard => "zst" | LosslessTransformUtils => "ltu" end.
(** src/tools/dxt-lossless-transform-cli/src/debug_format/compression/mod.rs:55-60 *)
Definition default_compression_level (a : algorithm) : Z := match a with ZStandard => 16 | LosslessTransformUtils => 0 end.
(** src/tools/dxt-lossless-transform-cli/src/debug_format/compression/mod.rs:63-68 *)
Definition default_estimate_compression_level (a : algorithm) : Z := match a with ZStandard => 3 | LosslessTransformUtils => 0 end.
(** src/tools/dxt-lossless-transform-cli/src/debug_format/compression/mod.rs:71-76 *)
Definition supports_compress (a : algorithm) : bool := match a with ZStandard => true | LosslessTransformUtils => false end.
(** src/tools/dxt-lossless-transform-cli/src/debug_format/compression/mod.rs:88-96; the lower case is that of Model/Cli.v *)
Definition algorithm_from_str (s : string) : result algorithm debug_error :=
  match to_lowercase s with
  | "zstd" | "zstandard" => ROk ZStandard
  | "ltu" | "lossless-transform-utils" => ROk LosslessTransformUtils
  | _ => RErr DMessage
  end%string.
(** src/tools/dxt-lossless-transform-cli/src/debug_format/compression/helpers.rs:18-28 *)
Definition validate_compression_algorithm (a : algorithm) : result unit debug_error :=
  if negb (supports_compress a) then RErr DMessage else ROk tt.
(** src/tools/dxt-lossless-transform-cli/src/commands/debug_bc1/mod.rs:166-183 (also 188-205, and debug_bc2, debug_bc3):
    the algorithms and levels that are used, from the options given *)
Definition get_compression_level (level : option Z) (a : algorithm) : Z :=
  match level with Some l => l | None => default_compression_level a end.
Definition get_estimate_compression_algorithm (estimate : option algorithm) (a : algorithm) : algorithm :=
  match estimate with Some e => e | None => a end.
Definition get_estimate_compression_level (level : option Z) (estimate : option algorithm) (a : algorithm) : Z :=
  match level with Some l => l | None => default_estimate_compression_level (get_estimate_compression_algorithm estimate a) end.

(** ** The size cache *)

(** src/tools/dxt-lossless-transform-cli/src/debug_format/compression_size_cache.rs:14-19. The hash map is a list with at most one
    entry for a key (hash, level, algorithm). *)
Definition size_key : Type := Z * Z * algorithm.
Definition size_key_eqb (a b : size_key) : bool :=
  (fst (fst a) =? fst (fst b)) && (snd (fst a) =? snd (fst b)) && algorithm_eqb (snd a) (snd b).
Definition size_cache : Type := list (size_key * Z).
(** src/tools/dxt-lossless-transform-cli/src/debug_format/compression_size_cache.rs:75-84 *)
Fixpoint cache_get (m : size_cache) (k : size_key) : option Z :=
  match m with [] => None | (k1, n) :: m => if size_key_eqb k k1 then Some n else cache_get m k end.
(** src/tools/dxt-lossless-transform-cli/src/debug_format/compression_size_cache.rs:87-98 *)
Fixpoint cache_insert (m : size_cache) (k : size_key) (n : Z) : size_cache :=
  match m with
  | [] => [(k, n)]
  | (k1, n1) :: m => if size_key_eqb k k1 then (k1, n) :: m else (k1, n1) :: cache_insert m k n
  end.
(** src/tools/dxt-lossless-transform-cli/src/debug_format/compression_size_cache.rs:101-103 *)
Definition cache_len (m : size_cache) : Z := zlen m.

(** The crate bincode is outside the repository: how it writes the map, and what
    it reads from some bytes, if anything.
    src/tools/dxt-lossless-transform-cli/src/debug_format/compression_size_cache.rs:46, 68 *)
Record bincode := Bincode { encode : size_cache -> list byte; decode : list byte -> option size_cache }.

(** src/tools/dxt-lossless-transform-cli/src/debug_format/compression_size_cache.rs:38-50, given the file's contents (none: there is
    no file) and whether an existing file can be opened. A read error is a failing
    [decode]. *)
Definition load_from_disk (b : bincode) (opens : bool) (file : option (list byte)) (m : size_cache) : result unit debug_error * size_cache :=
  match file with
  | None => (ROk tt, m)
  | Some bytes =>
      if negb opens then (RErr DMessage, m)
      else match decode b bytes with Some m1 => (ROk tt, m1) | None => (RErr DMessage, m) end
  end.

(** How far saving gets. Writing stops early if a write fails, or if the process
    ends there.
    src/tools/dxt-lossless-transform-cli/src/debug_format/compression_size_cache.rs:55-72 *)
Inductive save_fate := NoDirectory | CannotOpen | StopsAfter (written : nat) | Completes.
(** src/tools/dxt-lossless-transform-cli/src/debug_format/compression_size_cache.rs:53-72: the file afterwards *)
Definition save_to_disk (b : bincode) (fate : save_fate) (m : size_cache) (file : option (list byte))
  : result unit debug_error * option (list byte) :=
  match fate with
  | NoDirectory => (RErr DMessage, file)
  | CannotOpen => (RErr DMessage, file)
  | StopsAfter written => (RErr DMessage, Some (firstn written (encode b m)))
  | Completes => (ROk tt, Some (encode b m))
  end.

(** ** Estimators *)

(** [map_err] around an estimator (src/tools/dxt-lossless-transform-cli/src/debug_format/estimation/mod.rs:45-96): the error is a
    message *)
Definition with_message {St Er} (e : estimator St Er) : estimator St debug_error :=
  Estimator
    (fun st n => let '(r, st) := max_compressed_size e st n in (match r with ROk z => ROk z | RErr _ => RErr DMessage end, st))
    (fun st d n => let '(r, st) := estimate_compressed_size e st d n in (match r with ROk z => ROk z | RErr _ => RErr DMessage end, st)).
(** An estimator without state beside the state of the Zstandard library;
    src/tools/dxt-lossless-transform-cli/src/debug_format/compression/mod.rs *)
Definition beside {L Er} (e : estimator unit Er) : estimator L Er :=
  Estimator (fun st n => (fst (max_compressed_size e tt n), st)) (fun st d n => (fst (estimate_compressed_size e tt d n), st)).

Section Estimation.
Context {L : Type}.
Variable lib : zstd_lib L.
Variable matches : list byte -> Z.       (** see Model/Ltu.v *)

(** src/tools/dxt-lossless-transform-cli/src/debug_format/estimation/mod.rs:20-42 *)
Definition create_size_estimator (a : algorithm) (compression_level : Z) : result (estimator L debug_error) debug_error :=
  match a with
  | ZStandard =>
      match zstd_new compression_level with
      | RErr _ => RErr DMessage
      | ROk level => ROk (with_message (zstd lib level))
      end
  | LosslessTransformUtils => ROk (with_message (beside (ltu matches)))
  end.
End Estimation.

Section Cached.
Variable hash : list byte -> Z.           (** xxh3_128 (src/tools/dxt-lossless-transform-cli/src/debug_format/mod.rs:72-74), outside the repository *)

(** src/tools/dxt-lossless-transform-cli/src/debug_format/estimation/mod.rs:140-183 CachedSizeEstimator. The cache lies behind a
    mutex, which is held for one [get] and for one [insert]; what other threads do
    in between is in Spec/Caches.v. *)
Definition cached {St} (inner : estimator St debug_error) (a : algorithm) (compression_level : Z)
  : estimator (size_cache * St) debug_error :=
  Estimator
    (fun st n => let '(r, s) := max_compressed_size inner (snd st) n in (r, (fst st, s)))
    (fun st d n =>
       match cache_get (fst st) (hash d, compression_level, a) with
       | Some cached_size => (ROk cached_size, st)
       | None =>
           match estimate_compressed_size inner (snd st) d n with
           | (RErr e, s) => (RErr e, (fst st, s))
           | (ROk estimated_size, s) => (ROk estimated_size, (cache_insert (fst st) (hash d, compression_level, a) estimated_size, s))
           end
       end).

Context {L : Type}.
Variable lib : zstd_lib L.
Variable matches : list byte -> Z.
Variable v : env.

(** src/tools/dxt-lossless-transform-cli/src/debug_format/estimation/mod.rs:119-131 *)
Definition cached_new (a : algorithm) (compression_level : Z) : result (estimator (size_cache * L) debug_error) debug_error :=
  match create_size_estimator lib matches a compression_level with
  | RErr e => RErr e
  | ROk inner => ROk (cached inner a compression_level)
  end.

(** src/tools/dxt-lossless-transform-cli/src/debug_format/compression/helpers.rs:88-115 *)
Definition calc_size_with_estimation_algorithm (data : list byte) (compression_level : Z) (a : algorithm) (st : L)
  : result Z debug_error * L :=
  match create_size_estimator lib matches a compression_level with
  | RErr e => (RErr e, st)
  | ROk estimator =>
      match max_compressed_size estimator st (zlen data) with
      | (RErr e, st) => (RErr e, st)
      | (ROk max_comp_size, st) =>
          if negb (max_comp_size =? 0) && negb (alloc_ok v max_comp_size) then (RErr DAllocate, st)
          else estimate_compressed_size estimator st data max_comp_size
      end
  end.

(** src/tools/dxt-lossless-transform-cli/src/debug_format/compression/helpers.rs:121-155 *)
Definition calc_size_with_cache_and_estimation_algorithm (data : list byte) (compression_level : Z) (a : algorithm) (st : size_cache * L)
  : result Z debug_error * (size_cache * L) :=
  match cache_get (fst st) (hash data, compression_level, a) with
  | Some cached_size => (ROk cached_size, st)
  | None =>
      match calc_size_with_estimation_algorithm data compression_level a (snd st) with
      | (RErr e, s) => (RErr e, (fst st, s))
      | (ROk compressed_size, s) => (ROk compressed_size, (cache_insert (fst st) (hash data, compression_level, a) compressed_size, s))
      end
  end.
End Cached.

(** ** Compressing and decompressing *)

(** zstd_sys, as src/tools/dxt-lossless-transform-cli/src/debug_format/compression/zstd/zstd_raw.rs uses it. Compared with
    Model/Zstd.v it also says which bytes are written: an answer that is not an
    error is a number of bytes at the start of the destination. *)
Inductive zstd_d_parameter := ZDFormat.
Record zstd_codec (L : Type) := ZstdCodec {
  y_compress_bound : Z -> Z;
  y_create_cctx : L -> option Z * L;
  y_set_parameter : Z -> zstd_parameter -> Z -> L -> L;
  y_compress2 : Z -> Z -> list byte -> L -> (Z * list byte) * L;
  y_free_cctx : Z -> L -> L;
  y_create_dctx : L -> option Z * L;
  y_set_d_parameter : Z -> zstd_d_parameter -> Z -> L -> L;
  y_decompress : Z -> Z -> list byte -> L -> (Z * list byte) * L;
  y_free_dctx : Z -> L -> L;
  y_is_error : Z -> bool }.
Arguments ZstdCodec {L}. Arguments y_compress_bound {L}. Arguments y_create_cctx {L}. Arguments y_set_parameter {L}.
Arguments y_compress2 {L}. Arguments y_free_cctx {L}. Arguments y_create_dctx {L}. Arguments y_set_d_parameter {L}.
Arguments y_decompress {L}. Arguments y_free_dctx {L}. Arguments y_is_error {L}.

Section Codec.
Context {L : Type}.
Variable y : zstd_codec L.

(** src/tools/dxt-lossless-transform-cli/src/debug_format/compression/zstd/zstd_raw.rs:107-121 *)
Definition raw_set_compress_params (cctx : Z) (level : option Z) (st : L) : L :=
  let st := match level with Some lv => y_set_parameter y cctx ZCompressionLevel lv st | None => st end in
  let st := y_set_parameter y cctx ZFormat ZSTD_f_zstd1_magicless st in
  let st := y_set_parameter y cctx ZContentSizeFlag 0 st in
  let st := y_set_parameter y cctx ZChecksumFlag 0 st in
  y_set_parameter y cctx ZDictIDFlag 0 st.
(** src/tools/dxt-lossless-transform-cli/src/debug_format/compression/zstd/zstd_raw.rs:69-104; with the bytes at the start of the
    destination *)
Definition raw_compress (level : Z) (source : list byte) (destination_len : Z) (st : L) : result (Z * list byte) unit * L :=
  match y_create_cctx y st with
  | (None, st) => (RErr tt, st)
  | (Some cctx, st) =>
      let st := raw_set_compress_params cctx (Some level) st in
      let '(result, st) := y_compress2 y cctx destination_len source st in
      let st := y_free_cctx y cctx st in
      if negb (y_is_error y (fst result)) then (ROk result, st) else (RErr tt, st)
  end.
(** src/tools/dxt-lossless-transform-cli/src/debug_format/compression/zstd/zstd_raw.rs:123-131 *)
Definition raw_set_decompress_params (dctx : Z) (st : L) : L := y_set_d_parameter y dctx ZDFormat ZSTD_f_zstd1_magicless st.
(** src/tools/dxt-lossless-transform-cli/src/debug_format/compression/zstd/zstd_raw.rs:25-59 *)
Definition raw_decompress (source : list byte) (destination_len : Z) (st : L) : result (Z * list byte) unit * L :=
  match y_create_dctx y st with
  | (None, st) => (RErr tt, st)
  | (Some dctx, st) =>
      let st := raw_set_decompress_params dctx st in
      let '(result, st) := y_decompress y dctx destination_len source st in
      let st := y_free_dctx y dctx st in
      if y_is_error y (fst result) then (RErr tt, st) else (ROk result, st)
  end.

(** src/tools/dxt-lossless-transform-cli/src/debug_format/compression/zstd/mod.rs:12-35 and src/tools/dxt-lossless-transform-cli/src/debug_format/compression/mod.rs:146-158: a buffer
    and how much of it is compressed data. Simplifications: the buffer, made with
    its largest size, is represented by the bytes written to it; allocating it
    does not fail. *)
Definition compress_with_algorithm (data : list byte) (a : algorithm) (compression_level : Z) (st : L)
  : res (result (list byte * Z) debug_error * L) :=
  match a with
  | ZStandard =>
      Ok (match raw_compress compression_level data (y_compress_bound y (zlen data)) st with
          | (ROk (compressed_size, buffer), st) => (ROk (buffer, compressed_size), st)
          | (RErr _, st) => (RErr DMessage, st)
          end)
  | LosslessTransformUtils => Panic "not yet implemented"
  end.
(** src/tools/dxt-lossless-transform-cli/src/debug_format/compression/zstd/mod.rs:37-48, src/tools/dxt-lossless-transform-cli/src/debug_format/compression/mod.rs:173-184 and
    src/tools/dxt-lossless-transform-cli/src/debug_format/compression/helpers.rs:160-166: the number of bytes, and the output buffer
    afterwards *)
Definition decompress_with_algorithm (compressed_data : list byte) (output_buffer : list byte) (a : algorithm) (st : L)
  : res (result Z debug_error * list byte * L) :=
  match a with
  | ZStandard =>
      Ok (match raw_decompress compressed_data (zlen output_buffer) st with
          | (ROk (n, bytes), st) => (ROk n, bytes ++ skipn (List.length bytes) output_buffer, st)
          | (RErr _, st) => (RErr DMessage, output_buffer, st)
          end)
  | LosslessTransformUtils => Panic "not yet implemented"
  end.
End Codec.

(** ** The compressed data cache *)

(** [format!("{:32x}")] and [format!("{}")] of the standard library: lower case
    hexadecimal digits, with spaces in front up to 32 characters; decimal digits
    with a sign if negative *)
Fixpoint spaces (n : nat) : string := match n with O => EmptyString | S n => String " " (spaces n) end.
Definition hex (n : Z) : string := HexadecimalString.NilZero.string_of_int (Z.to_hex_int n).
Definition pad32 (s : string) : string := (spaces (32 - String.length s) ++ s)%string.
Definition decimal (n : Z) : string := DecimalString.NilZero.string_of_int (Z.to_int n).
(** src/tools/dxt-lossless-transform-cli/src/debug_format/compressed_data_cache.rs:39-50: the name of the file in the cache's directory *)
Definition cache_key (content_hash compression_level : Z) (a : algorithm) : string :=
  (pad32 (hex content_hash) ++ "_" ++ decimal compression_level ++ "." ++ file_extension a)%string.

(** The directory: the files in it by name.
    src/tools/dxt-lossless-transform-cli/src/debug_format/compressed_data_cache.rs *)
Definition data_cache : Type := string -> option (list byte).

(** src/tools/dxt-lossless-transform-cli/src/debug_format/compressed_data_cache.rs:57-80, given whether an existing file can be opened and read *)
Definition load_compressed_data (reads : bool) (c : data_cache) (content_hash compression_level : Z) (a : algorithm)
  : result (option (list byte * Z)) debug_error :=
  match c (cache_key content_hash compression_level a) with
  | None => ROk None
  | Some compressed_data => if reads then ROk (Some (compressed_data, zlen compressed_data)) else RErr DMessage
  end.
(** src/tools/dxt-lossless-transform-cli/src/debug_format/compressed_data_cache.rs:84-102 *)
Definition save_compressed_data (fate : save_fate) (c : data_cache) (content_hash compression_level : Z) (a : algorithm) (data : list byte)
  : result unit debug_error * data_cache :=
  let cache_file := cache_key content_hash compression_level a in
  match fate with
  | NoDirectory => (RErr DMessage, c)
  | CannotOpen => (RErr DMessage, c)
  | StopsAfter written => (RErr DMessage, set_file c cache_file (firstn written data))
  | Completes => (ROk tt, set_file c cache_file data)
  end.

Section CompressCached.
Context {L : Type}.
Variable y : zstd_codec L.
Variable hash : list byte -> Z.

(** src/tools/dxt-lossless-transform-cli/src/debug_format/compression/helpers.rs:43-84; a failing [save_compressed_data] is only
    reported on the screen *)
Definition compress_data_cached (reads : bool) (fate : save_fate) (data : list byte) (compression_level : Z) (a : algorithm)
    (sizes : size_cache) (c : data_cache) (st : L)
  : res (result (list byte * Z) debug_error * (size_cache * data_cache * L)) :=
  let content_hash := hash data in
  match load_compressed_data reads c content_hash compression_level a with
  | RErr e => Ok (RErr e, (sizes, c, st))
  | ROk (Some (cached_data, cached_size)) => Ok (ROk (cached_data, cached_size), (sizes, c, st))
  | ROk None =>
      do r <- compress_with_algorithm y data a compression_level st ;;
      match r with
      | (RErr e, st) => Ok (RErr e, (sizes, c, st))
      | (ROk (compressed_data, compressed_size), st) =>
          let '(_, c) := save_compressed_data fate c content_hash compression_level a (firstn (Z.to_nat compressed_size) compressed_data) in
          Ok (ROk (compressed_data, compressed_size), (cache_insert sizes (content_hash, compression_level, a) compressed_size, c, st))
      end
  end.
End CompressCached.
