(** File format handlers, the slice API over them, and the file API. *)
From Verif Require Import Base.Bytes Base.Res Model.Kernel Model.Transform Model.Auto Model.Builders Model.Bundle Model.Dds.
Open Scope string_scope.
Open Scope list_scope.
Open Scope Z_scope.

(** A handler: the traits FileFormatHandler (src/api/dxt-lossless-transform-file-formats-api/src/handlers/file_format_handler.rs:
    transform_bundle, untransform), FileFormatDetection
    (src/api/dxt-lossless-transform-file-formats-api/src/handlers/file_format_detection.rs: can_handle) and
    FileFormatUntransformDetection (can_handle_untransform). Handlers may look
    at and change a world [W] (estimator state, logs, ...). [B] is the bundle. *)
Record handler (B W : Type) := Handler {
  h_transform : B -> list byte -> list byte -> W -> res (result unit transform_error * list byte * W);
  h_untransform : list byte -> list byte -> W -> res (result unit transform_error * list byte * W);
  h_can_handle : list byte -> option string -> W -> res (bool * W);
  h_can_handle_untransform : list byte -> option string -> W -> res (bool * W) }.
Arguments Handler {B W}. Arguments h_transform {B W}. Arguments h_untransform {B W}.
Arguments h_can_handle {B W}. Arguments h_can_handle_untransform {B W}.

Section Api.
Context {B W : Type}.
Notation H := (handler B W).

(** src/api/dxt-lossless-transform-file-formats-api/src/api.rs:38-58 *)
Definition transform_slice_with_bundle (h : H) (input output : list byte) (bundle : B) (w : W)
  : res (result unit transform_error * list byte * W) :=
  if zlen output <? zlen input then Ok (RErr (EFormatHandler (FhOutputBufferTooSmall (zlen input) (zlen output))), output, w)
  else h_transform h bundle input output w.
(** src/api/dxt-lossless-transform-file-formats-api/src/api.rs:86-101 *)
Definition untransform_slice (h : H) (input output : list byte) (w : W) : res (result unit transform_error * list byte * W) :=
  if zlen output <? zlen input then Ok (RErr (EFormatHandler (FhOutputBufferTooSmall (zlen input) (zlen output))), output, w)
  else h_untransform h input output w.

(** The loop of src/api/dxt-lossless-transform-file-formats-api/src/api.rs:156-164: the first handler that accepts is run and
    returned. *)
Fixpoint try_handlers {O} (accepts : H -> W -> res (bool * W)) (run : H -> O -> W -> res (result unit transform_error * O * W))
    (hs : list H) (out : O) (w : W) : res (result H transform_error * O * W) :=
  match hs with
  | [] => Ok (RErr NoSupportedHandler, out, w)
  | h :: hs1 =>
      do a <- accepts h w ;;
      let (ok, w1) := a : bool * W in
      if ok then
        do r <- run h out w1 ;;
        match r with
        | (RErr e, out1, w2) => Ok (RErr e, out1, w2)
        | (ROk _, out1, w2) => Ok (ROk h, out1, w2)
        end
      else try_handlers accepts run hs1 out w1
  end.

(** src/api/dxt-lossless-transform-file-formats-api/src/api.rs:134-165 *)
Definition transform_slice_with_multiple_handlers (hs : list H) (input output : list byte) (bundle : B) (w : W) :=
  if zlen output <? zlen input then Ok (RErr (EFormatHandler (FhOutputBufferTooSmall (zlen input) (zlen output))), output, w)
  else try_handlers (fun h => h_can_handle h input None) (fun h => h_transform h bundle input) hs output w.
(** src/api/dxt-lossless-transform-file-formats-api/src/api.rs:195-223 *)
Definition untransform_slice_with_multiple_handlers (hs : list H) (input output : list byte) (w : W) :=
  if zlen output <? zlen input then Ok (RErr (EFormatHandler (FhOutputBufferTooSmall (zlen input) (zlen output))), output, w)
  else try_handlers (fun h => h_can_handle_untransform h input None) (fun h => h_untransform h input) hs output w.
End Api.

(** The DDS handler as one of them; its world is the estimator's state.
    src/extensions/file-formats/dxt-lossless-transform-dds/src/handler/file_format_handler.rs:15-139 *)
Definition dds_handler {St Er} (show : Er -> string) (c : cfg) (v : env) : handler (bundle St Er) St := {|
  h_transform := fun t input output st => dds_transform_bundle show c v t input output st;
  h_untransform := fun input output st => do r <- dds_untransform c v input output ;; Ok (fst r, snd r, st);
  h_can_handle := fun input ext st => do b <- dds_can_handle (c_debug c) input ext ;; Ok (b, st);
  h_can_handle_untransform := fun input ext st => do b <- dds_can_handle_untransform (c_debug c) input ext ;; Ok (b, st) |}.

(** ** Files

    Simplifications. A path names a file directly (no links), so two different
    paths are two files. The crate lightweight_mmap is outside the repository;
    its operations are taken to do what they document, or fail, as an [io] value
    decides: opening an existing file, mapping a whole file, and creating a file
    of a given size with some contents. A mapping shares the file's bytes.
    src/api/dxt-lossless-transform-file-formats-api/src/file_io/lightweight_mmap/file.rs:39-43 *)
Definition path := string.
Definition files := path -> option (list byte).
Definition set_file (fs : files) (p : path) (d : list byte) : files := fun q => if String.eqb q p then Some d else fs q.

Record io := Io {
  open_ok : path -> bool;
  map_ok : path -> bool;
  create_ok : path -> bool;
  fresh : path -> Z -> Z -> byte }.  (** what a created file holds *)

(** src/api/dxt-lossless-transform-file-formats-api/src/file_io/error.rs:13-22 *)
Inductive file_operation_error := FIo | FTransform (e : transform_error).

(** lightweight_mmap: ReadOnlyFileHandle::open, size, ReadOnlyMmap::new;
    src/api/dxt-lossless-transform-file-formats-api/src/file_io/lightweight_mmap/file.rs:39-41 *)
Definition map_input (o : io) (fs : files) (p : path) : result (list byte) file_operation_error :=
  match fs p with
  | Some d => if open_ok o p && map_ok o p then ROk d else RErr FIo
  | None => RErr FIo
  end.
(** lightweight_mmap: ReadWriteFileHandle::create_preallocated;
    src/api/dxt-lossless-transform-file-formats-api/src/file_io/lightweight_mmap/file.rs:42 *)
Definition create_preallocated (o : io) (fs : files) (p : path) (size : Z) : option files :=
  if create_ok o p then Some (set_file fs p (map (fresh o p size) (zseq 0 (Z.to_nat size)))) else None.

Section Files.
Context {B W : Type}.
Notation H := (handler B W).
(** [Path::extension], [to_str] and [to_lowercase] (ff/file_io/
    src/api/dxt-lossless-transform-file-formats-api/src/file_io/lightweight_mmap/mod.rs:37-41) *)
Variable lowercase_extension : path -> option string.
Variable o : io.

(** src/api/dxt-lossless-transform-file-formats-api/src/file_io/lightweight_mmap/file.rs:42-51: create the output, map it and run
    a slice function into it. If the output is the input file, the two mappings
    alias, which Rust forbids. *)
Definition into_new_file (run : list byte -> W -> res (result unit transform_error * list byte * W))
    (input_path : option path) (input_size : Z) (output_path : path) (fs : files) (w : W)
  : res (result unit file_operation_error * files * W) :=
  match create_preallocated o fs output_path input_size with
  | None => Ok (RErr FIo, fs, w)
  | Some fs1 =>
      if negb (map_ok o output_path) then Ok (RErr FIo, fs1, w)
      else if match input_path with Some p => String.eqb p output_path | None => false end
      then Ub "the output mapping aliases the input mapping"
      else
        match fs1 output_path with
        | None => Ok (RErr FIo, fs1, w)
        | Some out =>
            do r <- run out w ;;
            let '(r, out1, w1) := r in
            Ok (match r with ROk _ => ROk tt | RErr e => RErr (FTransform e) end, set_file fs1 output_path out1, w1)
        end
  end.

(** src/api/dxt-lossless-transform-file-formats-api/src/file_io/lightweight_mmap/file.rs:28-54 *)
Definition transform_file_with_handler (h : H) (input_path output_path : path) (bundle : B) (fs : files) (w : W)
  : res (result unit file_operation_error * files * W) :=
  match map_input o fs input_path with
  | RErr e => Ok (RErr e, fs, w)
  | ROk input =>
      into_new_file (fun out w => transform_slice_with_bundle h input out bundle w) (Some input_path) (zlen input) output_path fs w
  end.
(** src/api/dxt-lossless-transform-file-formats-api/src/file_io/lightweight_mmap/file.rs:70-91 *)
Definition untransform_file_with_handler (h : H) (input_path output_path : path) (fs : files) (w : W)
  : res (result unit file_operation_error * files * W) :=
  match map_input o fs input_path with
  | RErr e => Ok (RErr e, fs, w)
  | ROk input =>
      into_new_file (fun out w => untransform_slice h input out w) (Some input_path) (zlen input) output_path fs w
  end.

(** src/api/dxt-lossless-transform-file-formats-api/src/file_io/lightweight_mmap/file.rs:153-174: like [try_handlers], with file errors *)
Fixpoint try_file_handlers {O} (accepts : H -> W -> res (bool * W)) (run : H -> O -> W -> res (result unit file_operation_error * O * W))
    (hs : list H) (out : O) (w : W) : res (result H file_operation_error * O * W) :=
  match hs with
  | [] => Ok (RErr (FTransform NoSupportedHandler), out, w)
  | h :: hs1 =>
      do a <- accepts h w ;;
      let (ok, w1) := a : bool * W in
      if ok then
        do r <- run h out w1 ;;
        match r with
        | (RErr e, out1, w2) => Ok (RErr e, out1, w2)
        | (ROk _, out1, w2) => Ok (ROk h, out1, w2)
        end
      else try_file_handlers accepts run hs1 out w1
  end.

(** src/api/dxt-lossless-transform-file-formats-api/src/file_io/lightweight_mmap/file.rs:131-175 *)
Definition transform_file_with_multiple_handlers (hs : list H) (input_path output_path : path) (bundle : B) (fs : files) (w : W)
  : res (result H file_operation_error * files * W) :=
  match map_input o fs input_path with
  | RErr e => Ok (RErr e, fs, w)
  | ROk input =>
      try_file_handlers (fun h => h_can_handle h input (lowercase_extension input_path))
        (fun h => into_new_file (fun out w => transform_slice_with_bundle h input out bundle w) (Some input_path) (zlen input) output_path) hs fs w
  end.
(** src/api/dxt-lossless-transform-file-formats-api/src/file_io/lightweight_mmap/file.rs:212-248 *)
Definition untransform_file_with_multiple_handlers (hs : list H) (input_path output_path : path) (fs : files) (w : W)
  : res (result H file_operation_error * files * W) :=
  match map_input o fs input_path with
  | RErr e => Ok (RErr e, fs, w)
  | ROk input =>
      try_file_handlers (fun h => h_can_handle_untransform h input (lowercase_extension input_path))
        (fun h => into_new_file (fun out w => untransform_slice h input out w) (Some input_path) (zlen input) output_path) hs fs w
  end.

(** src/api/dxt-lossless-transform-file-formats-api/src/file_io/lightweight_mmap/file_to_slice.rs:49-66: run a slice function on
    the first [input_size] bytes of the output *)
Definition into_prefix (run : list byte -> W -> res (result unit transform_error * list byte * W)) (input_size : Z) (output : list byte) (w : W)
  : res (result unit file_operation_error * list byte * W) :=
  if zlen output <? input_size
  then Ok (RErr (FTransform (EFormatHandler (FhOutputBufferTooSmall input_size (zlen output)))), output, w)
  else
    do target <- range output 0 input_size ;;
    do r <- run target w ;;
    let '(r, target1, w1) := r in
    Ok (match r with ROk _ => ROk tt | RErr e => RErr (FTransform e) end, splice output 0 target1, w1).
(** src/api/dxt-lossless-transform-file-formats-api/src/file_io/lightweight_mmap/file_to_slice.rs:34-69 *)
Definition transform_file_to_slice_with_handler (h : H) (input_path : path) (output : list byte) (bundle : B) (fs : files) (w : W) :=
  match map_input o fs input_path with
  | RErr e => Ok (RErr e, output, w)
  | ROk input => into_prefix (fun out w => transform_slice_with_bundle h input out bundle w) (zlen input) output w
  end.
(** src/api/dxt-lossless-transform-file-formats-api/src/file_io/lightweight_mmap/file_to_slice.rs:90-119 *)
Definition untransform_file_to_slice_with_handler (h : H) (input_path : path) (output : list byte) (fs : files) (w : W) :=
  match map_input o fs input_path with
  | RErr e => Ok (RErr e, output, w)
  | ROk input => into_prefix (fun out w => untransform_slice h input out w) (zlen input) output w
  end.
(** src/api/dxt-lossless-transform-file-formats-api/src/file_io/lightweight_mmap/file_to_slice.rs:164-214 *)
Definition transform_file_to_slice_with_multiple_handlers (hs : list H) (input_path : path) (output : list byte) (bundle : B) (fs : files) (w : W)
  : res (result H file_operation_error * list byte * W) :=
  match map_input o fs input_path with
  | RErr e => Ok (RErr e, output, w)
  | ROk input =>
      if zlen output <? zlen input
      then Ok (RErr (FTransform (EFormatHandler (FhOutputBufferTooSmall (zlen input) (zlen output)))), output, w)
      else
        try_file_handlers (fun h => h_can_handle h input (lowercase_extension input_path))
          (fun h => into_prefix (fun out w => transform_slice_with_bundle h input out bundle w) (zlen input)) hs output w
  end.
(** src/api/dxt-lossless-transform-file-formats-api/src/file_io/lightweight_mmap/file_to_slice.rs:256-298 *)
Definition untransform_file_to_slice_with_multiple_handlers (hs : list H) (input_path : path) (output : list byte) (fs : files) (w : W)
  : res (result H file_operation_error * list byte * W) :=
  match map_input o fs input_path with
  | RErr e => Ok (RErr e, output, w)
  | ROk input =>
      if zlen output <? zlen input
      then Ok (RErr (FTransform (EFormatHandler (FhOutputBufferTooSmall (zlen input) (zlen output)))), output, w)
      else
        try_file_handlers (fun h => h_can_handle_untransform h input (lowercase_extension input_path))
          (fun h => into_prefix (fun out w => untransform_slice h input out w) (zlen input)) hs output w
  end.

(** src/api/dxt-lossless-transform-file-formats-api/src/file_io/lightweight_mmap/slice_to_file.rs:28-51 *)
Definition transform_slice_to_file_with_handler (h : H) (input : list byte) (output_path : path) (bundle : B) (fs : files) (w : W) :=
  into_new_file (fun out w => transform_slice_with_bundle h input out bundle w) None (zlen input) output_path fs w.
(** src/api/dxt-lossless-transform-file-formats-api/src/file_io/lightweight_mmap/slice_to_file.rs:67-80 *)
Definition untransform_slice_to_file_with_handler (h : H) (input : list byte) (output_path : path) (fs : files) (w : W) :=
  into_new_file (fun out w => untransform_slice h input out w) None (zlen input) output_path fs w.
(** src/api/dxt-lossless-transform-file-formats-api/src/file_io/lightweight_mmap/slice_to_file.rs:127-162 *)
Definition transform_slice_to_file_with_multiple_handlers (hs : list H) (input : list byte) (output_path : path) (bundle : B) (ext : option string)
    (fs : files) (w : W) :=
  try_file_handlers (fun h => h_can_handle h input ext)
    (fun h => into_new_file (fun out w => transform_slice_with_bundle h input out bundle w) None (zlen input) output_path) hs fs w.
(** src/api/dxt-lossless-transform-file-formats-api/src/file_io/lightweight_mmap/slice_to_file.rs:205-232 *)
Definition untransform_slice_to_file_with_multiple_handlers (hs : list H) (input : list byte) (output_path : path) (ext : option string)
    (fs : files) (w : W) :=
  try_file_handlers (fun h => h_can_handle_untransform h input ext)
    (fun h => into_new_file (fun out w => untransform_slice h input out w) None (zlen input) output_path) hs fs w.
End Files.
