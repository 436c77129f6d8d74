(** Looking into files: the debug crate's file functions, and the debug commands
    of the command line tool that use them. *)
From Verif Require Import Base.Bytes Base.Res Model.Color565 Model.Kernel Model.Transform Model.Auto Model.Embed Model.Bundle Model.Dds
  Model.Handlers Model.Cli Model.Decode.
From Coq Require Import Ascii String.
Open Scope string_scope.
Open Scope list_scope.
Open Scope Z_scope.

(** A handler that can look into files: FileFormatDetection (can_handle),
    FileFormatBlockExtraction (src/core/dxt-lossless-transform-file-formats-debug/src/block_extraction.rs:159-187) and
    TransformFormatCheck (src/core/dxt-lossless-transform-file-formats-debug/src/format_detection.rs). *)
Record inspector := Inspector {
  n_can_handle : list byte -> option string -> res bool;
  n_extract : list byte -> format_filter -> res (result (option (list byte * transform_format)) transform_error);
  n_format : list byte -> format_filter -> res (result (option transform_format) transform_error) }.
Definition dds_inspector (debug : bool) (v : env) : inspector := {|
  n_can_handle := dds_can_handle debug;
  n_extract := dds_extract_blocks debug v;
  n_format := dds_get_transform_format debug |}.
(** src/tools/dxt-lossless-transform-cli/src/util/handlers.rs:8-10 all_handlers *)
Definition all_inspectors (debug : bool) (v : env) : list inspector := [dds_inspector debug v].

(** src/core/dxt-lossless-transform-file-formats-debug/src/block_extraction.rs:84-101; the lower case is that of
    Model/Cli.v *)
Definition filter_from_str (s : string) : option format_filter :=
  match to_lowercase s with
  | "bc1" => Some (OnlyFormat FBc1)
  | "bc2" => Some (OnlyFormat FBc2)
  | "bc3" => Some (OnlyFormat FBc3)
  | "bc4" => Some (OnlyFormat FBc4)
  | "bc5" => Some (OnlyFormat FBc5)
  | "bc7" => Some (OnlyFormat FBc7)
  | "bc6h" => Some (OnlyFormat FBc6H)
  | "rgba8888" => Some (OnlyFormat FRgba8888)
  | "bgra8888" => Some (OnlyFormat FBgra8888)
  | "bgr888" => Some (OnlyFormat FBgr888)
  | "all" => Some AllFormats
  | _ => None
  end%string.

Section Files.
Variable lowercase_extension : path -> option string.
Variable o : io.

(** The loop of src/core/dxt-lossless-transform-file-formats-debug/src/file_io.rs:92-115; [test_fn] may change a state [T] *)
Fixpoint extract_loop {T} (data : list byte) (ext : option string) (fl : format_filter)
    (test_fn : list byte -> transform_format -> T -> res (result unit transform_error * T)) (hs : list inspector) (t : T)
  : res (result unit file_operation_error * T) :=
  match hs with
  | [] => Ok (RErr (FTransform NoSupportedHandler), t)
  | h :: hs1 =>
      do ok <- n_can_handle h data ext ;;
      if (ok : bool) then
        do r <- n_extract h data fl ;;
        match r with
        | ROk (Some (blocks, format)) =>
            do a <- test_fn blocks format t ;;
            Ok (match fst a with ROk _ => ROk tt | RErr e => RErr (FTransform e) end, snd a)
        | ROk None => Ok (RErr (FTransform NoSupportedHandler), t)
        | RErr e => Ok (RErr (FTransform e), t)
        end
      else extract_loop data ext fl test_fn hs1 t
  end.
(** src/core/dxt-lossless-transform-file-formats-debug/src/file_io.rs:71-121 *)
Definition extract_blocks_from_file_format {T} (file_path : path) (hs : list inspector) (fl : format_filter)
    (test_fn : list byte -> transform_format -> T -> res (result unit transform_error * T)) (fs : files) (t : T)
  : res (result unit file_operation_error * T) :=
  match map_input o fs file_path with
  | RErr e => Ok (RErr e, t)
  | ROk data => extract_loop data (lowercase_extension file_path) fl test_fn hs t
  end.

(** The loop of src/core/dxt-lossless-transform-file-formats-debug/src/file_io.rs:187-201 *)
Fixpoint format_loop (data : list byte) (ext : option string) (fl : format_filter) (hs : list inspector)
  : res (result (option transform_format) file_operation_error) :=
  match hs with
  | [] => Ok (ROk None)
  | h :: hs1 =>
      do ok <- n_can_handle h data ext ;;
      if (ok : bool) then
        do r <- n_format h data fl ;;
        Ok (match r with ROk f => ROk f | RErr e => RErr (FTransform e) end)
      else format_loop data ext fl hs1
  end.
(** src/core/dxt-lossless-transform-file-formats-debug/src/file_io.rs:168-202 *)
Definition get_transform_format (file_path : path) (hs : list inspector) (fl : format_filter) (fs : files)
  : res (result (option transform_format) file_operation_error) :=
  match map_input o fs file_path with
  | RErr e => Ok (RErr e)
  | ROk data => format_loop data (lowercase_extension file_path) fl hs
  end.

(** src/tools/dxt-lossless-transform-cli/src/error.rs:4-16: an error of a file function, or one a debug command makes
    up itself (its text is left out) *)
Inductive debug_error := DFile (e : file_operation_error) | DMessage | DAllocate.
(** src/tools/dxt-lossless-transform-cli/src/debug_format/mod.rs:21-40 *)
Definition extract_blocks_from_file {T} (hs : list inspector) (file_path : path) (fl : format_filter)
    (test_fn : list byte -> transform_format -> T -> res (result unit debug_error * T)) (fs : files) (t : T)
  : res (result unit debug_error * T) :=
  do r <- extract_blocks_from_file_format file_path hs fl
    (fun data f t => do a <- test_fn data f t ;;
                     Ok (match fst a with ROk _ => ROk tt | RErr _ => RErr NoSupportedHandler end, snd a)) fs t ;;
  Ok (match fst r with ROk _ => ROk tt | RErr e => RErr (DFile e) end, snd r).
(** src/tools/dxt-lossless-transform-cli/src/debug_format/mod.rs:44-69: whether anything is printed about a result *)
Definition handle_debug_error (r : result unit debug_error) : bool :=
  match r with
  | ROk _ => false
  | RErr (DFile (FTransform NoSupportedHandler)) => false
  | RErr _ => true
  end.
End Files.

(** ** debug-bcN test-roundtrip *)

(** src/core/dxt-lossless-transform-bc1/src/transform/settings.rs:68-77, the same in core/bc2 *)
Definition all_settings : list settings := flat_map (fun v => map (fun s => Settings v s) [true; false]) all_variants.
(** src/core/dxt-lossless-transform-bc3/src/transform/settings.rs:74-86 *)
Definition all_settings3 : list settings3 :=
  flat_map (fun v => flat_map (fun sa => map (fun sc => Settings3 v sa sc) [true; false]) [true; false]) all_variants.

(** [Decoded4x4Block] and [Color8888] derive [PartialEq];
    src/core/dxt-lossless-transform-common/src/color_8888.rs:29, src/core/dxt-lossless-transform-common/src/decoded_4x4_block.rs:55 *)
Definition color8888_eqb (a b : color8888) : bool := (c_r a =? c_r b) && (c_g a =? c_g b) && (c_b a =? c_b b) && (c_a a =? c_a b).
Fixpoint pixels_eqb (a b : list color8888) : bool :=
  match a, b with
  | [], [] => true
  | x :: a, y :: b => color8888_eqb x y && pixels_eqb a b
  | _, _ => false
  end.

Section Roundtrip.
Context {S : Type}.
Variable v : env.
Variable fresh : Z -> list byte.                   (** what newly allocated memory holds *)
Variable block : Z.                                (** bytes per block *)
Variables transform untransform : Z -> S -> mem -> res mem.
Variable decode : list byte -> res (list color8888).

(** src/tools/dxt-lossless-transform-cli/src/commands/debug_bc1/roundtrip.rs:89-123: whether all pixels of the blocks
    from [off] on agree; [n] blocks are left *)
Fixpoint same_pixels (n : nat) (off : Z) (data restored : list byte) : res bool :=
  match n with
  | O => Ok true
  | Datatypes.S n =>
      do original_decoded <- decode (slice data off block) ;;
      do roundtrip_decoded <- decode (slice restored off block) ;;
      if pixels_eqb original_decoded roundtrip_decoded then same_pixels n (off + block) data restored else Ok false
  end.
(** src/tools/dxt-lossless-transform-cli/src/commands/debug_bc1/roundtrip.rs:64-126: the settings still to test *)
Fixpoint test_settings (l : list S) (data : list byte) : res (result unit debug_error) :=
  match l with
  | [] => Ok (ROk tt)
  | s :: l =>
      if negb (alloc_ok v (zlen data)) then Ok (RErr DAllocate)
      else
        do m <- transform (zlen data) s (Mem data [] (fresh (zlen data))) ;;
        do m <- untransform (zlen data) s (Mem (m_out m) [] (fresh (zlen data))) ;;
        do ok <- same_pixels (Z.to_nat (zlen data / block)) 0 data (m_out m) ;;
        if (ok : bool) then test_settings l data else Ok (RErr DMessage)
  end.
End Roundtrip.

(** src/tools/dxt-lossless-transform-cli/src/commands/debug_bc1/roundtrip.rs:54-127, and the same in debug_bc2 and
    debug_bc3 *)
Definition test_bc1_roundtrip (c : cfg) (v : env) (fresh : Z -> list byte) : list byte -> res (result unit debug_error) :=
  test_settings v fresh 8 (fun n s => transform_bc1_with_settings c (Ptr BIn 0) (Ptr BOut 0) n s)
    (fun n s => untransform_bc1_with_settings c (Ptr BIn 0) (Ptr BOut 0) n s) decode_bc1_block all_settings.
Definition test_bc2_roundtrip (c : cfg) (v : env) (fresh : Z -> list byte) : list byte -> res (result unit debug_error) :=
  test_settings v fresh 16 (fun n s => transform_bc2_with_settings c (Ptr BIn 0) (Ptr BOut 0) n s)
    (fun n s => untransform_bc2_with_settings c (Ptr BIn 0) (Ptr BOut 0) n s) decode_bc2_block all_settings.
Definition test_bc3_roundtrip (c : cfg) (v : env) (fresh : Z -> list byte) : list byte -> res (result unit debug_error) :=
  test_settings v fresh 16 (fun n s => transform_bc3_with_settings c (Ptr BIn 0) (Ptr BOut 0) n s)
    (fun n s => untransform_bc3_with_settings c (Ptr BIn 0) (Ptr BOut 0) n s) decode_bc3_block all_settings3.

(** src/tools/dxt-lossless-transform-cli/src/commands/debug_bc1/roundtrip.rs:129-137, debug_bc2, debug_bc3 *)
Definition roundtrip_filter (k : Z) : format_filter := OnlyFormat (if k =? 1 then FBc1 else if k =? 2 then FBc2 else FBc3).
Definition test_roundtrip (c : cfg) (v : env) (fresh : Z -> list byte) (k : Z) : list byte -> res (result unit debug_error) :=
  if k =? 1 then test_bc1_roundtrip c v fresh else if k =? 2 then test_bc2_roundtrip c v fresh else test_bc3_roundtrip c v fresh.
Definition test_roundtrip_file (c : cfg) (v : env) (fresh : Z -> list byte) (k : Z) (ext : option string) (o : io) (p : path) (fs : files)
  : res (result unit debug_error) :=
  do r <- extract_blocks_from_file (fun _ => ext) o (all_inspectors (c_debug c) v) p (roundtrip_filter k)
    (fun data _ t => do r <- test_roundtrip c v fresh k data ;; Ok (r, t)) fs tt ;;
  Ok (fst r).
(** src/tools/dxt-lossless-transform-cli/src/commands/debug_bc1/roundtrip.rs:27-51, debug_bc2, debug_bc3: the files
    tested and passed, and whether the command ends well. Simplification: the
    files are tested one after another; testing changes no file, and the two
    counters are sums, so the order makes no difference. *)
Fixpoint test_files (c : cfg) (v : env) (fresh : Z -> list byte) (k : Z) (utf8 : string -> bool) (o : io) (entries : list components) (fs : files)
    (tested passed : Z) : res (Z * Z) :=
  match entries with
  | [] => Ok (tested, passed)
  | p :: entries =>
      do r <- test_roundtrip_file c v fresh k (extract_lowercase_extension utf8 p) o (render p) fs ;;
      test_files c v fresh k utf8 o entries fs (tested + 1) (match r with ROk _ => passed + 1 | RErr _ => passed end)
  end.
(** src/tools/dxt-lossless-transform-cli/src/commands/debug_bc1/roundtrip.rs:11-52 (the same in debug_bc2 and debug_bc3) *)
Definition handle_roundtrip_command (c : cfg) (v : env) (fresh : Z -> list byte) (k : Z) (utf8 : string -> bool) (o : io)
    (entries : list components) (fs : files) : res (result unit debug_error) :=
  do r <- test_files c v fresh k utf8 o entries fs 0 0 ;;
  Ok (if snd r =? fst r then ROk tt else RErr DMessage).
