(** The rest of the debug-endian commands: which files are tested, and the tool
    that is run for them on each machine (Model/EndianTest.v takes a machine as
    given). *)
From Verif Require Import Base.Bytes Base.Res Model.Color565 Model.Kernel Model.Transform Model.Auto Model.Builders Model.Embed Model.Bundle
  Model.Dds Model.Handlers Model.Inspect Model.Cli Model.EndianTest Model.BigEndian Model.BeTransform Model.BeFiles.
From Coq Require Import Ascii String.
Open Scope string_scope.
Open Scope list_scope.
Open Scope Z_scope.

(** ** The test files: src/tools/dxt-lossless-transform-cli/src/commands/debug_endian/endian_test.rs *)

Section Tests.
Variable ext : path -> option string.                       (** the extension of a path, in lower case *)
Variable inspectors : list inspector.                       (** all_handlers() *)
Variable o : io.
(** src/tools/dxt-lossless-transform-cli/src/commands/debug_endian/endian_test.rs:48-66 *)
Definition is_supported_format (file_path : path) (fs : files) : res (result bool endian_error) :=
  do r <- get_transform_format ext o file_path inspectors AllFormats fs ;;
  Ok (match r with
      | ROk (Some FBc1) => ROk true
      | ROk (Some FBc2) => ROk true
      | ROk _ => ROk false
      | RErr _ => RErr EIo
      end).
(** [str::ends_with];
    src/tools/dxt-lossless-transform-cli/src/commands/debug_endian/endian_test.rs:85-88 *)
Fixpoint ends_with (s suffix : string) : bool :=
  String.eqb s suffix || match s with EmptyString => false | String _ r => ends_with r suffix end.
Definition file_name_of (p : components) : option string := match rev p with [] => None | n :: _ => Some n end.
(** src/tools/dxt-lossless-transform-cli/src/commands/debug_endian/endian_test.rs:83-97; an error counts as "not supported" *)
Definition is_test_file (p : components) (fs : files) : res bool :=
  match file_name_of p with
  | None => Ok false
  | Some name =>
      if negb (ends_with (to_lowercase name) ".dds") then Ok false
      else do r <- is_supported_format (render p) fs ;; Ok (match r with ROk b => b | RErr _ => false end)
  end.
Fixpoint filter_files (l : list components) (fs : files) : res (list components) :=
  match l with
  | [] => Ok []
  | p :: l1 => do b <- is_test_file p fs ;; do r <- filter_files l1 fs ;; Ok (if b : bool then p :: r else r)
  end.
(** src/tools/dxt-lossless-transform-cli/src/commands/debug_endian/endian_test.rs:101, [sort_by_key], a stable sort; names are compared byte by byte *)
Definition name_le (p q : components) : bool :=
  match file_name_of p, file_name_of q with
  | Some a, Some b => match String.compare a b with Gt => false | _ => true end
  | None, _ => true
  | _, None => false
  end.
Fixpoint insert_file (p : components) (l : list components) : list components :=
  match l with
  | [] => [p]
  | q :: l1 => if name_le p q then p :: l else q :: insert_file p l1
  end.
(** src/tools/dxt-lossless-transform-cli/src/commands/debug_endian/endian_test.rs:69-103. [assets] is the directory of the test files and [t] what is in it. *)
Definition get_test_files (assets : components) (t : tree) (fs : files) : res (list components) :=
  do l <- filter_files (find_all_files assets t) fs ;; Ok (fold_right insert_file [] l).
End Tests.

(** ** The tool on one machine *)

Section Tool.
Context {St Er : Type}.
Variable ext : path -> option string.
Variable hs : list (handler (bundle St Er) St).             (** all_handlers() *)
Variable inspectors : list inspector.                       (** all_handlers(), for [get_transform_format] *)

(** src/tools/dxt-lossless-transform-cli/src/commands/debug_endian/endian_test.rs:146-147 *)
Definition join (dir name : string) : path := String.append dir (String.append "/" name).
(** src/tools/dxt-lossless-transform-cli/src/commands/debug_endian/transform_command.rs:128-148, the loop over the entries of the directory;
    [o] is how the file operations go for a name *)
Fixpoint untransform_entries (o : string -> io) (input_dir output_dir : string) (entries : list (option (string * tree))) (fs : files) (w : St)
  : res (result unit debug_error * files * St) :=
  match entries with
  | [] => Ok (ROk tt, fs, w)
  | None :: _ => Ok (RErr DMessage, fs, w)
  | Some (name, Leaf) :: es =>
      do r <- untransform_file_with_multiple_handlers ext (o name) hs (join input_dir name) (join output_dir name) fs w ;;
      match r with
      | (RErr e, fs1, w1) => Ok (RErr (DFile e), fs1, w1)
      | (ROk _, fs1, w1) => untransform_entries o input_dir output_dir es fs1 w1
      end
  | Some (_, Folder _) :: es => untransform_entries o input_dir output_dir es fs w
  end.
(** src/tools/dxt-lossless-transform-cli/src/commands/debug_endian/transform_command.rs:121-151, after the output directory was made. [t] is the input directory. *)
Definition handle_untransform_single_file (o : string -> io) (input_dir output_dir : string) (t : tree) (fs : files) (w : St)
  : res (result unit debug_error * files * St) :=
  match t with
  | Folder (Some es) => untransform_entries o input_dir output_dir es fs w
  | _ => Ok (RErr DMessage, fs, w)
  end.

(** What is in a directory that held nothing before and in which files of these
    names may have been made. [rd] is how reading goes.
    src/tools/dxt-lossless-transform-cli/src/commands/debug_endian/endian_test.rs:134-220 *)
Definition directory_of (names : list string) (dir : string) (rd : nat -> option Z) (fs : files) : directory :=
  Directory (Folder (Some (map (fun n => Some (n, Leaf)) (filter (fun n => match fs (join dir n) with Some _ => true | None => false end) names))))
    (fun c => DiskFile (match c with [n] => fs (join dir n) | _ => None end) true true rd).
Definition names_in (t : tree) : list string :=
  match t with
  | Folder (Some es) => flat_map (fun e => match e with Some (n, Leaf) => [n] | _ => [] end) es
  | _ => []
  end.
Definition files_in (d : directory) (dir : string) : files :=
  fun p => match find (fun n => String.eqb p (join dir n)) (names_in (d_tree d)) with
           | Some n => on_disk (d_file d [n])
           | None => None
           end.
(** The machine that src/tools/dxt-lossless-transform-cli/src/commands/debug_endian/endian_test.rs:165-304 sees when it runs the tool for a
    file called [name]: the input is copied to a directory of its own, and the
    outputs go to directories that are empty. The tool fails when the command
    does or panics (what is left then is not looked at). Simplification: the
    random names of the temporary directories are fixed here. *)
Definition tool_machine (name : string) (o0 : io) (o : stable_variant -> bool -> io) (ou : string -> io) (rd : nat -> option Z) (w : St) : machine := Machine
  (fun file =>
     match handle_transform_single_file ext hs inspectors o0 o (join "in" name) (join "transformed" name) (set_file (fun _ => None) (join "in" name) file) w with
     | Ok (r, fs, _) => ROk (match r with ROk _ => true | RErr _ => false end, directory_of [name] "transformed" rd fs)
     | _ => ROk (false, directory_of [] "transformed" rd (fun _ => None))
     end)
  (fun d =>
     match handle_untransform_single_file ou "transformed" "restored" (d_tree d) (files_in d "transformed") w with
     | Ok (r, fs, _) => ROk (match r with ROk _ => true | RErr _ => false end, directory_of (names_in (d_tree d)) "restored" rd fs)
     | _ => ROk (false, directory_of [] "restored" rd (fun _ => None))
     end).
End Tool.

(** src/tools/dxt-lossless-transform-cli/src/util/handlers.rs:8-10 on a big-endian machine *)
Definition be_all_handlers {St Er} (show : Er -> string) (c : cfg) (v : env) : list (handler (bundle St Er) St) := [be_dds_handler show c v].
