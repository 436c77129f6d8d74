(** The debug-endian commands of the command line tool: transform the test files
    on a little-endian and on a big-endian machine and compare what comes out.

    Not modelled: messages, the check that cargo and cross are installed
    (src/tools/dxt-lossless-transform-cli/src/commands/debug_endian/tool_check.rs), the choice of temporary directory names and the removal of
    the temporary directories. *)
From Verif Require Import Base.Bytes Base.Res Model.Color565 Model.Kernel Model.Transform Model.Auto Model.Builders Model.Embed Model.Bundle
  Model.Dds Model.Handlers Model.Inspect Model.Cli.
From Coq Require Import String.
Open Scope string_scope.
Open Scope list_scope.
Open Scope Z_scope.

(** src/tools/dxt-lossless-transform-cli/src/commands/debug_endian/endian_test.rs:11-24 EndianTestError; texts are left out *)
Inductive endian_error := TestsFailed | EIo.

(** ** src/tools/dxt-lossless-transform-cli/src/commands/debug_endian/file_compare.rs *)

(** A file as the comparison meets it: its content if it exists, whether its size
    can be asked and whether it can be opened, and what each call to [read]
    answers: an error, or a number of bytes. [Read::read] may return fewer bytes
    than were asked for; it returns none only at the end of the file.
    src/tools/dxt-lossless-transform-cli/src/commands/debug_endian/file_compare.rs:44-79 *)
Record disk_file := DiskFile {
  on_disk : option (list byte); size_ok : bool; can_open : bool; reads : nat -> option Z }.
(** src/tools/dxt-lossless-transform-cli/src/commands/debug_endian/file_compare.rs:68 *)
Definition buffer_size : Z := 64 * 1024.
(** The bytes that the [n]th call reads when [rest] is left of the file, and what
    is left after it. Simplification: [BufReader] passes a read of this size on
    to the file, as its own buffer is smaller.
    src/tools/dxt-lossless-transform-cli/src/commands/debug_endian/file_compare.rs:65-79 *)
Definition read_file (f : disk_file) (n : nat) (rest : list byte) : option (list byte * list byte) :=
  match reads f n with
  | None => None
  | Some k =>
      let k := Z.to_nat (Z.max 1 (Z.min k buffer_size)) in
      Some (firstn k rest, skipn k rest)
  end.
(** src/tools/dxt-lossless-transform-cli/src/commands/debug_endian/file_compare.rs:72-90, the loop; [l1] and [l2] are what is left of the files *)
Fixpoint compare_loop (fuel : nat) (f1 f2 : disk_file) (n : nat) (l1 l2 : list byte) : res (result bool endian_error) :=
  match fuel with
  | O => Ub "loop does not terminate"
  | S fuel1 =>
      match read_file f1 n l1 with
      | None => Ok (RErr EIo)
      | Some (b1, r1) =>
          match read_file f2 n l2 with
          | None => Ok (RErr EIo)
          | Some (b2, r2) =>
              if negb (zlen b1 =? zlen b2) then Ok (ROk false)
              else if negb (if list_eq_dec Byte.byte_eq_dec b1 b2 then true else false) then Ok (ROk false)
              else if zlen b1 =? 0 then Ok (ROk true)
              else compare_loop fuel1 f1 f2 (S n) r1 r2
          end
      end
  end.
(** src/tools/dxt-lossless-transform-cli/src/commands/debug_endian/file_compare.rs:40-93. A loop that reads at least a byte in each turn makes no more turns
    than this. *)
Definition compare_files (f1 f2 : disk_file) : res (result bool endian_error) :=
  match on_disk f1, on_disk f2 with
  | None, _ => Ok (RErr EIo)
  | _, None => Ok (RErr EIo)
  | Some l1, Some l2 =>
      if negb (size_ok f1 && size_ok f2) then Ok (RErr EIo)
      else if negb (zlen l1 =? zlen l2) then Ok (ROk false)
      else if negb (can_open f1 && can_open f2) then Ok (RErr EIo)
      else compare_loop (S (S (List.length l1))) f1 f2 0 l1 l2
  end.

(** src/tools/dxt-lossless-transform-cli/src/commands/debug_endian/file_compare.rs:121-146: the files below a directory, by their paths below it. Unlike
    [find_all_files] of Model/Cli.v this stops at what cannot be read. *)
Fixpoint collect_files_recursive (below : components) (t : tree) : result (list components) endian_error :=
  match t with
  | Leaf => RErr EIo
  | Folder None => RErr EIo
  | Folder (Some es) =>
      (fix go (es : list (option (string * tree))) : result (list components) endian_error :=
         match es with
         | [] => ROk []
         | None :: _ => RErr EIo
         | Some (name, Leaf) :: es1 =>
             match go es1 with ROk l => ROk ((below ++ [name]) :: l) | RErr e => RErr e end
         | Some (name, sub) :: es1 =>
             match collect_files_recursive (below ++ [name]) sub with
             | RErr e => RErr e
             | ROk l1 => match go es1 with ROk l2 => ROk (l1 ++ l2) | RErr e => RErr e end
             end
         end) es
  end.
(** A directory: the tree below it, and its files by their paths below it.
    src/tools/dxt-lossless-transform-cli/src/commands/debug_endian/file_compare.rs:96-146 *)
Record directory := Directory { d_tree : tree; d_file : components -> disk_file }.
Definition collect_directory_files (d : directory) : result (list components) endian_error := collect_files_recursive [] (d_tree d).

Definition components_eq_dec : forall a b : components, {a = b} + {a <> b} := list_eq_dec string_dec.
(** src/tools/dxt-lossless-transform-cli/src/commands/debug_endian/file_compare.rs:106-115 *)
Fixpoint compare_entries (d1 d2 : directory) (entries1 entries2 : list components) : res (result bool endian_error) :=
  match entries1 with
  | [] => Ok (ROk true)
  | p :: es =>
      if in_dec components_eq_dec p entries2 then
        do r <- compare_files (d_file d1 p) (d_file d2 p) ;;
        match r with
        | RErr e => Ok (RErr e)
        | ROk false => Ok (ROk false)
        | ROk true => compare_entries d1 d2 es entries2
        end
      else Ok (ROk false)
  end.
(** src/tools/dxt-lossless-transform-cli/src/commands/debug_endian/file_compare.rs:96-118 *)
Definition compare_directories (d1 d2 : directory) : res (result bool endian_error) :=
  match collect_directory_files d1, collect_directory_files d2 with
  | RErr e, _ => Ok (RErr e)
  | _, RErr e => Ok (RErr e)
  | ROk e1, ROk e2 =>
      if negb (zlen e1 =? zlen e2) then Ok (ROk false) else compare_entries d1 d2 e1 e2
  end.

(** ** src/tools/dxt-lossless-transform-cli/src/commands/debug_endian/endian_test.rs *)

(** src/tools/dxt-lossless-transform-cli/src/commands/debug_endian/endian_test.rs:28-40 *)
Record endian_test_result := EndianTestResult { transform_success : bool; untransform_success : bool; files_identical : bool }.
Definition is_success (r : endian_test_result) : bool :=
  transform_success r && untransform_success r && files_identical r.

(** What running the tool for a target with [cross] does (src/tools/dxt-lossless-transform-cli/src/commands/debug_endian/endian_test.rs:223-304): an error if
    cross cannot be started; otherwise whether the tool succeeded, and what is
    then in the output directory. *)
Record machine := Machine {
  run_transform : list byte -> result (bool * directory) endian_error;
  run_untransform : directory -> result (bool * directory) endian_error }.

(** src/tools/dxt-lossless-transform-cli/src/commands/debug_endian/endian_test.rs:134-220, after the directories were made and the file was copied *)
Definition run_single_endian_test (le be : machine) (file : list byte) : res (result endian_test_result endian_error) :=
  match run_transform le file with
  | RErr e => Ok (RErr e)
  | ROk (tl, dl) =>
  match run_transform be file with
  | RErr e => Ok (RErr e)
  | ROk (tb, db) =>
      if tl && tb then
        do same <- compare_directories dl db ;;
        match same with
        | RErr e => Ok (RErr e)
        | ROk same =>
            match run_untransform le dl with
            | RErr e => Ok (RErr e)
            | ROk (ul, rl) =>
            match run_untransform be db with
            | RErr e => Ok (RErr e)
            | ROk (ub, rb) =>
                if ul && ub then
                  do same2 <- compare_directories rl rb ;;
                  match same2 with
                  | RErr e => Ok (RErr e)
                  | ROk same2 => Ok (ROk (EndianTestResult true true (same && same2)))
                  end
                else Ok (ROk (EndianTestResult true false (same && false)))
            end
            end
        end
      else Ok (ROk (EndianTestResult false false false))
  end
  end.
(** src/tools/dxt-lossless-transform-cli/src/commands/debug_endian/endian_test.rs:106-131; [files] are the contents of the supported test files (lines 69-103) *)
Fixpoint run_all_endian_tests (le be : machine) (files : list (list byte)) : res (result (list endian_test_result) endian_error) :=
  match files with
  | [] => Ok (ROk [])
  | f :: fs =>
      do r <- run_single_endian_test le be f ;;
      match r with
      | RErr e => Ok (RErr e)
      | ROk r =>
          do rs <- run_all_endian_tests le be fs ;;
          Ok (match rs with RErr e => RErr e | ROk rs => ROk (r :: rs) end)
      end
  end.
(** src/tools/dxt-lossless-transform-cli/src/commands/debug_endian/mod.rs:87-123: the command fails unless all tests were successful *)
Definition report_results (results : list endian_test_result) : result unit endian_error :=
  if zlen (filter is_success results) =? zlen results then ROk tt else RErr TestsFailed.
(** src/tools/dxt-lossless-transform-cli/src/commands/debug_endian/mod.rs:62-84, from line 78 *)
Definition handle_debug_command (le be : machine) (files : list (list byte)) : res (result unit endian_error) :=
  do r <- run_all_endian_tests le be files ;;
  Ok (match r with RErr e => RErr e | ROk rs => report_results rs end).

(** ** src/tools/dxt-lossless-transform-cli/src/commands/debug_endian/transform_command.rs *)

Section Transform.
Context {St Er : Type}.
Variable ext : path -> option string.                       (** the extension of a path, in lower case *)
Variable hs : list (handler (bundle St Er) St).             (** all_handlers() *)
Variable inspectors : list inspector.                       (** all_handlers(), for [get_transform_format] *)

(** src/tools/dxt-lossless-transform-cli/src/commands/debug_endian/transform_command.rs:66-72, 74-75: in this order *)
Definition combinations : list (stable_variant * bool) :=
  flat_map (fun v => map (fun split => (v, split)) [false; true]) [VariantNone; Variant1; Variant2; Variant3].
(** src/tools/dxt-lossless-transform-cli/src/commands/debug_endian/transform_command.rs:57-98. [o] is how the file operations of each attempt go. *)
Fixpoint test_combinations (o : stable_variant -> bool -> io) (build_bundle : stable_variant -> bool -> bundle St Er) (l : list (stable_variant * bool))
    (input_file output_file : path) (fs : files) (w : St) : res (result unit debug_error * files * St) :=
  match l with
  | [] => Ok (RErr DMessage, fs, w)
  | (v, split) :: l1 =>
      do r <- transform_file_with_multiple_handlers ext (o v split) hs input_file output_file (build_bundle v split) fs w ;;
      match r with
      | (ROk _, fs1, w1) => Ok (ROk tt, fs1, w1)
      | (RErr _, fs1, w1) => test_combinations o build_bundle l1 input_file output_file fs1 w1
      end
  end.
Definition test_all_combinations o build_bundle := test_combinations o build_bundle combinations.
(** src/tools/dxt-lossless-transform-cli/src/commands/debug_endian/transform_command.rs:101-118 *)
Definition bc1_bundle (v : stable_variant) (split : bool) : bundle St Er :=
  with_bc1_manual bundle_new (manual_split_colour_endpoints (manual_decorrelation_mode manual_new v) split).
Definition bc2_bundle (v : stable_variant) (split : bool) : bundle St Er :=
  with_bc2_manual bundle_new (manual_split_colour_endpoints (manual_decorrelation_mode manual_new v) split).
(** src/tools/dxt-lossless-transform-cli/src/commands/debug_endian/transform_command.rs:12-54, after the output directory was made and the name taken from the input *)
Definition handle_transform_single_file (o0 : io) (o : stable_variant -> bool -> io) (input_file output_file : path) (fs : files) (w : St)
  : res (result unit debug_error * files * St) :=
  do f <- get_transform_format ext o0 input_file inspectors AllFormats fs ;;
  match f with
  | RErr e => Ok (RErr (DFile e), fs, w)
  | ROk None => Ok (RErr DMessage, fs, w)
  | ROk (Some FBc1) => test_all_combinations o bc1_bundle input_file output_file fs w
  | ROk (Some FBc2) => test_all_combinations o bc2_bundle input_file output_file fs w
  | ROk (Some _) => Ok (RErr DMessage, fs, w)
  end.
End Transform.
