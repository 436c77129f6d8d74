(** The commands transform and untransform as a whole: the paths on the command
    line, the search for files, the work and the exit status. *)
From Verif Require Import Base.Bytes Base.Res Model.Transform Model.Builders Model.Bundle Model.Handlers Model.Cli.
From Coq Require Import String.
Open Scope string_scope.
Open Scope list_scope.
Open Scope Z_scope.

(** A disk: files and directories. Simplifications: no links (Model/LinkedCli.v
    has them), and every directory can be searched.
    src/tools/dxt-lossless-transform-cli/src/util/core.rs:60-68 *)
Inductive disk := File (content : list byte) | Dir (entries : list (string * disk)).
Fixpoint entry (es : list (string * disk)) (name : string) : option disk :=
  match es with [] => None | (n, d) :: es1 => if String.eqb n name then Some d else entry es1 name end.
Fixpoint replace (es : list (string * disk)) (name : string) (d1 : disk) : list (string * disk) :=
  match es with [] => [] | (n, d) :: es1 => if String.eqb n name then (n, d1) :: es1 else (n, d) :: replace es1 name d1 end.
(** What is found under a path. Simplification: a path is the list of its
    components after the root, as in Model/Cli.v; a relative path counts from the
    root here.
    src/tools/dxt-lossless-transform-cli/src/util/core.rs:60 *)
Fixpoint find (d : disk) (p : components) : option disk :=
  match p with
  | [] => Some d
  | c :: q => match d with
              | File _ => None
              | Dir es => match entry es c with Some d1 => find d1 q | None => None end
              end
  end.
(** [Path::exists];
    src/tools/dxt-lossless-transform-cli/src/util/core.rs:63 *)
Definition exists_at (d : disk) (p : components) : bool := match find d p with Some _ => true | None => false end.
(** [Path::is_dir], as the standard library's [create_dir_all] asks it;
    src/tools/dxt-lossless-transform-cli/src/util/core.rs:64 *)
Definition is_dir (d : disk) (p : components) : bool := match find d p with Some (Dir _) => true | _ => false end.

(** Making one directory (mkdir). [may] says whether the operating system allows
    a directory with this path to be made.
    src/tools/dxt-lossless-transform-cli/src/util/core.rs:64 *)
Inductive mkdir_error := NotFound | NotADirectory | AlreadyExists | Refused.
Fixpoint mkdir (allowed : bool) (d : disk) (p : components) : result disk mkdir_error :=
  match p with
  | [] => RErr AlreadyExists
  | c :: q => match d with
              | File _ => RErr NotADirectory
              | Dir es => match entry es c, q with
                          | Some d1, _ => match mkdir allowed d1 q with ROk d2 => ROk (Dir (replace es c d2)) | RErr e => RErr e end
                          | None, [] => if allowed then ROk (Dir (es ++ [(c, Dir [])])) else RErr Refused
                          | None, _ => RErr NotFound
                          end
              end
  end.
(** [std::fs::create_dir_all], on the reversed path: try to make the directory; if
    its parent is missing, make that first and try again.
    src/tools/dxt-lossless-transform-cli/src/util/core.rs:64 *)
Fixpoint create_dir_all (may : components -> bool) (d : disk) (rp : components) : result unit mkdir_error * disk :=
  match mkdir (may (rev rp)) d (rev rp) with
  | ROk d1 => (ROk tt, d1)
  | RErr NotFound =>
      match rp with
      | [] => (RErr NotFound, d)
      | _ :: parent => match create_dir_all may d parent with
                       | (RErr e, d1) => (RErr e, d1)
                       | (ROk _, d1) => match mkdir (may (rev rp)) d1 (rev rp) with
                                        | ROk d2 => (ROk tt, d2)
                                        | RErr e => if is_dir d1 (rev rp) then (ROk tt, d1) else (RErr e, d1)
                                        end
                       end
      end
  | RErr e => if is_dir d (rev rp) then (ROk tt, d) else (RErr e, d)
  end.
(** src/tools/dxt-lossless-transform-cli/src/util/core.rs:59-69. Simplification: the canonical form of a path is itself. *)
Definition canonicalize_cli_path (may : components -> bool) (d : disk) (value : components) : result components unit * disk :=
  let after := if exists_at d value then (ROk tt, d) else create_dir_all may d (rev value) in
  match after with
  | (RErr _, d1) => (RErr tt, d1)
  | (ROk _, d1) => (if exists_at d1 value then ROk value else RErr tt, d1)
  end.
(** The options --input and --output, in the order in which they stand on the
    command line; the first that fails ends the program.
    src/tools/dxt-lossless-transform-cli/src/commands/transform/mod.rs:18-23
    src/tools/dxt-lossless-transform-cli/src/main.rs:43 *)
Fixpoint parse_paths (may : components -> bool) (d : disk) (values : list components) : bool * disk :=
  match values with
  | [] => (true, d)
  | v :: values1 => match canonicalize_cli_path may d v with
                    | (ROk _, d1) => parse_paths may d1 values1
                    | (RErr _, d1) => (false, d1)
                    end
  end.

(** What the search of Model/Cli.v sees of a disk, and the files on it by name.
    src/tools/dxt-lossless-transform-cli/src/util/core.rs:19-41 *)
Fixpoint tree_of (d : disk) : tree :=
  match d with File _ => Leaf | Dir es => Folder (Some (map (fun e => Some (fst e, tree_of (snd e))) es)) end.
Definition tree_at (d : disk) (p : components) : tree := match find d p with Some d1 => tree_of d1 | None => Folder None end.
Fixpoint contents (at_path : components) (d : disk) : list (components * list byte) :=
  match d with File x => [(at_path, x)] | Dir es => flat_map (fun e => contents (at_path ++ [fst e]) (snd e)) es end.
Definition files_on (d : disk) : files := fun q =>
  match List.find (fun e => String.eqb (render (fst e)) q) (contents [] d) with Some (_, x) => Some x | None => None end.

(** The exit status: [main] returned Ok, or an error, or panicked.
    src/tools/dxt-lossless-transform-cli/src/main.rs:42-87 *)
Inductive exit := Success | Failed | Crashed.

Section Command.
Context {B W E : Type}.
Variable utf8 : string -> bool.
(** what the bundle's construction gave, or that no bundle is needed.
    src/tools/dxt-lossless-transform-cli/src/commands/transform/mod.rs:77-94
    src/tools/dxt-lossless-transform-cli/src/commands/untransform/mod.rs:43 *)
Variable built : result (command B) E.
Variable handlers : list (handler B W).
Variable may : components -> bool.
Variables input output : components.
Variable input_first : bool.
(** The paths in the order on the command line.
    src/tools/dxt-lossless-transform-cli/src/commands/transform/mod.rs:18-23 *)
Definition paths := if input_first then [input; output] else [output; input].

(** Nothing is left to do for the task: it was counted or its error printed.
    src/tools/dxt-lossless-transform-cli/src/commands/transform/mod.rs:178-184
    src/tools/dxt-lossless-transform-cli/src/util/core.rs:44-48 *)
Definition reported (ph : phase (B := B) (W := W)) : Prop := match ph with Counted _ | Returned (RErr _) => True | _ => False end.
Definition over (ph : phase (B := B) (W := W)) : Prop := match ph with Counted _ | Returned (RErr _) | Panicked => True | _ => False end.
Inductive runs (cmd : command B) : state (B := B) (W := W) -> state (B := B) (W := W) -> Prop :=
| runs_none s : runs cmd s s
| runs_step s s1 partial s2 : runs cmd s s1 -> step utf8 cmd handlers input output partial s1 s2 -> runs cmd s s2.
(** A whole command from the disk it finds: its exit status, the files afterwards,
    and the tasks with their ends.
    src/tools/dxt-lossless-transform-cli/src/commands/transform/mod.rs:59-110
    src/tools/dxt-lossless-transform-cli/src/commands/untransform/mod.rs:25-59 *)
Inductive command_ends (d : disk) : exit -> files -> list (components * phase (B := B) (W := W)) -> Prop :=
(* argh prints the error of a from_str_fn and exits *)
| ends_bad_path d1 : parse_paths may d paths = (false, d1) -> command_ends d Failed (files_on d1) []
(* src/tools/dxt-lossless-transform-cli/src/commands/transform/mod.rs:68-71 *)
| ends_no_files d1 : parse_paths may d paths = (true, d1) -> find_all_files input (tree_at d1 input) = [] -> command_ends d Success (files_on d1) []
(* src/tools/dxt-lossless-transform-cli/src/commands/transform/mod.rs:79-91 *)
| ends_no_bundle d1 e : parse_paths may d paths = (true, d1) -> find_all_files input (tree_at d1 input) <> [] -> built = RErr e ->
    command_ends d Failed (files_on d1) []
(* src/tools/dxt-lossless-transform-cli/src/commands/transform/mod.rs:96-109 *)
| ends_done d1 cmd s : parse_paths may d paths = (true, d1) -> find_all_files input (tree_at d1 input) <> [] -> built = ROk cmd ->
    runs cmd (start (find_all_files input (tree_at d1 input)) (files_on d1)) s -> Forall (fun k => reported (snd k)) (s_tasks s) ->
    command_ends d Success (s_files s) (s_tasks s)
(* a panicking task lets for_each panic once the others have ended *)
| ends_panicked d1 cmd s : parse_paths may d paths = (true, d1) -> find_all_files input (tree_at d1 input) <> [] -> built = ROk cmd ->
    runs cmd (start (find_all_files input (tree_at d1 input)) (files_on d1)) s -> Forall (fun k => over (snd k)) (s_tasks s) ->
    (exists p, In (p, Panicked) (s_tasks s)) -> command_ends d Crashed (s_files s) (s_tasks s).
End Command.
