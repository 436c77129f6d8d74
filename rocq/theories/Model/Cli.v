(** The command line tool: directories in, directories out.

    Argument parsing beyond the preset names, messages and timing are not modelled
    here; the paths and the exit status are in Model/Commands.v. *)
From Verif Require Import Base.Bytes Base.Res Model.Color565 Model.Kernel Model.Transform Model.Auto Model.Builders Model.Bundle Model.Dds Model.Handlers Model.Ltu Model.Zstd.
From Coq Require Import Ascii String.
Open Scope string_scope.
Open Scope list_scope.
Open Scope Z_scope.

(** ** Paths

    Simplification: a path is the list of its components after the root (the
    tool canonicalises the paths it is given, src/tools/dxt-lossless-transform-cli/src/util/core.rs:59-69, and
    directory entries are joined to them), so there are no [.], [..] or repeated
    separators. [render] gives the name under which the file operations of
    Model/Handlers.v know it. *)
Definition components := list string.
Fixpoint render (p : components) : path := match p with [] => "" | c :: q => String.append "/" (String.append c (render q)) end.
(** [Path::strip_prefix];
    src/tools/dxt-lossless-transform-cli/src/commands/transform/mod.rs:213 *)
Fixpoint strip_prefix (p base : components) : option components :=
  match base, p with
  | [], _ => Some p
  | b :: base1, c :: p1 => if String.eqb b c then strip_prefix p1 base1 else None
  | _ :: _, [] => None
  end.

(** [str::to_lowercase]. Simplification: only ASCII letters change. (No other
    letter's lower case is a letter of [dds] or of a preset's name.);
    src/tools/dxt-lossless-transform-cli/src/commands/transform/mod.rs:47 *)
Definition lower_char (a : Ascii.ascii) : Ascii.ascii :=
  let n := Ascii.N_of_ascii a in if (N.leb 65 n && N.leb n 90)%bool then Ascii.ascii_of_N (n + 32) else a.
Fixpoint to_lowercase (s : string) : string :=
  match s with EmptyString => EmptyString | String a r => String (lower_char a) (to_lowercase r) end.
(** The text after the last dot, if there is a dot.
    src/api/dxt-lossless-transform-file-formats-api/src/file_io/lightweight_mmap/mod.rs:40 *)
Fixpoint after_last_dot (s : string) : option string :=
  match s with
  | EmptyString => None
  | String a r => match after_last_dot r with
                  | Some e => Some e
                  | None => if Ascii.eqb a "."%char then Some r else None
                  end
  end.
(** [Path::extension]: none if the only dot is the first character. (For a
    name that begins with a dot the rest of the name decides.);
    src/api/dxt-lossless-transform-file-formats-api/src/file_io/lightweight_mmap/mod.rs:40 *)
Definition name_extension (name : string) : option string :=
  match name with EmptyString => None | String _ r => after_last_dot r end.
(** src/api/dxt-lossless-transform-file-formats-api/src/file_io/lightweight_mmap/mod.rs:37-41. [to_str] fails if the extension is not UTF-8. *)
Definition extract_lowercase_extension (utf8 : string -> bool) (p : components) : option string :=
  match rev p with
  | [] => None
  | name :: _ => match name_extension name with
                 | Some e => if utf8 e then Some (to_lowercase e) else None
                 | None => None
                 end
  end.

(** ** Finding files *)

(** What a directory looks like while it is searched. Simplification: a finite
    tree, so no link leads back up. [Folder None] cannot be read; an entry
    [None] cannot be read.
    src/tools/dxt-lossless-transform-cli/src/util/core.rs:21 *)
Inductive tree := Leaf | Folder (entries : option (list (option (string * tree)))).
(** src/tools/dxt-lossless-transform-cli/src/util/core.rs:19-41 *)
Fixpoint find_all_files (dir : components) (t : tree) : list components :=
  match t with
  | Leaf => []
  | Folder None => []
  | Folder (Some es) =>
      flat_map (fun e =>
        match e with
        | None => []
        | Some (name, Leaf) => [dir ++ [name]]
        | Some (name, sub) => find_all_files (dir ++ [name]) sub
        end) es
  end.

(** ** Presets *)

(** src/tools/dxt-lossless-transform-cli/src/commands/transform/mod.rs:32-41 *)
Inductive preset := Low | Medium | Optimal | Max.
(** src/tools/dxt-lossless-transform-cli/src/commands/transform/mod.rs:46-56 *)
Definition preset_from_str (s : string) : option preset :=
  let l := to_lowercase s in
  if String.eqb l "low" then Some Low
  else if String.eqb l "medium" then Some Medium
  else if String.eqb l "optimal" then Some Optimal
  else if String.eqb l "max" then Some Max
  else None.
(** src/tools/dxt-lossless-transform-cli/src/commands/transform/mod.rs:113-118; the estimator type is NoEstimation *)
Definition low_preset_bundle : bundle unit Empty_set := with_bc1_manual bundle_new manual_new.
(** src/tools/dxt-lossless-transform-cli/src/commands/transform/mod.rs:121-128; [matches] is the counter of the crate lossless_transform_utils, see
    Model/Ltu.v *)
Definition medium_preset_bundle (matches : list byte -> Z) : bundle unit ltu_error := with_bc1_auto bundle_new (auto_new (ltu matches)).
(** src/tools/dxt-lossless-transform-cli/src/commands/transform/mod.rs:131-139 *)
Definition optimal_preset_bundle {L} (lib : zstd_lib L) : result (bundle L zstd_error) zstd_error :=
  match zstd_new 1 with
  | RErr e => RErr e
  | ROk level => ROk (with_bc1_auto bundle_new (auto_new (zstd lib level)))
  end.
(** src/tools/dxt-lossless-transform-cli/src/commands/transform/mod.rs:142-151 *)
Definition max_preset_bundle {L} (lib : zstd_lib L) : result (bundle L zstd_error) zstd_error :=
  match zstd_new 1 with
  | RErr e => RErr e
  | ROk level => ROk (with_bc1_auto bundle_new (auto_new_ultra (zstd lib level)))
  end.

(** src/tools/dxt-lossless-transform-cli/src/util/handlers.rs:8-10 *)
Definition all_handlers {St Er} (show : Er -> string) (c : cfg) (v : env) : list (handler (bundle St Er) St) := [dds_handler show c v].

(** ** Processing the files *)

(** src/tools/dxt-lossless-transform-cli/src/error.rs:5-16 *)
Inductive cli_error := CIo | CFile (e : file_operation_error).
(** The two commands that process directories: src/tools/dxt-lossless-transform-cli/src/commands/transform/mod.rs and
    src/tools/dxt-lossless-transform-cli/src/commands/untransform/mod.rs. *)
Inductive command (B : Type) := TransformDir (b : B) | UntransformDir.
Arguments TransformDir {B}. Arguments UntransformDir {B}.

Section Run.
Context {B W : Type}.
Notation H := (handler B W).
Variable utf8 : string -> bool.
Variable cmd : command B.
Variable handlers : list H.                        (** all_handlers() *)
Variables input_dir output_dir : components.

(** src/api/dxt-lossless-transform-file-formats-api/src/file_io/lightweight_mmap/file.rs:150 *)
Definition extension_of (p : components) : option string := extract_lowercase_extension utf8 p.
(** src/tools/dxt-lossless-transform-cli/src/commands/transform/mod.rs:213-214, src/tools/dxt-lossless-transform-cli/src/commands/untransform/mod.rs:111-112 *)
Definition target_of (p : components) : option components :=
  match strip_prefix p input_dir with Some relative => Some (output_dir ++ relative) | None => None end.

(** What a handler is asked, and what it is made to do: src/api/dxt-lossless-transform-file-formats-api/src/file_io/lightweight_mmap/file.rs:155 and 162-167,
    233 and 240 (see Model/Handlers.v). *)
Definition accepts (h : H) (x : list byte) (p : components) (w : W) : res (bool * W) :=
  match cmd with
  | TransformDir _ => h_can_handle h x (extension_of p) w
  | UntransformDir => h_can_handle_untransform h x (extension_of p) w
  end.
Definition work (h : H) (x out : list byte) (w : W) : res (result unit transform_error * list byte * W) :=
  match cmd with
  | TransformDir b => transform_slice_with_bundle h x out b w
  | UntransformDir => untransform_slice h x out w
  end.

(** *** One file at a time (built without the feature "multithreaded") *)

(** What the operating system answers while one file is processed.
    src/tools/dxt-lossless-transform-cli/src/commands/transform/mod.rs:213-238 *)
Record answers := Answers { dir_ok : bool; metadata_ok : bool; file_io : io }.
(** The file functions know a file by its rendered path; the extension is that
    of the entry.
    src/api/dxt-lossless-transform-file-formats-api/src/file_io/lightweight_mmap/file.rs:150 *)
Definition multiple_handlers (o : io) (p target : components) (fs : files) (w : W) : res (result H file_operation_error * files * W) :=
  match cmd with
  | TransformDir b => transform_file_with_multiple_handlers (fun _ => extension_of p) o handlers (render p) (render target) b fs w
  | UntransformDir => untransform_file_with_multiple_handlers (fun _ => extension_of p) o handlers (render p) (render target) fs w
  end.
(** src/tools/dxt-lossless-transform-cli/src/commands/transform/mod.rs:202-238, src/tools/dxt-lossless-transform-cli/src/commands/untransform/mod.rs:105-131. Directories are not
    part of the state: making them succeeds or not. *)
Definition process_file (a : answers) (p : components) (fs : files) (w : W) : res (result Z cli_error * files * W) :=
  match target_of p with
  | None => Panic "called `Result::unwrap()` on an `Err` value"
  | Some target =>
      if negb (dir_ok a) then Ok (RErr CIo, fs, w)
      else
        let bytes := match fs (render p) with Some x => if metadata_ok a then zlen x else 0 | None => 0 end in
        do r <- multiple_handlers (file_io a) p target fs w ;;
        match r with
        | (RErr e, fs1, w1) => Ok (RErr (CFile e), fs1, w1)
        | (ROk _, fs1, w1) => Ok (ROk bytes, fs1, w1)
        end
  end.
(** src/tools/dxt-lossless-transform-cli/src/commands/transform/mod.rs:190-197, src/tools/dxt-lossless-transform-cli/src/commands/untransform/mod.rs:93-100; errors are printed and
    forgotten. [bytes_processed += bytes] panics on overflow in debug builds. *)
Fixpoint process_files (debug : bool) (entries : list (answers * components)) (fs : files) (w : W) (bytes_processed : Z) : res (Z * files * W) :=
  match entries with
  | [] => Ok (bytes_processed, fs, w)
  | (a, p) :: entries1 =>
      do r <- process_file a p fs w ;;
      match r with
      | (ROk bytes, fs1, w1) =>
          if (2 ^ 64 <=? bytes_processed + bytes) && debug then Panic "attempt to add with overflow"
          else process_files debug entries1 fs1 w1 ((bytes_processed + bytes) mod 2 ^ 64)
      | (RErr _, fs1, w1) => process_files debug entries1 fs1 w1 bytes_processed
      end
  end.

(** *** Many files at a time (feature "multithreaded")

    src/tools/dxt-lossless-transform-cli/src/commands/transform/mod.rs:166-186, src/tools/dxt-lossless-transform-cli/src/commands/untransform/mod.rs:69-89: rayon runs
    [process_file] for the entries in parallel, in an order nobody controls. A
    task is in one of the following phases; a step of the tool is a step of one
    of the tasks. How many threads there are only limits which schedules occur.

    The operating system's answers are arbitrary in every step. So is the
    handlers' world [W]: tasks share the estimator, so one task cannot foresee
    in which state it will find it. While a handler runs, its output file holds
    anything of the right size. [Undefined] marks undefined behaviour: a mapped
    file changed by somebody else, a file mapped twice with one mapping writable,
    or a handler misbehaving. *)
Inductive phase :=
| Waiting
| HasDirectory                                                       (** create_dir_all succeeded *)
| Measured (bytes : Z)
| Choosing (bytes : Z) (input : list byte) (rest : list H)           (** input mapped; these handlers are left to ask *)
| Accepted (bytes : Z) (input : list byte) (h : H)
| Created (bytes : Z) (input : list byte) (h : H)                    (** output file made *)
| Working (bytes : Z) (input : list byte) (h : H) (initial now : list byte)   (** output mapped; what it held first and holds now *)
| Returned (r : result Z cli_error)                                  (** process_file returned *)
| Counted (bytes : Z)                                                (** fetch_add done *)
| Panicked
| Undefined.

(** src/api/dxt-lossless-transform-file-formats-api/src/file_io/lightweight_mmap/file.rs:42-43 (what writing through the mapping does) *)
Definition update (fs : files) (p : path) (d : option (list byte)) : files := fun q => if String.eqb q p then d else fs q.
(** The input a phase has mapped, and the output contents it relies on.
    src/api/dxt-lossless-transform-file-formats-api/src/file_io/lightweight_mmap/file.rs:39-43 *)
Definition mapped (ph : phase) : option (list byte) :=
  match ph with Choosing _ x _ | Accepted _ x _ | Created _ x _ | Working _ x _ _ _ => Some x | _ => None end.

(** Steps of the task of entry [p] with output [t] (rendered paths [i] and [o]).
    The flag says whether the step is a partial write.
    src/tools/dxt-lossless-transform-cli/src/commands/transform/mod.rs:173-180 *)
Inductive task_step (p : components) (i o : path) : bool -> files -> phase -> files -> phase -> Prop :=
(* src/tools/dxt-lossless-transform-cli/src/commands/transform/mod.rs:217-219 *)
| step_no_directory fs : task_step p i o false fs Waiting fs (Returned (RErr CIo))
| step_directory fs : task_step p i o false fs Waiting fs HasDirectory
(* src/tools/dxt-lossless-transform-cli/src/commands/transform/mod.rs:222-226 *)
| step_metadata fs x : fs i = Some x -> task_step p i o false fs HasDirectory fs (Measured (zlen x))
| step_no_metadata fs : task_step p i o false fs HasDirectory fs (Measured 0)
(* src/api/dxt-lossless-transform-file-formats-api/src/file_io/lightweight_mmap/file.rs:144-147 *)
| step_open_fails fs n : task_step p i o false fs (Measured n) fs (Returned (RErr (CFile FIo)))
| step_open fs n x : fs i = Some x -> task_step p i o false fs (Measured n) fs (Choosing n x handlers)
(* src/api/dxt-lossless-transform-file-formats-api/src/file_io/lightweight_mmap/file.rs:154-155, 174 *)
| step_declined fs n x h rest w w1 : fs i = Some x -> accepts h x p w = Ok (false, w1) ->
    task_step p i o false fs (Choosing n x (h :: rest)) fs (Choosing n x rest)
| step_accepted fs n x h rest w w1 : fs i = Some x -> accepts h x p w = Ok (true, w1) ->
    task_step p i o false fs (Choosing n x (h :: rest)) fs (Accepted n x h)
| step_no_handler fs n x : task_step p i o false fs (Choosing n x []) fs (Returned (RErr (CFile (FTransform NoSupportedHandler))))
| step_ask_panics fs n x h rest w why : fs i = Some x -> accepts h x p w = Panic why ->
    task_step p i o false fs (Choosing n x (h :: rest)) fs Panicked
| step_ask_undefined fs n x h rest w why : fs i = Some x -> accepts h x p w = Ub why ->
    task_step p i o false fs (Choosing n x (h :: rest)) fs Undefined
(* src/api/dxt-lossless-transform-file-formats-api/src/file_io/lightweight_mmap/file.rs:157-158; a failed attempt may have left anything under that name *)
| step_create_fails fs n x h : task_step p i o false fs (Accepted n x h) fs (Returned (RErr (CFile FIo)))
| step_create_half fs n x h d : task_step p i o false fs (Accepted n x h) (update fs o d) (Returned (RErr (CFile FIo)))
| step_create fs n x h d : zlen d = zlen x -> task_step p i o false fs (Accepted n x h) (update fs o (Some d)) (Created n x h)
(* src/api/dxt-lossless-transform-file-formats-api/src/file_io/lightweight_mmap/file.rs:159 *)
| step_map_fails fs n x h : task_step p i o false fs (Created n x h) fs (Returned (RErr (CFile FIo)))
| step_map fs n x h d : i <> o -> fs o = Some d -> zlen d = zlen x -> task_step p i o false fs (Created n x h) fs (Working n x h d d)
| step_map_alias fs n x h : i = o -> task_step p i o false fs (Created n x h) fs Undefined
| step_map_lost fs n x h : (forall d, fs o = Some d -> zlen d <> zlen x) -> task_step p i o false fs (Created n x h) fs Undefined
(* src/api/dxt-lossless-transform-file-formats-api/src/file_io/lightweight_mmap/file.rs:162-169 *)
| step_write fs n x h d now now1 : fs i = Some x -> fs o = Some now -> zlen now1 = zlen now ->
    task_step p i o true fs (Working n x h d now) (update fs o (Some now1)) (Working n x h d now1)
| step_done fs n x h d now w y w1 : fs i = Some x -> fs o = Some now -> work h x d w = Ok (ROk tt, y, w1) ->
    task_step p i o false fs (Working n x h d now) (update fs o (Some y)) (Returned (ROk n))
| step_failed fs n x h d now w e y w1 : fs i = Some x -> fs o = Some now -> work h x d w = Ok (RErr e, y, w1) ->
    task_step p i o false fs (Working n x h d now) (update fs o (Some y)) (Returned (RErr (CFile (FTransform e))))
| step_panics fs n x h d now w why : fs i = Some x -> fs o = Some now -> work h x d w = Panic why ->
    task_step p i o false fs (Working n x h d now) fs Panicked
| step_work_undefined fs n x h d now w why : fs i = Some x -> fs o = Some now -> work h x d w = Ub why ->
    task_step p i o false fs (Working n x h d now) fs Undefined
(* races *)
| step_input_changed fs ph x : mapped ph = Some x -> fs i <> Some x -> task_step p i o false fs ph fs Undefined
| step_output_changed fs n x h d now : fs o <> Some now -> task_step p i o false fs (Working n x h d now) fs Undefined.

(** The files, the tasks, and the shared counter bytes_processed.
    src/tools/dxt-lossless-transform-cli/src/commands/transform/mod.rs:171-180 *)
Record state := State { s_files : files; s_tasks : list (components * phase); s_total : Z }.
Inductive step : bool -> state -> state -> Prop :=
| step_task partial fs fs1 pre p ph ph1 post total t : target_of p = Some t ->
    task_step p (render p) (render t) partial fs ph fs1 ph1 ->
    step partial (State fs (pre ++ (p, ph) :: post) total) (State fs1 (pre ++ (p, ph1) :: post) total)
(* the unwrap of src/tools/dxt-lossless-transform-cli/src/commands/transform/mod.rs:213 *)
| step_unwrap fs pre p post total : target_of p = None ->
    step false (State fs (pre ++ (p, Waiting) :: post) total) (State fs (pre ++ (p, Panicked) :: post) total)
(* src/tools/dxt-lossless-transform-cli/src/commands/transform/mod.rs:180: fetch_add wraps *)
| step_count fs pre p n post total :
    step false (State fs (pre ++ (p, Returned (ROk n)) :: post) total) (State fs (pre ++ (p, Counted n) :: post) ((total + n) mod 2 ^ 64)).

(** src/tools/dxt-lossless-transform-cli/src/commands/transform/mod.rs:171-173: no task has begun *)
Definition start (entries : list components) (fs : files) : state := State fs (map (fun p => (p, Waiting)) entries) 0.
End Run.
