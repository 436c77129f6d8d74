(** The command line tool on a disk with links: several paths can lead to one file. *)
From Verif Require Import Base.Bytes Base.Res Model.Transform Model.Bundle Model.Handlers Model.Cli.
From Coq Require Import String.
Open Scope list_scope.
Open Scope Z_scope.

Section Run.
Context {B W : Type}.
Variable utf8 : string -> bool.
Variable cmd : command B.
Variable handlers : list (handler B W).
(** The file that is read or written under a path: what opening the path (file.rs:144-147)
    or creating a file there (file.rs:157-158) reaches after every symbolic link
    on the way was followed; hard links to one file lead to the same place too.
    Simplification: no link is made, moved or removed during the run.
    src/api/dxt-lossless-transform-file-formats-api/src/file_io/lightweight_mmap/file.rs:144-158 *)
Variable leads_to : path -> path.
Variables input_dir output_dir : components.

(** [step] of Model/Cli.v, with the files the paths lead to; the extension is
    still that of the path (file.rs:150).
    src/tools/dxt-lossless-transform-cli/src/commands/transform/mod.rs:173-180 *)
Inductive linked_step : bool -> state (B := B) (W := W) -> state (B := B) (W := W) -> Prop :=
| linked_task partial fs fs1 pre p ph ph1 post total t : target_of input_dir output_dir p = Some t ->
    task_step utf8 cmd handlers p (leads_to (render p)) (leads_to (render t)) partial fs ph fs1 ph1 ->
    linked_step partial (State fs (pre ++ (p, ph) :: post) total) (State fs1 (pre ++ (p, ph1) :: post) total)
(* the unwrap of src/tools/dxt-lossless-transform-cli/src/commands/transform/mod.rs:213 *)
| linked_unwrap fs pre p post total : target_of input_dir output_dir p = None ->
    linked_step false (State fs (pre ++ (p, Waiting) :: post) total) (State fs (pre ++ (p, Panicked) :: post) total)
(* src/tools/dxt-lossless-transform-cli/src/commands/transform/mod.rs:180: fetch_add wraps *)
| linked_count fs pre p n post total :
    linked_step false (State fs (pre ++ (p, Returned (ROk n)) :: post) total) (State fs (pre ++ (p, Counted n) :: post) ((total + n) mod 2 ^ 64)).
End Run.
