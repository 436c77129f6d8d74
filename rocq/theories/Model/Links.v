(** Searching a directory that contains symbolic links. *)
From Verif Require Import Base.Bytes Model.Cli.
Open Scope list_scope.

(** What a directory entry is on disk: a file, a directory ([None] cannot be
    read, nor can an entry [None]), or a link to the place with a number.
    src/tools/dxt-lossless-transform-cli/src/util/core.rs:19-30, [fs::read_dir] (std) *)
Inductive node := NFile | NDir (entries : option (list (option (string * node)))) | NLink (target : nat).

Section Search.
(** The places links lead to; [None]: nothing is there. *)
Variable disk : nat -> option node.

(** src/tools/dxt-lossless-transform-cli/src/util/core.rs:19-41 for one entry: [path.is_dir()] (core.rs:32) follows links, and the operating system
    follows at most so many while it resolves one path; [links] are left. If
    there is one more, or nothing at its end, [is_dir] is false and the entry is
    taken for a file (core.rs:35-37). Simplification: no limit on the length of a
    path, and the disk does not change during the search. *)
Fixpoint visit (links : nat) : components -> node -> list components :=
  fix entry (path : components) (n : node) : list components :=
    match n with
    | NFile => [path]
    | NDir None => []
    | NDir (Some es) => flat_map (fun e => match e with None => [] | Some (name, sub) => entry (path ++ [name]) sub end) es
    | NLink t =>
        match links with
        | O => [path]
        | S more => match disk t with
                    | None => [path]
                    | Some n1 => visit more path n1
                    end
        end
    end.
(** src/tools/dxt-lossless-transform-cli/src/util/core.rs:19-41 for the directory given on the command line *)
Definition find_with_links (links : nat) (dir : components) (entries : option (list (option (string * node)))) : list components :=
  visit links dir (NDir entries).
End Search.
