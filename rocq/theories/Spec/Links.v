(** Which paths lead somewhere, through links. *)
From Verif Require Import Base.Bytes Model.Cli Model.Links Spec.Cli.
Open Scope list_scope.

(** Walking along these names, following at most [n] links, ends at a file or at
    a link that leads nowhere. *)
Inductive sees (disk : nat -> option node) : nat -> node -> components -> Prop :=
| sees_file n : sees disk n NFile []
| sees_nothing n t : disk t = None -> sees disk n (NLink t) []
| sees_too_many t : sees disk 0 (NLink t) []
| sees_link n t d r : disk t = Some d -> sees disk n d r -> sees disk (S n) (NLink t) r
| sees_below n es name d r : In (Some (name, d)) es -> sees disk n d r -> sees disk n (NDir (Some es)) (name :: r).

(** Names are names and differ within a directory. *)
Definition node_names (es : list (option (string * node))) : list string :=
  flat_map (fun e => match e with Some (n, _) => [n] | None => [] end) es.
Inductive well_named : node -> Prop :=
| named_file : well_named NFile
| named_link t : well_named (NLink t)
| named_locked : well_named (NDir None)
| named_dir es : NoDup (node_names es) -> Forall file_name (node_names es) ->
    (forall name d, In (Some (name, d)) es -> well_named d) -> well_named (NDir (Some es)).

(** A directory without links. *)
Fixpoint plain (t : tree) : node :=
  match t with
  | Leaf => NFile
  | Folder None => NDir None
  | Folder (Some es) => NDir (Some (map (fun e => match e with None => None | Some (name, sub) => Some (name, plain sub) end) es))
  end.
