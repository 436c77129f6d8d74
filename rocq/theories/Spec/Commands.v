(** What a disk looks like, and when a path can be made on it. *)
From Verif Require Import Base.Bytes Base.Res Model.Kernel Model.Dds Model.Cli Model.Commands Spec.Dds Spec.Cli.
From Coq Require Import String.
Open Scope list_scope.

(** Names are names, and no directory has two entries of the same name. *)
Inductive real_disk : disk -> Prop :=
| real_file x : real_disk (File x)
| real_dir es : NoDup (map fst es) -> Forall file_name (map fst es) -> (forall name d, In (name, d) es -> real_disk d) -> real_disk (Dir es).
(** [q] is the path or leads to it. *)
Definition leads_to (q p : components) : Prop := exists r, p = q ++ r.
(** A file stands where the path needs a directory. *)
Definition blocked (d : disk) (p : components) : Prop := exists q c r x, p = q ++ c :: r /\ find d q = Some (File x).
(** The operating system refuses to make a directory that is missing on the way. *)
Definition refused (may : components -> bool) (d : disk) (p : components) : Prop :=
  exists q, leads_to q p /\ find d q = None /\ may q = false.
(** The same files with the same contents; directories stay, and the only new
    things are directories on the way to one of the paths. *)
Definition only_new_directories (values : list components) (d d1 : disk) : Prop :=
  files_on d1 = files_on d /\
  (forall p x, find d1 p = Some (File x) <-> find d p = Some (File x)) /\
  (forall p es, find d p = Some (Dir es) -> exists es1, find d1 p = Some (Dir es1)) /\
  (forall p, find d p = None -> find d1 p <> None -> exists v, In v values /\ leads_to p v).
(** In a debug build, no file below the directory states an empty texture or
    sizes that overflow. *)
Definition harmless (c : cfg) (dir : components) (d : disk) : Prop :=
  c_debug c = true -> forall r x, find d (dir ++ r) = Some (File x) ->
  levels_fit x /\ forall i, parse_dds_ignore_magic true x = Ok (Some i) -> (0 < i_data_length i)%Z.
