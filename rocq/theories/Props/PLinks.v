(** C79: searching directories that contain links. *)
From Verif Require Import Base.Bytes Model.Cli Model.Links Spec.Cli Spec.Links Proofs.Links.
Open Scope list_scope.
Open Scope Z_scope.

(** The paths found are those along which, through at most as many links as the
    operating system follows, something is reached that is not a directory. *)
Theorem C79_found : forall (disk : nat -> option node) (links : nat) (dir : components) (es : option (list (option (string * node)))) (p : components),
  In p (find_with_links disk links dir es) <-> exists r, p = dir ++ r /\ sees disk links (NDir es) r.
Proof. intros disk links dir es p. exact (visit_sees disk links (NDir es) dir p). Qed.
Print Assumptions C79_found.

(** No path is found twice, and all are below the directory. *)
Theorem C79_paths_once : forall (disk : nat -> option node) (links : nat) (dir : components) (es : option (list (option (string * node)))),
  well_named (NDir es) -> (forall t d, disk t = Some d -> well_named d) -> Forall file_name dir ->
  files_below dir (find_with_links disk links dir es).
Proof. exact links_below. Qed.
Print Assumptions C79_paths_once.
(** a directory with two links to itself *)
Example C79_paths_once_met : well_named (NDir (Some trap)) /\ (forall t d, trap_disk t = Some d -> well_named d) /\ Forall file_name ["in"]%string /\
  find_with_links trap_disk 1 ["in"]%string (Some trap) =
    [["in"; "a.dds"]; ["in"; "b"; "a.dds"]; ["in"; "b"; "b"]; ["in"; "b"; "c"]; ["in"; "c"; "a.dds"]; ["in"; "c"; "b"]; ["in"; "c"; "c"]]%string.
Proof.
  destruct trap_named as (W & D). split; [exact W|]. split; [exact D|]. split; [|reflexivity].
  constructor; [|constructor]. split; cbn; [discriminate|]. repeat split; discriminate.
Qed.

(** Without links the search is the one of C56. *)
Theorem C79_no_links : forall (disk : nat -> option node) (links : nat) (dir : components) (es : option (list (option (string * tree)))),
  visit disk links dir (plain (Folder es)) = find_all_files dir (Folder es).
Proof. intros disk links dir es. exact (visit_plain disk links (Folder es) dir). Qed.
Print Assumptions C79_no_links.

(** "Every file is processed once" fails with links: a directory with one file and
    two links to the directory gives more than 2^(n+1) paths if the system
    follows n links (40 on Linux), and 2^(n+1) - 1 of them are that one file. *)
Theorem C79_files_once_refuted : forall links : nat, exists (disk : nat -> option node) (es : list (option (string * node))),
  map (option_map (fun e => (fst e, match snd e with NFile => true | _ => false end))) es = [Some ("a.dds", true); Some ("b", false); Some ("c", false)]%string /\
  forall dir : components,
    zlen (find_with_links disk links dir (Some es)) = 2 ^ (Z.of_nat links + 2) - 1 /\
    zlen (filter (fun p => String.eqb (List.last p ""%string) "a.dds") (find_with_links disk links dir (Some es))) = 2 ^ (Z.of_nat links + 1) - 1.
Proof. intros links. exists trap_disk, trap. split; [reflexivity|]. intros dir. exact (trap_sprung links dir). Qed.
Print Assumptions C79_files_once_refuted.
