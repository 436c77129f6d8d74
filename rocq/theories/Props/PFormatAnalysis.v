(** C69: the analyze-formats command. *)
From Verif Require Import Base.Bytes Base.Res Model.Color565 Model.Kernel Model.Transform Model.Auto Model.Embed Model.Bundle Model.Dds
  Model.Handlers Model.Cli Model.Inspect Model.FormatAnalysis Spec.Layout Spec.Files Spec.Dds Spec.Cli Spec.FormatAnalysis
  Proofs.FormatAnalysisFacts Props.PDds Props.PInspect.
From Coq Require Import Ascii String Permutation.
Open Scope list_scope.
Open Scope Z_scope.

(** C69: the report counts every file found (see C56_found) once, under the format
    that its header states, or as unknown if it cannot be read or states none. It
    does not depend on the order of the hash map. In debug builds this needs headers
    whose sizes do not overflow (C28), and in all builds that the sizes of the files
    add up to less than 2^64. *)
Theorem C69_report : forall (debug : bool) (v : env) (utf8 : string -> bool) (o : io) (fs : files) (file_size : components -> option Z)
    (order : stats_map -> stats_map) (dir : components) (kids : option (list (option (string * tree)))),
  let entries := find_all_files dir (Folder kids) in
  let size p := match file_size p with Some n => n | None => 0 end in
  (forall m, Permutation (order m) m) ->
  (forall p data, In p entries -> fs (render p) = Some data -> debug = false \/ levels_fit data) ->
  (forall p n, file_size p = Some n -> 0 <= n) -> sum_sizes size entries < 2 ^ 64 ->
  handle_format_analysis debug (all_inspectors debug v) utf8 o fs file_size order dir (Some (Folder kids)) =
  Ok (ROk (Analysis (zlen entries) (zlen entries) (sum_sizes size entries)
    (expected_lines (kind_on_disk (extract_lowercase_extension utf8) o fs) size entries))).
Proof. exact dds_report. Qed.
Print Assumptions C69_report.

(** The same with any handlers that find formats without panicking. *)
Theorem C69_any_handlers : forall (detected : components -> option transform_format) (size : components -> Z) (debug : bool) (inspectors : list inspector)
    (utf8 : string -> bool) (o : io) (fs : files) (file_size : components -> option Z),
  (forall p, size p = match file_size p with Some n => n | None => 0 end) ->
  forall (order : stats_map -> stats_map) (dir : components) (kids : option (list (option (string * tree)))),
  let entries := find_all_files dir (Folder kids) in
  (forall m, Permutation (order m) m) ->
  (forall p, In p entries -> detect_file_format inspectors utf8 o fs p = Ok (detected p)) ->
  (forall p, In p entries -> 0 <= size p) -> sum_sizes size entries < 2 ^ 64 ->
  handle_format_analysis debug inspectors utf8 o fs file_size order dir (Some (Folder kids)) =
  Ok (ROk (Analysis (zlen entries) (zlen entries) (sum_sizes size entries) (expected_lines detected size entries))).
Proof. exact report_eq. Qed.
Print Assumptions C69_any_handlers.

(** The lines are complete: their counts add up to the number of files and their
    sizes to the size of all files. *)
Theorem C69_lines_complete : forall (detected : components -> option transform_format) (size : components -> Z) (entries : list components),
  fold_right Z.add 0 (map (fun x => snd (fst x)) (expected_lines detected size entries)) = zlen entries /\
  fold_right Z.add 0 (map (fun x => snd x) (expected_lines detected size entries)) = sum_sizes size entries.
Proof. exact lines_sums. Qed.
Print Assumptions C69_lines_complete.

(** All formats have a line of their own. *)
Theorem C69_formats : forall f, exists! name, In (f, name) kinds.
Proof.
  assert (D : forall f n1 n2, In (f, n1) kinds -> In (f, n2) kinds -> n1 = n2).
  { assert (N : NoDup (map fst kinds)) by (cbn [kinds map fst]; repeat (constructor; [cbn; intuition discriminate|]); constructor).
    revert N. generalize kinds. intros l N f n1 n2. induction l as [|[g n] l IH]; [intros []|]. cbn [map fst] in N. apply NoDup_cons_iff in N as (N1 & N).
    intros [H1|H1] [H2|H2]; [congruence| | |exact (IH N H1 H2)]; exfalso; apply N1.
    - injection H1 as -> ->. apply (in_map fst) in H2. exact H2.
    - injection H2 as -> ->. apply (in_map fst) in H1. exact H1. }
  intros f. assert (E : exists n, In (f, n) kinds) by (destruct f as [[]|]; eexists; cbn; tauto).
  destruct E as (n & E). exists n. split; [exact E|]. intros n2. exact (D f n n2 E).
Qed.
Print Assumptions C69_formats.

(** A path that is not there, or a file, is an error. *)
Theorem C69_no_directory : forall debug inspectors utf8 o fs file_size order dir,
  handle_format_analysis debug inspectors utf8 o fs file_size order dir None = Ok (RErr tt) /\
  handle_format_analysis debug inspectors utf8 o fs file_size order dir (Some Leaf) = Ok (RErr tt).
Proof. intros. split; reflexivity. Qed.
Print Assumptions C69_no_directory.

Definition shelf : tree := Folder (Some [Some ("a.dds", Leaf); Some ("notes.txt", Leaf); None; Some ("sub", Folder (Some [Some ("b.DDS", Leaf); Some ("c.dds", Leaf)]))]%string).
Definition shelf_files (p : path) : option (list byte) :=
  if String.eqb p "/in/a.dds" then Some file1 else if String.eqb p "/in/sub/b.DDS" then Some file2 else if String.eqb p "/in/sub/c.dds" then Some file1
  else if String.eqb p "/in/notes.txt" then Some file1 else None.
Definition shelf_size (p : components) : option Z := match shelf_files (render p) with Some d => Some (zlen d) | None => None end.
Example C69_nontrivial :
  handle_format_analysis true (all_inspectors true env64) (fun _ => true) works_fine shelf_files shelf_size (fun m => rev m) ["in"%string] (Some shelf) =
  Ok (ROk (Analysis 4 4 633 [("Unknown", 1, 163); ("Bc1", 2, 326); ("Bc2", 1, 144)]%string)).
Proof. vm_compute. reflexivity. Qed.

(** C69, in all cases: release builds report the sizes modulo 2^64 (the counts are
    right), and debug builds panic exactly when the sizes add up to 2^64 or more. *)
Theorem C69_large_sizes : forall (debug : bool) (v : env) (utf8 : string -> bool) (o : io) (fs : files) (file_size : components -> option Z)
    (order : stats_map -> stats_map) (dir : components) (kids : option (list (option (string * tree)))),
  let entries := find_all_files dir (Folder kids) in
  let size p := match file_size p with Some n => n | None => 0 end in
  let report := handle_format_analysis debug (all_inspectors debug v) utf8 o fs file_size order dir (Some (Folder kids)) in
  (forall m, Permutation (order m) m) ->
  (forall p data, In p entries -> fs (render p) = Some data -> debug = false \/ levels_fit data) ->
  (forall p n, file_size p = Some n -> 0 <= n) ->
  (debug = false -> report = Ok (ROk (Analysis (zlen entries) (zlen entries) (sum_sizes size entries mod 2 ^ 64)
     (map (fun line => (fst line, snd line mod 2 ^ 64)) (expected_lines (kind_on_disk (extract_lowercase_extension utf8) o fs) size entries))))) /\
  (debug = true -> (exists why, report = Panic why) <-> 2 ^ 64 <= sum_sizes size entries).
Proof. exact dds_report_large. Qed.
Print Assumptions C69_large_sizes.

(** Without the bound on the sizes the report is wrong: two (sparse) files of 3 * 2^62
    bytes are reported to have 2^63 in a release build, and a debug build panics. *)
Theorem C69_any_sizes_refuted : let big := Folder (Some [Some ("a", Leaf); Some ("b", Leaf)]%string) in
  forall v, handle_format_analysis false (all_inspectors false v) (fun _ => true) works_fine (fun _ => None) (fun _ => Some (3 * 2 ^ 62)) (fun m => m) [] (Some big) =
    Ok (ROk (Analysis 2 2 (2 ^ 63) [("Unknown"%string, 2, 2 ^ 63)])) /\
  exists why, handle_format_analysis true (all_inspectors true v) (fun _ => true) works_fine (fun _ => None) (fun _ => Some (3 * 2 ^ 62)) (fun m => m) [] (Some big) = Panic why.
Proof. intros big v. split; [vm_compute; reflexivity|eexists; vm_compute; reflexivity]. Qed.
Print Assumptions C69_any_sizes_refuted.
