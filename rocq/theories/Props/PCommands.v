(** C88: whole commands of the command line tool, from the paths on the command
    line to the exit status. *)
From Verif Require Import Base.Bytes Base.Res Model.Color565 Model.Kernel Model.Transform Model.Auto Model.Builders Model.Bundle Model.Dds Model.Handlers Model.Ltu Model.Zstd Model.Cli Model.Commands.
From Verif Require Import Spec.Files Spec.Dds Spec.Cli Spec.Commands.
From Verif Require Import Proofs.CliFacts Proofs.CliRuns Proofs.CliDds Proofs.CliExamples Proofs.CommandsDisk Proofs.CommandsRuns Props.PDds.
From Coq Require Import Ascii String.
Open Scope string_scope.
Open Scope list_scope.
Open Scope Z_scope.

(** The paths on the command line are made if they do not exist. That changes no
    file, removes nothing, and adds only directories on the way to them, *)
Theorem C88_paths_keep_everything : forall (may : components -> bool) (values : list components) (d : disk) (ok : bool) (d1 : disk),
  parse_paths may d values = (ok, d1) -> only_new_directories values d d1.
Proof. intros may values d ok d1 H. exact (grown_facts _ _ _ (paths_grown _ _ _ _ _ H)). Qed.
Print Assumptions C88_paths_keep_everything.
(** afterwards all of them are there, the missing ones as directories; *)
Theorem C88_paths_exist : forall (may : components -> bool) (values : list components) (d d1 : disk), parse_paths may d values = (true, d1) ->
  forall v, In v values -> find d1 v <> None /\ (find d v = None -> exists es, find d1 v = Some (Dir es)).
Proof.
  intros may values d d1 H v Hv. destruct (paths_there _ _ _ _ H v Hv) as (A & B). split; [exact A|]. intros N. exact (proj1 (is_dir_true _ _) (B N)).
Qed.
Print Assumptions C88_paths_exist.
(** a path is refused exactly if a file stands where it needs a directory or if
    the operating system does not allow a missing directory to be made; *)
Theorem C88_path_refused : forall (may : components -> bool) (d : disk) (p : components),
  (exists e, fst (canonicalize_cli_path may d p) = RErr e) <-> blocked d p \/ refused may d p.
Proof. intros may d p. destruct (canonicalize_cli_path may d p) as [r d1] eqn:H. exact (proj2 (proj2 (path_spec _ _ _ _ _ H))). Qed.
Print Assumptions C88_path_refused.
(** and giving an accepted path again changes nothing. *)
Theorem C88_path_again : forall (may : components -> bool) (d : disk) (p r : components) (d1 : disk),
  canonicalize_cli_path may d p = (ROk r, d1) -> r = p /\ canonicalize_cli_path may d1 p = (ROk p, d1).
Proof. intros may d p r d1 H. split; [exact (proj1 (proj1 (proj2 (path_spec _ _ _ _ _ H)) _ eq_refl)) | exact (path_again _ _ _ _ _ H)]. Qed.
Print Assumptions C88_path_again.

(** So the order of the options and the directories made for them have no
    influence on the files that are found, not even if the output directory is
    made inside the input directory: *)
Theorem C88_search : forall (may : components -> bool) (values : list components) (d : disk) (ok : bool) (d1 : disk) (dir : components),
  real_disk d -> parse_paths may d values = (ok, d1) ->
  find_all_files dir (tree_at d1 dir) = find_all_files dir (tree_at d dir) /\
  forall p, In p (find_all_files dir (tree_at d dir)) <-> exists r x, r <> [] /\ p = dir ++ r /\ find d p = Some (File x).
Proof.
  intros may values d ok d1 dir R H. split; [exact (search_same _ _ _ _ _ _ R H)|]. intros p. split.
  - intros Hp. destruct (found_is_file _ _ _ R Hp) as (r & x & E & N & F). exists r, x. split; [exact N | split; assumption].
  - intros (r & x & N & -> & F). exact (found_here _ _ _ _ R N F).
Qed.
Print Assumptions C88_search.

(** A command writes only below the output directory. *)
Theorem C88_only_output : forall (B W E : Type) (utf8 : string -> bool) (built : result (command B) E) (hs : list (handler B W)) (may : components -> bool) (I O : components)
    (first : bool) (d : disk) e fs ts, real_disk d -> command_ends utf8 built hs may I O first d e fs ts ->
  forall q, (forall r, q <> render (O ++ r)) -> fs q = files_on d q.
Proof. exact (@only_output). Qed.
Print Assumptions C88_only_output.

(** What the exit status means. An error: no file was touched. Success: every
    file below the input directory was looked at, and was either done or its
    error printed. A crash: a handler panicked. *)
Theorem C88_exit_status : forall (B W E : Type) (utf8 : string -> bool) (built : result (command B) E) (hs : list (handler B W)) (may : components -> bool) (I O : components)
    (first : bool) (d : disk) e fs ts, real_disk d -> command_ends utf8 built hs may I O first d e fs ts ->
  (e = Failed -> ts = [] /\ fs = files_on d) /\
  (e = Success -> map fst ts = find_all_files I (tree_at d I) /\ Forall (fun k => (exists n, snd k = Counted n) \/ exists err, snd k = Returned (RErr err)) ts) /\
  (e = Crashed -> exists p, In (p, Panicked) ts).
Proof.
  intros B W E utf8 built hs may I O first d e fs ts R H. destruct (exit_status _ _ _ _ _ _ _ _ _ _ _ R H) as (F & S & C). split; [exact F|]. split; [|exact C].
  intros Es. destruct (S Es) as (A & Rp). split; [exact A|]. eapply Forall_impl; [|exact Rp]. intros [p [| | | | | | |[|err]|n| |]] X; cbn in *; try destruct X; [right | left]; eexists; reflexivity.
Qed.
Print Assumptions C88_exit_status.
(** The status is an error exactly if a path was refused or, there being files,
    the estimator of the preset could not be made - which it always can. *)
Theorem C88_error_status : forall (B W E : Type) (utf8 : string -> bool) (built : result (command B) E) (hs : list (handler B W)) (may : components -> bool) (I O : components)
    (first : bool) (d : disk) e fs ts, real_disk d -> command_ends utf8 built hs may I O first d e fs ts ->
  (e = Failed <-> (exists d1, parse_paths may d (if first then [I; O] else [O; I]) = (false, d1)) \/
     find_all_files I (tree_at d I) <> [] /\ exists x, built = RErr x).
Proof. exact (@fails_when). Qed.
Print Assumptions C88_error_status.
Theorem C88_presets_can_be_made : forall (L : Type) (lib : zstd_lib L), (exists b, optimal_preset_bundle lib = ROk b) /\ (exists b, max_preset_bundle lib = ROk b).
Proof. intros L lib. destruct (presets_without_bc2 L lib (fun _ => 0)) as (_ & _ & (t1 & E1 & _) & (t2 & E2 & _)). split; eexists; eassumption. Qed.
Print Assumptions C88_presets_can_be_made.

(** A mistyped input, or a file as input, goes unnoticed: the command touches no
    file, and reports success if the directories could be made. *)
Theorem C88_nothing_to_do : forall (B W E : Type) (utf8 : string -> bool) (built : result (command B) E) (hs : list (handler B W)) (may : components -> bool) (I O : components)
    (first : bool) (d : disk) e fs ts, real_disk d -> command_ends utf8 built hs may I O first d e fs ts ->
  find d I = None \/ (exists x, find d I = Some (File x)) ->
  ts = [] /\ fs = files_on d /\ (e = Success <-> exists d1, parse_paths may d (if first then [I; O] else [O; I]) = (true, d1)).
Proof. exact (@nothing_to_do). Qed.
Print Assumptions C88_nothing_to_do.

(** With the handlers the tool has, a command on directories that are apart comes
    to an end, and not by a crash. *)
Theorem C88_commands_end : forall (St Er E : Type) (utf8 : string -> bool) (show : Er -> string) (c : cfg) (v : env) (built : result (command (bundle St Er)) E)
    (may : components -> bool) (I O : components) (first : bool) (d : disk) (w : St),
  supported c -> 2 ^ 32 + 147 <= usize_max v -> real_disk d -> Forall file_name I -> Forall file_name O -> apart I O -> harmless c I d ->
  (exists e fs ts, command_ends utf8 built (all_handlers show c v) may I O first d e fs ts) /\
  (forall e fs ts, command_ends utf8 built (all_handlers show c v) may I O first d e fs ts -> e <> Crashed).
Proof.
  intros St Er E utf8 show c v built may I O first d w K U R NI NO A H. split; [exact (can_end utf8 show c v built may I O first d w K U R NI NO A H)|].
  intros e fs ts X. exact (no_crash utf8 show c v built may I O first d e fs ts K U R NI NO A H X).
Qed.
Print Assumptions C88_commands_end.

(** From disk to disk: a file that one command transformed is found by a second
    command on whatever disk has the first one's files, and restored, unless the
    operating system fails the second command. *)
Theorem C88_round_trip : forall (St1 Er1 E1 St2 Er2 E2 : Type) (utf8 : string -> bool) (show1 : Er1 -> string) (show2 : Er2 -> string) (c1 c2 : cfg) (v1 v2 : env)
    (b : bundle St1 Er1) (may1 may2 : components -> bool) (I O R : components) (first1 first2 : bool) (d1 d2 : disk) e1 e2 (fs1 fs2 : files) ts1 ts2 (r : components) (x : list byte) (n : Z),
  supported c1 -> supported c2 -> 2 ^ 32 - 1 <= usize_max v1 -> zlen x <= usize_max v2 ->
  (c_debug c1 = true \/ c_debug c2 = true -> levels_fit x /\ forall i, parse_dds (c_debug c1) x = Ok (Some i) -> 0 < i_data_length i) ->
  real_disk d1 -> real_disk d2 -> Forall file_name I -> Forall file_name O -> Forall file_name R -> apart I O -> apart O R ->
  command_ends utf8 (ROk (TransformDir b) : result _ E1) (all_handlers show1 c1 v1) may1 I O first1 d1 e1 fs1 ts1 ->
  find d1 (I ++ r) = Some (File x) -> In (I ++ r, Counted n) ts1 ->
  (forall q, files_on d2 q = fs1 q) ->
  command_ends utf8 (ROk UntransformDir : result _ E2) (all_handlers show2 c2 v2 : list (handler (bundle St2 Er2) St2)) may2 O R first2 d2 e2 fs2 ts2 -> e2 <> Failed ->
  exists ph, In (O ++ r, ph) ts2 /\
    ((exists k, ph = Counted k) /\ fs2 (render (R ++ r)) = Some x \/ ph = Returned (RErr CIo) \/ ph = Returned (RErr (CFile FIo))).
Proof. exact disk_round_trip. Qed.
Print Assumptions C88_round_trip.

(** ** Cases *)
Definition home : disk := Dir [("in", Dir [("a.dds", File file1); ("sub", Dir [("note.txt", File [x01])])]); ("file", File [x02])].
Ltac names := repeat (apply Forall_cons; [split; [discriminate | repeat (split; [discriminate|]); exact Logic.I] |]); apply Forall_nil.
Lemma home_real : real_disk home.
Proof.
  assert (One : forall n d, file_name n -> real_disk d -> real_disk (Dir [(n, d)])).
  { intros n d N D. constructor; [repeat constructor; intros [] | constructor; [exact N | constructor] | intros m e [[= <- <-] | []]; exact D]. }
  assert (Two : forall n d m e, file_name n -> file_name m -> n <> m -> real_disk d -> real_disk e -> real_disk (Dir [(n, d); (m, e)])).
  { intros n d m e N M X D E. constructor.
    - constructor; [intros [Q | []]; exact (X (eq_sym Q))|]. constructor; [intros []|constructor].
    - constructor; [exact N|]. constructor; [exact M|constructor].
    - intros k f [[= <- <-] | [[= <- <-] | []]]; assumption. }
  assert (Nm : forall s, (match s with "" => false | _ => negb (existsb (Ascii.eqb "/"%char) (list_ascii_of_string s)) end = true) -> file_name s).
  { intros s H. destruct s as [|a s]; [discriminate|]. split; [discriminate|]. apply Bool.negb_true_iff in H. revert H. generalize (String a s). clear.
    induction s as [|b s IH]; [intros _; exact Logic.I|]. cbn [list_ascii_of_string existsb]. intros H. apply Bool.orb_false_iff in H as (H1 & H2). split; [|exact (IH H2)].
    intros ->. discriminate. }
  apply Two; [apply Nm; reflexivity | apply Nm; reflexivity | discriminate | | constructor].
  apply Two; [apply Nm; reflexivity | apply Nm; reflexivity | discriminate | constructor |].
  apply One; [apply Nm; reflexivity | constructor].
Qed.
(** The output directory is made, even inside the input directory, and the search
    sees the same files; below a file no directory can be made. *)
Example C88_paths_met : real_disk home /\
  (exists d1, parse_paths (fun _ => true) home [["in"]; ["in"; "new"; "out"]] = (true, d1) /\ find d1 ["in"; "new"; "out"] = Some (Dir []) /\ find home ["in"; "new"] = None /\
     find_all_files ["in"] (tree_at d1 ["in"]) = [["in"; "a.dds"]; ["in"; "sub"; "note.txt"]]) /\
  blocked home ["file"; "out"] /\ refused (fun p => match p with ["x"; "y"] => false | _ => true end) home ["x"; "y"; "z"] /\
  fst (parse_paths (fun _ => true) home [["file"; "out"]; ["in"]]) = false.
Proof.
  split; [exact home_real|]. split.
  - eexists. split; [reflexivity|]. split; [reflexivity|]. split; reflexivity.
  - split; [exists ["file"], "out", [], [x02]; split; reflexivity|]. split; [|reflexivity]. exists ["x"; "y"]. split; [exists ["z"]; reflexivity | split; reflexivity].
Qed.
(** A mistyped input: success, and a new empty directory. *)
Example C88_mistyped_met : find home ["im"] = None /\
  command_ends (W := unit) (fun _ => true) (ROk (TransformDir low_preset_bundle) : result _ zstd_error) (all_handlers (fun _ : Empty_set => "") cpu env64) (fun _ => true) ["im"] ["out"] true
    home Success (files_on home) [].
Proof.
  split; [reflexivity|].
  assert (F : files_on home = files_on (snd (parse_paths (fun _ => true) home [["im"]; ["out"]]))) by (symmetry; apply (files_same (fun _ => true) [["im"]; ["out"]] _ true); reflexivity).
  rewrite F. apply ends_no_files; reflexivity.
Qed.
Example C88_commands_end_met : supported cpu /\ 2 ^ 32 + 147 <= usize_max env64 /\ real_disk home /\ Forall file_name ["in"] /\ Forall file_name ["out"] /\ apart ["in"] ["out"] /\ harmless cpu ["in"] home.
Proof.
  split; [exact cpu_supported|]. split; [discriminate|]. split; [exact home_real|]. split; [names|]. split; [names|]. split; [split; intros r; discriminate|]. intros D. discriminate D.
Qed.

(** Success does not mean that a file was done: a command whose only file is
    damaged ends well, and its output directory stays empty. *)
Definition damaged : disk := Dir [("in", Dir [("a.dds", File [x01; x02])])].
Lemma damaged_command : command_ends (W := unit) (fun _ => true) (ROk (TransformDir low_preset_bundle) : result _ zstd_error) (all_handlers (fun _ : Empty_set => "") cpu env64) (fun _ => true)
    ["in"] ["out"] true damaged Success (files_on damaged) [(["in"; "a.dds"], Returned (RErr (CFile (FTransform NoSupportedHandler))))].
Proof.
  set (cmd := TransformDir low_preset_bundle). set (hs := all_handlers (fun _ : Empty_set => "") cpu env64). set (d1 := Dir [("in", Dir [("a.dds", File [x01; x02])]); ("out", Dir [])]).
  assert (F : files_on damaged = files_on d1) by reflexivity. rewrite F.
  assert (R : reachable (fun _ => true) cmd hs ["in"] ["out"] [["in"; "a.dds"]] (files_on d1) (State (files_on d1) [(["in"; "a.dds"], Returned (RErr (CFile (FTransform NoSupportedHandler))))] 0)).
  { assert (T : target_of ["in"] ["out"] ["in"; "a.dds"] = Some ["out"; "a.dds"]) by reflexivity.
    assert (X : files_on d1 (render ["in"; "a.dds"]) = Some [x01; x02]) by reflexivity.
    assert (One : forall ph ph2, reachable (fun _ => true) cmd hs ["in"] ["out"] [["in"; "a.dds"]] (files_on d1) (State (files_on d1) [(["in"; "a.dds"], ph)] 0) ->
      task_step (fun _ => true) cmd hs ["in"; "a.dds"] (render ["in"; "a.dds"]) (render ["out"; "a.dds"]) false (files_on d1) ph (files_on d1) ph2 ->
      reachable (fun _ => true) cmd hs ["in"] ["out"] [["in"; "a.dds"]] (files_on d1) (State (files_on d1) [(["in"; "a.dds"], ph2)] 0)).
    { intros ph ph2 H S. exact (one_more _ _ _ _ _ _ _ _ _ [] _ _ _ [] _ _ _ H eq_refl eq_refl T S). }
    apply (One (Choosing 2 [x01; x02] [])); [|apply step_no_handler].
    apply (One (Choosing 2 [x01; x02] hs)); [|eapply (step_declined _ _ _ _ _ _ _ _ _ _ _ tt tt); [exact X | vm_compute; reflexivity]].
    apply (One (Measured 2)); [|apply step_open; exact X].
    apply (One HasDirectory); [|apply (step_metadata _ _ _ _ _ _ _ [x01; x02]); exact X].
    apply (One Waiting); [|apply step_directory].
    exists 0%nat. constructor. }
  apply (ends_done _ _ _ _ _ _ _ _ d1 cmd (State (files_on d1) [(["in"; "a.dds"], Returned (RErr (CFile (FTransform NoSupportedHandler))))] 0)).
  - reflexivity.
  - discriminate.
  - reflexivity.
  - apply runs_reachable. exact R.
  - constructor; [exact Logic.I | constructor].
Qed.
Theorem C88_success_refuted : exists (d : disk) fs ts, find d ["in"; "a.dds"] <> None /\
  command_ends (W := unit) (fun _ => true) (ROk (TransformDir low_preset_bundle) : result _ zstd_error) (all_handlers (fun _ : Empty_set => "") cpu env64) (fun _ => true) ["in"] ["out"] true
    d Success fs ts /\ map fst ts = [["in"; "a.dds"]] /\ fs "/out/a.dds" = None.
Proof. exists damaged. eexists. eexists. split; [discriminate|]. split; [exact damaged_command|]. split; reflexivity. Qed.
Print Assumptions C88_success_refuted.

(** A file there and back: both commands on disks. *)
Definition shelf_disk (rest : list (string * disk)) : disk := Dir (("in", Dir [("a.dds", File file1)]) :: rest).
Lemma counted_alone {St Er} (show : Er -> string) (cmd : command (bundle St Er)) I O p fs s total : apart I O -> Forall file_name O -> files_below I [p] ->
  reachable (fun _ => true) cmd (all_handlers show cpu env64) I O [p] fs s -> Forall (fun k => finished (snd k)) (s_tasks s) -> s_total s = total -> total <> 0 ->
  exists n, s_tasks s = [(p, Counted n)].
Proof.
  intros A N F R Fin T Z. destruct (explained _ _ _ _ _ _ _ _ A N F R) as (_ & _ & Es & _ & Tot). destruct (s_tasks s) as [|[q ph] [|k l]]; try discriminate. injection Es as ->.
  assert (C : counted ph <> 0) by (intros C; apply Z; rewrite <- T, Tot; cbn [map snd]; rewrite C; reflexivity).
  destruct ph as [| | | | | | |[|]|n| |]; try (destruct (C eq_refl)). exists n. reflexivity.
Qed.
Lemma alone_below dir : Forall file_name dir -> files_below dir [dir ++ ["a.dds"]].
Proof.
  intros F. split; [repeat constructor; intros []|]. constructor; [|constructor]. exists ["a.dds"]. split; [reflexivity|]. split; [discriminate|]. apply Forall_app. split; [exact F | names].
Qed.
Lemma one_command {E} (show : Empty_set -> string) (cmd : command (bundle unit Empty_set)) (I O : components) (d d1 : disk) fs1 total :
  apart I O -> Forall file_name I -> Forall file_name O -> parse_paths (fun _ => true) d [I; O] = (true, d1) -> find_all_files I (tree_at d1 I) = [I ++ ["a.dds"]] -> files_on d1 = files_on d ->
  process_files (fun _ => true) cmd (all_handlers show cpu env64) I O false [(works, I ++ ["a.dds"])] (files_on d) tt 0 = Ok (total, fs1, tt) -> total <> 0 ->
  exists n, command_ends (fun _ => true) (ROk cmd : result _ E) (all_handlers show cpu env64) (fun _ => true) I O true d Success fs1 [(I ++ ["a.dds"], Counted n)].
Proof.
  intros A NI NO P F Sm H Z. destruct (sequential _ _ _ _ _ _ _ _ _ _ _ _ H) as (s & R & <- & T & Fin). cbn [map snd] in R.
  destruct (counted_alone show cmd I O _ _ s total A NO (alone_below I NI) R Fin T Z) as (n & Ts). exists n.
  assert (C : command_ends (fun _ => true) (ROk cmd : result _ E) (all_handlers show cpu env64) (fun _ => true) I O true d Success (s_files s) (s_tasks s)); [|rewrite Ts in C; exact C].
  apply (ends_done _ _ _ _ _ _ _ _ d1 cmd s); [exact P | rewrite F; discriminate | reflexivity | rewrite F, Sm; apply runs_reachable; exact R|].
  rewrite Ts. constructor; [exact Logic.I | constructor].
Qed.
Lemma there_on_disk : exists fs1 y n, y <> file1 /\ (forall q, fs1 q = files_on (shelf_disk [("out", Dir [("a.dds", File y)])]) q) /\
  command_ends (W := unit) (fun _ => true) (ROk (TransformDir low_preset_bundle) : result _ zstd_error) (all_handlers (fun _ : Empty_set => "") cpu env64) (fun _ => true) ["in"] ["out"] true
    (shelf_disk []) Success fs1 [(["in"; "a.dds"], Counted n)] /\
  exists fs2 k, fs2 "/back/a.dds" = Some file1 /\
  command_ends (B := bundle unit Empty_set) (W := unit) (fun _ => true) (ROk UntransformDir : result _ zstd_error) (all_handlers (fun _ : Empty_set => "") cpu env64) (fun _ => true) ["out"] ["back"] true
    (shelf_disk [("out", Dir [("a.dds", File y)])]) Success fs2 [(["out"; "a.dds"], Counted k)].
Proof.
  assert (P1 : exists fs1 y, y <> file1 /\ process_files (fun _ => true) (TransformDir low_preset_bundle) (all_handlers (fun _ : Empty_set => "") cpu env64) ["in"] ["out"] false
     [(works, ["in"; "a.dds"])] (files_on (shelf_disk [])) tt 0 = Ok (163, fs1, tt) /\ fs1 "/out/a.dds" = Some y /\
     exists fs2, process_files (fun _ => true) UntransformDir (all_handlers (fun _ : Empty_set => "") cpu env64) ["out"] ["back"] false
       [(works, ["out"; "a.dds"])] (files_on (shelf_disk [("out", Dir [("a.dds", File y)])])) tt 0 = Ok (163, fs2, tt) /\ fs2 "/back/a.dds" = Some file1).
  { do 2 eexists. split; [|split; [vm_compute; reflexivity|]; split; [vm_compute; reflexivity|]]; [vm_compute; discriminate|]. eexists. split; vm_compute; reflexivity. }
  destruct P1 as (fs1 & y & Ny & P1 & Fy & fs2 & P2 & Fx).
  assert (A1 : apart ["in"] ["out"]) by (split; intros r; discriminate). assert (A2 : apart ["out"] ["back"]) by (split; intros r; discriminate).
  destruct (one_command (E := zstd_error) (fun _ => "") (TransformDir low_preset_bundle) ["in"] ["out"] (shelf_disk []) (shelf_disk [("out", Dir [])]) fs1 163 A1 ltac:(names) ltac:(names)
    eq_refl eq_refl eq_refl P1 ltac:(discriminate)) as (n & C1).
  destruct (one_command (E := zstd_error) (fun _ => "") UntransformDir ["out"] ["back"] (shelf_disk [("out", Dir [("a.dds", File y)])]) (shelf_disk [("out", Dir [("a.dds", File y)]); ("back", Dir [])]) fs2 163
    A2 ltac:(names) ltac:(names) eq_refl eq_refl eq_refl P2 ltac:(discriminate)) as (k & C2).
  exists fs1, y, n. split; [exact Ny|]. split.
  - intros q. destruct (string_dec q "/out/a.dds") as [-> | Nq]; [rewrite Fy; reflexivity|].
    destruct (sequential _ _ _ _ _ _ _ _ _ _ _ _ P1) as (s & R & <- & _ & _). cbn [map snd] in R.
    rewrite (nothing_else _ _ _ _ _ _ _ _ _ _ R q).
    + unfold files_on. cbn [shelf_disk contents flat_map fst snd List.app List.find]. destruct (String.eqb (render ["in"; "a.dds"]) q); [reflexivity|].
      assert (Z : String.eqb (render ["out"; "a.dds"]) q = false) by (apply String.eqb_neq; intros Q; apply Nq; symmetry; exact Q). rewrite Z. reflexivity.
    + intros r [Hr | []]. apply (f_equal (@tl string)) in Hr. cbn in Hr. subst r. exact Nq.
  - split; [exact C1|]. exists fs2, k. split; [exact Fx | exact C2].
Qed.
Example C88_round_trip_met : exists fs1 y n, y <> file1 /\ (forall q, fs1 q = files_on (shelf_disk [("out", Dir [("a.dds", File y)])]) q) /\
  command_ends (W := unit) (fun _ => true) (ROk (TransformDir low_preset_bundle) : result _ zstd_error) (all_handlers (fun _ : Empty_set => "") cpu env64) (fun _ => true) ["in"] ["out"] true
    (shelf_disk []) Success fs1 [(["in"; "a.dds"], Counted n)] /\
  exists fs2 k, fs2 "/back/a.dds" = Some file1 /\
  command_ends (B := bundle unit Empty_set) (W := unit) (fun _ => true) (ROk UntransformDir : result _ zstd_error) (all_handlers (fun _ : Empty_set => "") cpu env64) (fun _ => true) ["out"] ["back"] true
    (shelf_disk [("out", Dir [("a.dds", File y)])]) Success fs2 [(["out"; "a.dds"], Counted k)].
Proof. exact there_on_disk. Qed.
