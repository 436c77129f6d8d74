(** C54-C57: the command line tool's transform and untransform commands. *)
From Verif Require Import Base.Bytes Base.Res Model.Color565 Model.Kernel Model.Transform Model.Auto Model.Builders Model.Embed Model.Bundle Model.Dds Model.Handlers Model.Ltu Model.Zstd Model.Cli.
From Verif Require Import Spec.Layout Spec.Estimator Spec.Ltu Spec.Files Spec.Dds Spec.Zstd Spec.Answers Spec.ZstdSizes Spec.Cli.
From Verif Require Import Proofs.CliFacts Proofs.CliRuns Proofs.CliDds Proofs.CliExamples Props.PDds Props.CasesZstd.
From Coq Require Import Ascii String.
Open Scope string_scope.
Open Scope list_scope.
Open Scope Z_scope.

(** C54: in whatever order the tool's threads run, and wherever it is stopped,
    it has written nothing but the output files of the files it was given. *)
Theorem C54_nothing_else_written : forall (B W : Type) (utf8 : string -> bool) (cmd : command B) (hs : list (handler B W)) (I O : components)
    (entries : list components) (before : files) (s : state),
  reachable utf8 cmd hs I O entries before s ->
  forall q, (forall r, In (I ++ r) entries -> q <> render (O ++ r)) -> s_files s q = before q.
Proof. exact (@nothing_else). Qed.
Print Assumptions C54_nothing_else_written.

(** If the directories are apart, the input files keep their contents and every
    task is where its story says. In particular a file that was reported as done
    has the first accepting handler's output for its input. *)
Theorem C54_every_task_explained : forall (B W : Type) (utf8 : string -> bool) (cmd : command B) (hs : list (handler B W)) (I O : components)
    (entries : list components) (before : files) (s : state),
  apart I O -> Forall file_name O -> files_below I entries -> reachable utf8 cmd hs I O entries before s ->
  (forall p, In p entries -> s_files s (render p) = before (render p)) /\
  map fst (s_tasks s) = entries /\
  (forall r ph, In (I ++ r, ph) (s_tasks s) -> story utf8 cmd hs before (s_files s) (I ++ r) (render (I ++ r)) (render (O ++ r)) ph) /\
  s_total s = sum (map (fun k => counted (snd k)) (s_tasks s)) mod 2 ^ 64.
Proof. intros B W utf8 cmd hs I O entries before s A N F R. exact (proj2 (explained utf8 cmd hs I O entries before s A N F R)). Qed.
Print Assumptions C54_every_task_explained.

(** With the handlers the tool has, no run has undefined behaviour (in a debug
    build, if no file states an empty texture), *)
Theorem C54_no_undefined_behaviour : forall (St Er : Type) (utf8 : string -> bool) (show : Er -> string) (c : cfg) (v : env) (cmd : command (bundle St Er)) (I O : components)
    (entries : list components) (before : files) (s : state),
  supported c -> 2 ^ 32 - 1 <= usize_max v ->
  (forall p x, In p entries -> before (render p) = Some x ->
     c_debug c = true -> forall i, parse_dds_ignore_magic true x = Ok (Some i) -> 0 < i_data_length i) ->
  apart I O -> Forall file_name O -> files_below I entries -> reachable utf8 cmd (all_handlers show c v) I O entries before s ->
  forall p, ~ In (p, Undefined) (s_tasks s).
Proof. exact (@never_undefined). Qed.
Print Assumptions C54_no_undefined_behaviour.

(** and on a 64-bit machine none panics (in a debug build, if the sizes of the
    textures can be computed without overflow). *)
Theorem C54_no_panic : forall (St Er : Type) (utf8 : string -> bool) (show : Er -> string) (c : cfg) (v : env) (cmd : command (bundle St Er)) (I O : components)
    (entries : list components) (before : files) (s : state),
  supported c -> 2 ^ 32 + 147 <= usize_max v ->
  (forall p x, In p entries -> before (render p) = Some x ->
     (c_debug c = true -> forall i, parse_dds_ignore_magic true x = Ok (Some i) -> 0 < i_data_length i) /\ (c_debug c = true -> levels_fit x)) ->
  apart I O -> Forall file_name O -> files_below I entries -> reachable utf8 cmd (all_handlers show c v) I O entries before s ->
  forall p, ~ In (p, Panicked) (s_tasks s).
Proof. exact (@never_panics). Qed.
Print Assumptions C54_no_panic.

(** The directories must be apart: transforming a directory into itself has
    undefined behaviour and destroys the file, *)
Theorem C54_same_directory_refuted : exists fs s, fs "/in/a.dds" = Some file1 /\
  reachable (fun _ => true) (TransformDir low_preset_bundle) (all_handlers (fun _ : Empty_set => "") cpu env64) ["in"] ["in"] [["in"; "a.dds"]] fs s /\
  s_tasks s = [(["in"; "a.dds"], Undefined)] /\ s_files s "/in/a.dds" <> Some file1.
Proof. exact same_directory. Qed.
Print Assumptions C54_same_directory_refuted.

(** and so has a second run into a directory inside the first one: one file's
    output is another's input. *)
Theorem C54_nested_directory_refuted : exists fs s, fs "/in/a.dds" = Some file1 /\ fs "/in/out/a.dds" = Some file1 /\
  reachable (fun _ => true) (TransformDir low_preset_bundle) (all_handlers (fun _ : Empty_set => "") cpu env64) ["in"] ["in"; "out"]
    (find_all_files ["in"] (Folder (Some [Some ("a.dds", Leaf); Some ("out", Folder (Some [Some ("a.dds", Leaf)]))]))) fs s /\
  In (["in"; "out"; "a.dds"], Undefined) (s_tasks s) /\ s_files s "/in/out/a.dds" <> Some file1.
Proof. exact nested_directory. Qed.
Print Assumptions C54_nested_directory_refuted.

(** The hypotheses hold of directories in use. *)
Example C54_nontrivial : apart ["home"; "in"] ["home"; "out"] /\ Forall file_name ["home"; "out"] /\
  files_below ["home"; "in"] [["home"; "in"; "a.dds"]; ["home"; "in"; "b"; "a.dds"]] /\
  target_of ["home"; "in"] ["home"; "out"] ["home"; "in"; "b"; "a.dds"] = Some ["home"; "out"; "b"; "a.dds"].
Proof. exact directories_apart. Qed.

(** C55: a file that was transformed with one machine's tool and untransformed
    with another's is back, whatever happens to the other files in either run,
    as soon as the second run reports it as done; and the second run can only
    fail on it because the operating system does. *)
Theorem C55_directory_round_trip : forall (St1 Er1 St2 Er2 : Type) (utf8 : string -> bool) (show1 : Er1 -> string) (show2 : Er2 -> string) (c1 c2 : cfg) (v1 v2 : env)
    (b : bundle St1 Er1) (I O R : components) (entries1 entries2 : list components) (fs1 fs2 : files)
    (s1 : state (B := bundle St1 Er1) (W := St1)) (s2 : state (B := bundle St2 Er2) (W := St2)) (r : components) (x : list byte) ph1 ph2,
  supported c1 -> supported c2 -> 2 ^ 32 - 1 <= usize_max v1 -> zlen x <= usize_max v2 ->
  (c_debug c1 = true \/ c_debug c2 = true -> levels_fit x /\ forall i, parse_dds (c_debug c1) x = Ok (Some i) -> 0 < i_data_length i) ->
  apart I O -> apart O R -> Forall file_name O -> Forall file_name R -> files_below I entries1 -> files_below O entries2 ->
  reachable utf8 (TransformDir b) (all_handlers show1 c1 v1) I O entries1 fs1 s1 ->
  fs1 (render (I ++ r)) = Some x -> In (I ++ r, ph1) (s_tasks s1) -> succeeded ph1 ->
  fs2 (render (O ++ r)) = s_files s1 (render (O ++ r)) ->
  reachable utf8 UntransformDir (all_handlers show2 c2 v2) O R entries2 fs2 s2 ->
  In (O ++ r, ph2) (s_tasks s2) ->
  (succeeded ph2 -> s_files s2 (render (R ++ r)) = Some x) /\
  (finished ph2 -> (exists n, ph2 = Counted n) \/ ph2 = Returned (RErr CIo) \/ ph2 = Returned (RErr (CFile FIo))).
Proof. exact (@directory_round_trip). Qed.
Print Assumptions C55_directory_round_trip.

(** Two runs in which it is done; the sequential loop's runs are runs, see C56. *)
Example C55_nontrivial : exists fs1 fs2 y, y <> file1 /\
  process_files (fun _ => true) (TransformDir low_preset_bundle) (all_handlers (fun _ : Empty_set => "") cpu env64) ["in"] ["out"] true
    [(works, ["in"; "a.dds"]); (works, ["in"; "note.txt"])] two_files tt 0 = Ok (163, fs1, tt) /\
  fs1 "/out/a.dds" = Some y /\ fs1 "/out/note.txt" = None /\
  process_files (fun _ => true) UntransformDir (all_handlers (fun _ : Empty_set => "") cpu env64) ["out"] ["back"] true
    [(works, ["out"; "a.dds"])] fs1 tt 0 = Ok (163, fs2, tt) /\ fs2 "/back/a.dds" = Some file1.
Proof. exact there_and_back. Qed.

(** C56: the files found are those that can be seen, *)
Theorem C56_found : forall (t : tree) (dir p : components), In p (find_all_files dir t) <-> exists r, p = dir ++ r /\ visible t r.
Proof. exact found_visible. Qed.
Print Assumptions C56_found.

(** each of them once, below the directory; *)
Theorem C56_found_once : forall (t : tree) (dir : components), real_tree t -> Forall file_name dir -> files_below dir (find_all_files dir t).
Proof. exact found_below. Qed.
Print Assumptions C56_found_once.

(** apart from the partial writes, a run has a bounded number of steps; *)
Theorem C56_bounded : forall (B W : Type) (utf8 : string -> bool) (cmd : command B) (hs : list (handler B W)) (I O : components)
    (n : nat) (entries : list components) (fs : files) (s : state),
  run utf8 cmd hs I O n (start entries fs) s -> Z.of_nat n <= (zlen hs + 7) * zlen entries.
Proof. exact (@run_short). Qed.
Print Assumptions C56_bounded.

(** from every state it reaches it can go on until each file is dealt with, *)
Theorem C56_can_finish : forall (B W : Type) (utf8 : string -> bool) (cmd : command B) (hs : list (handler B W)) (I O : components)
    (w : W) (entries : list components) (fs : files) (s : state),
  files_below I entries -> reachable utf8 cmd hs I O entries fs s ->
  exists n s2, run utf8 cmd hs I O n s s2 /\ map fst (s_tasks s2) = entries /\ Forall (fun k => finished (snd k)) (s_tasks s2).
Proof. exact (@always_can_finish). Qed.
Print Assumptions C56_can_finish.

(** and the sequential loop's outcome is that of such a run. *)
Theorem C56_sequential : forall (B W : Type) (utf8 : string -> bool) (cmd : command B) (hs : list (handler B W)) (I O : components)
    (debug : bool) (entries : list (answers * components)) (fs : files) (w : W) (total : Z) (fs1 : files) (w1 : W),
  process_files utf8 cmd hs I O debug entries fs w 0 = Ok (total, fs1, w1) ->
  exists s, reachable utf8 cmd hs I O (map snd entries) fs s /\ s_files s = fs1 /\ s_total s = total /\ Forall (fun k => finished (snd k)) (s_tasks s).
Proof. exact (@sequential). Qed.
Print Assumptions C56_sequential.

(** Names decide by their extension in lower case; a name that is only a dot and
    letters has none. *)
Example C56_nontrivial : real_tree shelf /\
  find_all_files ["in"] shelf = [["in"; "a.DDS"]; ["in"; "sub"; ".dds"]; ["in"; "sub"; "b.tar.gz"]] /\
  map (extension_of (fun _ => true)) (find_all_files ["in"] shelf) = [Some "dds"; None; Some "gz"].
Proof. exact shelf_found. Qed.

(** C56: the extension by which a handler is chosen is what follows the last dot of
    the file name, in lower case; a dot in front does not count. *)
Theorem C56_extension : forall (utf8 : string -> bool) (dir : components) (first : ascii),
  (forall stem e, no_dot e -> utf8 e = true ->
     extract_lowercase_extension utf8 (dir ++ [String first stem ++ String "." e]%string) = Some (lower e)) /\
  (forall stem e, no_dot e -> utf8 e = false ->
     extract_lowercase_extension utf8 (dir ++ [String first stem ++ String "." e]%string) = None) /\
  (forall rest, no_dot rest -> extract_lowercase_extension utf8 (dir ++ [String first rest]) = None).
Proof. exact extensions. Qed.
Print Assumptions C56_extension.
Example C56_extension_case : no_dot "DdZ" /\
  extract_lowercase_extension (fun _ => true) ["in"; "a.b.DdZ"] = Some "ddz" /\ extract_lowercase_extension (fun _ => true) ["in"; ".dds"] = None.
Proof. split; [cbn; intuition discriminate|]. split; reflexivity. Qed.

(** C57: the names of the presets, in any case. *)
Theorem C57_names : forall s,
  (preset_from_str s = Some Low <-> lower s = "low") /\ (preset_from_str s = Some Medium <-> lower s = "medium") /\
  (preset_from_str s = Some Optimal <-> lower s = "optimal") /\ (preset_from_str s = Some Max <-> lower s = "max") /\
  (preset_from_str s = None <-> lower s <> "low" /\ lower s <> "medium" /\ lower s <> "optimal" /\ lower s <> "max").
Proof. intros s. rewrite <- (to_lowercase_lower s). exact (preset_names s). Qed.
Print Assumptions C57_names.

(** On a DDS file with a whole BC1 texture every preset succeeds. Low uses the
    default settings, *)
Theorem C57_low : forall (c : cfg) (v : env) (x out : list byte) (i : dds_info), supported c -> 2 ^ 32 + 147 <= usize_max v ->
  whole_bc1_file (c_debug c) x i -> zlen out = zlen x -> forall (show : Empty_set -> string),
  dds_transform_bundle show c v low_preset_bundle x out tt =
    Ok (ROk tt, packed_file (codec_header CBc1 (Settings V1 true)) x (i_data_offset i) (i_data_length i)
                  (texture_layout CBc1 (Settings V1 true) (slice x (i_data_offset i) (i_data_length i))), tt).
Proof. exact low_works. Qed.
Print Assumptions C57_low.

(** Medium the settings with the smallest estimate among those the fast search
    tries, *)
Theorem C57_medium : forall (c : cfg) (v : env) (x out : list byte) (i : dds_info), supported c -> 2 ^ 32 + 147 <= usize_max v ->
  whole_bc1_file (c_debug c) x i -> zlen out = zlen x -> forall (matches : list byte -> Z) (show : ltu_error -> string), (forall d, 0 <= matches d) ->
  let texture := slice x (i_data_offset i) (i_data_length i) in
  exists s, candidate false (decorrelation_mode s) /\
    dds_transform_bundle show c v (medium_preset_bundle matches) x out tt =
      Ok (ROk tt, packed_file (codec_header CBc1 s) x (i_data_offset i) (i_data_length i) (texture_layout CBc1 s texture), tt) /\
    forall s', candidate false (decorrelation_mode s') -> ltu_total matches (bc1_shown texture s) <= ltu_total matches (bc1_shown texture s').
Proof. exact medium_works. Qed.
Print Assumptions C57_medium.

(** Optimal and Max those that Zstandard at its first level prefers, among the
    fast search's and among all; they need the library to do what it promises
    and the memory it asks for. *)
Theorem C57_optimal : forall (c : cfg) (v : env) (x out : list byte) (i : dds_info), supported c -> 2 ^ 32 + 147 <= usize_max v ->
  whole_bc1_file (c_debug c) x i -> zlen out = zlen x -> forall (L : Type) (lib : zstd_lib L) (show : zstd_error -> string) (st : L),
  keeps_promise lib -> can_allocate lib v (i_data_length i / 2) ->
  exists t s st', optimal_preset_bundle lib = ROk t /\ candidate false (decorrelation_mode s) /\
    dds_transform_bundle show c v t x out st =
      Ok (ROk tt, packed_file (codec_header CBc1 s) x (i_data_offset i) (i_data_length i)
                    (texture_layout CBc1 s (slice x (i_data_offset i) (i_data_length i))), st') /\
    forall size, compresses_to lib v size -> forall s', candidate false (decorrelation_mode s') ->
      compressed_sum (size 1) (bc1_shown (slice x (i_data_offset i) (i_data_length i)) s) <=
      compressed_sum (size 1) (bc1_shown (slice x (i_data_offset i) (i_data_length i)) s').
Proof. exact optimal_works. Qed.
Print Assumptions C57_optimal.
Theorem C57_max : forall (c : cfg) (v : env) (x out : list byte) (i : dds_info), supported c -> 2 ^ 32 + 147 <= usize_max v ->
  whole_bc1_file (c_debug c) x i -> zlen out = zlen x -> forall (L : Type) (lib : zstd_lib L) (show : zstd_error -> string) (st : L),
  keeps_promise lib -> can_allocate lib v (i_data_length i / 2) ->
  exists t s st', max_preset_bundle lib = ROk t /\ candidate true (decorrelation_mode s) /\
    dds_transform_bundle show c v t x out st =
      Ok (ROk tt, packed_file (codec_header CBc1 s) x (i_data_offset i) (i_data_length i)
                    (texture_layout CBc1 s (slice x (i_data_offset i) (i_data_length i))), st') /\
    forall size, compresses_to lib v size -> forall s', candidate true (decorrelation_mode s') ->
      compressed_sum (size 1) (bc1_shown (slice x (i_data_offset i) (i_data_length i)) s) <=
      compressed_sum (size 1) (bc1_shown (slice x (i_data_offset i) (i_data_length i)) s').
Proof. exact max_works. Qed.
Print Assumptions C57_max.
Example C57_optimal_met : supported cpu /\ 2 ^ 32 + 147 <= usize_max env64 /\ whole_bc1_file (c_debug cpu) file1 (DdsInfo DBC1 128 32) /\
  zlen (repeat x00 (List.length file1)) = zlen file1 /\ keeps_promise levelled /\ can_allocate levelled env64 (i_data_length (DdsInfo DBC1 128 32) / 2) /\
  compresses_to levelled env64 level_size.
Proof.
  split; [exact cpu_supported|]. split; [discriminate|]. split; [exact file1_whole_release|]. split; [vm_compute; reflexivity|].
  split; [exact levelled_promise|]. split; [right; vm_compute; reflexivity|]. apply levelled_sizes. discriminate.
Qed.

(** No preset handles the other formats: a BC2 file is an error after its header
    has been written to the output, under every preset. *)
Theorem C57_presets_without_bc2 : forall (L : Type) (lib : zstd_lib L) (matches : list byte -> Z),
  b_bc2 low_preset_bundle = None /\ b_bc2 (medium_preset_bundle matches) = None /\
  (exists t, optimal_preset_bundle lib = ROk t /\ b_bc2 t = None) /\ (exists t, max_preset_bundle lib = ROk t /\ b_bc2 t = None).
Proof. exact presets_without_bc2. Qed.
Print Assumptions C57_presets_without_bc2.
Theorem C57_bc2_refused : forall (St Er : Type) (show : Er -> string) (c : cfg) (v : env) (t : bundle St Er) (x out : list byte) (st : St) (i : dds_info),
  b_bc2 t = None -> 2 ^ 32 + 147 <= usize_max v -> parse_dds (c_debug c) x = Ok (Some i) -> i_format i = DBC2 ->
  i_data_offset i + i_data_length i <= zlen x -> zlen out = zlen x ->
  dds_transform_bundle show c v t x out st =
    Ok (RErr (EFormatHandler (NoBuilderForFormat FBc2)), slice x 0 (i_data_offset i) ++ skipn (Z.to_nat (i_data_offset i)) out, st).
Proof. exact bc2_declined. Qed.
Print Assumptions C57_bc2_refused.

(** The output file of a failure stays behind: transforming a directory with a
    BC2 file makes a file of its size and header but without its texture, and
    untransforming that gives a file that says it is a DDS file and is another. *)
Theorem C57_left_behind_refuted : exists fs1 fs2 y z,
  process_file (fun _ => true) (TransformDir low_preset_bundle) (all_handlers (fun _ : Empty_set => "") cpu env64) ["in"] ["out"] works ["in"; "b.dds"] two_files tt =
    Ok (RErr (CFile (FTransform (EFormatHandler (NoBuilderForFormat FBc2)))), fs1, tt) /\
  two_files "/in/b.dds" = Some file2 /\ two_files "/out/b.dds" = None /\ fs1 "/out/b.dds" = Some y /\
  process_file (fun _ => true) UntransformDir (all_handlers (fun _ : Empty_set => "") cpu env64) ["out"] ["back"] works ["out"; "b.dds"] fs1 tt =
    Ok (RErr (CFile (FTransform UnknownTransformFormat)), fs2, tt) /\
  fs2 "/back/b.dds" = Some z /\ parse_dds true z = parse_dds true file2 /\ z <> file2.
Proof. exact left_behind. Qed.
Print Assumptions C57_left_behind_refuted.

Example C57_nontrivial : whole_bc1_file true file1 (DdsInfo DBC1 128 32) /\ preset_from_str "MeDium" = Some Medium /\ preset_from_str "medium " = None.
Proof. exact file1_whole. Qed.
