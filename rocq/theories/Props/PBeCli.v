(** C81: the command line tool on big-endian machines. *)
From Verif Require Import Base.Bytes Base.Res Model.Color565 Model.Kernel Model.Transform Model.Auto Model.Builders Model.Embed Model.Bundle Model.Dds Model.Handlers Model.Ltu Model.Zstd Model.Cli
  Model.BigEndian Model.BeTransform Model.BeFiles Model.EndianTool.
From Verif Require Import Spec.Layout Spec.Estimator Spec.Ltu Spec.Files Spec.Dds Spec.Zstd Spec.Answers Spec.ZstdSizes Spec.Cli Spec.BigEndian Spec.BeFiles.
From Verif Require Import Proofs.CliFacts Proofs.CliRuns Proofs.CliDds Proofs.CliExamples Proofs.BigEndianFacts Proofs.BeCliDds Props.PDds Props.CasesZstd Props.PLtu.
From Coq Require Import Ascii String.
Open Scope string_scope.
Open Scope list_scope.
Open Scope Z_scope.

(** No run has undefined behaviour, not even in a debug build with a file that
    states an empty texture, *)
Theorem C81_no_undefined_behaviour : forall (St Er : Type) (utf8 : string -> bool) (show : Er -> string) (debug : bool) (junk : byte) (v : env) (cmd : command (bundle St Er))
    (I O : components) (entries : list components) (before : files) (s : state),
  2 ^ 32 - 1 <= usize_max v ->
  apart I O -> Forall file_name O -> files_below I entries ->
  reachable utf8 cmd (be_all_handlers show (big_endian_cpu debug junk) v) I O entries before s ->
  forall p, ~ In (p, Undefined) (s_tasks s).
Proof.
  intros St Er utf8 show debug junk v cmd I O entries before s.
  exact (@be_never_undefined St Er utf8 show (big_endian_cpu debug junk) v cmd I O entries before s (big_endian_ok debug junk)).
Qed.
Print Assumptions C81_no_undefined_behaviour.

(** and on a 64-bit machine none panics (in a debug build, if the sizes of the
    textures can be computed without overflow). *)
Theorem C81_no_panic : forall (St Er : Type) (utf8 : string -> bool) (show : Er -> string) (debug : bool) (junk : byte) (v : env) (cmd : command (bundle St Er))
    (I O : components) (entries : list components) (before : files) (s : state),
  2 ^ 32 + 147 <= usize_max v ->
  (forall p x, In p entries -> before (render p) = Some x -> debug = true -> levels_fit x) ->
  apart I O -> Forall file_name O -> files_below I entries ->
  reachable utf8 cmd (be_all_handlers show (big_endian_cpu debug junk) v) I O entries before s ->
  forall p, ~ In (p, Panicked) (s_tasks s).
Proof.
  intros St Er utf8 show debug junk v cmd I O entries before s.
  exact (@be_never_panics St Er utf8 show (big_endian_cpu debug junk) v cmd I O entries before s (big_endian_ok debug junk)).
Qed.
Print Assumptions C81_no_panic.

(** A file transformed by one big-endian machine's tool and untransformed by
    another's is back as soon as the second reports it as done; the second can
    only fail on it because the operating system does. *)
Theorem C81_directory_round_trip : forall (St1 Er1 St2 Er2 : Type) (utf8 : string -> bool) (show1 : Er1 -> string) (show2 : Er2 -> string) (d1 d2 : bool) (j1 j2 : byte) (v1 v2 : env)
    (b : bundle St1 Er1) (I O R : components) (entries1 entries2 : list components) (fs1 fs2 : files)
    (s1 : state (B := bundle St1 Er1) (W := St1)) (s2 : state (B := bundle St2 Er2) (W := St2)) (r : components) (x : list byte) ph1 ph2,
  2 ^ 32 - 1 <= usize_max v1 -> zlen x <= usize_max v2 ->
  (d2 = true -> d1 = false -> levels_fit x) ->
  apart I O -> apart O R -> Forall file_name O -> Forall file_name R -> files_below I entries1 -> files_below O entries2 ->
  reachable utf8 (TransformDir b) (be_all_handlers show1 (big_endian_cpu d1 j1) v1) I O entries1 fs1 s1 ->
  fs1 (render (I ++ r)) = Some x -> In (I ++ r, ph1) (s_tasks s1) -> succeeded ph1 ->
  fs2 (render (O ++ r)) = s_files s1 (render (O ++ r)) ->
  reachable utf8 UntransformDir (be_all_handlers show2 (big_endian_cpu d2 j2) v2) O R entries2 fs2 s2 ->
  In (O ++ r, ph2) (s_tasks s2) ->
  (succeeded ph2 -> s_files s2 (render (R ++ r)) = Some x) /\
  (finished ph2 -> (exists n, ph2 = Counted n) \/ ph2 = Returned (RErr CIo) \/ ph2 = Returned (RErr (CFile FIo))).
Proof.
  intros St1 Er1 St2 Er2 utf8 show1 show2 d1 d2 j1 j2 v1 v2 b I O R entries1 entries2 fs1 fs2 s1 s2 r x ph1 ph2.
  exact (@be_directory_round_trip St1 Er1 St2 Er2 utf8 show1 show2 (big_endian_cpu d1 j1) (big_endian_cpu d2 j2) v1 v2 b I O R entries1 entries2 fs1 fs2 s1 s2 r x ph1 ph2 (big_endian_ok d1 j1) (big_endian_ok d2 j2)).
Qed.
Print Assumptions C81_directory_round_trip.

(** Two runs in which it is done (C56: the sequential loop's runs are runs), in a
    debug build and a release build. *)
Example C81_nontrivial : apart ["in"] ["out"] /\ apart ["out"] ["back"] /\ levels_fit file1 /\
  match process_files (fun _ => true) (TransformDir low_preset_bundle) (be_all_handlers (fun _ : Empty_set => "") (big_endian_cpu true x5a) env64) ["in"] ["out"] true
    [(works, ["in"; "a.dds"]); (works, ["in"; "note.txt"])] two_files tt 0 with
  | Ok (n, fs1, _) => n = 163 /\ fs1 "/out/note.txt" = None /\ fs1 "/out/a.dds" <> Some file1 /\
      match process_files (fun _ => true) UntransformDir (be_all_handlers (fun _ : Empty_set => "") (big_endian_cpu false x00) env64) ["out"] ["back"] true
        [(works, ["out"; "a.dds"])] fs1 tt 0 with
      | Ok (n, fs2, _) => n = 163 /\ fs2 "/back/a.dds" = Some file1
      | _ => False
      end
  | _ => False
  end.
Proof.
  split; [split; intros r E; discriminate E|]. split; [split; intros r E; discriminate E|]. split; [exact file1_fits|].
  vm_compute. split; [reflexivity|]. split; [reflexivity|]. split; [discriminate|]. split; reflexivity.
Qed.

(** The presets on a DDS file with a whole BC1 texture. Low uses the default
    settings, *)
Theorem C81_low : forall (debug : bool) (junk : byte) (v : env) (x out : list byte) (i : dds_info), 2 ^ 32 + 147 <= usize_max v ->
  whole_bc1_file debug x i -> zlen out = zlen x -> forall (show : Empty_set -> string),
  be_dds_transform_bundle show (big_endian_cpu debug junk) v low_preset_bundle x out tt =
    Ok (ROk tt, packed_file (codec_header CBc1 (Settings V1 true)) x (i_data_offset i) (i_data_length i)
                  (be_texture_layout CBc1 (Settings V1 true) (slice x (i_data_offset i) (i_data_length i))), tt).
Proof. intros debug junk v x out i. exact (be_low_works (big_endian_cpu debug junk) v x out i (big_endian_ok debug junk)). Qed.
Print Assumptions C81_low.

(** Medium the settings with the smallest estimate among those the fast search
    tries, *)
Theorem C81_medium : forall (debug : bool) (junk : byte) (v : env) (x out : list byte) (i : dds_info), 2 ^ 32 + 147 <= usize_max v ->
  whole_bc1_file debug x i -> zlen out = zlen x -> forall (matches : list byte -> Z) (show : ltu_error -> string), (forall d, 0 <= matches d) ->
  let texture := slice x (i_data_offset i) (i_data_length i) in
  exists s, candidate false (decorrelation_mode s) /\
    be_dds_transform_bundle show (big_endian_cpu debug junk) v (medium_preset_bundle matches) x out tt =
      Ok (ROk tt, packed_file (codec_header CBc1 s) x (i_data_offset i) (i_data_length i) (be_texture_layout CBc1 s texture), tt) /\
    forall s', candidate false (decorrelation_mode s') -> ltu_total matches (be_bc1_shown texture s) <= ltu_total matches (be_bc1_shown texture s').
Proof. intros debug junk v x out i. exact (be_medium_works (big_endian_cpu debug junk) v x out i (big_endian_ok debug junk)). Qed.
Print Assumptions C81_medium.

(** Optimal and Max those that Zstandard at its first level prefers, among the
    fast search's and among all. *)
Theorem C81_optimal : forall (debug : bool) (junk : byte) (v : env) (x out : list byte) (i : dds_info), 2 ^ 32 + 147 <= usize_max v ->
  whole_bc1_file debug x i -> zlen out = zlen x -> forall (L : Type) (lib : zstd_lib L) (show : zstd_error -> string) (st : L),
  keeps_promise lib -> can_allocate lib v (i_data_length i / 2) ->
  exists t s st', optimal_preset_bundle lib = ROk t /\ candidate false (decorrelation_mode s) /\
    be_dds_transform_bundle show (big_endian_cpu debug junk) v t x out st =
      Ok (ROk tt, packed_file (codec_header CBc1 s) x (i_data_offset i) (i_data_length i)
                    (be_texture_layout CBc1 s (slice x (i_data_offset i) (i_data_length i))), st') /\
    forall size, compresses_to lib v size -> forall s', candidate false (decorrelation_mode s') ->
      compressed_sum (size 1) (be_bc1_shown (slice x (i_data_offset i) (i_data_length i)) s) <=
      compressed_sum (size 1) (be_bc1_shown (slice x (i_data_offset i) (i_data_length i)) s').
Proof. intros debug junk v x out i. exact (be_optimal_works (big_endian_cpu debug junk) v x out i (big_endian_ok debug junk)). Qed.
Print Assumptions C81_optimal.
Theorem C81_max : forall (debug : bool) (junk : byte) (v : env) (x out : list byte) (i : dds_info), 2 ^ 32 + 147 <= usize_max v ->
  whole_bc1_file debug x i -> zlen out = zlen x -> forall (L : Type) (lib : zstd_lib L) (show : zstd_error -> string) (st : L),
  keeps_promise lib -> can_allocate lib v (i_data_length i / 2) ->
  exists t s st', max_preset_bundle lib = ROk t /\ candidate true (decorrelation_mode s) /\
    be_dds_transform_bundle show (big_endian_cpu debug junk) v t x out st =
      Ok (ROk tt, packed_file (codec_header CBc1 s) x (i_data_offset i) (i_data_length i)
                    (be_texture_layout CBc1 s (slice x (i_data_offset i) (i_data_length i))), st') /\
    forall size, compresses_to lib v size -> forall s', candidate true (decorrelation_mode s') ->
      compressed_sum (size 1) (be_bc1_shown (slice x (i_data_offset i) (i_data_length i)) s) <=
      compressed_sum (size 1) (be_bc1_shown (slice x (i_data_offset i) (i_data_length i)) s').
Proof. intros debug junk v x out i. exact (be_max_works (big_endian_cpu debug junk) v x out i (big_endian_ok debug junk)). Qed.
Print Assumptions C81_max.
Example C81_presets_met : 2 ^ 32 + 147 <= usize_max env64 /\ whole_bc1_file true file1 (DdsInfo DBC1 128 32) /\
  zlen (repeat x00 (List.length file1)) = zlen file1 /\ (forall d, 0 <= repeats d) /\ keeps_promise levelled /\
  can_allocate levelled env64 (i_data_length (DdsInfo DBC1 128 32) / 2) /\ compresses_to levelled env64 level_size.
Proof.
  split; [discriminate|]. split; [exact (proj1 file1_whole)|]. split; [vm_compute; reflexivity|]. split; [exact repeats_nonneg|].
  split; [exact levelled_promise|]. split; [right; vm_compute; reflexivity|]. apply levelled_sizes. discriminate.
Qed.

(** A BC2 file is an error under every preset (C57_presets_without_bc2), after
    its header has been written to the output. *)
Theorem C81_bc2_refused : forall (St Er : Type) (show : Er -> string) (debug : bool) (junk : byte) (v : env) (t : bundle St Er) (x out : list byte) (st : St) (i : dds_info),
  b_bc2 t = None -> 2 ^ 32 + 147 <= usize_max v -> parse_dds debug x = Ok (Some i) -> i_format i = DBC2 ->
  i_data_offset i + i_data_length i <= zlen x -> zlen out = zlen x ->
  be_dds_transform_bundle show (big_endian_cpu debug junk) v t x out st =
    Ok (RErr (EFormatHandler (NoBuilderForFormat FBc2)), slice x 0 (i_data_offset i) ++ skipn (Z.to_nat (i_data_offset i)) out, st).
Proof. intros St Er show debug junk. exact (be_bc2_declined St Er show (big_endian_cpu debug junk)). Qed.
Print Assumptions C81_bc2_refused.
Example C81_bc2_refused_met : b_bc2 low_preset_bundle = None /\
  match parse_dds true file2 with Ok (Some i) => i_format i = DBC2 /\ (i_data_offset i + i_data_length i <=? zlen file2) = true | _ => False end.
Proof. split; [reflexivity|]. vm_compute. split; reflexivity. Qed.

(** C73, for directories: a file transformed by a little-endian machine's tool
    and untransformed by a big-endian one's is back exactly if the two layouts of
    its texture agree under the settings that were used, *)
Theorem C73_directory_to_be_iff_partial : forall (St1 Er1 St2 Er2 : Type) (utf8 : string -> bool) (show1 : Er1 -> string) (show2 : Er2 -> string) (c : cfg) (d : bool) (j : byte) (v1 v2 : env)
    (b : bundle St1 Er1) (I O R : components) (entries1 entries2 : list components) (fs1 fs2 : files)
    (s1 : state (B := bundle St1 Er1) (W := St1)) (s2 : state (B := bundle St2 Er2) (W := St2)) (r : components) (x : list byte) ph1 ph2 (i : dds_info),
  supported c -> 2 ^ 32 - 1 <= usize_max v1 -> zlen x <= usize_max v2 ->
  parse_dds (c_debug c) x = Ok (Some i) -> (c_debug c = true -> 0 < i_data_length i) -> (d = true -> c_debug c = false -> levels_fit x) ->
  apart I O -> apart O R -> Forall file_name O -> Forall file_name R -> files_below I entries1 -> files_below O entries2 ->
  reachable utf8 (TransformDir b) (all_handlers show1 c v1) I O entries1 fs1 s1 ->
  fs1 (render (I ++ r)) = Some x -> In (I ++ r, ph1) (s_tasks s1) -> succeeded ph1 ->
  fs2 (render (O ++ r)) = s_files s1 (render (O ++ r)) ->
  reachable utf8 UntransformDir (be_all_handlers show2 (big_endian_cpu d j) v2) O R entries2 fs2 s2 ->
  In (O ++ r, ph2) (s_tasks s2) -> succeeded ph2 ->
  let T := slice x (i_data_offset i) (i_data_length i) in
  exists k s y, s_files s1 (render (O ++ r)) = Some y /\ word y 0 = codec_header k s /\
    (s_files s2 (render (R ++ r)) = Some x <-> be_texture_layout k s T = texture_layout k s T).
Proof. exact (@directory_to_be). Qed.
Print Assumptions C73_directory_to_be_iff_partial.
(** and the same the other way round. *)
Theorem C73_directory_to_le_iff_partial : forall (St1 Er1 St2 Er2 : Type) (utf8 : string -> bool) (show1 : Er1 -> string) (show2 : Er2 -> string) (c : cfg) (d : bool) (j : byte) (v1 v2 : env)
    (b : bundle St1 Er1) (I O R : components) (entries1 entries2 : list components) (fs1 fs2 : files)
    (s1 : state (B := bundle St1 Er1) (W := St1)) (s2 : state (B := bundle St2 Er2) (W := St2)) (r : components) (x : list byte) ph1 ph2 (i : dds_info),
  supported c -> 2 ^ 32 - 1 <= usize_max v1 -> zlen x <= usize_max v2 ->
  parse_dds d x = Ok (Some i) -> (c_debug c = true -> 0 < i_data_length i) -> (c_debug c = true -> d = false -> levels_fit x) ->
  apart I O -> apart O R -> Forall file_name O -> Forall file_name R -> files_below I entries1 -> files_below O entries2 ->
  reachable utf8 (TransformDir b) (be_all_handlers show1 (big_endian_cpu d j) v1) I O entries1 fs1 s1 ->
  fs1 (render (I ++ r)) = Some x -> In (I ++ r, ph1) (s_tasks s1) -> succeeded ph1 ->
  fs2 (render (O ++ r)) = s_files s1 (render (O ++ r)) ->
  reachable utf8 UntransformDir (all_handlers show2 c v2) O R entries2 fs2 s2 ->
  In (O ++ r, ph2) (s_tasks s2) -> succeeded ph2 ->
  let T := slice x (i_data_offset i) (i_data_length i) in
  exists k s y, s_files s1 (render (O ++ r)) = Some y /\ word y 0 = codec_header k s /\
    (s_files s2 (render (R ++ r)) = Some x <-> be_texture_layout k s T = texture_layout k s T).
Proof. exact (@directory_to_le). Qed.
Print Assumptions C73_directory_to_le_iff_partial.

(** With the Low preset they need not agree: a directory moved from a machine of
    one byte order to one of the other is restored, with success, as another. *)
Theorem C73_directory_refuted :
  match process_files (fun _ => true) (TransformDir low_preset_bundle) (all_handlers (fun _ : Empty_set => "") cpu env64) ["in"] ["out"] true
    [(works, ["in"; "a.dds"])] two_files tt 0 with
  | Ok (_, fs1, _) =>
      match process_files (fun _ => true) UntransformDir (be_all_handlers (fun _ : Empty_set => "") (big_endian_cpu false x00) env64) ["out"] ["back"] true
        [(works, ["out"; "a.dds"])] fs1 tt 0 with
      | Ok (n, fs2, _) => n = 163 /\ fs2 "/back/a.dds" <> Some file1 /\ fs2 "/back/a.dds" <> None
      | _ => False
      end
  | _ => False
  end /\
  match process_files (fun _ => true) (TransformDir low_preset_bundle) (be_all_handlers (fun _ : Empty_set => "") (big_endian_cpu false x00) env64) ["in"] ["out"] true
    [(works, ["in"; "a.dds"])] two_files tt 0 with
  | Ok (_, fs1, _) =>
      match process_files (fun _ => true) UntransformDir (all_handlers (fun _ : Empty_set => "") cpu env64) ["out"] ["back"] true
        [(works, ["out"; "a.dds"])] fs1 tt 0 with
      | Ok (n, fs2, _) => n = 163 /\ fs2 "/back/a.dds" <> Some file1 /\ fs2 "/back/a.dds" <> None
      | _ => False
      end
  | _ => False
  end.
Proof. vm_compute. split; (split; [reflexivity|split; discriminate]). Qed.
Print Assumptions C73_directory_refuted.
