(** C59, C60: looking into files, and the round trip test commands. *)
From Verif Require Import Base.Bytes Base.Res Model.Color565 Model.Kernel Model.Transform Model.Auto Model.Embed Model.Bundle Model.Dds
  Model.Handlers Model.Cli Model.Decode Model.Inspect Spec.Layout Spec.Files Spec.Dds Spec.Pixels Spec.Cli Spec.Inspect
  Proofs.CliFacts Proofs.InspectFacts Proofs.InspectFiles Props.PDds.
From Coq Require Import Ascii String.
Open Scope list_scope.
Open Scope Z_scope.

(** C59: exactly these names of filters are recognised, in any case, *)
Theorem C59_filter_names : forall s f,
  filter_from_str s = Some f <->
  In (lower s, f) [("bc1", OnlyFormat FBc1); ("bc2", OnlyFormat FBc2); ("bc3", OnlyFormat FBc3); ("bc4", OnlyFormat FBc4); ("bc5", OnlyFormat FBc5);
    ("bc7", OnlyFormat FBc7); ("bc6h", OnlyFormat FBc6H); ("rgba8888", OnlyFormat FRgba8888); ("bgra8888", OnlyFormat FBgra8888);
    ("bgr888", OnlyFormat FBgr888); ("all", AllFormats)]%string.
Proof. intros s f. rewrite <- (to_lowercase_lower s). exact (filter_names s f). Qed.
Print Assumptions C59_filter_names.

(** and a filter admits its own format, or all. *)
Theorem C59_filter_meaning : forall fl f, filter_accepts fl f = true <-> fl = AllFormats \/ fl = OnlyFormat f.
Proof. exact filter_meaning. Qed.
Print Assumptions C59_filter_meaning.

(** A file that cannot be read is an I/O error; the given function is not called
    (its state stays). *)
Theorem C59_unreadable : forall (T : Type) (ext : path -> option string) (o : io) (p : path) (hs : list inspector) (fl : format_filter) (fs : files)
    (test_fn : list byte -> transform_format -> T -> res (result unit transform_error * T)) (t : T),
  fs p = None \/ open_ok o p = false \/ map_ok o p = false ->
  extract_blocks_from_file_format ext o p hs fl test_fn fs t = Ok (RErr FIo, t) /\ get_transform_format ext o p hs fl fs = Ok (RErr FIo).
Proof. exact (@extract_unreadable). Qed.
Print Assumptions C59_unreadable.

(** Otherwise the first handler that accepts the file decides: the function is
    called once, with the blocks and the format that handler finds, if it finds
    some, and its error is passed on. *)
Theorem C59_first_handler_decides : forall (T : Type) (ext : path -> option string) (o : io) (p : path) (hs : list inspector) (fl : format_filter) (fs : files)
    data h (test_fn : list byte -> transform_format -> T -> res (result unit transform_error * T)) (t : T),
  fs p = Some data -> open_ok o p = true -> map_ok o p = true -> first_to_accept data (ext p) hs h ->
  extract_blocks_from_file_format ext o p hs fl test_fn fs t =
    match n_extract h data fl with
    | Ok (ROk (Some (blocks, format))) =>
        match test_fn blocks format t with
        | Ok (ROk _, t1) => Ok (ROk tt, t1)
        | Ok (RErr e, t1) => Ok (RErr (FTransform e), t1)
        | Panic why => Panic why
        | Ub why => Ub why
        end
    | Ok (ROk None) => Ok (RErr (FTransform NoSupportedHandler), t)
    | Ok (RErr e) => Ok (RErr (FTransform e), t)
    | Panic why => Panic why
    | Ub why => Ub why
    end /\
  get_transform_format ext o p hs fl fs =
    match n_format h data fl with
    | Ok (ROk f) => Ok (ROk f)
    | Ok (RErr e) => Ok (RErr (FTransform e))
    | Panic why => Panic why
    | Ub why => Ub why
    end.
Proof. exact (@extract_first). Qed.
Print Assumptions C59_first_handler_decides.

(** If no handler accepts it, that is an error for the one function and no format
    for the other. *)
Theorem C59_no_handler : forall (T : Type) (ext : path -> option string) (o : io) (p : path) (hs : list inspector) (fl : format_filter) (fs : files)
    data (test_fn : list byte -> transform_format -> T -> res (result unit transform_error * T)) (t : T),
  fs p = Some data -> open_ok o p = true -> map_ok o p = true -> Forall (fun g => n_can_handle g data (ext p) = Ok false) hs ->
  extract_blocks_from_file_format ext o p hs fl test_fn fs t = Ok (RErr (FTransform NoSupportedHandler), t) /\
  get_transform_format ext o p hs fl fs = Ok (ROk None).
Proof. exact (@extract_nobody). Qed.
Print Assumptions C59_no_handler.

(** The command line tool's debug commands hide their own errors: whatever error
    the function of a command ends with, "no supported handler" is reported
    instead, and about that nothing is printed. *)
Theorem C59_errors_told_refuted : forall (T : Type) ext o hs p fl fs data h blocks format
    (test_fn : list byte -> transform_format -> T -> res (result unit debug_error * T)) (t t1 : T) e,
  fs p = Some data -> open_ok o p = true -> map_ok o p = true -> first_to_accept data (ext p) hs h ->
  n_extract h data fl = Ok (ROk (Some (blocks, format))) -> test_fn blocks format t = Ok (RErr e, t1) ->
  extract_blocks_from_file ext o hs p fl test_fn fs t = Ok (RErr (DFile (FTransform NoSupportedHandler)), t1) /\
  handle_debug_error (RErr (DFile (FTransform NoSupportedHandler))) = false.
Proof. exact debug_errors_hidden. Qed.
Print Assumptions C59_errors_told_refuted.

(** What the debug commands do print about a file: nothing when their function
    succeeded or nobody supports the file, a message about every other error; so
    there is one about every file that cannot be read. *)
Theorem C59_printed :
  (forall r, handle_debug_error r = true <-> r <> ROk tt /\ r <> RErr (DFile (FTransform NoSupportedHandler))) /\
  (forall (T : Type) ext o hs p fl fs (test_fn : list byte -> transform_format -> T -> res (result unit debug_error * T)) (t : T),
     fs p = None \/ open_ok o p = false \/ map_ok o p = false ->
     exists r, extract_blocks_from_file ext o hs p fl test_fn fs t = Ok (r, t) /\ handle_debug_error r = true).
Proof.
  split.
  - intros [[]|[[|[]]| |]]; cbn; split; intros H; first [discriminate H|reflexivity|split; discriminate|destruct H; congruence].
  - intros T ext o hs p fl fs test_fn t H. unfold extract_blocks_from_file.
    rewrite (proj1 (extract_unreadable ext o p hs fl fs (fun data f t => do a <- test_fn data f t ;;
                     Ok (match fst a with ROk _ => ROk tt | RErr _ => RErr NoSupportedHandler end, snd a)) t H)).
    cbn [bind fst snd]. eexists. split; reflexivity.
Qed.
Print Assumptions C59_printed.

Definition disk (p : path) : option (list byte) :=
  if String.eqb p "/in/a.dds" then Some file1 else if String.eqb p "/in/b.dds" then Some file2 else if String.eqb p "/in/notes.txt" then Some (numbers 9) else None.
Definition works_fine : io := Io (fun _ => true) (fun _ => true) (fun _ => true) (fun _ _ _ => x00).
Definition called (data : list byte) (f : transform_format) (t : list transform_format) : res (result unit transform_error * list transform_format) := Ok (ROk tt, f :: t).
Example C59_nontrivial :
  first_to_accept file1 (Some "dds"%string) (all_inspectors true env64) (dds_inspector true env64) /\
  extract_blocks_from_file_format (fun _ => Some "dds"%string) works_fine "/in/a.dds"%string (all_inspectors true env64) (OnlyFormat FBc1) called disk [] = Ok (ROk tt, [FBc1]) /\
  extract_blocks_from_file_format (fun _ => Some "txt"%string) works_fine "/in/notes.txt"%string (all_inspectors true env64) (OnlyFormat FBc1) called disk []
    = Ok (RErr (FTransform NoSupportedHandler), []) /\
  get_transform_format (fun _ => Some "dds"%string) works_fine "/in/b.dds"%string (all_inspectors true env64) AllFormats disk = Ok (ROk (Some FBc2)) /\
  filter_from_str "Bc6H" = Some (OnlyFormat FBc6H) /\
  extract_blocks_from_file (fun _ => Some "dds"%string) works_fine (all_inspectors true env64) "/in/a.dds"%string AllFormats (fun _ _ t => Ok (RErr DAllocate, t + 1)) disk 0
    = Ok (RErr (DFile (FTransform NoSupportedHandler)), 1).
Proof.
  split; [exists [], []; split; [reflexivity|]; split; [constructor|vm_compute; reflexivity]|].
  split; [vm_compute; reflexivity|]. split; [vm_compute; reflexivity|]. split; [vm_compute; reflexivity|]. split; vm_compute; reflexivity.
Qed.

(** C29: a block-compressed texture is a whole number of blocks, unless its size
    was cut off at 2^32 - 1. *)
Theorem C29_whole_blocks : forall (debug : bool) (data : list byte) (i : dds_info) (k : Z),
  parse_dds debug data = Ok (Some i) -> block_bytes (i_format i) = Some k -> i_data_length i mod k = 0 \/ i_data_length i = 2 ^ 32 - 1.
Proof. exact whole_blocks. Qed.
Print Assumptions C29_whole_blocks.
Example C29_whole_blocks_nontrivial : exists i, parse_dds true file1 = Ok (Some i) /\ block_bytes (i_format i) = Some 8 /\ i_data_length i = 32.
Proof. eexists. split; [vm_compute; reflexivity|]. split; reflexivity. Qed.

(** C60: a round trip test passes on every texture of whole blocks (in a debug
    build: that is not empty) if the memory suffices. *)
Theorem C60_textures_pass : forall (c : cfg) (v : env) (fresh : Z -> list byte), supported c -> (forall n, 0 <= n -> zlen (fresh n) = n) ->
  forall data, (c_debug c = true -> data <> []) -> alloc_ok v (zlen data) = true ->
  (zlen data mod 8 = 0 -> test_bc1_roundtrip c v fresh data = Ok (ROk tt)) /\
  (zlen data mod 16 = 0 -> test_bc2_roundtrip c v fresh data = Ok (ROk tt) /\ test_bc3_roundtrip c v fresh data = Ok (ROk tt)).
Proof. exact roundtrip_passes. Qed.
Print Assumptions C60_textures_pass.

(** The test is a real one: with any pair of functions in the place of the
    transforms it passes exactly if, for all the settings given, what is restored
    shows the same picture in every block. *)
Theorem C60_test_decides : forall (S : Type) (v : env) (fresh : Z -> list byte) (k : Z) (transform untransform : Z -> S -> mem -> res mem)
    (decode : list byte -> res (list color8888)) (pixel : list byte -> nat -> color8888) (l : list S) (data : list byte) (y : S -> list byte),
  0 < k -> (forall b, k <= zlen b -> decode b = Ok (picture pixel b)) -> alloc_ok v (zlen data) = true ->
  (forall s, In s l -> exists m m2, transform (zlen data) s (Mem data [] (fresh (zlen data))) = Ok m /\
     untransform (zlen data) s (Mem (m_out m) [] (fresh (zlen data))) = Ok m2 /\ m_out m2 = y s /\ zlen (y s) = zlen data) ->
  exists r, test_settings v fresh k transform untransform decode l data = Ok r /\
    (r = ROk tt <-> forall s, In s l -> forall i, 0 <= i < zlen data / k -> picture pixel (slice data (i * k) k) = picture pixel (slice (y s) (i * k) k)).
Proof. exact test_decides. Qed.
Print Assumptions C60_test_decides.

(** It is run for all settings there are, once for each. *)
Theorem C60_all_settings : (forall s, In s all_settings) /\ (forall s, In s all_settings3) /\ NoDup all_settings /\ NoDup all_settings3.
Proof. exact (conj all_settings_in (conj all_settings3_in all_settings_once)). Qed.
Print Assumptions C60_all_settings.

(** Every DDS file with a whole texture of the format passes, *)
Theorem C60_files_pass : forall (c : cfg) (v : env) (fresh : Z -> list byte), supported c -> (forall n, 0 <= n -> zlen (fresh n) = n) ->
  forall k ext o p fs, k = 1 \/ k = 2 \/ k = 3 -> 2 ^ 32 + 147 <= usize_max v ->
  testable (c_debug c) v o ext p fs (tested_format k) -> test_roundtrip_file c v fresh k ext o p fs = Ok (ROk tt).
Proof. exact roundtrip_file. Qed.
Print Assumptions C60_files_pass.

(** and no other file does. *)
Theorem C60_others_fail : forall (c : cfg) (v : env) (fresh : Z -> list byte) k ext o p fs, k = 1 \/ k = 2 \/ k = 3 -> 2 ^ 32 + 147 <= usize_max v ->
  test_roundtrip_file c v fresh k ext o p fs = Ok (ROk tt) ->
  exists data i, fs p = Some data /\ open_ok o p = true /\ map_ok o p = true /\ (ext = None \/ ext = Some "dds"%string) /\
    parse_dds (c_debug c) data = Ok (Some i) /\ i_format i = tested_format k /\ i_data_offset i + i_data_length i <= zlen data.
Proof. exact roundtrip_passed. Qed.
Print Assumptions C60_others_fail.

(** The command ends well exactly if every file of the directory passes; so it
    does for a directory of such textures, *)
Theorem C60_command_result : forall (c : cfg) (v : env) (fresh : Z -> list byte) k utf8 o fs entries r,
  handle_roundtrip_command c v fresh k utf8 o entries fs = Ok r ->
  (r = ROk tt <-> Forall (fun p => test_roundtrip_file c v fresh k (extract_lowercase_extension utf8 p) o (render p) fs = Ok (ROk tt)) entries).
Proof. exact command_result. Qed.
Print Assumptions C60_command_result.

Theorem C60_command_passes : forall (c : cfg) (v : env) (fresh : Z -> list byte), supported c -> (forall n, 0 <= n -> zlen (fresh n) = n) ->
  forall k utf8 o fs entries, k = 1 \/ k = 2 \/ k = 3 -> 2 ^ 32 + 147 <= usize_max v ->
  Forall (fun p => testable (c_debug c) v o (extract_lowercase_extension utf8 p) (render p) fs (tested_format k)) entries ->
  handle_roundtrip_command c v fresh k utf8 o entries fs = Ok (ROk tt).
Proof. exact command_passes. Qed.
Print Assumptions C60_command_passes.

Definition zeros (n : Z) : list byte := repeat x00 (Z.to_nat n).
Example C60_nontrivial :
  (forall n, 0 <= n -> zlen (zeros n) = n) /\
  testable (c_debug cpu) env64 works_fine (extract_lowercase_extension (fun _ => true) ["in"; "a.dds"]%string) (render ["in"; "a.dds"]%string) disk (tested_format 1) /\
  handle_roundtrip_command cpu env64 zeros 1 (fun _ => true) works_fine [["in"; "a.dds"]]%string disk = Ok (ROk tt).
Proof.
  split; [intros n Hn; unfold zlen, zeros; rewrite repeat_length; lia|].
  assert (T : testable (c_debug cpu) env64 works_fine (extract_lowercase_extension (fun _ => true) ["in"; "a.dds"]%string) (render ["in"; "a.dds"]%string) disk (tested_format 1)).
  { split; [reflexivity|]. split; [reflexivity|]. split; [right; vm_compute; reflexivity|]. exists file1, (DdsInfo DBC1 128 32).
    split; [vm_compute; reflexivity|]. split; [vm_compute; reflexivity|]. split; [reflexivity|].
    split; [vm_compute; split; [discriminate|reflexivity]|]. split; [reflexivity|]. intros _. reflexivity. }
  split; [exact T|]. apply command_passes; [exact cpu_supported| |auto|cbn; lia|constructor; [exact T|constructor]].
  intros n Hn. unfold zlen, zeros. rewrite repeat_length. lia.
Qed.

(** A directory that holds any other file fails the test, whatever the
    transforms do: here a text file beside a BC1 texture. *)
Theorem C60_mixed_directory_refuted : exists entries,
  In ["in"; "a.dds"]%string entries /\ handle_roundtrip_command cpu env64 zeros 1 (fun _ => true) works_fine entries disk = Ok (RErr DMessage) /\
  test_roundtrip_file cpu env64 zeros 1 (Some "dds"%string) works_fine "/in/a.dds"%string disk = Ok (ROk tt).
Proof.
  exists [["in"; "notes.txt"]; ["in"; "a.dds"]]%string. split; [right; left; reflexivity|].
  assert (R : test_roundtrip_file cpu env64 zeros 1 (Some "dds"%string) works_fine "/in/a.dds"%string disk = Ok (ROk tt)).
  { apply roundtrip_file; [exact cpu_supported|exact (proj1 C60_nontrivial)|auto|cbn; lia|]. exact (proj1 (proj2 C60_nontrivial)). }
  split; [|exact R]. unfold handle_roundtrip_command. cbn [test_files].
  assert (N : test_roundtrip_file cpu env64 zeros 1 (extract_lowercase_extension (fun _ => true) ["in"; "notes.txt"]%string) works_fine (render ["in"; "notes.txt"]%string) disk
    = Ok (RErr (DFile (FTransform NoSupportedHandler)))) by (vm_compute; reflexivity).
  rewrite N. cbn [bind]. change (extract_lowercase_extension (fun _ => true) ["in"; "a.dds"]%string) with (Some "dds"%string).
  change (render ["in"; "a.dds"]%string) with "/in/a.dds"%string. rewrite R. reflexivity.
Qed.
Print Assumptions C60_mixed_directory_refuted.
