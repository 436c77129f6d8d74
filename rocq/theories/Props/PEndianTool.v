(** C75: the debug-endian command with the tool it runs on each machine. *)
From Verif Require Import Base.Bytes Base.Res Model.Color565 Model.Kernel Model.Transform Model.Auto Model.Builders Model.Embed Model.Bundle
  Model.Dds Model.Handlers Model.Inspect Model.Cli Model.EndianTest Model.BigEndian Model.BeTransform Model.BeFiles Model.EndianTool.
From Verif Require Import Spec.Layout Spec.Estimator Spec.Files Spec.Dds Spec.Cli Spec.BigEndian Spec.BeFiles Spec.EndianTest Spec.EndianTool.
From Verif Require Import Proofs.CliFacts Proofs.EndianToolFacts Proofs.EndianToolMore.
From Verif Require Import Props.PDds Props.PBeFiles.
From Coq Require Import String Sorting.Sorted.
Open Scope list_scope.
Open Scope Z_scope.

(** The released tool on a little-endian machine [c] and on a big-endian one, both
    working on a file called [name]. *)
Definition little {St Er} show c v ext name o0 o ou rd w : machine := tool_machine (St := St) (Er := Er) ext (all_handlers show c v) (all_inspectors false v) name o0 o ou rd w.
Definition big {St Er} show j v ext name o0 o ou rd w : machine :=
  tool_machine (St := St) (Er := Er) ext (be_all_handlers show (big_endian_cpu false j) v) (all_inspectors false v) name o0 o ou rd w.
(** A machine on which nothing gets in the way. *)
Definition nothing_fails (ext : path -> option string) (name : string) (o0 : io) (o : stable_variant -> bool -> io) (ou : string -> io) (rd : nat -> option Z) : Prop :=
  (forall dir, dds_named (ext (join dir name)) = true) /\ all_works o0 /\ (forall v s, all_works (o v s)) /\ (forall m, all_works (ou m)) /\ full_reads rd.

(** C75: on files with all the bytes of their BC1 or BC2 texture the check passes
    whatever the bytes are: a failure tells of a broken machine or file. *)
Theorem C75_passes : forall (St1 Er1 St2 Er2 : Type) (show1 : Er1 -> string) (show2 : Er2 -> string) (c : cfg) (j : byte) (v1 v2 : env)
    (ext1 ext2 : path -> option string) (name : string) (o01 o02 : io) (o1 o2 : stable_variant -> bool -> io) (ou1 ou2 : string -> io)
    (rd1 rd2 : nat -> option Z) (w1 : St1) (w2 : St2) (tests : list (list byte)),
  supported c -> c_debug c = false -> 2 ^ 32 + 147 <= usize_max v1 -> 2 ^ 32 + 147 <= usize_max v2 -> file_name name ->
  nothing_fails ext1 name o01 o1 ou1 rd1 -> nothing_fails ext2 name o02 o2 ou2 rd2 ->
  (forall x, In x tests -> (exists k i, whole_file k x i) /\ zlen x <= usize_max v1 /\ zlen x <= usize_max v2) ->
  handle_debug_command (little show1 c v1 ext1 name o01 o1 ou1 rd1 w1) (big show2 j v2 ext2 name o02 o2 ou2 rd2 w2) tests = Ok (ROk tt).
Proof.
  intros St1 Er1 St2 Er2 show1 show2 c j v1 v2 ext1 ext2 name o01 o02 o1 o2 ou1 ou2 rd1 rd2 w1 w2 tests K D U1 U2 FN (X1 & A1 & B1 & C1 & R1) (X2 & A2 & B2 & C2 & R2).
  exact (tool_passes show1 show2 c j v1 v2 ext1 ext2 name o01 o02 o1 o2 ou1 ou2 rd1 rd2 w1 w2 K D U1 U2 X1 X2 FN A1 A2 B1 B2 C1 C2 R1 R2 tests).
Qed.
Print Assumptions C75_passes.

(** C75: what the two tools leave behind: the same file on both sides, in the
    layout of the setting without decorrelation and split (the first one tried),
    and the file itself after restoring. *)
Theorem C75_written : forall (St1 Er1 St2 Er2 : Type) (show1 : Er1 -> string) (show2 : Er2 -> string) (c : cfg) (j : byte) (v1 v2 : env)
    (ext1 ext2 : path -> option string) (name : string) (o01 o02 : io) (o1 o2 : stable_variant -> bool -> io) (ou1 ou2 : string -> io)
    (rd1 rd2 : nat -> option Z) (w1 : St1) (w2 : St2) (k : codec) (x : list byte) (i : dds_info),
  supported c -> c_debug c = false -> 2 ^ 32 + 147 <= usize_max v1 -> 2 ^ 32 + 147 <= usize_max v2 -> file_name name ->
  nothing_fails ext1 name o01 o1 ou1 rd1 -> nothing_fails ext2 name o02 o2 ou2 rd2 ->
  whole_file k x i -> zlen x <= usize_max v1 -> zlen x <= usize_max v2 ->
  let le := little show1 c v1 ext1 name o01 o1 ou1 rd1 w1 in let be := big show2 j v2 ext2 name o02 o2 ou2 rd2 w2 in
  let off := i_data_offset i in let n := i_data_length i in
  let y := u32_bytes (codec_header k (Settings VNone false)) ++ slice x 4 (off - 4) ++ texture_layout k (Settings VNone false) (slice x off n) ++
           slice x (off + n) (zlen x - (off + n)) in
  exists dl db rl rb, run_transform le x = ROk (true, dl) /\ run_transform be x = ROk (true, db) /\
    run_untransform le dl = ROk (true, rl) /\ run_untransform be db = ROk (true, rb) /\
    only_file name y dl /\ only_file name y db /\ only_file name x rl /\ only_file name x rb.
Proof.
  intros St1 Er1 St2 Er2 show1 show2 c j v1 v2 ext1 ext2 name o01 o02 o1 o2 ou1 ou2 rd1 rd2 w1 w2 k x i K D U1 U2 FN (X1 & A1 & B1 & C1 & R1) (X2 & A2 & B2 & C2 & R2) WF L1 L2.
  destruct (tool_single show1 show2 c j v1 v2 ext1 ext2 name o01 o02 o1 o2 ou1 ou2 rd1 rd2 w1 w2 K D U1 U2 X1 X2 FN A1 A2 B1 B2 C1 C2 R1 R2 k x i WF L1 L2)
    as (dl & db & rl & rb & T1 & T2 & T3 & T4 & F1 & F2 & F3 & F4 & _).
  exists dl, db, rl, rb. split; [exact T1|]. split; [exact T2|]. split; [exact T3|]. split; [exact T4|]. split; [exact F1|]. split; [exact F2|]. split; [exact F3|exact F4].
Qed.
Print Assumptions C75_written.

Definition good : io := Io (fun _ => true) (fun _ => true) (fun _ => true) (fun _ _ _ => x00).
Definition le_tool : machine := little (St := unit) (Er := unit) (fun _ => EmptyString) cpu env64 (fun _ => Some "dds"%string) "a.dds" good (fun _ _ => good) (fun _ => good) (fun _ => Some 65536) tt.
Definition be_tool : machine := big (St := unit) (Er := unit) (fun _ => EmptyString) x00 env64 (fun _ => Some "dds"%string) "a.dds" good (fun _ _ => good) (fun _ => good) (fun _ => Some 65536) tt.
Example C75_passes_case : nothing_fails (fun _ => Some "dds"%string) "a.dds" good (fun _ _ => good) (fun _ => good) (fun _ => Some 65536) /\ file_name "a.dds" /\
  (exists i1, whole_file CBc1 file1 i1) /\ (exists i2, whole_file CBc2 file2 i2) /\ handle_debug_command le_tool be_tool [file1; file2] = Ok (ROk tt).
Proof.
  assert (W1 : exists i1, whole_file CBc1 file1 i1) by (eexists; split; [vm_compute; reflexivity|]; split; [reflexivity|]; split; [vm_compute; discriminate|reflexivity]).
  assert (W2 : exists i2, whole_file CBc2 file2 i2) by (eexists; split; [vm_compute; reflexivity|]; split; [reflexivity|]; split; [vm_compute; discriminate|reflexivity]).
  assert (N : nothing_fails (fun _ => Some "dds"%string) "a.dds" good (fun _ _ => good) (fun _ => good) (fun _ => Some 65536)).
  { split; [reflexivity|]. split; [intros p; repeat split|]. split; [intros v s p; repeat split|]. split; [intros m p; repeat split|]. intros n. exists 65536. split; [reflexivity|discriminate]. }
  assert (F : file_name "a.dds") by (split; [discriminate|repeat (split; [discriminate|]); exact I]).
  split; [exact N|]. split; [exact F|]. split; [exact W1|]. split; [exact W2|].
  apply C75_passes; try exact N; try exact F; [exact cpu_supported|reflexivity|discriminate|discriminate|].
  intros x [<-|[<-|[]]]; (split; [|split; discriminate]); [exists CBc1; exact W1|exists CBc2; exact W2].
Qed.

(** C75: which files are tested: those the directory shows that are worth it, each
    once, in the order of their names. *)
Theorem C75_test_files : forall (ext : path -> option string) (v : env) (o : io) (assets : components) (t : tree) (fs : files),
  exists l, get_test_files ext (all_inspectors false v) o assets t fs = Ok l /\
    (forall p, In p l <-> (exists r, p = assets ++ r /\ visible t r) /\ worth_testing ext o fs p) /\
    StronglySorted by_name l /\ (real_tree t -> NoDup l).
Proof. exact test_files_spec. Qed.
Print Assumptions C75_test_files.
Example C75_test_files_case :
  let t := Folder (Some [Some ("z.DDS"%string, Leaf); None; Some ("b.txt"%string, Leaf); Some ("sub"%string, Folder (Some [Some ("a.dds"%string, Leaf); Some ("c.dds"%string, Leaf)]))]) in
  let fs p := if String.eqb p "/assets/sub/c.dds" then Some file3 else if String.eqb p "/assets/sub/a.dds" then Some file2 else Some file1 in
  get_test_files (fun _ => Some "dds"%string) (all_inspectors false env64) good ["assets"%string] t fs = Ok [["assets"; "sub"; "a.dds"]; ["assets"; "z.DDS"]]%string.
Proof. vm_compute. reflexivity. Qed.

(** C75, refuted: passing says nothing of the other settings. These two machines
    pass on a file that each of them, with any setting that decorrelates (as the
    default does), transforms into one the other does not restore. *)
Theorem C75_portable_refuted : forall (k : codec) (s : settings), decorrelation_mode s <> VNone ->
  let t := installed [WithManual k (ManualBuilder s)] : bundle unit unit in
  exists x y z y' z', handle_debug_command le_tool be_tool [x] = Ok (ROk tt) /\
    dds_transform_bundle (fun _ => EmptyString) cpu env64 t x x tt = Ok (ROk tt, y, tt) /\
    be_dds_untransform (be false) env64 y y = Ok (ROk tt, z) /\ z <> x /\
    be_dds_transform_bundle (fun _ => EmptyString) (be false) env64 t x x tt = Ok (ROk tt, y', tt) /\
    dds_untransform cpu env64 y' y' = Ok (ROk tt, z') /\ z' <> x.
Proof.
  intros k s HV. cbv zeta.
  assert (P : forall k x, (exists i, whole_file k x i) -> zlen x <= 2 ^ 64 - 1 -> handle_debug_command le_tool be_tool [x] = Ok (ROk tt)).
  { intros k' x W L. destruct C75_passes_case as (N & F & _). apply C75_passes; try exact N; try exact F; [exact cpu_supported|reflexivity|discriminate|discriminate|].
    intros x' [<-|[]]. split; [exists k'; exact W|]. split; exact L. }
  assert (P1 : handle_debug_command le_tool be_tool [sample_header (four "DXT1") 4 4 1 ++ numbers 8] = Ok (ROk tt)).
  { apply (P CBc1); [eexists; split; [vm_compute; reflexivity|]; split; [reflexivity|]; split; [vm_compute; discriminate|reflexivity]|discriminate]. }
  assert (P2 : handle_debug_command le_tool be_tool [file2] = Ok (ROk tt)).
  { apply (P CBc2); [eexists; split; [vm_compute; reflexivity|]; split; [reflexivity|]; split; [vm_compute; discriminate|reflexivity]|discriminate]. }
  clear P. destruct s as [v sp]. cbn [decorrelation_mode] in HV.
  exists (match k with CBc1 => sample_header (four "DXT1") 4 4 1 ++ numbers 8 | CBc2 => file2 end).
  destruct k, v; try congruence; destruct sp; do 4 eexists;
    (split; [first [exact P1|exact P2]|]);
    (split; [vm_compute; reflexivity|]); (split; [vm_compute; reflexivity|]); (split; [intros Q; vm_compute in Q; discriminate Q|]);
    (split; [vm_compute; reflexivity|]); (split; [vm_compute; reflexivity|]); intros Q; vm_compute in Q; discriminate Q.
Qed.
Print Assumptions C75_portable_refuted.

(** C75: on machines where nothing gets in the way the verdict is exact. The check
    passes if all the files are whole; otherwise the command fails, and says that
    tests failed. *)
Theorem C75_verdict : forall (St1 Er1 St2 Er2 : Type) (show1 : Er1 -> string) (show2 : Er2 -> string) (c : cfg) (j : byte) (v1 v2 : env)
    (ext1 ext2 : path -> option string) (name : string) (o01 o02 : io) (o1 o2 : stable_variant -> bool -> io) (ou1 ou2 : string -> io)
    (rd1 rd2 : nat -> option Z) (w1 : St1) (w2 : St2) (tests : list (list byte)),
  supported c -> c_debug c = false -> 2 ^ 32 + 147 <= usize_max v1 -> 2 ^ 32 + 147 <= usize_max v2 -> file_name name ->
  nothing_fails ext1 name o01 o1 ou1 rd1 -> nothing_fails ext2 name o02 o2 ou2 rd2 ->
  (forall x, In x tests -> zlen x <= usize_max v1 /\ zlen x <= usize_max v2) ->
  let verdict := handle_debug_command (little show1 c v1 ext1 name o01 o1 ou1 rd1 w1) (big show2 j v2 ext2 name o02 o2 ou2 rd2 w2) tests in
  (verdict = Ok (ROk tt) /\ forall x, In x tests -> exists k i, whole_file k x i) \/
  (verdict = Ok (RErr TestsFailed) /\ exists x, In x tests /\ ~ exists k i, whole_file k x i).
Proof.
  intros St1 Er1 St2 Er2 show1 show2 c j v1 v2 ext1 ext2 name o01 o02 o1 o2 ou1 ou2 rd1 rd2 w1 w2 tests K D U1 U2 FN (X1 & A1 & B1 & C1 & R1) (X2 & A2 & B2 & C2 & R2).
  exact (verdict show1 show2 c j v1 v2 ext1 ext2 name o01 o02 o1 o2 ou1 ou2 rd1 rd2 w1 w2 K D U1 U2 X1 X2 FN A1 A2 B1 B2 C1 C2 R1 R2 tests).
Qed.
Print Assumptions C75_verdict.
(** A BC3 file, a text and a file that was cut off each make the command fail. *)
Example C75_verdict_case : handle_debug_command le_tool be_tool [file1; file3] = Ok (RErr TestsFailed) /\
  handle_debug_command le_tool be_tool [list_byte_of_string "no texture"; file2] = Ok (RErr TestsFailed) /\
  handle_debug_command le_tool be_tool [firstn 150 file1] = Ok (RErr TestsFailed).
Proof.
  assert (V : forall tests x, (forall x, In x tests -> zlen x <= 2 ^ 64 - 1) -> In x tests -> (match parse_dds false x with Ok (Some i) => i_format i <> DBC1 /\ i_format i <> DBC2 \/ i_data_offset i + i_data_length i > zlen x | _ => True end) ->
    handle_debug_command le_tool be_tool tests = Ok (RErr TestsFailed)).
  { intros tests x L Hx Bad. destruct C75_passes_case as (N & F & _).
    destruct (C75_verdict unit unit unit unit (fun _ => EmptyString) (fun _ => EmptyString) cpu x00 env64 env64 (fun _ => Some "dds"%string) (fun _ => Some "dds"%string) "a.dds"
      good good (fun _ _ => good) (fun _ _ => good) (fun _ => good) (fun _ => good) (fun _ => Some 65536) (fun _ => Some 65536) tt tt tests) as [(_ & A)|(E & _)];
      [exact cpu_supported|reflexivity|discriminate|discriminate|exact F|exact N|exact N|intros y Hy; split; exact (L y Hy)| |exact E].
    exfalso. destruct (A x Hx) as (k & i & P & Fm & Le & _). rewrite P in Bad. destruct Bad as [(B1 & B2)|B]; [destruct k; [exact (B1 Fm)|exact (B2 Fm)]|apply Z.gt_lt in B; apply Z.lt_nge in B; exact (B Le)]. }
  assert (Small : forall x : list byte, zlen x <=? 2 ^ 64 - 1 = true -> zlen x <= 2 ^ 64 - 1) by (intros x; apply Z.leb_le).
  split; [|split].
  - apply (V _ file3); [intros x [<-|[<-|[]]]; apply Small; vm_compute; reflexivity|right; left; reflexivity|vm_compute; left; split; discriminate].
  - apply (V _ (list_byte_of_string "no texture")); [intros x [<-|[<-|[]]]; apply Small; vm_compute; reflexivity|left; reflexivity|vm_compute; exact I].
  - apply (V _ (firstn 150 file1)); [intros x [<-|[]]; apply Small; vm_compute; reflexivity|left; reflexivity|vm_compute; right; reflexivity].
Qed.

(** C75: for anything but a BC1 or BC2 texture the tool fails and makes no file. *)
Theorem C75_nothing_made : forall (St Er : Type) (show : Er -> string) (c : cfg) (v : env) (ext : path -> option string) (name : string)
    (o0 : io) (o : stable_variant -> bool -> io) (ou : string -> io) (rd : nat -> option Z) (w : St) (x : list byte),
  ~ (has_magic x = true /\ complete_headers x = true /\ (stated_format x = DBC1 \/ stated_format x = DBC2)) ->
  exists d, run_transform (little show c v ext name o0 o ou rd w) x = ROk (false, d) /\ d_tree d = Folder (Some []) /\ forall n, on_disk (d_file d [n]) = None.
Proof. exact (@nothing_made). Qed.
Print Assumptions C75_nothing_made.
Example C75_nothing_made_case : ~ (has_magic file3 = true /\ complete_headers file3 = true /\ (stated_format file3 = DBC1 \/ stated_format file3 = DBC2)).
Proof. intros (_ & _ & [Q|Q]); vm_compute in Q; discriminate Q. Qed.

(** C75: a directory with any number of transformed files: each is restored under
    its own name in the output directory, and nothing else is touched. Folders in
    the directory are passed over. *)
Theorem C75_directory_restored : forall (St1 Er1 St2 Er2 : Type) (show1 : Er1 -> string) (show2 : Er2 -> string) (c1 c2 : cfg) (v1 v2 : env)
    (b : string -> bundle St1 Er1) (ext : path -> option string) (ou : string -> io) (input_dir output_dir : string)
    (es : list (option (string * tree))) (fs : files) (w : St2) (orig : string -> list byte),
  supported c1 -> supported c2 -> c_debug c1 = false -> c_debug c2 = false -> 2 ^ 32 - 1 <= usize_max v1 ->
  (forall m, all_works (ou m)) -> input_dir <> output_dir ->
  (forall e, In e es -> exists n t, e = Some (n, t) /\ file_name n) ->
  (forall n, In (Some (n, Leaf)) es -> dds_named (ext (join input_dir n)) = true /\ zlen (orig n) <= usize_max v2 /\
     exists y out st st', fs (join input_dir n) = Some y /\ zlen out = zlen (orig n) /\ dds_transform_bundle show1 c1 v1 (b n) (orig n) out st = Ok (ROk tt, y, st')) ->
  exists fs', handle_untransform_single_file ext (all_handlers show2 c2 v2) ou input_dir output_dir (Folder (Some es)) fs w = Ok (ROk tt, fs', w) /\
    (forall n, In (Some (n, Leaf)) es -> fs' (join output_dir n) = Some (orig n)) /\
    (forall p, (forall n, In (Some (n, Leaf)) es -> p <> join output_dir n) -> fs' p = fs p).
Proof. exact directory_restored. Qed.
Print Assumptions C75_directory_restored.
(** Two files and a folder. *)
Example C75_directory_restored_case :
  let pack k x := match dds_transform_bundle (St := unit) (Er := unit) (fun _ => EmptyString) cpu env64 (installed [WithManual k (ManualBuilder (Settings V2 true))]) x x tt with Ok (ROk _, y, _) => y | _ => [] end in
  let fs p := if String.eqb p "in/a" then Some (pack CBc1 file1) else if String.eqb p "in/b" then Some (pack CBc2 file2) else None in
  exists fs', handle_untransform_single_file (St := unit) (Er := unit) (fun _ => None) (all_handlers (fun _ => EmptyString) cpu env64) (fun _ => good) "in" "out"
    (Folder (Some [Some ("a"%string, Leaf); Some ("sub"%string, Folder None); Some ("b"%string, Leaf)])) fs tt = Ok (ROk tt, fs', tt) /\
    fs' "out/a"%string = Some file1 /\ fs' "out/b"%string = Some file2 /\ fs' "out/sub"%string = None.
Proof.
  cbv zeta. set (pack := fun k x => match dds_transform_bundle _ _ _ _ _ _ _ with Ok (ROk _, y, _) => y | _ => [] end). set (fs := fun p => if String.eqb p "in/a" then _ else _).
  destruct (C75_directory_restored unit unit unit unit (fun _ => EmptyString) (fun _ => EmptyString) cpu cpu env64 env64
    (fun n => if String.eqb n "a" then installed [WithManual CBc1 (ManualBuilder (Settings V2 true))] else installed [WithManual CBc2 (ManualBuilder (Settings V2 true))])
    (fun _ => None) (fun _ => good) "in" "out" [Some ("a"%string, Leaf); Some ("sub"%string, Folder None); Some ("b"%string, Leaf)] fs tt
    (fun n => if String.eqb n "a" then file1 else file2)) as (fs' & E & R & O).
  - exact cpu_supported.
  - exact cpu_supported.
  - reflexivity.
  - reflexivity.
  - discriminate.
  - intros m p. split; [reflexivity|]. split; reflexivity.
  - discriminate.
  - intros e [<-|[<-|[<-|[]]]]; do 2 eexists; (split; [reflexivity|]); (split; [discriminate|repeat (split; [discriminate|]); exact I]).
  - intros n [Q|[Q|[Q|[]]]]; [|discriminate Q|]; injection Q as <-; (split; [reflexivity|]); (split; [vm_compute; discriminate|]).
    + exists (pack CBc1 file1), file1, tt, tt. split; [reflexivity|]. split; [reflexivity|]. vm_compute. reflexivity.
    + exists (pack CBc2 file2), file2, tt, tt. split; [reflexivity|]. split; [reflexivity|]. vm_compute. reflexivity.
  - exists fs'. split; [exact E|]. split; [apply (R "a"%string); left; reflexivity|]. split; [apply (R "b"%string); right; right; left; reflexivity|].
    rewrite O; [reflexivity|]. intros n [Q|[Q|[Q|[]]]]; [|discriminate Q|]; injection Q as <-; discriminate.
Qed.
