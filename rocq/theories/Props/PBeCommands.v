(** C88 on big-endian machines; its other theorems hold there as they are, for they are about any handlers. *)
From Verif Require Import Base.Bytes Base.Res Model.Kernel Model.Transform Model.Auto Model.Builders Model.Bundle Model.Dds Model.Handlers Model.Zstd Model.Cli Model.Commands Model.BigEndian Model.BeTransform Model.BeFiles Model.EndianTool
  Spec.Files Spec.Dds Spec.Cli Spec.Commands Spec.BigEndian Spec.BeFiles Proofs.CliFacts Proofs.CliRuns Proofs.CliDds Proofs.CliExamples Proofs.CommandsDisk Proofs.CommandsRuns Proofs.BigEndianFacts Proofs.BeCommands Props.PDds Props.PCommands.
From Coq Require Import String.
Open Scope string_scope.
Open Scope list_scope.
Open Scope Z_scope.

(** A command on directories that are apart comes to an end, and not by a crash (in a debug build, if no file states sizes that overflow; a
    stated empty texture does no harm here). *)
Theorem C88_be_commands_end : forall (St Er E : Type) (utf8 : string -> bool) (show : Er -> string) (debug : bool) (junk : byte) (v : env) (built : result (command (bundle St Er)) E)
    (may : components -> bool) (I O : components) (first : bool) (d : disk) (w : St),
  2 ^ 32 + 147 <= usize_max v -> real_disk d -> Forall file_name I -> Forall file_name O -> apart I O ->
  (debug = true -> forall r x, find d (I ++ r) = Some (File x) -> levels_fit x) ->
  let hs := be_all_handlers show (big_endian_cpu debug junk) v in
  (exists e fs ts, command_ends utf8 built hs may I O first d e fs ts) /\
  (forall e fs ts, command_ends utf8 built hs may I O first d e fs ts -> e <> Crashed).
Proof.
  intros St Er E utf8 show b j v built may I O first d w U R NI NO A H hs.
  split; [exact (be_can_end utf8 show (big_endian_cpu b j) v built may I O first d w (big_endian_ok b j) U R NI NO A H)|].
  intros e fs ts X. exact (be_no_crash utf8 show (big_endian_cpu b j) v built may I O first d e fs ts (big_endian_ok b j) U R NI NO A H X).
Qed.
Print Assumptions C88_be_commands_end.

(** There and back. *)
Theorem C88_be_round_trip : forall (St1 Er1 E1 St2 Er2 E2 : Type) (utf8 : string -> bool) (show1 : Er1 -> string) (show2 : Er2 -> string) (b1 b2 : bool) (j1 j2 : byte) (v1 v2 : env)
    (b : bundle St1 Er1) (may1 may2 : components -> bool) (I O R : components) (first1 first2 : bool) (d1 d2 : disk) e1 e2 (fs1 fs2 : files) ts1 ts2 (r : components) (x : list byte) (n : Z),
  2 ^ 32 - 1 <= usize_max v1 -> zlen x <= usize_max v2 -> (b2 = true -> b1 = false -> levels_fit x) ->
  real_disk d1 -> real_disk d2 -> Forall file_name I -> Forall file_name O -> Forall file_name R -> apart I O -> apart O R ->
  command_ends utf8 (ROk (TransformDir b) : result _ E1) (be_all_handlers show1 (big_endian_cpu b1 j1) v1) may1 I O first1 d1 e1 fs1 ts1 ->
  find d1 (I ++ r) = Some (File x) -> In (I ++ r, Counted n) ts1 ->
  (forall q, files_on d2 q = fs1 q) ->
  command_ends utf8 (ROk UntransformDir : result _ E2) (be_all_handlers show2 (big_endian_cpu b2 j2) v2 : list (handler (bundle St2 Er2) St2)) may2 O R first2 d2 e2 fs2 ts2 -> e2 <> Failed ->
  exists ph, In (O ++ r, ph) ts2 /\
    ((exists k, ph = Counted k) /\ fs2 (render (R ++ r)) = Some x \/ ph = Returned (RErr CIo) \/ ph = Returned (RErr (CFile FIo))).
Proof.
  intros St1 Er1 E1 St2 Er2 E2 utf8 show1 show2 b1 b2 j1 j2 v1 v2 b may1 may2 I O R first1 first2 d1 d2 e1 e2 fs1 fs2 ts1 ts2 r x n.
  exact (be_disk_round_trip St1 Er1 E1 St2 Er2 E2 utf8 show1 show2 (big_endian_cpu b1 j1) (big_endian_cpu b2 j2) v1 v2 b may1 may2 I O R first1 first2 d1 d2 e1 e2 fs1 fs2 ts1 ts2 r x n (big_endian_ok b1 j1) (big_endian_ok b2 j2)).
Qed.
Print Assumptions C88_be_round_trip.

(** A file there and back on disks. *)
Notation be_hs := (be_all_handlers (fun _ : Empty_set => "") (big_endian_cpu true x5a) env64).
Lemma be_one_command {E} (cmd : command (bundle unit Empty_set)) (I O : components) (d d1 : disk) fs1 total :
  apart I O -> Forall file_name I -> Forall file_name O -> parse_paths (fun _ => true) d [I; O] = (true, d1) -> find_all_files I (tree_at d1 I) = [I ++ ["a.dds"]] -> files_on d1 = files_on d ->
  process_files (fun _ => true) cmd be_hs I O false [(works, I ++ ["a.dds"])] (files_on d) tt 0 = Ok (total, fs1, tt) -> total <> 0 ->
  exists n, command_ends (fun _ => true) (ROk cmd : result _ E) be_hs (fun _ => true) I O true d Success fs1 [(I ++ ["a.dds"], Counted n)].
Proof.
  intros A NI NO P F Sm H Z. destruct (sequential _ _ _ _ _ _ _ _ _ _ _ _ H) as (s & R & <- & T & Fin). cbn [map snd] in R.
  assert (X : exists n, s_tasks s = [(I ++ ["a.dds"], Counted n)]).
  { destruct (explained _ _ _ _ _ _ _ _ A NO (alone_below I NI) R) as (_ & _ & Es & _ & Tot). destruct (s_tasks s) as [|[q ph] [|k l]]; try discriminate. injection Es as ->.
    assert (C : counted ph <> 0) by (intros C; apply Z; rewrite <- T, Tot; cbn [map snd]; rewrite C; reflexivity).
    destruct ph as [| | | | | | |[|]|n| |]; try (destruct (C eq_refl)). exists n. reflexivity. }
  destruct X as (n & Ts). exists n.
  assert (C : command_ends (fun _ => true) (ROk cmd : result _ E) be_hs (fun _ => true) I O true d Success (s_files s) (s_tasks s)); [|rewrite Ts in C; exact C].
  apply (ends_done _ _ _ _ _ _ _ _ d1 cmd s); [exact P | rewrite F; discriminate | reflexivity | rewrite F, Sm; apply runs_reachable; exact R|].
  rewrite Ts. constructor; [exact Logic.I | constructor].
Qed.
Example C88_be_round_trip_met : exists fs1 y n, y <> file1 /\ fs1 "/out/a.dds" = Some y /\
  command_ends (W := unit) (fun _ => true) (ROk (TransformDir low_preset_bundle) : result _ zstd_error) be_hs (fun _ => true) ["in"] ["out"] true
    (shelf_disk []) Success fs1 [(["in"; "a.dds"], Counted n)] /\
  exists fs2 k, fs2 "/back/a.dds" = Some file1 /\
  command_ends (B := bundle unit Empty_set) (W := unit) (fun _ => true) (ROk UntransformDir : result _ zstd_error) be_hs (fun _ => true) ["out"] ["back"] true
    (shelf_disk [("out", Dir [("a.dds", File y)])]) Success fs2 [(["out"; "a.dds"], Counted k)].
Proof.
  assert (P1 : exists fs1 y, y <> file1 /\ process_files (fun _ => true) (TransformDir low_preset_bundle) be_hs ["in"] ["out"] false
     [(works, ["in"; "a.dds"])] (files_on (shelf_disk [])) tt 0 = Ok (163, fs1, tt) /\ fs1 "/out/a.dds" = Some y /\
     exists fs2, process_files (fun _ => true) UntransformDir be_hs ["out"] ["back"] false
       [(works, ["out"; "a.dds"])] (files_on (shelf_disk [("out", Dir [("a.dds", File y)])])) tt 0 = Ok (163, fs2, tt) /\ fs2 "/back/a.dds" = Some file1).
  { do 2 eexists. split; [|split; [vm_compute; reflexivity|]; split; [vm_compute; reflexivity|]]; [vm_compute; discriminate|]. eexists. split; vm_compute; reflexivity. }
  destruct P1 as (fs1 & y & Ny & P1 & Fy & fs2 & P2 & Fx).
  assert (A1 : apart ["in"] ["out"]) by (split; intros r; discriminate). assert (A2 : apart ["out"] ["back"]) by (split; intros r; discriminate).
  destruct (be_one_command (E := zstd_error) (TransformDir low_preset_bundle) ["in"] ["out"] (shelf_disk []) (shelf_disk [("out", Dir [])]) fs1 163 A1 ltac:(names) ltac:(names)
    eq_refl eq_refl eq_refl P1 ltac:(discriminate)) as (n & C1).
  destruct (be_one_command (E := zstd_error) UntransformDir ["out"] ["back"] (shelf_disk [("out", Dir [("a.dds", File y)])]) (shelf_disk [("out", Dir [("a.dds", File y)]); ("back", Dir [])]) fs2 163
    A2 ltac:(names) ltac:(names) eq_refl eq_refl eq_refl P2 ltac:(discriminate)) as (k & C2).
  exists fs1, y, n. split; [exact Ny|]. split; [exact Fy|]. split; [exact C1|]. exists fs2, k. split; [exact Fx | exact C2].
Qed.
