(** C89 on big-endian machines: two runs of the command line tool at the same time.
    [C89_two_commands] and [C89_apart] (Props/PTwoCommands.v) hold of any handlers, so also of those here. *)
From Verif Require Import Base.Bytes Base.Res Model.Color565 Model.Kernel Model.Transform Model.Auto Model.Builders Model.Bundle Model.Dds Model.Handlers Model.Cli Model.TwoCommands
  Model.BigEndian Model.BeTransform Model.BeFiles Model.EndianTool.
From Verif Require Import Spec.Files Spec.Dds Spec.Cli Spec.TwoCommands.
From Verif Require Import Proofs.CliFacts Proofs.CliRuns Proofs.CliDds Proofs.CliExamples Proofs.TwoCommands Proofs.BigEndianFacts Proofs.BeCliDds Props.PDds.
From Coq Require Import Ascii String.
Open Scope string_scope.
Open Scope list_scope.
Open Scope Z_scope.

(** So a directory can be transformed while another is being restored: a file
    that the restoring run reports as done is the original, if the other run has
    not written it. *)
Theorem C89_be_restore_meanwhile : forall (St Er B W : Type) (utf8 : string -> bool) (show : Er -> string) (d : bool) (j : byte) (v : env) (cmd1 : command B) (hs1 : list (handler B W))
    (I1 O1 I2 O2 : components) (entries1 entries2 : list components) (fs : files) (s : both) (St0 Er0 : Type) (show0 : Er0 -> string) (d0 : bool) (j0 : byte) (v0 : env) (b0 : bundle St0 Er0)
    (I0 : components) (entries0 : list components) (fs0 : files) (s0 : state) (r : components) (x : list byte) ph0 n,
  2 ^ 32 - 1 <= usize_max v0 -> zlen x <= usize_max v ->
  (d = true -> d0 = false -> levels_fit x) ->
  apart I0 I2 -> apart I2 O2 -> Forall file_name I2 -> Forall file_name O2 -> files_below I0 entries0 -> files_below I2 entries2 ->
  (* earlier: the file was transformed from I0 into I2 *)
  reachable utf8 (TransformDir b0) (be_all_handlers show0 (big_endian_cpu d0 j0) v0) I0 I2 entries0 fs0 s0 -> fs0 (render (I0 ++ r)) = Some x -> In (I0 ++ r, ph0) (s_tasks s0) -> succeeded ph0 ->
  fs (render (I2 ++ r)) = s_files s0 (render (I2 ++ r)) ->
  (* now: one run from I1 into O1, and one restoring I2 into O2 *)
  out_of_the_way I1 O1 I2 O2 entries1 entries2 -> out_of_the_way I2 O2 I1 O1 entries2 entries1 ->
  both_run utf8 cmd1 UntransformDir hs1 (be_all_handlers show (big_endian_cpu d j) v : list (handler (bundle St Er) St)) I1 O1 I2 O2 (both_start entries1 entries2 fs) s ->
  In (I2 ++ r, Counted n) (b_tasks2 s) -> b_files s (render (O2 ++ r)) = Some x.
Proof.
  intros St Er B W utf8 show d j v cmd1 hs1 I1 O1 I2 O2 e1 e2 fs s St0 Er0 show0 d0 j0 v0 b0 I0 e0 fs0 s0 r x ph0 n U0 U D A0 A2 N2 NO2 F0 F2 R0 Fx T0 S0 Same X1 X2 R T.
  destruct (two_commands _ _ _ _ _ _ _ _ _ _ _ _ _ _ _ _ _ X1 X2 R) as (s1 & s2 & _ & R2 & _ & _ & T2 & _ & _ & A & _). rewrite T2 in T.
  rewrite A.
  - exact (proj1 (be_directory_round_trip utf8 show0 show (big_endian_cpu d0 j0) (big_endian_cpu d j) v0 v b0 I0 I2 O2 e0 e2 fs0 fs s0 s2 r x ph0 (Counted n) (big_endian_ok d0 j0) (big_endian_ok d j) U0 U D A0 A2 N2 NO2 F0 F2 R0 Fx T0 S0 Same R2 T) Logic.I).
  - exists r. split; [|right; reflexivity]. destruct R2 as (k & R2). rewrite <- (run_entries _ _ _ _ _ _ _ _ _ R2). apply in_map_iff. exists (I2 ++ r, Counted n). split; [reflexivity | exact T].
Qed.
Print Assumptions C89_be_restore_meanwhile.

(** Restoring a directory that is still being written is undefined behaviour: the
    restoring run maps a file that the other one then makes anew. *)
Definition be_pipeline : files := fun q => if String.eqb q "/in/a.dds" then Some file1 else if String.eqb q "/out/a.dds" then Some [x01] else None.
Lemma be_pipeline_undefined : exists s : both (B1 := bundle unit Empty_set) (W1 := unit) (B2 := bundle unit Empty_set) (W2 := unit),
  both_run (fun _ => true) (TransformDir low_preset_bundle) UntransformDir (be_all_handlers (fun _ : Empty_set => "") (big_endian_cpu true x5a) env64) (be_all_handlers (fun _ : Empty_set => "") (big_endian_cpu true x5a) env64)
    ["in"] ["out"] ["out"] ["back"] (both_start [["in"; "a.dds"]] [["out"; "a.dds"]] be_pipeline) s /\
  b_tasks2 s = [(["out"; "a.dds"], Undefined)].
Proof.
  set (cmd1 := TransformDir low_preset_bundle). set (hs := be_all_handlers (fun _ : Empty_set => "") (big_endian_cpu true x5a) env64).
  set (run2 := both_run (fun _ => true) cmd1 (UntransformDir (B := bundle unit Empty_set)) hs hs ["in"] ["out"] ["out"] ["back"] (both_start [["in"; "a.dds"]] [["out"; "a.dds"]] be_pipeline)).
  set (i := ["in"; "a.dds"]). set (o := ["out"; "a.dds"]). set (z := repeat x00 (List.length file1)).
  assert (First : forall fs ph ph2 fs1 k, run2 (Both fs [(i, ph)] 0 [(o, k)] 0) -> task_step (fun _ => true) cmd1 hs i (render i) (render o) false fs ph fs1 ph2 -> run2 (Both fs1 [(i, ph2)] 0 [(o, k)] 0)).
  { intros fs ph ph2 fs1 k R S. eapply both_more; [exact R|]. eapply first_steps. exact (step_task (fun _ => true) cmd1 hs ["in"] ["out"] _ _ _ [] i _ _ [] _ o eq_refl S). }
  assert (Second : forall fs ph ph2 fs1 k, run2 (Both fs [(i, k)] 0 [(o, ph)] 0) -> task_step (fun _ => true) UntransformDir hs o (render o) (render ["back"; "a.dds"]) false fs ph fs1 ph2 -> run2 (Both fs1 [(i, k)] 0 [(o, ph2)] 0)).
  { intros fs ph ph2 fs1 k R S. eapply both_more; [exact R|]. eapply second_steps. exact (step_task (fun _ => true) UntransformDir hs ["out"] ["back"] _ _ _ [] o _ _ [] _ ["back"; "a.dds"] eq_refl S). }
  assert (R0 : run2 (Both be_pipeline [(i, Waiting)] 0 [(o, Waiting)] 0)) by constructor.
  assert (R1 : run2 (Both be_pipeline [(i, Waiting)] 0 [(o, HasDirectory)] 0)) by (eapply Second; [exact R0 | apply step_directory]).
  assert (R2 : run2 (Both be_pipeline [(i, Waiting)] 0 [(o, Measured 0)] 0)) by (eapply Second; [exact R1 | apply step_no_metadata]).
  assert (R3 : run2 (Both be_pipeline [(i, Waiting)] 0 [(o, Choosing 0 [x01] hs)] 0)) by (eapply Second; [exact R2 | apply step_open; reflexivity]).
  assert (R4 : run2 (Both be_pipeline [(i, HasDirectory)] 0 [(o, Choosing 0 [x01] hs)] 0)) by (eapply First; [exact R3 | apply step_directory]).
  assert (R5 : run2 (Both be_pipeline [(i, Measured 0)] 0 [(o, Choosing 0 [x01] hs)] 0)) by (eapply First; [exact R4 | apply step_no_metadata]).
  assert (R6 : run2 (Both be_pipeline [(i, Choosing 0 file1 hs)] 0 [(o, Choosing 0 [x01] hs)] 0)) by (eapply First; [exact R5 | apply step_open; reflexivity]).
  assert (R7 : run2 (Both be_pipeline [(i, Accepted 0 file1 (be_dds_handler (fun _ : Empty_set => "") (big_endian_cpu true x5a) env64))] 0 [(o, Choosing 0 [x01] hs)] 0)).
  { eapply First; [exact R6|]. unfold hs, be_all_handlers. apply (step_accepted _ _ _ _ _ _ _ _ _ _ _ tt tt); [reflexivity | vm_compute; reflexivity]. }
  assert (R8 : run2 (Both (update be_pipeline (render o) (Some z)) [(i, Created 0 file1 (be_dds_handler (fun _ : Empty_set => "") (big_endian_cpu true x5a) env64))] 0 [(o, Choosing 0 [x01] hs)] 0)).
  { eapply First; [exact R7|]. apply step_create. unfold z. vm_compute. reflexivity. }
  eexists. split; [eapply Second; [exact R8|] | reflexivity]. apply (step_input_changed _ _ _ _ _ _ _ _ [x01]); [reflexivity|]. rewrite update_same. discriminate.
Qed.
Theorem C89_be_pipeline_refuted : exists s : both (B1 := bundle unit Empty_set) (W1 := unit) (B2 := bundle unit Empty_set) (W2 := unit),
  both_run (fun _ => true) (TransformDir low_preset_bundle) UntransformDir (be_all_handlers (fun _ : Empty_set => "") (big_endian_cpu true x5a) env64) (be_all_handlers (fun _ : Empty_set => "") (big_endian_cpu true x5a) env64)
    ["in"] ["out"] ["out"] ["back"] (both_start [["in"; "a.dds"]] [["out"; "a.dds"]] be_pipeline) s /\
  b_tasks2 s = [(["out"; "a.dds"], Undefined)].
Proof. exact be_pipeline_undefined. Qed.
Print Assumptions C89_be_pipeline_refuted.

(** A run in which a file is restored beside another run. *)
Example C89_be_restore_meanwhile_met : exists (fs1 : files) (s0 : state) (s : both (B1 := bundle unit Empty_set) (W1 := unit) (B2 := bundle unit Empty_set) (W2 := unit)) ph0 n,
  reachable (fun _ => true) (TransformDir low_preset_bundle) (be_all_handlers (fun _ : Empty_set => "") (big_endian_cpu true x5a) env64) ["in"] ["out"] [["in"; "a.dds"]] two_files s0 /\
  In (["in"; "a.dds"], ph0) (s_tasks s0) /\ succeeded ph0 /\ fs1 "/out/a.dds" = s_files s0 "/out/a.dds" /\
  both_run (fun _ => true) (TransformDir low_preset_bundle) UntransformDir (be_all_handlers (fun _ : Empty_set => "") (big_endian_cpu true x5a) env64) (be_all_handlers (fun _ : Empty_set => "") (big_endian_cpu true x5a) env64)
    ["in"] ["more"] ["out"] ["back"] (both_start [["in"; "a.dds"]] [["out"; "a.dds"]] fs1) s /\ In (["out"; "a.dds"], Counted n) (b_tasks2 s).
Proof.
  assert (Alone : forall (St Er : Type) (show : Er -> string) (cmd : command (bundle St Er)) I O p fs (s : state (W := St)) total, apart I O -> Forall file_name O -> files_below I [p] ->
    reachable (fun _ => true) cmd (be_all_handlers show (big_endian_cpu true x5a) env64) I O [p] fs s -> Forall (fun k => finished (snd k)) (s_tasks s) -> s_total s = total -> total <> 0 ->
    exists n, s_tasks s = [(p, Counted n)]).
  { intros St Er show cmd I O p fs s total A N F R Fin T Z. destruct (explained _ _ _ _ _ _ _ _ A N F R) as (_ & _ & Es & _ & Tot). destruct (s_tasks s) as [|[q ph] [|k l]]; try discriminate. injection Es as ->.
    assert (C : counted ph <> 0) by (intros C; apply Z; rewrite <- T, Tot; cbn [map snd]; rewrite C; reflexivity).
    destruct ph as [| | | | | | |[|]|n| |]; try (destruct (C eq_refl)). exists n. reflexivity. }
  assert (Nm : forall d, d = "in" \/ d = "out" \/ d = "back" -> Forall file_name [d] /\ files_below [d] [[d; "a.dds"]]).
  { intros d Hd. assert (X : file_name d) by (destruct Hd as [-> | [-> | ->]]; split; [discriminate | repeat (split; [discriminate|]); exact Logic.I | discriminate | repeat (split; [discriminate|]); exact Logic.I | discriminate | repeat (split; [discriminate|]); exact Logic.I]).
    assert (Y : file_name "a.dds") by (split; [discriminate | repeat (split; [discriminate|]); exact Logic.I]).
    split; [constructor; [exact X | constructor]|]. split; [repeat constructor; intros []|]. constructor; [|constructor]. exists ["a.dds"]. split; [reflexivity|]. split; [discriminate|].
    constructor; [exact X|]. constructor; [exact Y | constructor]. }
  assert (P : exists fs1 fs2, process_files (fun _ => true) (TransformDir low_preset_bundle) (be_all_handlers (fun _ : Empty_set => "") (big_endian_cpu true x5a) env64) ["in"] ["out"] false
       [(works, ["in"; "a.dds"])] two_files tt 0 = Ok (163, fs1, tt) /\
     process_files (fun _ => true) UntransformDir (be_all_handlers (fun _ : Empty_set => "") (big_endian_cpu true x5a) env64) ["out"] ["back"] false [(works, ["out"; "a.dds"])] fs1 tt 0 = Ok (163, fs2, tt)).
  { do 2 eexists. split; [vm_compute; reflexivity|]. vm_compute. reflexivity. }
  destruct P as (fs1 & fs2 & P1 & P2).
  destruct (sequential _ _ _ _ _ _ _ _ _ _ _ _ P1) as (s1 & R1 & E1 & T1 & F1). destruct (sequential _ _ _ _ _ _ _ _ _ _ _ _ P2) as (s2 & R2 & E2 & T2 & F2). cbn [map snd] in R1, R2.
  destruct (Alone _ _ _ _ ["in"] ["out"] _ _ _ 163 ltac:(split; intros r; discriminate) (proj1 (Nm "out" ltac:(auto))) (proj2 (Nm "in" ltac:(auto))) R1 F1 T1 ltac:(discriminate)) as (n1 & Ts1).
  destruct (Alone _ _ _ _ ["out"] ["back"] _ _ _ 163 ltac:(split; intros r; discriminate) (proj1 (Nm "back" ltac:(auto))) (proj2 (Nm "out" ltac:(auto))) R2 F2 T2 ltac:(discriminate)) as (n2 & Ts2).
  exists fs1, s1. eexists. exists (Counted n1), n2. split; [exact R1|]. split; [rewrite Ts1; left; reflexivity|]. split; [exact Logic.I|]. split; [rewrite E1; reflexivity|].
  split; [apply second_alone; exact R2|]. cbn [b_tasks2]. rewrite Ts2. left. reflexivity.
Qed.
