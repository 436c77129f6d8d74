(** C77: the transform command, killed somewhere. *)
From Verif Require Import Base.Bytes Base.Res Model.Color565 Model.Kernel Model.Transform Model.Auto Model.Builders Model.Embed Model.Bundle Model.Dds Model.Handlers Model.Cli Model.Interrupted.
From Verif Require Import Spec.Layout Spec.Estimator Spec.Files Spec.Dds Spec.Cli Spec.Interrupted Proofs.BundleFacts Proofs.CliFacts Proofs.InterruptedFacts Proofs.KilledFacts.
From Verif Require Proofs.CliExamples.
From Verif Require Import Props.PDds.
From Coq Require Import String.
Open Scope string_scope.
Open Scope list_scope.
Open Scope Z_scope.

(** C77: whenever the released tool is killed while it transforms a directory,
    whatever the other tasks are doing, the output of each file is: as it was
    before the run; made, but all zeros; finished; or a file that no machine
    restores. Or the tool has reported an error for it. *)
Theorem C77_outputs : forall (St Er : Type) (utf8 : string -> bool) (show : Er -> string) (c : cfg) (v : env) (b : bundle St Er) (I O : components)
    (entries : list components) (before : files) (s : state (B := bundle St Er) (W := St)) (r : components) ph,
  supported c -> c_debug c = false -> 2 ^ 32 + 147 <= usize_max v ->
  apart I O -> Forall file_name O -> files_below I entries -> killed utf8 show c v b I O entries before s -> In (I ++ r, ph) (s_tasks s) ->
  let output := s_files s (render (O ++ r)) in
  output = before (render (O ++ r)) \/
  (exists x, before (render (I ++ r)) = Some x /\ output = Some (zeros (zlen x))) \/
  (exists x d w y w1, before (render (I ++ r)) = Some x /\ zlen d = zlen x /\ dds_transform_bundle show c v b x d w = Ok (ROk tt, y, w1) /\ output = Some y) \/
  (exists z, output = Some z /\ forall c2 v2 out o, dds_untransform c2 v2 z out <> Ok (ROk tt, o)) \/
  (exists e, ph = Returned (RErr (CFile e))).
Proof. exact (@killed_outputs). Qed.
Print Assumptions C77_outputs.

(** C77: so when the outputs of a killed run are restored, every file that is
    reported as restored is the original one, except those that the killed run
    had not begun to write, and those that it reported. *)
Theorem C77_restored : forall (St1 Er1 St2 Er2 : Type) (utf8 : string -> bool) (show1 : Er1 -> string) (show2 : Er2 -> string) (c1 c2 : cfg) (v1 v2 : env)
    (b : bundle St1 Er1) (I O R : components) (entries1 entries2 : list components) (fs1 fs2 : files)
    (s1 : state (B := bundle St1 Er1) (W := St1)) (s2 : state (B := bundle St2 Er2) (W := St2)) (r : components) (x : list byte) ph1 ph2,
  supported c1 -> supported c2 -> c_debug c1 = false -> c_debug c2 = false -> 2 ^ 32 + 147 <= usize_max v1 -> zlen x <= usize_max v2 ->
  apart I O -> apart O R -> Forall file_name O -> Forall file_name R -> files_below I entries1 -> files_below O entries2 ->
  killed utf8 show1 c1 v1 b I O entries1 fs1 s1 -> fs1 (render (I ++ r)) = Some x -> In (I ++ r, ph1) (s_tasks s1) ->
  fs2 (render (O ++ r)) = s_files s1 (render (O ++ r)) -> reachable utf8 UntransformDir (all_handlers show2 c2 v2) O R entries2 fs2 s2 ->
  In (O ++ r, ph2) (s_tasks s2) -> succeeded ph2 ->
  s_files s2 (render (R ++ r)) = Some x \/
  fs2 (render (O ++ r)) = fs1 (render (O ++ r)) \/ fs2 (render (O ++ r)) = Some (zeros (zlen x)) \/ exists e, ph1 = Returned (RErr (CFile e)).
Proof. exact (@killed_restored). Qed.
Print Assumptions C77_restored.

(** *** Runs of one file *)
Definition all_text (_ : string) : bool := true.
Definition low : list (handler (bundle unit Empty_set) unit) := all_handlers (fun _ => "") cpu env64.
Definition one : components := ["in"; "a.dds"].
Definition one_file (p : path) : option (list byte) := if String.eqb p "/in/a.dds" then Some file1 else None.
Notation killed_low := (killed all_text (fun _ : Empty_set => "") cpu env64 low_preset_bundle ["in"] ["out"] [one] one_file).

Lemma killed_more : forall s1 fs2 ph ph2 partial,
  killed_low s1 -> s_tasks s1 = [(one, ph)] -> s_total s1 = 0 ->
  task_step all_text (TransformDir low_preset_bundle) low one "/in/a.dds" "/out/a.dds" partial (s_files s1) ph fs2 ph2 ->
  match ph2 with
  | Created _ x _ => fs2 "/out/a.dds" = Some (zeros (zlen x))
  | Working _ x _ d now => d = zeros (zlen x) /\ exists w ws, dds_transform_writes (fun _ : Empty_set => "") cpu env64 low_preset_bundle x d w = Ok ws /\ left_in_order ws d now
  | _ => True
  end -> killed_low (State fs2 [(one, ph2)] 0).
Proof.
  intros [fs1 ts tot] fs2 ph ph2 partial K E Et S H. cbn [s_tasks s_total s_files] in *. subst ts tot. eapply killed_later; [exact K| |].
  - exact (step_task all_text (TransformDir low_preset_bundle) low ["in"] ["out"] partial fs1 fs2 [] one ph ph2 [] 0 ["out"; "a.dds"] eq_refl S).
  - intros r ph' [Q|[]]. injection Q as <- <-. exact H.
Qed.
Lemma killed_created : killed_low (State (update one_file "/out/a.dds" (Some (zeros (zlen file1)))) [(one, Created (zlen file1) file1 (dds_handler (fun _ => "") cpu env64))] 0).
Proof.
  assert (A : accepts all_text (TransformDir low_preset_bundle) (dds_handler (fun _ : Empty_set => "") cpu env64) file1 one tt = Ok (true, tt)) by (vm_compute; reflexivity).
  pose proof (killed_first all_text (fun _ : Empty_set => "") cpu env64 low_preset_bundle ["in"] ["out"] [one] one_file) as R0.
  pose proof (killed_more _ _ _ _ _ R0 eq_refl eq_refl (step_directory _ _ _ _ _ _ _) Logic.I) as R1.
  pose proof (killed_more _ _ _ _ _ R1 eq_refl eq_refl (step_metadata _ _ _ _ _ _ _ file1 eq_refl) Logic.I) as R2.
  pose proof (killed_more _ _ _ _ _ R2 eq_refl eq_refl (step_open _ _ _ _ _ _ _ _ file1 eq_refl) Logic.I) as R3.
  pose proof (killed_more _ _ _ _ _ R3 eq_refl eq_refl (step_accepted _ _ _ _ _ _ _ _ _ _ _ _ _ eq_refl A) Logic.I) as R4.
  assert (Z : zlen (zeros (zlen file1)) = zlen file1) by (vm_compute; reflexivity).
  refine (killed_more _ _ _ _ _ R4 eq_refl eq_refl (step_create _ _ _ _ _ _ _ _ _ _ (zeros (zlen file1)) Z) _). reflexivity.
Qed.
(** A run that is killed when the headers are copied and the texture is not, and
    one that is killed at the end. *)
Example C77_cases : apart ["in"] ["out"] /\ files_below ["in"] [one] /\
  (exists n x h d now fs, killed_low (State fs [(one, Working n x h d now)] 0) /\ fs "/out/a.dds" = Some now /\ now <> d /\ firstn 128 now = firstn 128 file1) /\
  (exists fs y, killed_low (State fs [(one, Returned (ROk 163))] 0) /\ fs "/out/a.dds" = Some y /\ y <> file1 /\ dds_untransform cpu env64 y (zeros 163) = Ok (ROk tt, file1)).
Proof.
  split; [split; intros [|a r] Q; discriminate Q|]. split.
  { split; [constructor; [intros []|constructor]|]. constructor; [|constructor]. exists ["a.dds"]. split; [reflexivity|]. split; [discriminate|]. repeat constructor; try discriminate. }
  assert (Z : zlen (zeros (zlen file1)) = zlen file1) by (vm_compute; reflexivity).
  assert (NE : "/in/a.dds" <> "/out/a.dds") by discriminate.
  assert (W : exists ws, dds_transform_writes (fun _ : Empty_set => "") cpu env64 low_preset_bundle file1 (zeros (zlen file1)) tt = Ok (Copying 0 (slice file1 0 128) :: ws)) by (eexists; vm_compute; reflexivity).
  destruct W as (ws & W). pose (now := splice (zeros (zlen file1)) 0 (slice file1 0 128)).
  assert (K : killed_low (State (update one_file "/out/a.dds" (Some (zeros (zlen file1)))) [(one, Working (zlen file1) file1 (dds_handler (fun _ => "") cpu env64) (zeros (zlen file1)) (zeros (zlen file1)))] 0)).
  { refine (killed_more _ _ _ _ _ killed_created eq_refl eq_refl (step_map _ _ _ _ _ _ _ _ _ _ (zeros (zlen file1)) NE eq_refl Z) _).
    split; [reflexivity|]. exists tt, (Copying 0 (slice file1 0 128) :: ws). split; [exact W|apply ordered_between]. }
  split.
  - do 4 eexists. exists now. eexists. split; [|split; [|split]].
    + assert (Zn : zlen now = zlen (zeros (zlen file1))) by (vm_compute; reflexivity).
      refine (killed_more _ _ _ _ _ K eq_refl eq_refl (step_write _ _ _ _ _ _ _ _ _ _ _ _ now eq_refl eq_refl Zn) _).
      split; [reflexivity|]. exists tt, (Copying 0 (slice file1 0 128) :: ws). split; [exact W|]. apply ordered_later, ordered_between.
    + reflexivity.
    + vm_compute. discriminate.
    + vm_compute. reflexivity.
  - assert (D : exists y, work (TransformDir low_preset_bundle) (dds_handler (fun _ : Empty_set => "") cpu env64) file1 (zeros (zlen file1)) tt = Ok (ROk tt, y, tt) /\
      y <> file1 /\ dds_untransform cpu env64 y (zeros 163) = Ok (ROk tt, file1)).
    { eexists. split; [vm_compute; reflexivity|]. split; [vm_compute; discriminate|vm_compute; reflexivity]. }
    destruct D as (y & D & Ny & Un). eexists. exists y. split; [|split; [|split; [exact Ny|exact Un]]].
    + exact (killed_more _ _ _ _ _ K eq_refl eq_refl (step_done _ _ _ _ _ _ _ _ _ _ _ _ _ _ _ eq_refl eq_refl D) Logic.I).
    + reflexivity.
Qed.

(** C77, refuted for the files of zeros: the tool is killed when it has made the
    output of a file; the untransform command then reports the file as restored,
    and what it has written is not the file that was being transformed. *)
Theorem C77_zeros_refuted : exists s1 s2 n z, killed_low s1 /\
  reachable all_text (UntransformDir (B := bundle unit Empty_set)) low ["out"] ["back"] [["out"; "a.dds"]] (s_files s1) s2 /\
  s_tasks s2 = [(["out"; "a.dds"], Returned (ROk n))] /\ s_files s2 "/back/a.dds" = Some z /\ z <> file1.
Proof.
  pose (fs := update one_file "/out/a.dds" (Some (zeros (zlen file1)))). pose (p := ["out"; "a.dds"]). pose (t := ["back"; "a.dds"]). pose (u := zeros (zlen file1)).
  assert (A : accepts all_text (UntransformDir (B := bundle unit Empty_set)) (dds_handler (fun _ : Empty_set => "") cpu env64) u p tt = Ok (true, tt)) by (vm_compute; reflexivity).
  assert (D : exists z, work (UntransformDir (B := bundle unit Empty_set)) (dds_handler (fun _ : Empty_set => "") cpu env64) u u tt = Ok (ROk tt, z, tt) /\ z <> file1).
  { eexists. split; [vm_compute; reflexivity|]. vm_compute. discriminate. }
  destruct D as (z & D & Nz). assert (Z : zlen u = zlen u) by reflexivity. assert (NE : render p <> render t) by (vm_compute; discriminate).
  assert (R0 : reachable all_text (UntransformDir (B := bundle unit Empty_set)) low ["out"] ["back"] [p] fs (start [p] fs)) by (exists 0%nat; constructor).
  pose proof (CliExamples.one_more _ _ _ _ _ _ _ _ _ [] p _ _ [] 0 t false R0 eq_refl eq_refl eq_refl (step_directory _ _ _ _ _ _ _)) as R1.
  pose proof (CliExamples.one_more _ _ _ _ _ _ _ _ _ [] p _ _ [] 0 t false R1 eq_refl eq_refl eq_refl (step_metadata _ _ _ _ _ _ _ u eq_refl)) as R2.
  pose proof (CliExamples.one_more _ _ _ _ _ _ _ _ _ [] p _ _ [] 0 t false R2 eq_refl eq_refl eq_refl (step_open _ _ _ _ _ _ _ _ u eq_refl)) as R3.
  pose proof (CliExamples.one_more _ _ _ _ _ _ _ _ _ [] p _ _ [] 0 t false R3 eq_refl eq_refl eq_refl (step_accepted _ _ _ _ _ _ _ _ _ _ _ _ _ eq_refl A)) as R4.
  pose proof (CliExamples.one_more _ _ _ _ _ _ _ _ _ [] p _ _ [] 0 t false R4 eq_refl eq_refl eq_refl (step_create _ _ _ _ _ _ _ _ _ _ u Z)) as R5.
  pose proof (CliExamples.one_more _ _ _ _ _ _ _ _ _ [] p _ _ [] 0 t false R5 eq_refl eq_refl eq_refl (step_map _ _ _ _ _ _ _ _ _ _ u NE eq_refl Z)) as R6.
  pose proof (CliExamples.one_more _ _ _ _ _ _ _ _ _ [] p _ _ [] 0 t false R6 eq_refl eq_refl eq_refl (step_done _ _ _ _ _ _ _ _ _ _ _ _ _ _ _ eq_refl eq_refl D)) as R7.
  exists (State fs [(one, Created (zlen file1) file1 (dds_handler (fun _ => "") cpu env64))] 0). eexists. exists (zlen u), z.
  split; [exact killed_created|]. split; [exact R7|]. split; [reflexivity|]. split; [reflexivity|exact Nz].
Qed.
Print Assumptions C77_zeros_refuted.
