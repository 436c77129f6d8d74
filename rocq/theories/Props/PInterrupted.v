(** C76: transforms that are stopped in the middle. *)
From Verif Require Import Base.Bytes Base.Res Model.Color565 Model.Kernel Model.Transform Model.Auto Model.Builders Model.Embed Model.Bundle Model.Dds Model.Handlers Model.Cli Model.Interrupted.
From Verif Require Import Spec.Layout Spec.Dds Spec.Cli Spec.Interrupted Proofs.CliFacts Proofs.InterruptedFacts.
From Verif Require Proofs.CliExamples.
From Verif Require Import Props.PDds.
From Coq Require Import String.
Open Scope string_scope.
Open Scope list_scope.
Open Scope Z_scope.

(** The lists of writes are those of the handler: done one after the other they
    give exactly its output. *)
Theorem C76_writes : forall (St Er : Type) (show : Er -> string) (c : cfg) (v : env) (t : bundle St Er) (x out : list byte) (st : St) r y st',
  dds_transform_bundle show c v t x out st = Ok (r, y, st') ->
  exists ws, dds_transform_writes show c v t x out st = Ok ws /\ y = fold_left (fun o w => written w o) ws out.
Proof. intros St Er show c v. exact (transform_writes_ok show c v). Qed.
Print Assumptions C76_writes.
Theorem C76_untransform_writes : forall (c : cfg) (v : env) (x out : list byte) r y, dds_untransform c v x out = Ok (r, y) ->
  exists ws, dds_untransform_writes c v x out = Ok ws /\ y = fold_left (fun o w => written w o) ws out.
Proof. exact untransform_writes_ok. Qed.
Print Assumptions C76_untransform_writes.

(** C76: wherever a transform that would succeed is stopped, it leaves the
    finished file, or one that no machine restores, or one whose texture and first
    byte are as they were (the copy of the headers had begun at most). *)
Theorem C76_stopped : forall (St Er : Type) (show : Er -> string) (c : cfg) (v : env) (t : bundle St Er) (x out : list byte) (st : St) y st' i ws z,
  parse_dds (c_debug c) x = Ok (Some i) -> dds_transform_bundle show c v t x out st = Ok (ROk tt, y, st') ->
  dds_transform_writes show c v t x out st = Ok ws -> left_behind ws out z ->
  z = y \/ (forall c2 v2 out2 o, dds_untransform c2 v2 z out2 <> Ok (ROk tt, o)) \/
  (zlen z = zlen out /\ znth z 0 = znth out 0 /\ forall j, 0 <= j -> znth z j = znth out j \/ znth z j = znth x j /\ j < i_data_offset i).
Proof.
  intros St Er show c v t x out st y st' i ws z P H W L.
  destruct (stopped_transform show c v t x out st y st' i ws z P H W L) as [E|[E|(E1 & E2)]].
  - left. exact E.
  - right; left. intros c2 v2 out2 o. exact (first_not_restored c2 v2 z out2 o E).
  - destruct (E2 0 ltac:(lia)) as [E3|(E3 & _)].
    + right; right. split; [exact E1|]. split; [exact E3|]. intros j Hj. destruct (E2 j Hj) as [E4|(E4 & E5)]; [left; exact E4|right; split; [exact E4|lia]].
    + right; left. intros c2 v2 out2 o. apply first_not_restored. rewrite E3. apply magic_first. apply (Proofs.DdsHandler.parse_dds_facts _ _ _ P).
Qed.
Print Assumptions C76_stopped.

(** C76: when copies run from the front, the only such file is the untouched one. *)
Theorem C76_stopped_in_order : forall (St Er : Type) (show : Er -> string) (c : cfg) (v : env) (t : bundle St Er) (x out : list byte) (st : St) y st' i ws z,
  parse_dds (c_debug c) x = Ok (Some i) -> dds_transform_bundle show c v t x out st = Ok (ROk tt, y, st') ->
  dds_transform_writes show c v t x out st = Ok ws -> left_in_order ws out z ->
  z = y \/ z = out \/ forall c2 v2 out2 o, dds_untransform c2 v2 z out2 <> Ok (ROk tt, o).
Proof.
  intros St Er show c v t x out st y st' i ws z P H W L.
  destruct (stopped_in_order show c v t x out st y st' i ws z P H W L) as [E|[E|E]]; [left; exact E|right; left; exact E|].
  right; right. intros c2 v2 out2 o. exact (first_not_restored c2 v2 z out2 o E).
Qed.
Print Assumptions C76_stopped_in_order.

(** C76: the same holds of what a failed transform leaves. *)
Theorem C76_failed : forall (St Er : Type) (show : Er -> string) (c : cfg) (v : env) (t : bundle St Er) (x out : list byte) (st : St) e y st',
  dds_transform_bundle show c v t x out st = Ok (RErr e, y, st') ->
  y = out \/ forall c2 v2 out2 o, dds_untransform c2 v2 y out2 <> Ok (ROk tt, o).
Proof.
  intros St Er show c v t x out st e y st' H. destruct (failed_transform show c v t x out st e y st' H) as [E|E]; [left; exact E|].
  right. intros c2 v2 out2 o. exact (first_not_restored c2 v2 y out2 o E).
Qed.
Print Assumptions C76_failed.

Definition blank (n : nat) : list byte := repeat x00 n.
Example C76_stopped_case : exists y ws z, dds_transform_bundle (fun _ : unit => "") cpu env64 (manual CBc1) file1 (blank 163) tt = Ok (ROk tt, y, tt) /\
  dds_transform_writes (fun _ : unit => "") cpu env64 (manual CBc1) file1 (blank 163) tt = Ok ws /\ List.length ws = 4%nat /\
  left_in_order ws (blank 163) z /\ z <> y /\ z <> blank 163 /\ dds_can_handle_untransform false z (Some "dds") = Ok true /\
  exists o, dds_untransform cpu env64 z z = Ok (RErr UnknownTransformFormat, o).
Proof.
  do 2 eexists. exists (splice (blank 163) 0 (slice file1 0 128)). split; [vm_compute; reflexivity|]. split; [vm_compute; reflexivity|]. split; [reflexivity|].
  split; [|split; [vm_compute; discriminate|split; [vm_compute; discriminate|split; [vm_compute; reflexivity|eexists; vm_compute; reflexivity]]]].
  apply ordered_later. replace (written _ _) with (splice (blank 163) 0 (slice file1 0 128)) by (vm_compute; reflexivity). apply ordered_between.
Qed.

(** C76, refuted for that file: a transform stopped before its first write leaves
    zeros, which untransform takes for the result of a transform; it reports
    success and gives a file that is not the one that was transformed. *)
Theorem C76_blank_refuted : exists x y ws o, dds_transform_bundle (fun _ : unit => "") cpu env64 (manual CBc1) x (blank 163) tt = Ok (ROk tt, y, tt) /\
  dds_transform_writes (fun _ : unit => "") cpu env64 (manual CBc1) x (blank 163) tt = Ok ws /\ left_in_order ws (blank 163) (blank 163) /\
  dds_can_handle_untransform false (blank 163) (Some "dds") = Ok true /\
  dds_untransform cpu env64 (blank 163) (blank 163) = Ok (ROk tt, o) /\ o <> x.
Proof.
  exists file1. do 3 eexists. split; [vm_compute; reflexivity|]. split; [vm_compute; reflexivity|]. split; [apply ordered_between|].
  split; [vm_compute; reflexivity|]. split; [vm_compute; reflexivity|]. vm_compute. discriminate.
Qed.
Print Assumptions C76_blank_refuted.

(** C76, refuted for untransform: when it is stopped before the texture is
    written, the file it leaves is a DDS file for everybody, this tool included. *)
Theorem C76_untransform_stopped_refuted : exists x y ws z, dds_transform_bundle (fun _ : unit => "") cpu env64 (manual CBc1) x x tt = Ok (ROk tt, y, tt) /\
  dds_untransform cpu env64 y (blank 163) = Ok (ROk tt, x) /\ dds_untransform_writes cpu env64 y (blank 163) = Ok ws /\ left_in_order ws (blank 163) z /\
  z <> x /\ dds_can_handle false z (Some "dds") = Ok true /\
  exists y2, dds_transform_bundle (fun _ : unit => "") cpu env64 (manual CBc1) z z tt = Ok (ROk tt, y2, tt).
Proof.
  exists file1. do 2 eexists. exists (splice (blank 163) 0 (slice file1 0 128)). split; [vm_compute; reflexivity|]. split; [vm_compute; reflexivity|]. split; [vm_compute; reflexivity|].
  split.
  { do 2 apply ordered_later. replace (written _ _) with (splice (blank 163) 0 (slice file1 0 128)) by (vm_compute; reflexivity). apply ordered_between. }
  split; [vm_compute; discriminate|]. split; [vm_compute; reflexivity|]. eexists. vm_compute. reflexivity.
Qed.
Print Assumptions C76_untransform_stopped_refuted.

(** C76: running the tool again repairs everything: after any number of runs that
    were stopped anywhere, a run that reports a file as done has written what the
    first accepting handler makes of the original input, and no input changed. *)
Theorem C76_rerun : forall (B W : Type) (utf8 : string -> bool) (cmd : command B) (hs : list (handler B W)) (I O : components) (entries : list components)
    (before now : files) (s : state),
  apart I O -> Forall file_name O -> files_below I entries -> stopped_runs (B := B) (W := W) utf8 I O entries before now -> reachable utf8 cmd hs I O entries now s ->
  (forall p, In p entries -> s_files s (render p) = before (render p)) /\
  forall r ph, In (I ++ r, ph) (s_tasks s) -> succeeded ph ->
  exists x h d w y w1, before (render (I ++ r)) = Some x /\ first_accepting utf8 cmd hs x (I ++ r) h /\ zlen d = zlen x /\
    work cmd h x d w = Ok (ROk tt, y, w1) /\ s_files s (render (O ++ r)) = Some y.
Proof.
  intros B W utf8 cmd hs I O entries before now s A N F R Rs. split; [|exact (rerun B W utf8 cmd hs I O entries before now s A N F R Rs)].
  apply (stopped_inputs B W utf8 I O entries before (s_files s) A N F). econstructor; [exact R|exact Rs].
Qed.
Print Assumptions C76_rerun.

(** A run that is stopped after making an empty output, and one after it that
    succeeds. *)
Example C76_rerun_case : let hs := all_handlers (fun _ : Empty_set => "") cpu env64 in let cmd := TransformDir low_preset_bundle in
  let p := ["in"; "a.dds"] in let before q := if String.eqb q "/in/a.dds" then Some file1 else None in
  exists now s n, apart ["in"] ["out"] /\ files_below ["in"] [p] /\ stopped_runs (B := bundle unit Empty_set) (W := unit) (fun _ => true) ["in"] ["out"] [p] before now /\ now "/out/a.dds" = Some (blank 163) /\
    reachable (fun _ => true) cmd hs ["in"] ["out"] [p] now s /\ s_tasks s = [(p, Returned (ROk n))].
Proof.
  cbv zeta. pose (p := ["in"; "a.dds"]). pose (t := ["out"; "a.dds"]). pose (before := fun q => if String.eqb q "/in/a.dds" then Some file1 else None).
  assert (A : accepts (fun _ => true) (TransformDir low_preset_bundle) (Handlers.dds_handler (fun _ : Empty_set => "") cpu env64) file1 p tt = Ok (true, tt)) by (vm_compute; reflexivity).
  assert (Z : zlen (blank 163) = zlen file1) by (vm_compute; reflexivity).
  assert (G : forall fs, fs "/in/a.dds" = Some file1 ->
    reachable (fun _ => true) (TransformDir low_preset_bundle) (all_handlers (fun _ : Empty_set => "") cpu env64) ["in"] ["out"] [p] fs
      (State (update fs "/out/a.dds" (Some (blank 163))) [(p, Created (zlen file1) file1 (Handlers.dds_handler (fun _ : Empty_set => "") cpu env64))] 0)).
  { intros fs E.
    assert (R0 : reachable (fun _ => true) (TransformDir low_preset_bundle) (all_handlers (fun _ : Empty_set => "") cpu env64) ["in"] ["out"] [p] fs (start [p] fs)) by (exists 0%nat; constructor).
    pose proof (CliExamples.one_more _ _ _ _ _ _ _ _ _ [] p _ _ [] 0 t false R0 eq_refl eq_refl eq_refl (step_directory _ _ _ _ _ _ _)) as R1.
    pose proof (CliExamples.one_more _ _ _ _ _ _ _ _ _ [] p _ _ [] 0 t false R1 eq_refl eq_refl eq_refl (step_metadata _ _ _ _ _ _ _ file1 E)) as R2.
    pose proof (CliExamples.one_more _ _ _ _ _ _ _ _ _ [] p _ _ [] 0 t false R2 eq_refl eq_refl eq_refl (step_open _ _ _ _ _ _ _ _ file1 E)) as R3.
    pose proof (CliExamples.one_more _ _ _ _ _ _ _ _ _ [] p _ _ [] 0 t false R3 eq_refl eq_refl eq_refl (step_accepted _ _ _ _ _ _ _ _ _ _ _ _ _ E A)) as R4.
    exact (CliExamples.one_more _ _ _ _ _ _ _ _ _ [] p _ _ [] 0 t false R4 eq_refl eq_refl eq_refl (step_create _ _ _ _ _ _ _ _ _ _ (blank 163) Z)). }
  pose (now := update before "/out/a.dds" (Some (blank 163))).
  pose proof (G before eq_refl) as G1. pose proof (G now eq_refl) as G2.
  assert (D : exists y, work (TransformDir low_preset_bundle) (Handlers.dds_handler (fun _ : Empty_set => "") cpu env64) file1 (blank 163) tt = Ok (ROk tt, y, tt)) by (eexists; vm_compute; reflexivity).
  destruct D as (y & D).
  assert (NE : render p <> render t) by (vm_compute; discriminate).
  pose proof (CliExamples.one_more _ _ _ _ _ _ _ _ _ [] p _ _ [] 0 t false G2 eq_refl eq_refl eq_refl (step_map _ _ _ _ _ _ _ _ _ _ (blank 163) NE eq_refl Z)) as G3.
  pose proof (CliExamples.one_more _ _ _ _ _ _ _ _ _ [] p _ _ [] 0 t false G3 eq_refl eq_refl eq_refl (step_done _ _ _ _ _ _ _ _ _ _ _ _ _ _ _ eq_refl eq_refl D)) as G4.
  exists now. eexists. exists (zlen file1). split; [split; intros [|a r] Q; discriminate Q|]. split.
  { split; [constructor; [intros []|constructor]|]. constructor; [|constructor]. exists ["a.dds"]. split; [reflexivity|]. split; [discriminate|].
    repeat constructor; try discriminate. }
  split; [exact (one_more_run _ _ _ _ _ _ _ _ _ (no_runs _ _ _ _ _) G1)|]. split; [reflexivity|]. split; [exact G4|]. reflexivity.
Qed.
