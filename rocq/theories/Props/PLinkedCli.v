(** C82: the command line tool on disks with links. *)
From Verif Require Import Base.Bytes Base.Res Model.Color565 Model.Kernel Model.Transform Model.Auto Model.Builders Model.Embed Model.Bundle Model.Dds Model.Handlers Model.Cli Model.Links Model.LinkedCli.
From Verif Require Import Spec.Files Spec.Dds Spec.Cli Spec.Links Spec.LinkedCli.
From Verif Require Import Proofs.CliExamples Proofs.LinkedCliFacts Proofs.LinkedCliExamples Props.PDds.
From Coq Require Import Ascii String.
Open Scope string_scope.
Open Scope list_scope.
Open Scope Z_scope.

(** [leads_to] is any function from paths to the files they lead to. Whatever
    links there are, in whatever order the threads run and wherever the tool is
    stopped, only files that output paths lead to are written. *)
Theorem C82_nothing_else_written : forall (B W : Type) (utf8 : string -> bool) (cmd : command B) (hs : list (handler B W)) (leads_to : path -> path) (I O : components)
    (entries : list components) (before : files) (s : state),
  linked_reachable utf8 cmd hs leads_to I O entries before s ->
  forall q, (forall r, In (I ++ r) entries -> q <> leads_to (render (O ++ r))) -> s_files s q = before q.
Proof. exact (@linked_other). Qed.
Print Assumptions C82_nothing_else_written.

(** If no output leads to an input and no two outputs lead to one file, every
    input keeps its contents and every task is where its story says. Inputs may
    be links to each other or to anywhere else. *)
Theorem C82_every_task_explained : forall (B W : Type) (utf8 : string -> bool) (cmd : command B) (hs : list (handler B W)) (leads_to : path -> path) (I O : components)
    (entries : list components) (before : files) (s : state),
  files_below I entries -> spares_inputs leads_to I O entries -> outputs_differ leads_to I O entries ->
  linked_reachable utf8 cmd hs leads_to I O entries before s ->
  (forall p, In p entries -> s_files s (leads_to (render p)) = before (leads_to (render p))) /\
  map fst (s_tasks s) = entries /\
  (forall r ph, In (I ++ r, ph) (s_tasks s) ->
     story utf8 cmd hs before (s_files s) (I ++ r) (leads_to (render (I ++ r))) (leads_to (render (O ++ r))) ph) /\
  s_total s = sum (map (fun k => counted (snd k)) (s_tasks s)) mod 2 ^ 64.
Proof. exact (@linked_explained). Qed.
Print Assumptions C82_every_task_explained.

(** That is so if the way to the outputs has no links and no input is a link to
    an output, *)
Theorem C82_plain_output : forall (leads_to : path -> path) (I O : components) (entries : list components),
  files_below I entries -> Forall file_name O -> plain_output leads_to I O entries ->
  spares_inputs leads_to I O entries /\ outputs_differ leads_to I O entries.
Proof. exact plain_enough. Qed.
Print Assumptions C82_plain_output.
(** which without links means directories that are apart, as in C54; there the
    runs are those of C54. *)
Theorem C82_without_links : forall (B W : Type) (utf8 : string -> bool) (cmd : command B) (hs : list (handler B W)) (I O : components)
    (entries : list components) (fs : files) (s : state),
  (linked_reachable utf8 cmd hs (fun p => p) I O entries fs s <-> reachable utf8 cmd hs I O entries fs s) /\
  (files_below I entries -> Forall file_name O -> apart I O -> plain_output (fun p => p) I O entries).
Proof. intros B W utf8 cmd hs I O entries fs s. split; [exact (without_links utf8 cmd hs I O entries fs s)|exact (apart_plain I O entries)]. Qed.
Print Assumptions C82_without_links.

(** A directory where [b.dds] is a link to [a.dds], processed to the end. *)
Example C82_every_task_explained_met : files_below ["in"] pair_in /\ Forall file_name ["out"] /\
  plain_output (link "/in/b.dds" "/in/a.dds") ["in"] ["out"] pair_in /\
  exists s, linked_reachable (fun _ => true) (TransformDir low_preset_bundle) (all_handlers (fun _ : Empty_set => "") cpu env64)
      (link "/in/b.dds" "/in/a.dds") ["in"] ["out"] pair_in two_textures s /\
    s_tasks s = [(["in"; "a.dds"], Counted 163); (["in"; "b.dds"], Counted 163)] /\
    s_files s "/out/a.dds" = Some (packed file1) /\ s_files s "/out/b.dds" = Some (packed file1).
Proof. split; [exact pair_below|]. split; [names|]. exact link_in_input. Qed.

(** With the handlers the tool has, there is then no undefined behaviour, *)
Theorem C82_no_undefined_behaviour : forall (St Er : Type) (utf8 : string -> bool) (show : Er -> string) (c : cfg) (v : env) (cmd : command (bundle St Er))
    (leads_to : path -> path) (I O : components) (entries : list components) (before : files) (s : state),
  supported c -> 2 ^ 32 - 1 <= usize_max v ->
  (forall p x, In p entries -> before (leads_to (render p)) = Some x ->
     c_debug c = true -> forall i, parse_dds_ignore_magic true x = Ok (Some i) -> 0 < i_data_length i) ->
  files_below I entries -> spares_inputs leads_to I O entries -> outputs_differ leads_to I O entries ->
  linked_reachable utf8 cmd (all_handlers show c v) leads_to I O entries before s ->
  forall p, ~ In (p, Undefined) (s_tasks s).
Proof. exact (@linked_never_undefined). Qed.
Print Assumptions C82_no_undefined_behaviour.
(** no panic, *)
Theorem C82_no_panic : forall (St Er : Type) (utf8 : string -> bool) (show : Er -> string) (c : cfg) (v : env) (cmd : command (bundle St Er))
    (leads_to : path -> path) (I O : components) (entries : list components) (before : files) (s : state),
  supported c -> 2 ^ 32 + 147 <= usize_max v ->
  (forall p x, In p entries -> before (leads_to (render p)) = Some x ->
     (c_debug c = true -> forall i, parse_dds_ignore_magic true x = Ok (Some i) -> 0 < i_data_length i) /\ (c_debug c = true -> levels_fit x)) ->
  files_below I entries -> spares_inputs leads_to I O entries -> outputs_differ leads_to I O entries ->
  linked_reachable utf8 cmd (all_handlers show c v) leads_to I O entries before s ->
  forall p, ~ In (p, Panicked) (s_tasks s).
Proof. exact (@linked_never_panics). Qed.
Print Assumptions C82_no_panic.
(** and a file transformed in one run and reported as restored in another is
    back, even if links differ between the runs. *)
Theorem C82_directory_round_trip : forall (St1 Er1 St2 Er2 : Type) (utf8 : string -> bool) (show1 : Er1 -> string) (show2 : Er2 -> string) (c1 c2 : cfg) (v1 v2 : env)
    (b : bundle St1 Er1) (leads_to1 leads_to2 : path -> path) (I O R : components) (entries1 entries2 : list components) (fs1 fs2 : files)
    (s1 : state (B := bundle St1 Er1) (W := St1)) (s2 : state (B := bundle St2 Er2) (W := St2)) (r : components) (x : list byte) ph1 ph2,
  supported c1 -> supported c2 -> 2 ^ 32 - 1 <= usize_max v1 -> zlen x <= usize_max v2 ->
  (c_debug c1 = true \/ c_debug c2 = true -> levels_fit x /\ forall i, parse_dds (c_debug c1) x = Ok (Some i) -> 0 < i_data_length i) ->
  files_below I entries1 -> spares_inputs leads_to1 I O entries1 -> outputs_differ leads_to1 I O entries1 ->
  files_below O entries2 -> spares_inputs leads_to2 O R entries2 -> outputs_differ leads_to2 O R entries2 ->
  linked_reachable utf8 (TransformDir b) (all_handlers show1 c1 v1) leads_to1 I O entries1 fs1 s1 ->
  fs1 (leads_to1 (render (I ++ r))) = Some x -> In (I ++ r, ph1) (s_tasks s1) -> succeeded ph1 ->
  fs2 (leads_to2 (render (O ++ r))) = s_files s1 (leads_to1 (render (O ++ r))) ->
  linked_reachable utf8 UntransformDir (all_handlers show2 c2 v2) leads_to2 O R entries2 fs2 s2 ->
  In (O ++ r, ph2) (s_tasks s2) ->
  (succeeded ph2 -> s_files s2 (leads_to2 (render (R ++ r))) = Some x) /\
  (finished ph2 -> (exists n, ph2 = Counted n) \/ ph2 = Returned (RErr CIo) \/ ph2 = Returned (RErr (CFile FIo))).
Proof. exact (@linked_round_trip). Qed.
Print Assumptions C82_directory_round_trip.
(** a link in the input, and the restored file is a link to elsewhere *)
Example C82_directory_round_trip_met :
  (exists (s1 : state (B := bundle unit Empty_set) (W := unit)) (s2 : state (B := bundle unit Empty_set) (W := unit)),
  linked_reachable (fun _ => true) (TransformDir low_preset_bundle) (all_handlers (fun _ : Empty_set => "") cpu env64) (link "/in/a.dds" "/in/b.dds") ["in"] ["out"]
    [["in"; "a.dds"]] two_textures s1 /\
  In (["in"; "a.dds"], Counted 163) (s_tasks s1) /\
  linked_reachable (fun _ => true) UntransformDir (all_handlers (fun _ : Empty_set => "") cpu env64) (link "/back/a.dds" "/elsewhere") ["out"] ["back"]
    [["out"; "a.dds"]] (s_files s1) s2 /\
  In (["out"; "a.dds"], Counted 163) (s_tasks s2) /\ s_files s2 "/elsewhere" = Some file1b) /\
  plain_output (link "/in/a.dds" "/in/b.dds") ["in"] ["out"] [["in"; "a.dds"]] /\
  files_below ["in"] [["in"; "a.dds"]] /\ files_below ["out"] [["out"; "a.dds"]] /\
  spares_inputs (link "/back/a.dds" "/elsewhere") ["out"] ["back"] [["out"; "a.dds"]] /\
  outputs_differ (link "/back/a.dds" "/elsewhere") ["out"] ["back"] [["out"; "a.dds"]].
Proof. split; [exact linked_there_and_back|exact linked_conditions]. Qed.

(** Both conditions are needed although the directories are apart. If an output
    is a link to its input, the input is destroyed and there is undefined
    behaviour; *)
Theorem C82_link_to_input_refuted : apart ["in"] ["out"] /\
  exists s, linked_reachable (fun _ => true) (TransformDir low_preset_bundle) (all_handlers (fun _ : Empty_set => "") cpu env64)
      (link "/out/a.dds" "/in/a.dds") ["in"] ["out"] [["in"; "a.dds"]] two_textures s /\
    s_tasks s = [(["in"; "a.dds"], Undefined)] /\ two_textures "/in/a.dds" = Some file1 /\ s_files s "/in/a.dds" <> Some file1.
Proof. split; [split; intros r E; discriminate E|exact into_the_input]. Qed.
Print Assumptions C82_link_to_input_refuted.
(** if two outputs are one file, both are reported as done and one is lost: what
    is then restored as [a.dds] is [b.dds]. *)
Theorem C82_shared_output_refuted : apart ["in"] ["out"] /\
  exists s, linked_reachable (fun _ => true) (TransformDir low_preset_bundle) (all_handlers (fun _ : Empty_set => "") cpu env64)
      (link "/out/b.dds" "/out/a.dds") ["in"] ["out"] pair_in two_textures s /\
    s_tasks s = [(["in"; "a.dds"], Counted 163); (["in"; "b.dds"], Counted 163)] /\
    two_textures "/in/a.dds" = Some file1 /\ two_textures "/in/b.dds" = Some file1b /\ file1b <> file1 /\
    exists y, s_files s "/out/a.dds" = Some y /\ forall out, zlen out = zlen y -> dds_untransform cpu env64 y out = Ok (ROk tt, file1b).
Proof. split; [split; intros r E; discriminate E|exact one_output_lost]. Qed.
Print Assumptions C82_shared_output_refuted.
