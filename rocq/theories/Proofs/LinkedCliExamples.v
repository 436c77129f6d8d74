(** Runs of the command line tool on disks with links, to the end. *)
From Verif Require Import Base.Bytes Base.Res Model.Color565 Model.Kernel Model.Transform Model.Auto Model.Builders Model.Embed Model.Bundle Model.Dds Model.Handlers Model.Cli Model.LinkedCli.
From Verif Require Import Spec.Files Spec.Dds Spec.Cli Spec.LinkedCli.
From Verif Require Import Proofs.HandlersFacts Proofs.CliFacts Proofs.CliRuns Proofs.CliDds Proofs.CliExamples Proofs.LinkedCliFacts Props.PDds.
From Coq Require Import Ascii String.
Open Scope string_scope.
Open Scope list_scope.
Open Scope Z_scope.

Section Steps.
Context {B W : Type}.
Variable utf8 : string -> bool.
Variable cmd : command B.
Variable h : handler B W.
Variable leads_to : path -> path.
Variables I O : components.
Variables (entries : list components) (fs : files).
Notation reachable := (linked_reachable utf8 cmd [h] leads_to I O entries fs).

Lemma linked_one pre p ph fs1 ph2 fs2 post total r partial :
  reachable (State fs1 (pre ++ (p, ph) :: post) total) -> p = I ++ r ->
  task_step utf8 cmd [h] p (leads_to (render p)) (leads_to (render (O ++ r))) partial fs1 ph fs2 ph2 ->
  reachable (State fs2 (pre ++ (p, ph2) :: post) total).
Proof.
  intros R -> S. eapply linked_more; [exact R|]. econstructor; [apply target_app|exact S].
Qed.
Lemma linked_whole pre p fs1 post total r x w w1 d w2 y w3 :
  reachable (State fs1 (pre ++ (p, Waiting) :: post) total) -> p = I ++ r ->
  fs1 (leads_to (render p)) = Some x -> leads_to (render p) <> leads_to (render (O ++ r)) ->
  accepts utf8 cmd h x p w = Ok (true, w1) -> zlen d = zlen x -> work cmd h x d w2 = Ok (ROk tt, y, w3) ->
  reachable (State (update (update fs1 (leads_to (render (O ++ r))) (Some d)) (leads_to (render (O ++ r))) (Some y))
    (pre ++ (p, Counted (zlen x)) :: post) ((total + zlen x) mod 2 ^ 64)).
Proof.
  intros R0 E F N A L Wk.
  pose proof (linked_one _ _ _ _ _ _ _ _ r false R0 E (step_directory _ _ _ _ _ _ _)) as R1.
  pose proof (linked_one _ _ _ _ _ _ _ _ r false R1 E (step_metadata _ _ _ _ _ _ _ x F)) as R2.
  pose proof (linked_one _ _ _ _ _ _ _ _ r false R2 E (step_open _ _ _ _ _ _ _ _ x F)) as R3.
  pose proof (linked_one _ _ _ _ _ _ _ _ r false R3 E (step_accepted _ _ _ _ _ _ _ _ _ _ _ _ _ F A)) as R4.
  pose proof (linked_one _ _ _ _ _ _ _ _ r false R4 E (step_create _ _ _ _ _ _ _ _ _ _ d L)) as R5.
  pose proof (linked_one _ _ _ _ _ _ _ _ r false R5 E (step_map _ _ _ _ _ _ _ _ _ _ d N (update_same _ _ _) L)) as R6.
  assert (F1 : update fs1 (leads_to (render (O ++ r))) (Some d) (leads_to (render p)) = Some x) by (rewrite update_other by exact N; exact F).
  pose proof (linked_one _ _ _ _ _ _ _ _ r false R6 E (step_done _ _ _ _ _ _ _ _ _ _ _ _ _ _ _ F1 (update_same _ _ _) Wk)) as R7.
  eapply linked_more; [exact R7|]. apply linked_count.
Qed.
(** The output path leads to the input itself. *)
Lemma linked_alias pre p fs1 post total r x w w1 d :
  reachable (State fs1 (pre ++ (p, Waiting) :: post) total) -> p = I ++ r ->
  fs1 (leads_to (render p)) = Some x -> leads_to (render p) = leads_to (render (O ++ r)) ->
  accepts utf8 cmd h x p w = Ok (true, w1) -> zlen d = zlen x ->
  reachable (State (update fs1 (leads_to (render (O ++ r))) (Some d)) (pre ++ (p, Undefined) :: post) total).
Proof.
  intros R0 E F N A L.
  pose proof (linked_one _ _ _ _ _ _ _ _ r false R0 E (step_directory _ _ _ _ _ _ _)) as R1.
  pose proof (linked_one _ _ _ _ _ _ _ _ r false R1 E (step_metadata _ _ _ _ _ _ _ x F)) as R2.
  pose proof (linked_one _ _ _ _ _ _ _ _ r false R2 E (step_open _ _ _ _ _ _ _ _ x F)) as R3.
  pose proof (linked_one _ _ _ _ _ _ _ _ r false R3 E (step_accepted _ _ _ _ _ _ _ _ _ _ _ _ _ F A)) as R4.
  pose proof (linked_one _ _ _ _ _ _ _ _ r false R4 E (step_create _ _ _ _ _ _ _ _ _ _ d L)) as R5.
  exact (linked_one _ _ _ _ _ _ _ _ r false R5 E (step_map_alias _ _ _ _ _ _ _ _ _ _ N)).
Qed.
End Steps.

(** Links from one path to another. *)
Definition link (a b : path) : path -> path := fun p => if String.eqb p a then b else p.
(** [file1] with one byte of its texture changed. *)
Definition file1b : list byte := firstn 140 file1 ++ [x5a] ++ skipn 141 file1.
Definition two_textures : files := fun p => if String.eqb p "/in/a.dds" then Some file1 else if String.eqb p "/in/b.dds" then Some file1b else None.
Definition pair_in := [["in"; "a.dds"]; ["in"; "b.dds"]].
Definition the_handler := dds_handler (St := unit) (Er := Empty_set) (fun _ : Empty_set => "") cpu env64.
Definition packed (x : list byte) : list byte :=
  match work (TransformDir low_preset_bundle) the_handler x (zeros 163) tt with Ok (ROk tt, y, _) => y | _ => [] end.

Lemma takes x p : (x = file1 \/ x = file1b) -> (p = ["in"; "a.dds"] \/ p = ["in"; "b.dds"]) ->
  accepts (fun _ => true) (TransformDir low_preset_bundle) the_handler x p tt = Ok (true, tt) /\ zlen (zeros 163) = zlen x /\
  work (TransformDir low_preset_bundle) the_handler x (zeros 163) tt = Ok (ROk tt, packed x, tt).
Proof. intros [->| ->] [->| ->]; (split; [|split]); vm_compute; reflexivity. Qed.
Lemma packed_differ : packed file1b <> packed file1 /\ file1b <> file1.
Proof. split; vm_compute; discriminate. Qed.
Lemma pair_below : files_below ["in"] pair_in.
Proof.
  split.
  - repeat constructor; cbn; intuition discriminate.
  - apply Forall_cons; [|apply Forall_cons; [|apply Forall_nil]].
    + exists ["a.dds"]. split; [reflexivity|]. split; [discriminate|names].
    + exists ["b.dds"]. split; [reflexivity|]. split; [discriminate|names].
Qed.

Notation tool := (linked_reachable (fun _ => true) (TransformDir low_preset_bundle) (all_handlers (fun _ : Empty_set => "") cpu env64)).

(** An output that is a link to its input. *)
Lemma into_the_input : exists s, tool (link "/out/a.dds" "/in/a.dds") ["in"] ["out"] [["in"; "a.dds"]] two_textures s /\
  s_tasks s = [(["in"; "a.dds"], Undefined)] /\ two_textures "/in/a.dds" = Some file1 /\ s_files s "/in/a.dds" <> Some file1.
Proof.
  destruct (takes file1 ["in"; "a.dds"] (or_introl eq_refl) (or_introl eq_refl)) as (A & L & _).
  eexists. split; [exact (linked_alias (fun _ => true) (TransformDir low_preset_bundle) the_handler (link "/out/a.dds" "/in/a.dds") ["in"] ["out"] [["in"; "a.dds"]] two_textures [] ["in"; "a.dds"] two_textures [] 0 ["a.dds"] file1 tt tt (zeros 163)
    (linked_none _ _ _ _ _ _ _) eq_refl eq_refl eq_refl A L)|].
  split; [reflexivity|]. split; [reflexivity|]. vm_compute. discriminate.
Qed.
(** Two outputs that are one file: both are reported as done, and one is lost. *)
Lemma one_output_lost : exists s, tool (link "/out/b.dds" "/out/a.dds") ["in"] ["out"] pair_in two_textures s /\
  s_tasks s = [(["in"; "a.dds"], Counted 163); (["in"; "b.dds"], Counted 163)] /\
  two_textures "/in/a.dds" = Some file1 /\ two_textures "/in/b.dds" = Some file1b /\ file1b <> file1 /\
  exists y, s_files s "/out/a.dds" = Some y /\ forall out, zlen out = zlen y -> dds_untransform cpu env64 y out = Ok (ROk tt, file1b).
Proof.
  destruct (takes file1 ["in"; "a.dds"] (or_introl eq_refl) (or_introl eq_refl)) as (A1 & L1 & W1).
  destruct (takes file1b ["in"; "b.dds"] (or_intror eq_refl) (or_intror eq_refl)) as (A2 & L2 & W2).
  assert (N1 : link "/out/b.dds" "/out/a.dds" (render ["in"; "a.dds"]) <> link "/out/b.dds" "/out/a.dds" (render (["out"] ++ ["a.dds"]))) by (vm_compute; discriminate).
  assert (N2 : link "/out/b.dds" "/out/a.dds" (render ["in"; "b.dds"]) <> link "/out/b.dds" "/out/a.dds" (render (["out"] ++ ["b.dds"]))) by (vm_compute; discriminate).
  pose proof (linked_whole (fun _ => true) (TransformDir low_preset_bundle) the_handler (link "/out/b.dds" "/out/a.dds") ["in"] ["out"] pair_in two_textures
    [] ["in"; "a.dds"] two_textures [(["in"; "b.dds"], Waiting)] 0 ["a.dds"] file1 tt tt (zeros 163) tt (packed file1) tt
    (linked_none _ _ _ _ _ _ _) eq_refl eq_refl N1 A1 L1 W1) as R1.
  pose proof (linked_whole (fun _ => true) (TransformDir low_preset_bundle) the_handler (link "/out/b.dds" "/out/a.dds") ["in"] ["out"] pair_in two_textures
    [(["in"; "a.dds"], Counted (zlen file1))] ["in"; "b.dds"] _ [] _ ["b.dds"] file1b tt tt (zeros 163) tt (packed file1b) tt R1 eq_refl eq_refl N2 A2 L2 W2) as R2.
  eexists. split; [exact R2|]. split; [vm_compute; reflexivity|]. split; [reflexivity|]. split; [reflexivity|]. split; [exact (proj2 packed_differ)|].
  exists (packed file1b). split; [reflexivity|].
  assert (L : zlen (zeros 163) = zlen file1b) by (vm_compute; reflexivity).
  assert (T : dds_transform_bundle (fun _ : Empty_set => "") cpu env64 low_preset_bundle file1b (zeros 163) tt = Ok (ROk tt, packed file1b, tt)) by (vm_compute; reflexivity).
  assert (U : 2 ^ 32 - 1 <= usize_max env64 /\ zlen file1b <= usize_max env64) by (split; vm_compute; discriminate).
  assert (D : c_debug cpu = true \/ c_debug cpu = true -> levels_fit file1b /\ forall i, parse_dds (c_debug cpu) file1b = Ok (Some i) -> 0 < i_data_length i)
    by (intros [K|K]; discriminate K).
  destruct (dds_undoes (fun _ : Empty_set => "") (fun _ : Empty_set => "") cpu cpu env64 env64 file1b cpu_supported cpu_supported (proj1 U) (proj2 U) D low_preset_bundle (zeros 163) tt (packed file1b) tt L T) as (Ly & Un).
  intros out Lo. rewrite Ly in Lo. destruct (Un out tt Lo) as (w3 & E). cbn [Handlers.h_untransform dds_handler] in E.
  destruct (dds_untransform cpu env64 (packed file1b) out) as [[ro o]| |]; cbn [bind fst snd] in E; try discriminate E. injection E as -> -> _. reflexivity.
Qed.

(** A link in the input directory does no harm. *)
Lemma link_in_input : plain_output (link "/in/b.dds" "/in/a.dds") ["in"] ["out"] pair_in /\
  exists s, tool (link "/in/b.dds" "/in/a.dds") ["in"] ["out"] pair_in two_textures s /\
  s_tasks s = [(["in"; "a.dds"], Counted 163); (["in"; "b.dds"], Counted 163)] /\
  s_files s "/out/a.dds" = Some (packed file1) /\ s_files s "/out/b.dds" = Some (packed file1).
Proof.
  assert (In1 : forall r, In (["in"] ++ r) pair_in -> r = ["a.dds"] \/ r = ["b.dds"]).
  { intros r [K|[K|[]]]; injection K as <-; auto. }
  split.
  - split.
    + intros r Hr. destruct (In1 r Hr) as [->| ->]; reflexivity.
    + intros r1 r2 H1 H2. destruct (In1 r1 H1) as [->| ->]; destruct (In1 r2 H2) as [->| ->]; vm_compute; discriminate.
  - destruct (takes file1 ["in"; "a.dds"] (or_introl eq_refl) (or_introl eq_refl)) as (A1 & L1 & W1).
    destruct (takes file1 ["in"; "b.dds"] (or_introl eq_refl) (or_intror eq_refl)) as (A2 & L2 & W2).
    assert (N1 : link "/in/b.dds" "/in/a.dds" (render ["in"; "a.dds"]) <> link "/in/b.dds" "/in/a.dds" (render (["out"] ++ ["a.dds"]))) by (vm_compute; discriminate).
    assert (N2 : link "/in/b.dds" "/in/a.dds" (render ["in"; "b.dds"]) <> link "/in/b.dds" "/in/a.dds" (render (["out"] ++ ["b.dds"]))) by (vm_compute; discriminate).
    pose proof (linked_whole (fun _ => true) (TransformDir low_preset_bundle) the_handler (link "/in/b.dds" "/in/a.dds") ["in"] ["out"] pair_in two_textures
      [] ["in"; "a.dds"] two_textures [(["in"; "b.dds"], Waiting)] 0 ["a.dds"] file1 tt tt (zeros 163) tt (packed file1) tt
      (linked_none _ _ _ _ _ _ _) eq_refl eq_refl N1 A1 L1 W1) as R1.
    pose proof (linked_whole (fun _ => true) (TransformDir low_preset_bundle) the_handler (link "/in/b.dds" "/in/a.dds") ["in"] ["out"] pair_in two_textures
      [(["in"; "a.dds"], Counted (zlen file1))] ["in"; "b.dds"] _ [] _ ["b.dds"] file1 tt tt (zeros 163) tt (packed file1) tt R1 eq_refl eq_refl N2 A2 L2 W2) as R2.
    eexists. split; [exact R2|]. split; [vm_compute; reflexivity|]. split; reflexivity.
Qed.

(** There and back: a link in the input, and the restored file is a link to elsewhere. *)
Lemma unpacks : accepts (fun _ => true) UntransformDir the_handler (packed file1b) ["out"; "a.dds"] tt = Ok (true, tt) /\
  zlen (zeros 163) = zlen (packed file1b) /\ work UntransformDir the_handler (packed file1b) (zeros 163) tt = Ok (ROk tt, file1b, tt) /\
  zlen file1b = 163.
Proof. split; [vm_compute; reflexivity|]. split; [vm_compute; reflexivity|]. split; vm_compute; reflexivity. Qed.

Section TwoRuns.
Context {B W : Type}.
Variables (h : handler B W) (b : B) (x y d : list byte) (w : W) (fs : files).
Notation l1 := (link "/in/a.dds" "/in/b.dds").
Notation l2 := (link "/back/a.dds" "/elsewhere").
Lemma two_runs :
  fs "/in/b.dds" = Some x ->
  accepts (fun _ => true) (TransformDir b) h x ["in"; "a.dds"] w = Ok (true, w) -> zlen d = zlen x -> work (TransformDir b) h x d w = Ok (ROk tt, y, w) ->
  accepts (fun _ => true) UntransformDir h y ["out"; "a.dds"] w = Ok (true, w) -> zlen d = zlen y -> work UntransformDir h y d w = Ok (ROk tt, x, w) ->
  exists s1 s2 : state (B := B) (W := W),
  linked_reachable (fun _ => true) (TransformDir b) [h] l1 ["in"] ["out"] [["in"; "a.dds"]] fs s1 /\
  s_tasks s1 = [(["in"; "a.dds"], Counted (zlen x))] /\
  linked_reachable (fun _ => true) UntransformDir [h] l2 ["out"] ["back"] [["out"; "a.dds"]] (s_files s1) s2 /\
  s_tasks s2 = [(["out"; "a.dds"], Counted (zlen y))] /\ s_files s2 "/elsewhere" = Some x.
Proof.
  intros F A1 L1 W1 A2 L2 W2.
  assert (N1 : l1 (render ["in"; "a.dds"]) <> l1 (render (["out"] ++ ["a.dds"]))) by (vm_compute; discriminate).
  assert (N2 : l2 (render ["out"; "a.dds"]) <> l2 (render (["back"] ++ ["a.dds"]))) by (vm_compute; discriminate).
  pose proof (linked_whole (fun _ => true) (TransformDir b) h l1 ["in"] ["out"] [["in"; "a.dds"]] fs
    [] ["in"; "a.dds"] fs [] 0 ["a.dds"] x w w d w y w (linked_none _ _ _ _ _ _ _) eq_refl F N1 A1 L1 W1) as R1.
  match type of R1 with linked_reachable _ _ _ _ _ _ _ _ ?s => set (s1 := s) in R1 end.
  assert (F2 : s_files s1 (l2 (render ["out"; "a.dds"])) = Some y) by reflexivity.
  pose proof (linked_whole (fun _ => true) UntransformDir h l2 ["out"] ["back"] [["out"; "a.dds"]] (s_files s1)
    [] ["out"; "a.dds"] (s_files s1) [] 0 ["a.dds"] y w w d w x w (linked_none _ _ _ _ _ _ _) eq_refl F2 N2 A2 L2 W2) as R2.
  exists s1. eexists. split; [exact R1|]. split; [reflexivity|]. split; [exact R2|]. split; reflexivity.
Qed.
End TwoRuns.
Lemma linked_there_and_back :
  exists (s1 : state (B := bundle unit Empty_set) (W := unit)) (s2 : state (B := bundle unit Empty_set) (W := unit)),
  tool (link "/in/a.dds" "/in/b.dds") ["in"] ["out"] [["in"; "a.dds"]] two_textures s1 /\
  In (["in"; "a.dds"], Counted 163) (s_tasks s1) /\
  linked_reachable (fun _ => true) UntransformDir (all_handlers (fun _ : Empty_set => "") cpu env64) (link "/back/a.dds" "/elsewhere") ["out"] ["back"] [["out"; "a.dds"]] (s_files s1) s2 /\
  In (["out"; "a.dds"], Counted 163) (s_tasks s2) /\ s_files s2 "/elsewhere" = Some file1b.
Proof.
  destruct (takes file1b ["in"; "a.dds"] (or_intror eq_refl) (or_introl eq_refl)) as (A1 & L1 & W1).
  destruct unpacks as (A2 & L2 & W2 & L3).
  destruct (two_runs the_handler low_preset_bundle file1b (packed file1b) (zeros 163) tt two_textures eq_refl A1 L1 W1 A2 L2 W2) as (s1 & s2 & R1 & T1 & R2 & T2 & E).
  exists s1, s2. split; [exact R1|]. rewrite T1, T2, <- L2, L1, L3. split; [left; reflexivity|]. split; [exact R2|]. split; [left; reflexivity|exact E].
Qed.
Lemma linked_conditions :
  plain_output (link "/in/a.dds" "/in/b.dds") ["in"] ["out"] [["in"; "a.dds"]] /\
  files_below ["in"] [["in"; "a.dds"]] /\ files_below ["out"] [["out"; "a.dds"]] /\
  spares_inputs (link "/back/a.dds" "/elsewhere") ["out"] ["back"] [["out"; "a.dds"]] /\
  outputs_differ (link "/back/a.dds" "/elsewhere") ["out"] ["back"] [["out"; "a.dds"]].
Proof.
  assert (In1 : forall d r, In ([d] ++ r) [[d; "a.dds"]] -> r = ["a.dds"]).
  { intros d r [K|[]]. injection K as <-. reflexivity. }
  split; [|split; [|split; [|split]]].
  - split.
    + intros r Hr. rewrite (In1 _ r Hr). reflexivity.
    + intros r1 r2 H1 H2. rewrite (In1 _ r1 H1), (In1 _ r2 H2). vm_compute. discriminate.
  - split; [repeat constructor; cbn; intuition discriminate|]. apply Forall_cons; [|apply Forall_nil]. exists ["a.dds"]. split; [reflexivity|]. split; [discriminate|names].
  - split; [repeat constructor; cbn; intuition discriminate|]. apply Forall_cons; [|apply Forall_nil]. exists ["a.dds"]. split; [reflexivity|]. split; [discriminate|names].
  - intros r1 r2 H1 H2. rewrite (In1 _ r1 H1), (In1 _ r2 H2). vm_compute. discriminate.
  - intros r1 r2 H1 H2 _. rewrite (In1 _ r1 H1), (In1 _ r2 H2). reflexivity.
Qed.
