(** The same on a big-endian machine (Proofs/CommandsRuns.v). *)
From Verif Require Import Base.Bytes Base.Res Model.Kernel Model.Transform Model.Auto Model.Builders Model.Bundle Model.Dds Model.Handlers Model.Cli Model.Commands Model.BigEndian Model.BeTransform Model.BeFiles Model.EndianTool
  Spec.Files Spec.Dds Spec.Cli Spec.Commands Spec.BigEndian Spec.BeFiles Proofs.CliFacts Proofs.CliRuns Proofs.CliDds Proofs.CliExamples Proofs.CommandsDisk Proofs.CommandsRuns Proofs.BeCliDds.
From Coq Require Import String.
Open Scope list_scope.
Open Scope Z_scope.

Section Dds.
Context {St Er E : Type}.
Variables (utf8 : string -> bool) (show : Er -> string) (c : cfg) (v : env) (built : result (command (bundle St Er)) E) (may : components -> bool) (I O : components) (first : bool).
Notation ends := (command_ends utf8 built (be_all_handlers show c v) may I O first).
Lemma be_harmless_found d : real_disk d -> Forall file_name I -> (c_debug c = true -> forall r x, find d (I ++ r) = Some (File x) -> levels_fit x) ->
  forall p x, In p (find_all_files I (tree_at d I)) -> files_on d (render p) = Some x -> c_debug c = true -> levels_fit x.
Proof.
  intros R NI H p x Hp Fx D. destruct (found_is_file _ _ _ R Hp) as (r & y & -> & _ & Fy). pose proof (proj1 (find_names _ _ _ R Fy)) as N.
  apply (files_on_find d _ _ R N) in Fx. exact (H D _ _ Fx).
Qed.
Lemma be_no_crash d e fs ts : cpu_ok c -> 2 ^ 32 + 147 <= usize_max v -> real_disk d -> Forall file_name I -> Forall file_name O -> apart I O -> (c_debug c = true -> forall r x, find d (I ++ r) = Some (File x) -> levels_fit x) -> ends d e fs ts -> e <> Crashed.
Proof.
  intros K U R NI NO A H X ->. destruct (ends_cases _ _ _ _ _ _ _ _ _ _ _ R X) as [(N & _) | (cmd & s & Nf & Bx & _ & Re & -> & -> & Ov & [(C & _) | (_ & p & Pa)])]; [contradiction | discriminate|].
  refine (be_never_panics utf8 show c v cmd I O _ _ s K U _ A NO (found_below _ _ (real_tree_at d I R) NI) Re p Pa).
  intros q x Hq Fx. exact (be_harmless_found d R NI H q x Hq Fx).
Qed.
Lemma be_can_end d (w : St) : cpu_ok c -> 2 ^ 32 + 147 <= usize_max v -> real_disk d -> Forall file_name I -> Forall file_name O -> apart I O -> (c_debug c = true -> forall r x, find d (I ++ r) = Some (File x) -> levels_fit x) ->
  exists e fs ts, ends d e fs ts.
Proof.
  intros K U R NI NO A H. destruct (parse_paths may d (paths I O first)) as [[|] d1] eqn:P; [|do 3 eexists; eapply ends_bad_path; exact P].
  pose proof (files_same _ _ _ _ _ P) as Fs. pose proof (search_same _ _ _ _ _ I R P) as Ss.
  destruct (list_eq_dec (list_eq_dec string_dec) (find_all_files I (tree_at d I)) []) as [F | N0]; [do 3 eexists; eapply ends_no_files; [exact P | rewrite Ss; exact F]|].
  assert (N1 : find_all_files I (tree_at d1 I) <> []) by (rewrite Ss; exact N0).
  assert (Bu : (exists cmd, built = ROk cmd) \/ exists x, built = RErr x) by (destruct built; [left | right]; eexists; reflexivity).
  destruct Bu as [(cmd & Bx) | (x & Bx)]; [|do 3 eexists; eapply ends_no_bundle; [exact P | exact N1 | exact Bx]].
  pose proof (found_below _ _ (real_tree_at d I R) NI) as Bl.
  destruct (always_can_finish _ _ utf8 cmd (be_all_handlers show c v) I O w _ (files_on d) (start (find_all_files I (tree_at d I)) (files_on d)) Bl (ex_intro _ 0%nat (run_none _ _ _ _ _ _))) as (n & s & Ru & Es & Fin).
  assert (Re : reachable utf8 cmd (be_all_handlers show c v) I O (find_all_files I (tree_at d I)) (files_on d) s) by (exists n; exact Ru).
  assert (Hs : forall p x, In p (find_all_files I (tree_at d I)) -> files_on d (render p) = Some x -> c_debug c = true -> levels_fit x) by (apply be_harmless_found; assumption).
  exists Success, (s_files s), (s_tasks s). eapply ends_done; [exact P | exact N1 | exact Bx | rewrite Ss, Fs; apply runs_reachable; exact Re|].
  apply Forall_forall. intros [p ph] Hin. rewrite Forall_forall in Fin. pose proof (Fin _ Hin) as Fp. cbn [snd] in *.
  destruct ph as [| | | | | | |[|]| | |]; cbn in *; try contradiction; try exact Logic.I.
  - exfalso. exact (be_never_panics utf8 show c v cmd I O _ _ s K U Hs A NO Bl Re p Hin).
  - exfalso. refine (be_never_undefined utf8 show c v cmd I O _ _ s K _ A NO Bl Re p Hin). lia.
Qed.
End Dds.

(** Transforming a directory of one disk and restoring it on another. *)
Lemma be_disk_round_trip : forall (St1 Er1 E1 St2 Er2 E2 : Type) (utf8 : string -> bool) (show1 : Er1 -> string) (show2 : Er2 -> string) (c1 c2 : cfg) (v1 v2 : env)
    (b : bundle St1 Er1) (may1 may2 : components -> bool) (I O R : components) (first1 first2 : bool) (d1 d2 : disk) e1 e2 (fs1 fs2 : files) ts1 ts2 (r : components) (x : list byte) (n : Z),
  cpu_ok c1 -> cpu_ok c2 -> 2 ^ 32 - 1 <= usize_max v1 -> zlen x <= usize_max v2 ->
  (c_debug c2 = true -> c_debug c1 = false -> levels_fit x) ->
  real_disk d1 -> real_disk d2 -> Forall file_name I -> Forall file_name O -> Forall file_name R -> apart I O -> apart O R ->
  command_ends utf8 (ROk (TransformDir b) : result _ E1) (be_all_handlers show1 c1 v1) may1 I O first1 d1 e1 fs1 ts1 ->
  find d1 (I ++ r) = Some (File x) -> In (I ++ r, Counted n) ts1 ->
  (forall q, files_on d2 q = fs1 q) ->
  command_ends utf8 (ROk UntransformDir : result _ E2) (be_all_handlers show2 c2 v2 : list (handler (bundle St2 Er2) St2)) may2 O R first2 d2 e2 fs2 ts2 -> e2 <> Failed ->
  exists ph, In (O ++ r, ph) ts2 /\
    ((exists k, ph = Counted k) /\ fs2 (render (R ++ r)) = Some x \/ ph = Returned (RErr CIo) \/ ph = Returned (RErr (CFile FIo))).
Proof.
  intros St1 Er1 E1 St2 Er2 E2 utf8 show1 show2 c1 c2 v1 v2 b may1 may2 I O R first1 first2 d1 d2 e1 e2 fs1 fs2 ts1 ts2 r x n K1 K2 U1 U2 D R1 R2 NI NO NR A1 A2 X1 Fx T1 Same X2 Ne.
  destruct (ends_cases _ _ _ _ _ _ _ _ _ _ _ R1 X1) as [(_ & -> & _) | (cmd & s1 & Nf & Bx & _ & Re1 & -> & -> & Ov1 & _)]; [destruct T1|]. injection Bx as <-.
  pose proof (found_below _ _ (real_tree_at d1 I R1) NI) as B1. pose proof (found_below _ _ (real_tree_at d2 O R2) NO) as B2.
  pose proof (proj1 (find_names _ _ _ R1 Fx)) as Nx. assert (Hx : files_on d1 (render (I ++ r)) = Some x) by (apply files_on_find; assumption).
  destruct (explained _ _ _ _ _ _ _ _ A1 NO B1 Re1) as (_ & _ & Es1 & Sy1 & _).
  assert (Nr : r <> []). { assert (Hin : In (I ++ r) (find_all_files I (tree_at d1 I))) by (rewrite <- Es1; apply in_map_iff; exists (I ++ r, Counted n); split; [reflexivity | exact T1]).
    destruct (found_is_file _ _ _ R1 Hin) as (r1 & y & Er1' & N1 & _). apply app_inv_head in Er1'. subst r1. exact N1. }
  pose proof (Sy1 _ _ T1) as S1. cbn [story] in S1. destruct S1 as (_ & x0 & h & dd & w & y & w1 & _ & _ & _ & _ & Ny).
  assert (NOr : Forall file_name (O ++ r)) by (apply Forall_app; split; [exact NO | apply Forall_app in Nx; exact (proj2 Nx)]).
  assert (Fy : find d2 (O ++ r) = Some (File y)) by (apply files_on_find; [exact R2 | exact NOr | rewrite Same; exact Ny]).
  pose proof (found_here _ _ _ _ R2 Nr Fy) as Hin2.
  destruct (ends_cases _ _ _ _ _ _ _ _ _ _ _ R2 X2) as [(N2 & _ & _ & S2 & _) | (cmd2 & s2 & Nf2 & Bx2 & _ & Re2 & -> & -> & Ov2 & _)].
  - exfalso. destruct e2; [rewrite (S2 eq_refl) in Hin2; destruct Hin2 | exact (Ne eq_refl) | exact (N2 eq_refl)].
  - injection Bx2 as <-. destruct Re2 as (n2 & Re2). pose proof (run_entries _ _ _ _ _ _ _ _ _ Re2) as Es2. rewrite <- Es2 in Hin2.
    apply in_map_iff in Hin2 as ([p ph] & Ep & Hph). cbn [fst] in Ep. subst p. exists ph. split; [exact Hph|].
    destruct (be_directory_round_trip utf8 show1 show2 c1 c2 v1 v2 b I O R _ _ (files_on d1) (files_on d2) s1 s2 r x (Counted n) ph K1 K2 U1 U2 D A1 A2 NO NR B1 B2 Re1 Hx T1 Logic.I (Same _)
      (ex_intro _ n2 Re2) Hph) as (Y1 & Y2).
    rewrite Forall_forall in Ov2. pose proof (Ov2 _ Hph) as Op. cbn [snd] in Op.
    assert (Fp : finished ph) by (destruct ph as [| | | | | | |[|]| | |]; cbn in *; exact Op || exact Logic.I).
    destruct (Y2 Fp) as [(k & ->) | [-> | ->]]; [left | right; left; reflexivity | right; right; reflexivity]. split; [exists k; reflexivity | exact (Y1 Logic.I)].
Qed.
