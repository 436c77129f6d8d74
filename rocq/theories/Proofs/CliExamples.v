(** Concrete runs of the command line tool, and facts about its presets. *)
From Verif Require Import Base.Bytes Base.Res Model.Color565 Model.Kernel Model.Transform Model.Auto Model.Builders Model.Embed Model.Bundle Model.Dds Model.Handlers Model.Ltu Model.Zstd Model.Cli.
From Verif Require Import Spec.Layout Spec.Estimator Spec.Ltu Spec.Files Spec.Dds Spec.Zstd Spec.Answers Spec.ZstdSizes Spec.Cli.
From Verif Require Import Proofs.CliFacts Proofs.CliRuns Proofs.CliDds Props.PDds.
From Coq Require Import Ascii String.
Open Scope string_scope.
Open Scope list_scope.
Open Scope Z_scope.

Lemma nothing_else : forall (B W : Type) (utf8 : string -> bool) (cmd : command B) (hs : list (handler B W)) (I O : components)
    (entries : list components) (before : files) (s : state),
  reachable utf8 cmd hs I O entries before s ->
  forall q, (forall r, In (I ++ r) entries -> q <> render (O ++ r)) -> s_files s q = before q.
Proof.
  intros B W utf8 cmd hs I O entries before s (n & R) q Hq. apply (run_other _ _ _ _ _ _ _ _ _ R). intros p t Hp T.
  destruct (target_some _ _ _ _ T) as (r & -> & ->). exact (Hq r Hp).
Qed.
Lemma always_can_finish : forall (B W : Type) (utf8 : string -> bool) (cmd : command B) (hs : list (handler B W)) (I O : components)
    (w : W) (entries : list components) (fs : files) (s : state),
  files_below I entries -> reachable utf8 cmd hs I O entries fs s ->
  exists n s2, run utf8 cmd hs I O n s s2 /\ map fst (s_tasks s2) = entries /\ Forall (fun k => finished (snd k)) (s_tasks s2).
Proof.
  intros B W utf8 cmd hs I O w entries fs s (_ & F) (n & R). pose proof (run_entries _ _ _ _ _ _ _ _ _ R) as Es.
  set (m := sum (map (fun k => left_to_do hs (snd k)) (s_tasks s))).
  destruct (can_finish utf8 cmd hs I O w (Z.to_nat (m + 1)) s) as (k & s2 & R2 & E2 & D).
  - fold m. lia.
  - rewrite Es. rewrite Forall_forall in *. intros p Hp. destruct (F p Hp) as (r & -> & _). exists (O ++ r). apply target_app.
  - exists k, s2. split; [exact R2|]. split; [rewrite E2; exact Es|exact D].
Qed.

(** ** Presets *)
Lemma preset_names : forall s,
  (preset_from_str s = Some Low <-> to_lowercase s = "low") /\ (preset_from_str s = Some Medium <-> to_lowercase s = "medium") /\
  (preset_from_str s = Some Optimal <-> to_lowercase s = "optimal") /\ (preset_from_str s = Some Max <-> to_lowercase s = "max") /\
  (preset_from_str s = None <-> to_lowercase s <> "low" /\ to_lowercase s <> "medium" /\ to_lowercase s <> "optimal" /\ to_lowercase s <> "max").
Proof.
  intros s. unfold preset_from_str. cbv zeta. generalize (to_lowercase s). intros l.
  destruct (String.eqb_spec l "low") as [->|N1]; [intuition congruence|]. destruct (String.eqb_spec l "medium") as [->|N2]; [intuition congruence|].
  destruct (String.eqb_spec l "optimal") as [->|N3]; [intuition congruence|]. destruct (String.eqb_spec l "max") as [->|N4]; intuition congruence.
Qed.
Lemma optimal_works : forall (c : cfg) (v : env) (x out : list byte) (i : dds_info), supported c -> 2 ^ 32 + 147 <= usize_max v ->
  whole_bc1_file (c_debug c) x i -> zlen out = zlen x -> forall (L : Type) (lib : zstd_lib L) (show : zstd_error -> string) (st : L),
  keeps_promise lib -> can_allocate lib v (i_data_length i / 2) ->
  exists t s st', optimal_preset_bundle lib = ROk t /\ candidate false (decorrelation_mode s) /\
    dds_transform_bundle show c v t x out st =
      Ok (ROk tt, packed_file (codec_header CBc1 s) x (i_data_offset i) (i_data_length i)
                    (texture_layout CBc1 s (slice x (i_data_offset i) (i_data_length i))), st') /\
    forall size, compresses_to lib v size -> forall s', candidate false (decorrelation_mode s') ->
      compressed_sum (size 1) (bc1_shown (slice x (i_data_offset i) (i_data_length i)) s) <=
      compressed_sum (size 1) (bc1_shown (slice x (i_data_offset i) (i_data_length i)) s').
Proof.
  intros c v x out i K HU HF LO L lib show st KP CA. destruct (zstd_works c v x out i K HU HF LO L lib 1 false show st KP CA) as (s & st' & C & E & Q).
  exists (with_bc1_auto bundle_new (auto_new (zstd lib 1))), s, st'. split; [reflexivity|]. split; [exact C|]. split; [exact E|exact Q].
Qed.
Lemma max_works : forall (c : cfg) (v : env) (x out : list byte) (i : dds_info), supported c -> 2 ^ 32 + 147 <= usize_max v ->
  whole_bc1_file (c_debug c) x i -> zlen out = zlen x -> forall (L : Type) (lib : zstd_lib L) (show : zstd_error -> string) (st : L),
  keeps_promise lib -> can_allocate lib v (i_data_length i / 2) ->
  exists t s st', max_preset_bundle lib = ROk t /\ candidate true (decorrelation_mode s) /\
    dds_transform_bundle show c v t x out st =
      Ok (ROk tt, packed_file (codec_header CBc1 s) x (i_data_offset i) (i_data_length i)
                    (texture_layout CBc1 s (slice x (i_data_offset i) (i_data_length i))), st') /\
    forall size, compresses_to lib v size -> forall s', candidate true (decorrelation_mode s') ->
      compressed_sum (size 1) (bc1_shown (slice x (i_data_offset i) (i_data_length i)) s) <=
      compressed_sum (size 1) (bc1_shown (slice x (i_data_offset i) (i_data_length i)) s').
Proof.
  intros c v x out i K HU HF LO L lib show st KP CA. destruct (zstd_works c v x out i K HU HF LO L lib 1 true show st KP CA) as (s & st' & C & E & Q).
  exists (with_bc1_auto bundle_new (auto_new_ultra (zstd lib 1))), s, st'. split; [reflexivity|]. split; [exact C|]. split; [exact E|exact Q].
Qed.
Lemma presets_without_bc2 : forall (L : Type) (lib : zstd_lib L) (matches : list byte -> Z),
  b_bc2 low_preset_bundle = None /\ b_bc2 (medium_preset_bundle matches) = None /\
  (exists t, optimal_preset_bundle lib = ROk t /\ b_bc2 t = None) /\ (exists t, max_preset_bundle lib = ROk t /\ b_bc2 t = None).
Proof.
  intros L lib matches. split; [reflexivity|]. split; [reflexivity|]. split; eexists; split; reflexivity.
Qed.

(** ** Concrete runs *)
Definition works : answers := Answers true true (Io (fun _ => true) (fun _ => true) (fun _ => true) (fun _ _ _ => x00)).
Definition two_files : files := fun p =>
  if String.eqb p "/in/a.dds" then Some file1 else if String.eqb p "/in/b.dds" then Some file2 else if String.eqb p "/in/note.txt" then Some [x68; x69] else None.
Definition shelf : tree :=
  Folder (Some [Some ("a.DDS", Leaf); None; Some ("locked", Folder None); Some ("sub", Folder (Some [Some (".dds", Leaf); Some ("b.tar.gz", Leaf)]))]).

Lemma name_ok : forall s, (s <> "" /\ no_slash s) -> file_name s.
Proof. auto. Qed.
Ltac names := repeat (apply Forall_cons || apply Forall_nil); split; cbn; try discriminate; repeat split; discriminate.

Lemma directories_apart : apart ["home"; "in"] ["home"; "out"] /\ Forall file_name ["home"; "out"] /\
  files_below ["home"; "in"] [["home"; "in"; "a.dds"]; ["home"; "in"; "b"; "a.dds"]] /\
  target_of ["home"; "in"] ["home"; "out"] ["home"; "in"; "b"; "a.dds"] = Some ["home"; "out"; "b"; "a.dds"].
Proof.
  split; [split; intros r E; discriminate E|]. split; [names|]. split; [|reflexivity]. split.
  - repeat constructor; cbn; intuition discriminate.
  - apply Forall_cons; [|apply Forall_cons; [|apply Forall_nil]].
    + exists ["a.dds"]. split; [reflexivity|]. split; [discriminate|names].
    + exists ["b"; "a.dds"]. split; [reflexivity|]. split; [discriminate|names].
Qed.

Lemma shelf_found : real_tree shelf /\
  find_all_files ["in"] shelf = [["in"; "a.DDS"]; ["in"; "sub"; ".dds"]; ["in"; "sub"; "b.tar.gz"]] /\
  map (extension_of (fun _ => true)) (find_all_files ["in"] shelf) = [Some "dds"; None; Some "gz"].
Proof.
  split; [|split; reflexivity]. unfold shelf. apply real_folder.
  - cbn. repeat constructor; cbn; intuition discriminate.
  - names.
  - intros name sub H. cbn [In] in H. repeat (destruct H as [H|H]; [try discriminate H; injection H as <- <-; try constructor|]); try contradiction.
    + repeat constructor; cbn; intuition discriminate.
    + names.
    + intros n s H. cbn [In] in H. repeat (destruct H as [H|H]; [injection H as <- <-; constructor|]). contradiction.
Qed.

Lemma file1_whole : whole_bc1_file true file1 (DdsInfo DBC1 128 32) /\ preset_from_str "MeDium" = Some Medium /\ preset_from_str "medium " = None.
Proof.
  split; [|split; reflexivity]. split; [vm_compute; reflexivity|]. split; [reflexivity|]. split; [vm_compute; discriminate|]. split; [reflexivity|]. intros _. reflexivity.
Qed.

Lemma file1_whole_release : whole_bc1_file (c_debug cpu) file1 (DdsInfo DBC1 128 32).
Proof. split; [vm_compute; reflexivity|]. split; [reflexivity|]. split; [vm_compute; discriminate|]. split; [reflexivity|]. intros E. discriminate E. Qed.

Lemma there_and_back : exists fs1 fs2 y, y <> file1 /\
  process_files (fun _ => true) (TransformDir low_preset_bundle) (all_handlers (fun _ : Empty_set => "") cpu env64) ["in"] ["out"] true
    [(works, ["in"; "a.dds"]); (works, ["in"; "note.txt"])] two_files tt 0 = Ok (163, fs1, tt) /\
  fs1 "/out/a.dds" = Some y /\ fs1 "/out/note.txt" = None /\
  process_files (fun _ => true) UntransformDir (all_handlers (fun _ : Empty_set => "") cpu env64) ["out"] ["back"] true
    [(works, ["out"; "a.dds"])] fs1 tt 0 = Ok (163, fs2, tt) /\ fs2 "/back/a.dds" = Some file1.
Proof.
  do 3 eexists. split; [|split; [vm_compute; reflexivity|]; split; [vm_compute; reflexivity|]; split; [vm_compute; reflexivity|]; split; [vm_compute; reflexivity|vm_compute; reflexivity]].
  vm_compute. discriminate.
Qed.

Lemma left_behind : exists fs1 fs2 y z,
  process_file (fun _ => true) (TransformDir low_preset_bundle) (all_handlers (fun _ : Empty_set => "") cpu env64) ["in"] ["out"] works ["in"; "b.dds"] two_files tt =
    Ok (RErr (CFile (FTransform (EFormatHandler (NoBuilderForFormat FBc2)))), fs1, tt) /\
  two_files "/in/b.dds" = Some file2 /\ two_files "/out/b.dds" = None /\ fs1 "/out/b.dds" = Some y /\
  process_file (fun _ => true) UntransformDir (all_handlers (fun _ : Empty_set => "") cpu env64) ["out"] ["back"] works ["out"; "b.dds"] fs1 tt =
    Ok (RErr (CFile (FTransform UnknownTransformFormat)), fs2, tt) /\
  fs2 "/back/b.dds" = Some z /\ parse_dds true z = parse_dds true file2 /\ z <> file2.
Proof.
  do 4 eexists. split; [vm_compute; reflexivity|]. split; [reflexivity|]. split; [reflexivity|]. split; [vm_compute; reflexivity|].
  split; [vm_compute; reflexivity|]. split; [vm_compute; reflexivity|]. split; [vm_compute; reflexivity|]. vm_compute. discriminate.
Qed.

Lemma one_more {B W} utf8 (cmd : command B) (hs : list (handler B W)) I O entries fs s1 fs2 pre p ph ph2 post total t partial :
  reachable utf8 cmd hs I O entries fs s1 -> s_tasks s1 = pre ++ (p, ph) :: post -> s_total s1 = total -> target_of I O p = Some t ->
  task_step utf8 cmd hs p (render p) (render t) partial (s_files s1) ph fs2 ph2 ->
  reachable utf8 cmd hs I O entries fs (State fs2 (pre ++ (p, ph2) :: post) total).
Proof.
  intros (n & R) E Et T S. destruct s1 as [fs1 ts tot]. cbn [s_tasks s_total s_files] in *. subst ts tot. eexists. eapply run_step; [exact R|]. econstructor; [exact T|exact S].
Qed.
Definition zeros (n : nat) : list byte := repeat x00 n.

Lemma same_directory : exists fs s, fs "/in/a.dds" = Some file1 /\
  reachable (fun _ => true) (TransformDir low_preset_bundle) (all_handlers (fun _ : Empty_set => "") cpu env64) ["in"] ["in"] [["in"; "a.dds"]] fs s /\
  s_tasks s = [(["in"; "a.dds"], Undefined)] /\ s_files s "/in/a.dds" <> Some file1.
Proof.
  pose (p := ["in"; "a.dds"]). exists two_files.
  assert (R0 : reachable (fun _ => true) (TransformDir low_preset_bundle) (all_handlers (fun _ : Empty_set => "") cpu env64) ["in"] ["in"] [p] two_files (start [p] two_files))
    by (exists 0%nat; constructor).
  pose proof (one_more _ _ _ _ _ _ _ _ _ [] p _ _ [] 0 p false R0 eq_refl eq_refl eq_refl (step_directory _ _ _ _ _ _ _)) as R1.
  pose proof (one_more _ _ _ _ _ _ _ _ _ [] p _ _ [] 0 p false R1 eq_refl eq_refl eq_refl (step_metadata _ _ _ _ _ _ _ file1 eq_refl)) as R2.
  pose proof (one_more _ _ _ _ _ _ _ _ _ [] p _ _ [] 0 p false R2 eq_refl eq_refl eq_refl (step_open _ _ _ _ _ _ _ _ file1 eq_refl)) as R3.
  assert (A : accepts (fun _ => true) (TransformDir low_preset_bundle) (dds_handler (fun _ : Empty_set => "") cpu env64) file1 p tt = Ok (true, tt)) by (vm_compute; reflexivity).
  pose proof (one_more _ _ _ _ _ _ _ _ _ [] p _ _ [] 0 p false R3 eq_refl eq_refl eq_refl (step_accepted _ _ _ _ _ _ _ _ _ _ _ _ _ eq_refl A)) as R4.
  assert (Z : zlen (zeros 163) = zlen file1) by (vm_compute; reflexivity).
  pose proof (one_more _ _ _ _ _ _ _ _ _ [] p _ _ [] 0 p false R4 eq_refl eq_refl eq_refl (step_create _ _ _ _ _ _ _ _ _ _ (zeros 163) Z)) as R5.
  pose proof (one_more _ _ _ _ _ _ _ _ _ [] p _ _ [] 0 p false R5 eq_refl eq_refl eq_refl (step_map_alias _ _ _ _ _ _ _ _ _ _ eq_refl)) as R6.
  eexists. split; [reflexivity|]. split; [exact R6|]. split; [reflexivity|]. vm_compute. discriminate.
Qed.

Lemma nested_directory : exists fs s, fs "/in/a.dds" = Some file1 /\ fs "/in/out/a.dds" = Some file1 /\
  reachable (fun _ => true) (TransformDir low_preset_bundle) (all_handlers (fun _ : Empty_set => "") cpu env64) ["in"] ["in"; "out"]
    (find_all_files ["in"] (Folder (Some [Some ("a.dds", Leaf); Some ("out", Folder (Some [Some ("a.dds", Leaf)]))]))) fs s /\
  In (["in"; "out"; "a.dds"], Undefined) (s_tasks s) /\ s_files s "/in/out/a.dds" <> Some file1.
Proof.
  pose (p := ["in"; "a.dds"]). pose (q := ["in"; "out"; "a.dds"]). pose (u := ["in"; "out"; "out"; "a.dds"]).
  pose (fs := fun n => if String.eqb n "/in/a.dds" then Some file1 else if String.eqb n "/in/out/a.dds" then Some file1 else None). exists fs.
  assert (R0 : reachable (fun _ => true) (TransformDir low_preset_bundle) (all_handlers (fun _ : Empty_set => "") cpu env64) ["in"] ["in"; "out"] [p; q] fs (start [p; q] fs))
    by (exists 0%nat; constructor).
  pose proof (one_more _ _ _ _ _ _ _ _ _ [(p, Waiting)] q _ _ [] 0 u false R0 eq_refl eq_refl eq_refl (step_directory _ _ _ _ _ _ _)) as Q1.
  pose proof (one_more _ _ _ _ _ _ _ _ _ [(p, Waiting)] q _ _ [] 0 u false Q1 eq_refl eq_refl eq_refl (step_metadata _ _ _ _ _ _ _ file1 eq_refl)) as Q2.
  pose proof (one_more _ _ _ _ _ _ _ _ _ [(p, Waiting)] q _ _ [] 0 u false Q2 eq_refl eq_refl eq_refl (step_open _ _ _ _ _ _ _ _ file1 eq_refl)) as Q3.
  match type of Q3 with reachable _ _ _ _ _ _ _ (State _ (_ ++ ?k :: _) _) => pose (later := [k]) end.
  pose proof (one_more _ _ _ _ _ _ _ _ _ [] p _ _ later 0 q false Q3 eq_refl eq_refl eq_refl (step_directory _ _ _ _ _ _ _)) as R1.
  pose proof (one_more _ _ _ _ _ _ _ _ _ [] p _ _ later 0 q false R1 eq_refl eq_refl eq_refl (step_metadata _ _ _ _ _ _ _ file1 eq_refl)) as R2.
  pose proof (one_more _ _ _ _ _ _ _ _ _ [] p _ _ later 0 q false R2 eq_refl eq_refl eq_refl (step_open _ _ _ _ _ _ _ _ file1 eq_refl)) as R3.
  assert (A : accepts (fun _ => true) (TransformDir low_preset_bundle) (dds_handler (fun _ : Empty_set => "") cpu env64) file1 p tt = Ok (true, tt)) by (vm_compute; reflexivity).
  pose proof (one_more _ _ _ _ _ _ _ _ _ [] p _ _ later 0 q false R3 eq_refl eq_refl eq_refl (step_accepted _ _ _ _ _ _ _ _ _ _ _ _ _ eq_refl A)) as R4.
  assert (Z : zlen (zeros 163) = zlen file1) by (vm_compute; reflexivity).
  pose proof (one_more _ _ _ _ _ _ _ _ _ [] p _ _ later 0 q false R4 eq_refl eq_refl eq_refl (step_create _ _ _ _ _ _ _ _ _ _ (zeros 163) Z)) as R5.
  match type of R5 with reachable _ _ _ _ _ _ _ (State _ (_ ++ ?k :: _) _) => pose (earlier := [k]) end.
  assert (Ch : update fs "/in/out/a.dds" (Some (zeros 163)) "/in/out/a.dds" <> Some file1) by (vm_compute; discriminate).
  pose proof (one_more _ _ _ _ _ _ _ _ _ earlier q _ _ [] 0 u false R5 eq_refl eq_refl eq_refl (step_input_changed _ _ _ _ _ _ _ (Choosing (zlen file1) file1 (all_handlers (fun _ : Empty_set => "") cpu env64)) file1 eq_refl Ch)) as R6.
  eexists. split; [reflexivity|]. split; [reflexivity|]. split; [exact R6|]. split; [right; left; reflexivity|exact Ch].
Qed.
