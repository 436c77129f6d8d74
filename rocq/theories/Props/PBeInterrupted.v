(** C76 and C77 on big-endian machines. *)
From Verif Require Import Base.Bytes Base.Res Model.Color565 Model.Kernel Model.Transform Model.Auto Model.Builders Model.Embed Model.Bundle Model.Dds Model.Handlers Model.Cli Model.Interrupted
  Model.BigEndian Model.BeTransform Model.BeFiles Model.EndianTool Model.BeInterrupted.
From Verif Require Import Spec.Layout Spec.Dds Spec.Cli Spec.BigEndian Spec.BeFiles Spec.Interrupted Spec.BeInterrupted Proofs.CliFacts Proofs.BigEndianFacts Proofs.InterruptedFacts Proofs.BeInterruptedFacts.
From Verif Require Proofs.CliExamples.
From Verif Require Import Props.PDds Props.PInterrupted.
From Coq Require Import String.
Open Scope string_scope.
Open Scope list_scope.
Open Scope Z_scope.

(** The lists of writes are those of the handler. *)
Theorem C76_be_writes : forall (St Er : Type) (show : Er -> string) (debug : bool) (junk : byte) (v : env) (t : bundle St Er) (x out : list byte) (st : St) r y st',
  be_dds_transform_bundle show (big_endian_cpu debug junk) v t x out st = Ok (r, y, st') ->
  exists ws, be_dds_transform_writes show (big_endian_cpu debug junk) v t x out st = Ok ws /\ y = fold_left (fun o w => written w o) ws out.
Proof. intros St Er show d j v. exact (be_transform_writes_ok show (big_endian_cpu d j) v). Qed.
Print Assumptions C76_be_writes.
Theorem C76_be_untransform_writes : forall (debug : bool) (junk : byte) (v : env) (x out : list byte) r y, be_dds_untransform (big_endian_cpu debug junk) v x out = Ok (r, y) ->
  exists ws, be_dds_untransform_writes (big_endian_cpu debug junk) v x out = Ok ws /\ y = fold_left (fun o w => written w o) ws out.
Proof. intros d j. exact (be_untransform_writes_ok (big_endian_cpu d j)). Qed.
Print Assumptions C76_be_untransform_writes.

(** What a stopped transform leaves: the finished file, or one that no machine of either byte order restores, or one whose texture and first
    byte are as they were. *)
Theorem C76_be_stopped : forall (St Er : Type) (show : Er -> string) (debug : bool) (junk : byte) (v : env) (t : bundle St Er) (x out : list byte) (st : St) y st' i ws z,
  parse_dds debug x = Ok (Some i) -> be_dds_transform_bundle show (big_endian_cpu debug junk) v t x out st = Ok (ROk tt, y, st') ->
  be_dds_transform_writes show (big_endian_cpu debug junk) v t x out st = Ok ws -> left_behind ws out z ->
  z = y \/ (forall c2 v2 out2 o, be_dds_untransform c2 v2 z out2 <> Ok (ROk tt, o) /\ dds_untransform c2 v2 z out2 <> Ok (ROk tt, o)) \/
  (zlen z = zlen out /\ znth z 0 = znth out 0 /\ forall j, 0 <= j -> znth z j = znth out j \/ znth z j = znth x j /\ j < i_data_offset i).
Proof.
  intros St Er show d jk v t x out st y st' i ws z P H W L.
  destruct (be_stopped_transform show (big_endian_cpu d jk) v t x out st y st' i ws z P H W L) as [E|[E|(E1 & E2)]].
  - left. exact E.
  - right; left. intros c2 v2 out2 o. exact (conj (be_first_not_restored c2 v2 z out2 o E) (first_not_restored c2 v2 z out2 o E)).
  - destruct (E2 0 ltac:(lia)) as [E3|(E3 & _)].
    + right; right. split; [exact E1|]. split; [exact E3|]. intros j Hj. destruct (E2 j Hj) as [E4|(E4 & E5)]; [left; exact E4|right; split; [exact E4|lia]].
    + right; left. intros c2 v2 out2 o. rewrite (magic_first x (proj1 (Proofs.DdsHandler.parse_dds_facts _ _ _ P))) in E3.
      exact (conj (be_first_not_restored c2 v2 z out2 o E3) (first_not_restored c2 v2 z out2 o E3)).
Qed.
Print Assumptions C76_be_stopped.
Theorem C76_be_stopped_in_order : forall (St Er : Type) (show : Er -> string) (debug : bool) (junk : byte) (v : env) (t : bundle St Er) (x out : list byte) (st : St) y st' i ws z,
  parse_dds debug x = Ok (Some i) -> be_dds_transform_bundle show (big_endian_cpu debug junk) v t x out st = Ok (ROk tt, y, st') ->
  be_dds_transform_writes show (big_endian_cpu debug junk) v t x out st = Ok ws -> left_in_order ws out z ->
  z = y \/ z = out \/ forall c2 v2 out2 o, be_dds_untransform c2 v2 z out2 <> Ok (ROk tt, o) /\ dds_untransform c2 v2 z out2 <> Ok (ROk tt, o).
Proof.
  intros St Er show d j v t x out st y st' i ws z P H W L.
  destruct (be_stopped_in_order show (big_endian_cpu d j) v t x out st y st' i ws z P H W L) as [E|[E|E]]; [left; exact E|right; left; exact E|].
  right; right. intros c2 v2 out2 o. exact (conj (be_first_not_restored c2 v2 z out2 o E) (first_not_restored c2 v2 z out2 o E)).
Qed.
Print Assumptions C76_be_stopped_in_order.
Theorem C76_be_failed : forall (St Er : Type) (show : Er -> string) (debug : bool) (junk : byte) (v : env) (t : bundle St Er) (x out : list byte) (st : St) e y st',
  be_dds_transform_bundle show (big_endian_cpu debug junk) v t x out st = Ok (RErr e, y, st') ->
  y = out \/ forall c2 v2 out2 o, be_dds_untransform c2 v2 y out2 <> Ok (ROk tt, o) /\ dds_untransform c2 v2 y out2 <> Ok (ROk tt, o).
Proof.
  intros St Er show d j v t x out st e y st' H. destruct (be_failed_transform show (big_endian_cpu d j) v t x out st e y st' H) as [E|E]; [left; exact E|].
  right. intros c2 v2 out2 o. exact (conj (be_first_not_restored c2 v2 y out2 o E) (first_not_restored c2 v2 y out2 o E)).
Qed.
Print Assumptions C76_be_failed.
(** C76_rerun is about any handlers. The file of zeros misleads big-endian machines too: *)
Theorem C76_be_blank_refuted : exists x y ws o, let c := big_endian_cpu false x00 in
  be_dds_transform_bundle (fun _ : unit => "") c env64 (manual CBc1) x (blank 163) tt = Ok (ROk tt, y, tt) /\
  be_dds_transform_writes (fun _ : unit => "") c env64 (manual CBc1) x (blank 163) tt = Ok ws /\ left_in_order ws (blank 163) (blank 163) /\
  be_dds_untransform c env64 (blank 163) (blank 163) = Ok (ROk tt, o) /\ o <> x.
Proof.
  exists file1. do 3 eexists. cbv zeta. split; [vm_compute; reflexivity|]. split; [vm_compute; reflexivity|]. split; [apply ordered_between|].
  split; [vm_compute; reflexivity|]. vm_compute. discriminate.
Qed.
Print Assumptions C76_be_blank_refuted.
Example C76_be_stopped_case : exists y ws z, let c := big_endian_cpu true x5a in
  be_dds_transform_bundle (fun _ : unit => "") c env64 (manual CBc1) file1 (blank 163) tt = Ok (ROk tt, y, tt) /\
  be_dds_transform_writes (fun _ : unit => "") c env64 (manual CBc1) file1 (blank 163) tt = Ok ws /\ List.length ws = 4%nat /\
  left_in_order ws (blank 163) z /\ z <> y /\ z <> blank 163 /\
  exists o, be_dds_untransform c env64 z z = Ok (RErr UnknownTransformFormat, o).
Proof.
  do 2 eexists. exists (splice (blank 163) 0 (slice file1 0 128)). cbv zeta. split; [vm_compute; reflexivity|]. split; [vm_compute; reflexivity|]. split; [reflexivity|].
  split; [|split; [vm_compute; discriminate|split; [vm_compute; discriminate|eexists; vm_compute; reflexivity]]].
  apply ordered_later. replace (written _ _) with (splice (blank 163) 0 (slice file1 0 128)) by (vm_compute; reflexivity). apply ordered_between.
Qed.

(** C77: the outputs of a killed run, *)
Theorem C77_be_outputs : forall (St Er : Type) (utf8 : string -> bool) (show : Er -> string) (junk : byte) (v : env) (b : bundle St Er) (I O : components)
    (entries : list components) (before : files) (s : state (B := bundle St Er) (W := St)) (r : components) ph, let c := big_endian_cpu false junk in
  2 ^ 32 + 147 <= usize_max v ->
  apart I O -> Forall file_name O -> files_below I entries -> be_killed utf8 show c v b I O entries before s -> In (I ++ r, ph) (s_tasks s) ->
  let output := s_files s (render (O ++ r)) in
  output = before (render (O ++ r)) \/
  (exists x, before (render (I ++ r)) = Some x /\ output = Some (zeros (zlen x))) \/
  (exists x d w y w1, before (render (I ++ r)) = Some x /\ zlen d = zlen x /\ be_dds_transform_bundle show c v b x d w = Ok (ROk tt, y, w1) /\ output = Some y) \/
  (exists z, output = Some z /\ forall c2 v2 out o, be_dds_untransform c2 v2 z out <> Ok (ROk tt, o) /\ dds_untransform c2 v2 z out <> Ok (ROk tt, o)) \/
  (exists e, ph = Returned (RErr (CFile e))).
Proof. intros St Er utf8 show j v b I O entries before s r ph c. exact (be_killed_outputs utf8 show c v b I O entries before s r ph (big_endian_ok false j) eq_refl). Qed.
Print Assumptions C77_be_outputs.
(** and what restoring them gives. *)
Theorem C77_be_restored : forall (St1 Er1 St2 Er2 : Type) (utf8 : string -> bool) (show1 : Er1 -> string) (show2 : Er2 -> string) (j1 j2 : byte) (v1 v2 : env)
    (b : bundle St1 Er1) (I O R : components) (entries1 entries2 : list components) (fs1 fs2 : files)
    (s1 : state (B := bundle St1 Er1) (W := St1)) (s2 : state (B := bundle St2 Er2) (W := St2)) (r : components) (x : list byte) ph1 ph2,
  2 ^ 32 + 147 <= usize_max v1 -> zlen x <= usize_max v2 ->
  apart I O -> apart O R -> Forall file_name O -> Forall file_name R -> files_below I entries1 -> files_below O entries2 ->
  be_killed utf8 show1 (big_endian_cpu false j1) v1 b I O entries1 fs1 s1 -> fs1 (render (I ++ r)) = Some x -> In (I ++ r, ph1) (s_tasks s1) ->
  fs2 (render (O ++ r)) = s_files s1 (render (O ++ r)) -> reachable utf8 UntransformDir (be_all_handlers show2 (big_endian_cpu false j2) v2) O R entries2 fs2 s2 ->
  In (O ++ r, ph2) (s_tasks s2) -> succeeded ph2 ->
  s_files s2 (render (R ++ r)) = Some x \/
  fs2 (render (O ++ r)) = fs1 (render (O ++ r)) \/ fs2 (render (O ++ r)) = Some (zeros (zlen x)) \/ exists e, ph1 = Returned (RErr (CFile e)).
Proof.
  intros St1 Er1 St2 Er2 utf8 show1 show2 j1 j2 v1 v2 b I O R entries1 entries2 fs1 fs2 s1 s2 r x ph1 ph2.
  exact (be_killed_restored St1 Er1 St2 Er2 utf8 show1 show2 (big_endian_cpu false j1) (big_endian_cpu false j2) v1 v2 b I O R entries1 entries2 fs1 fs2 s1 s2 r x ph1 ph2
    (big_endian_ok false j1) (big_endian_ok false j2) eq_refl eq_refl).
Qed.
Print Assumptions C77_be_restored.

(** A run that is killed when the headers are copied and the texture is not, and one that is killed at the end. *)
Definition be_cpu := big_endian_cpu false x5a.
Definition be_low : list (handler (bundle unit Empty_set) unit) := be_all_handlers (fun _ => "") be_cpu env64.
Definition be_one : components := ["in"; "a.dds"].
Definition be_one_file (p : path) : option (list byte) := if String.eqb p "/in/a.dds" then Some file1 else None.
Notation be_killed_low := (be_killed (fun _ => true) (fun _ : Empty_set => "") be_cpu env64 low_preset_bundle ["in"] ["out"] [be_one] be_one_file).
Lemma be_killed_more : forall s1 fs2 ph ph2 partial,
  be_killed_low s1 -> s_tasks s1 = [(be_one, ph)] -> s_total s1 = 0 ->
  task_step (fun _ => true) (TransformDir low_preset_bundle) be_low be_one "/in/a.dds" "/out/a.dds" partial (s_files s1) ph fs2 ph2 ->
  match ph2 with
  | Created _ x _ => fs2 "/out/a.dds" = Some (zeros (zlen x))
  | Working _ x _ d now => d = zeros (zlen x) /\ exists w ws, be_dds_transform_writes (fun _ : Empty_set => "") be_cpu env64 low_preset_bundle x d w = Ok ws /\ left_in_order ws d now
  | _ => True
  end -> be_killed_low (State fs2 [(be_one, ph2)] 0).
Proof.
  intros [fs1 ts tot] fs2 ph ph2 partial K E Et S H. cbn [s_tasks s_total s_files] in *. subst ts tot. eapply be_killed_later; [exact K| |].
  - exact (step_task (fun _ => true) (TransformDir low_preset_bundle) be_low ["in"] ["out"] partial fs1 fs2 [] be_one ph ph2 [] 0 ["out"; "a.dds"] eq_refl S).
  - intros r ph' [Q|[]]. injection Q as <- <-. exact H.
Qed.
Lemma be_killed_created : be_killed_low (State (update be_one_file "/out/a.dds" (Some (zeros (zlen file1)))) [(be_one, Created (zlen file1) file1 (be_dds_handler (fun _ => "") be_cpu env64))] 0).
Proof.
  assert (A : accepts (fun _ => true) (TransformDir low_preset_bundle) (be_dds_handler (fun _ : Empty_set => "") be_cpu env64) file1 be_one tt = Ok (true, tt)) by (vm_compute; reflexivity).
  pose proof (be_killed_first (fun _ => true) (fun _ : Empty_set => "") be_cpu env64 low_preset_bundle ["in"] ["out"] [be_one] be_one_file) as R0.
  pose proof (be_killed_more _ _ _ _ _ R0 eq_refl eq_refl (step_directory _ _ _ _ _ _ _) Logic.I) as R1.
  pose proof (be_killed_more _ _ _ _ _ R1 eq_refl eq_refl (step_metadata _ _ _ _ _ _ _ file1 eq_refl) Logic.I) as R2.
  pose proof (be_killed_more _ _ _ _ _ R2 eq_refl eq_refl (step_open _ _ _ _ _ _ _ _ file1 eq_refl) Logic.I) as R3.
  pose proof (be_killed_more _ _ _ _ _ R3 eq_refl eq_refl (step_accepted _ _ _ _ _ _ _ _ _ _ _ _ _ eq_refl A) Logic.I) as R4.
  assert (Z : zlen (zeros (zlen file1)) = zlen file1) by (vm_compute; reflexivity).
  refine (be_killed_more _ _ _ _ _ R4 eq_refl eq_refl (step_create _ _ _ _ _ _ _ _ _ _ (zeros (zlen file1)) Z) _). reflexivity.
Qed.
Example C77_be_cases :
  (exists n x h d now fs, be_killed_low (State fs [(be_one, Working n x h d now)] 0) /\ fs "/out/a.dds" = Some now /\ now <> d /\ firstn 128 now = firstn 128 file1) /\
  (exists fs y, be_killed_low (State fs [(be_one, Returned (ROk 163))] 0) /\ fs "/out/a.dds" = Some y /\ y <> file1 /\ be_dds_untransform be_cpu env64 y (zeros 163) = Ok (ROk tt, file1)).
Proof.
  assert (Z : zlen (zeros (zlen file1)) = zlen file1) by (vm_compute; reflexivity).
  assert (NE : "/in/a.dds" <> "/out/a.dds") by discriminate.
  assert (W : exists ws, be_dds_transform_writes (fun _ : Empty_set => "") be_cpu env64 low_preset_bundle file1 (zeros (zlen file1)) tt = Ok (Copying 0 (slice file1 0 128) :: ws)) by (eexists; vm_compute; reflexivity).
  destruct W as (ws & W). pose (now := splice (zeros (zlen file1)) 0 (slice file1 0 128)).
  assert (K : be_killed_low (State (update be_one_file "/out/a.dds" (Some (zeros (zlen file1)))) [(be_one, Working (zlen file1) file1 (be_dds_handler (fun _ => "") be_cpu env64) (zeros (zlen file1)) (zeros (zlen file1)))] 0)).
  { refine (be_killed_more _ _ _ _ _ be_killed_created eq_refl eq_refl (step_map _ _ _ _ _ _ _ _ _ _ (zeros (zlen file1)) NE eq_refl Z) _).
    split; [reflexivity|]. exists tt, (Copying 0 (slice file1 0 128) :: ws). split; [exact W|apply ordered_between]. }
  split.
  - do 4 eexists. exists now. eexists. split; [|split; [|split]].
    + assert (Zn : zlen now = zlen (zeros (zlen file1))) by (vm_compute; reflexivity).
      refine (be_killed_more _ _ _ _ _ K eq_refl eq_refl (step_write _ _ _ _ _ _ _ _ _ _ _ _ now eq_refl eq_refl Zn) _).
      split; [reflexivity|]. exists tt, (Copying 0 (slice file1 0 128) :: ws). split; [exact W|]. apply ordered_later, ordered_between.
    + reflexivity.
    + vm_compute. discriminate.
    + vm_compute. reflexivity.
  - assert (D : exists y, work (TransformDir low_preset_bundle) (be_dds_handler (fun _ : Empty_set => "") be_cpu env64) file1 (zeros (zlen file1)) tt = Ok (ROk tt, y, tt) /\
      y <> file1 /\ be_dds_untransform be_cpu env64 y (zeros 163) = Ok (ROk tt, file1)).
    { eexists. split; [vm_compute; reflexivity|]. split; [vm_compute; discriminate|vm_compute; reflexivity]. }
    destruct D as (y & D & Ny & Un). eexists. exists y. split; [|split; [|split; [exact Ny|exact Un]]].
    + exact (be_killed_more _ _ _ _ _ K eq_refl eq_refl (step_done _ _ _ _ _ _ _ _ _ _ _ _ _ _ _ eq_refl eq_refl D) Logic.I).
    + reflexivity.
Qed.
