(** Whole commands of the tool, on disks. *)
From Verif Require Import Base.Bytes Base.Res Model.Kernel Model.Transform Model.Auto Model.Builders Model.Bundle Model.Dds Model.Handlers Model.Cli Model.Commands
  Spec.Files Spec.Dds Spec.Cli Spec.Commands Proofs.CliFacts Proofs.CliRuns Proofs.CliDds Proofs.CliExamples Proofs.CommandsDisk.
From Coq Require Import String.
Open Scope list_scope.
Open Scope Z_scope.

(** The files on a disk. *)
Lemma contents_find : forall d, real_disk d -> forall a p x, In (p, x) (contents a d) <-> exists r, p = a ++ r /\ find d r = Some (File x).
Proof.
  induction d as [y|es IH] using disk_rec_ind; intros R a p x.
  - cbn. split.
    + intros [[= <- <-] | []]. exists []. rewrite app_nil_r. split; reflexivity.
    + intros ([|c r] & -> & F); [|discriminate]. cbn in F. injection F as ->. left. rewrite app_nil_r. reflexivity.
  - inversion R as [|? ND FN RD]; subst. cbn [contents]. rewrite in_flat_map. split.
    + intros ([n e] & Hin & Hp). cbn [fst snd] in Hp. apply (IH n e Hin (RD _ _ Hin)) in Hp as (r & -> & F).
      exists (n :: r). rewrite <- app_assoc. split; [reflexivity|]. cbn. rewrite (in_entry _ _ _ ND Hin). exact F.
    + intros ([|c r] & -> & F); [discriminate|]. cbn in F. destruct (entry es c) as [e|] eqn:E; [|discriminate]. apply entry_in in E.
      exists (c, e). split; [exact E|]. cbn [fst snd]. apply (IH c e E (RD _ _ E)). exists r. rewrite <- app_assoc. split; [reflexivity | exact F].
Qed.
Lemma find_names : forall r d e, real_disk d -> find d r = Some e -> Forall file_name r /\ real_disk e.
Proof.
  induction r as [|c r IH]; intros d e R F; [injection F as <-; split; [constructor | exact R]|]. cbn in F. destruct d as [x|es]; [discriminate|].
  destruct (entry es c) as [e1|] eqn:E; [|discriminate]. inversion R as [|? ND FN RD]; subst. apply entry_in in E. destruct (IH _ _ (RD _ _ E) F) as (A & Re).
  split; [|exact Re]. constructor; [|exact A]. rewrite Forall_forall in FN. apply FN. apply in_map_iff. exists (c, e1). split; [reflexivity | exact E].
Qed.
Lemma files_on_find d p x : real_disk d -> Forall file_name p -> (files_on d (render p) = Some x <-> find d p = Some (File x)).
Proof.
  intros R N. unfold files_on. split.
  - destruct (List.find (fun e => String.eqb (render (fst e)) (render p)) (contents [] d)) as [[q y]|] eqn:F; [|discriminate]. intros [= ->].
    apply List.find_some in F as (Hin & E). apply String.eqb_eq in E. cbn [fst] in E. apply (contents_find d R) in Hin as (r & -> & Fr).
    cbn in E. apply render_inj in E; [subst; exact Fr | exact (proj1 (find_names _ _ _ R Fr)) | exact N].
  - intros F. assert (Hin : In (p, x) (contents [] d)) by (apply (contents_find d R); exists p; split; [reflexivity | exact F]).
    destruct (List.find (fun e => String.eqb (render (fst e)) (render p)) (contents [] d)) as [[q y]|] eqn:Q.
    + apply List.find_some in Q as (Hq & E). apply String.eqb_eq in E. cbn [fst] in E. apply (contents_find d R) in Hq as (r & -> & Fr). cbn in E.
      apply render_inj in E; [|exact (proj1 (find_names _ _ _ R Fr)) | exact N]. subst r. rewrite F in Fr. injection Fr as ->. reflexivity.
    + pose proof (List.find_none _ _ Q _ Hin) as X. cbn [fst] in X. rewrite String.eqb_refl in X. discriminate.
Qed.

(** The search. *)
Lemma real_tree_of : forall d, real_disk d -> real_tree (tree_of d).
Proof.
  induction d as [y|es IH] using disk_rec_ind; intros R; [constructor|]. inversion R as [|? ND FN RD]; subst. cbn.
  assert (E : entry_names (map (fun e => Some (fst e, tree_of (snd e))) es) = map fst es).
  { clear. induction es as [|[n e] es IHes]; [reflexivity|]. cbn. f_equal. exact IHes. }
  constructor; [rewrite E; exact ND | rewrite E; exact FN|]. intros n sub Hin. apply in_map_iff in Hin as ([m e] & [= <- <-] & Hin). exact (IH _ _ Hin (RD _ _ Hin)).
Qed.
Lemma real_tree_at d p : real_disk d -> real_tree (tree_at d p).
Proof. intros R. unfold tree_at. destruct (find d p) as [e|] eqn:F; [|constructor]. apply real_tree_of. exact (proj2 (find_names _ _ _ R F)). Qed.
Lemma visible_contents : forall d r, visible (tree_of d) r -> forall a, exists x, In (a ++ r, x) (contents a d).
Proof.
  induction d as [y|es IH] using disk_rec_ind; intros r V a; [inversion V|]. cbn in V. inversion V as [? n Hin|? n sub r1 Hin V1]; subst; apply in_map_iff in Hin as ([m e] & E & Hin).
  - injection E as <- E. destruct e as [x|]; [|discriminate]. exists x. cbn. apply in_flat_map. exists (m, File x). split; [exact Hin|]. left. reflexivity.
  - injection E as <- <-. cbn [fst snd] in *. destruct (IH _ _ Hin _ V1 (a ++ [m])) as (x & X). rewrite <- app_assoc in X. exists x. cbn. apply in_flat_map. exists (m, e). split; [exact Hin | exact X].
Qed.
Lemma contents_below : forall q d e, find d q = Some e -> forall a k, In k (contents (a ++ q) e) -> In k (contents a d).
Proof.
  induction q as [|c q IH]; intros d e F a k Hk; [injection F as <-; rewrite app_nil_r in Hk; exact Hk|]. cbn in F. destruct d as [x|es]; [discriminate|].
  destruct (entry es c) as [e1|] eqn:E; [|discriminate]. cbn. apply in_flat_map. exists (c, e1). split; [exact (entry_in _ _ _ E)|]. cbn [fst snd].
  apply (IH _ _ F). rewrite <- app_assoc. exact Hk.
Qed.
Lemma visible_find : forall d r x, real_disk d -> r <> [] -> find d r = Some (File x) -> visible (tree_of d) r.
Proof.
  induction d as [y|es IH] using disk_rec_ind; intros r x R N F; [destruct r; [contradiction | discriminate]|].
  destruct r as [|c r]; [contradiction|]. cbn in F. destruct (entry es c) as [e|] eqn:E; [|discriminate]. apply entry_in in E. cbn.
  assert (Hin : In (Some (c, tree_of e)) (map (fun e => Some (fst e, tree_of (snd e))) es)) by (apply in_map_iff; exists (c, e); split; [reflexivity | exact E]).
  destruct r as [|c1 r].
  - cbn in F. injection F as ->. apply visible_file. exact Hin.
  - apply (visible_below _ _ (tree_of e)); [exact Hin|]. inversion R as [|? ND FN RD]; subst. apply (IH c e E (c1 :: r) x (RD _ _ E)); [discriminate | exact F].
Qed.
Lemma found_here d p r x : real_disk d -> r <> [] -> find d (p ++ r) = Some (File x) -> In (p ++ r) (find_all_files p (tree_at d p)).
Proof.
  intros R N F. apply found_visible. exists r. split; [reflexivity|]. rewrite find_app in F. unfold tree_at. destruct (find d p) as [e|] eqn:E; [|discriminate].
  exact (visible_find _ _ _ (proj2 (find_names _ _ _ R E)) N F).
Qed.
Lemma found_is_file d p q : real_disk d -> In q (find_all_files p (tree_at d p)) -> exists r x, q = p ++ r /\ r <> [] /\ find d q = Some (File x).
Proof.
  intros R Hq. pose proof (real_tree_at d p R) as RT. apply found_visible in Hq as (r & -> & V). pose proof (proj1 (visible_names _ _ RT V)) as N.
  unfold tree_at in V. destruct (find d p) as [e|] eqn:F; [|inversion V]. destruct (visible_contents _ _ V p) as (x & X).
  apply (contents_below _ _ _ F []) in X. apply (contents_find d R) in X as (r1 & E & X). cbn in E. subst r1. exists r, x. split; [reflexivity|]. split; [exact N | exact X].
Qed.
Lemma search_same may values d ok d1 p : real_disk d -> parse_paths may d values = (ok, d1) ->
  find_all_files p (tree_at d1 p) = find_all_files p (tree_at d p).
Proof.
  intros R H. pose proof (paths_grown _ _ _ _ _ H) as (C & F & T). unfold tree_at at 2. destruct (find d p) as [e|] eqn:E.
  - destruct (T _ _ E) as (e1 & E1 & A). unfold tree_at. rewrite E1. apply A.
  - cbn. destruct (find_all_files p (tree_at d1 p)) as [|q l] eqn:L; [reflexivity|]. exfalso. assert (Hq : In q (find_all_files p (tree_at d1 p))) by (rewrite L; left; reflexivity).
    apply found_visible in Hq as (r & -> & V). unfold tree_at in V. destruct (find d1 p) as [e1|] eqn:F1; [|inversion V]. destruct (visible_contents _ _ V p) as (x & X).
    apply (contents_below _ _ _ F1 []) in X. rewrite C in X. apply (contents_find d R) in X as (r1 & E1 & X). cbn in E1. subst r1. rewrite find_app, E in X. discriminate.
Qed.
Lemma files_same may values d ok d1 : parse_paths may d values = (ok, d1) -> files_on d1 = files_on d.
Proof. intros H. exact (proj1 (grown_facts _ _ _ (paths_grown _ _ _ _ _ H))). Qed.

Section Command.
Context {B W E : Type}.
Variables (utf8 : string -> bool) (built : result (command B) E) (hs : list (handler B W)) (may : components -> bool) (I O : components) (first : bool).
Notation ends := (command_ends utf8 built hs may I O first).

Lemma runs_reachable cmd entries fs s : runs utf8 hs I O cmd (start entries fs) s <-> reachable utf8 cmd hs I O entries fs s.
Proof.
  split.
  - intros H. remember (start entries fs) as s0 eqn:E0. induction H as [s|s s1 partial s2 H IH St]; subst.
    + exists 0%nat. constructor.
    + destruct (IH eq_refl) as (n & R). eexists. econstructor; [exact R | exact St].
  - intros (n & R). remember (start entries fs) as s0 eqn:E0. induction R as [s|n s s1 partial s2 R IH St]; subst.
    + constructor.
    + econstructor; [exact (IH eq_refl) | exact St].
Qed.

(** What a command is, in terms of the disk it began with. *)
Lemma ends_cases d e fs ts : real_disk d -> ends d e fs ts ->
  let found := find_all_files I (tree_at d I) in
  (e <> Crashed /\ ts = [] /\ fs = files_on d /\ (e = Success -> found = []) /\
     (e = Failed -> (exists d1, parse_paths may d (paths I O first) = (false, d1)) \/ found <> [] /\ exists x, built = RErr x)) \/
  (exists cmd s, found <> [] /\ built = ROk cmd /\ (exists d1, parse_paths may d (paths I O first) = (true, d1)) /\ reachable utf8 cmd hs I O found (files_on d) s /\
     fs = s_files s /\ ts = s_tasks s /\ Forall (fun k => over (snd k)) ts /\
     (e = Success /\ Forall (fun k => reported (snd k)) ts \/ e = Crashed /\ exists p, In (p, Panicked) ts)).
Proof.
  intros R H found. inversion H as [d1 P|d1 P N|d1 x P N Bx|d1 cmd s P N Bx Ru Re|d1 cmd s P N Bx Ru Ov Pa]; subst e fs ts;
    rewrite (files_same _ _ _ _ _ P) in *; try rewrite (search_same _ _ _ _ _ I R P) in *.
  - left. split; [discriminate|]. split; [reflexivity|]. split; [reflexivity|]. split; [discriminate|]. intros _. left. exists d1. exact P.
  - left. split; [discriminate|]. split; [reflexivity|]. split; [reflexivity|]. split; [intros _; exact N | discriminate].
  - left. split; [discriminate|]. split; [reflexivity|]. split; [reflexivity|]. split; [discriminate|]. intros _. right. split; [exact N | exists x; exact Bx].
  - right. exists cmd, s. split; [exact N|]. split; [exact Bx|]. split; [exists d1; exact P|]. split; [apply runs_reachable; exact Ru|]. split; [reflexivity|]. split; [reflexivity|]. split.
    + eapply Forall_impl; [|exact Re]. intros [p [| | | | | | |[|]| | |]]; intros X; exact X || destruct X.
    + left. split; [reflexivity | exact Re].
  - right. exists cmd, s. split; [exact N|]. split; [exact Bx|]. split; [exists d1; exact P|]. split; [apply runs_reachable; exact Ru|]. split; [reflexivity|]. split; [reflexivity|].
    split; [exact Ov|]. right. split; [reflexivity | exact Pa].
Qed.
Lemma only_output d e fs ts : real_disk d -> ends d e fs ts -> forall q, (forall r, q <> render (O ++ r)) -> fs q = files_on d q.
Proof.
  intros R H q Q. destruct (ends_cases _ _ _ _ R H) as [(_ & _ & -> & _) | (cmd & s & _ & _ & _ & Re & -> & _)]; [reflexivity|].
  apply (nothing_else _ _ _ _ _ _ _ _ _ _ Re). intros r _. apply Q.
Qed.
Lemma exit_status d e fs ts : real_disk d -> ends d e fs ts ->
  (e = Failed -> ts = [] /\ fs = files_on d) /\
  (e = Success -> map fst ts = find_all_files I (tree_at d I) /\ Forall (fun k => reported (snd k)) ts) /\
  (e = Crashed -> exists p, In (p, Panicked) ts).
Proof.
  intros R H. destruct (ends_cases _ _ _ _ R H) as [(N & -> & -> & S & _) | (cmd & s & Nf & Bx & _ & Re & -> & -> & Ov & C)].
  - split; [intros _; split; reflexivity|]. split; [intros X; rewrite (S X); split; [reflexivity | constructor] | contradiction].
  - split; [intros ->; destruct C as [(C & _) | (C & _)]; discriminate|]. split.
    + intros ->. destruct C as [(_ & C) | (C & _)]; [|discriminate]. split; [|exact C]. destruct Re as (n & Re). exact (run_entries _ _ _ _ _ _ _ _ _ Re).
    + intros ->. destruct C as [(C & _) | (_ & C)]; [discriminate | exact C].
Qed.
(** When a command fails. *)
Lemma fails_when d e fs ts : real_disk d -> ends d e fs ts ->
  (e = Failed <-> (exists d1, parse_paths may d (paths I O first) = (false, d1)) \/
     find_all_files I (tree_at d I) <> [] /\ exists x, built = RErr x).
Proof.
  intros R H. split.
  - intros ->. destruct (ends_cases _ _ _ _ R H) as [(_ & _ & _ & _ & F) | (cmd & s & _ & _ & _ & _ & _ & _ & _ & [(C & _) | (C & _)])]; [exact (F eq_refl) | discriminate | discriminate].
  - intros [(d1 & P) | (N & x & Bx)]; inversion H as [d2 P2|d2 P2 N2|d2 y P2 N2 B2|d2 cmd s P2 N2 B2 Ru Re|d2 cmd s P2 N2 B2 Ru Ov Pa]; subst e; try reflexivity; try congruence.
    rewrite (search_same _ _ _ _ _ I R P2) in N2. contradiction.
Qed.
Lemma nothing_to_do d e fs ts : real_disk d -> ends d e fs ts -> (find d I = None \/ exists x, find d I = Some (File x)) ->
  ts = [] /\ fs = files_on d /\ (e = Success <-> exists d1, parse_paths may d (paths I O first) = (true, d1)).
Proof.
  intros R H M. assert (F : find_all_files I (tree_at d I) = []) by (unfold tree_at; destruct M as [-> | (x & ->)]; reflexivity).
  destruct (ends_cases _ _ _ _ R H) as [(N & -> & -> & S & Fl) | (cmd & s & Nf & _)]; [|rewrite F in Nf; contradiction].
  split; [reflexivity|]. split; [reflexivity|]. split.
  - intros ->. inversion H as [d2 P2|d2 P2 N2|d2 y P2 N2 B2|d2 cmd s P2 N2 B2 Ru Re|d2 cmd s P2 N2 B2 Ru Ov Pa]; eauto.
  - intros (d1 & P). destruct e; [reflexivity | | contradiction]. destruct (Fl eq_refl) as [(d2 & P2) | (Nf & _)]; [congruence | rewrite F in Nf; contradiction].
Qed.
End Command.

Section Dds.
Context {St Er E : Type}.
Variables (utf8 : string -> bool) (show : Er -> string) (c : cfg) (v : env) (built : result (command (bundle St Er)) E) (may : components -> bool) (I O : components) (first : bool).
Notation ends := (command_ends utf8 built (all_handlers show c v) may I O first).
Lemma harmless_found d : real_disk d -> Forall file_name I -> harmless c I d -> forall p x, In p (find_all_files I (tree_at d I)) -> files_on d (render p) = Some x ->
  (c_debug c = true -> forall i, parse_dds_ignore_magic true x = Ok (Some i) -> 0 < i_data_length i) /\ (c_debug c = true -> levels_fit x).
Proof.
  intros R NI H p x Hp Fx. destruct (found_is_file _ _ _ R Hp) as (r & y & -> & _ & Fy). pose proof (proj1 (find_names _ _ _ R Fy)) as N.
  apply (files_on_find d _ _ R N) in Fx. split; intros D; [intros i; exact (proj2 (H D _ _ Fx) i) | exact (proj1 (H D _ _ Fx))].
Qed.
Lemma no_crash d e fs ts : supported c -> 2 ^ 32 + 147 <= usize_max v -> real_disk d -> Forall file_name I -> Forall file_name O -> apart I O -> harmless c I d -> ends d e fs ts -> e <> Crashed.
Proof.
  intros K U R NI NO A H X ->. destruct (ends_cases _ _ _ _ _ _ _ _ _ _ _ R X) as [(N & _) | (cmd & s & Nf & Bx & _ & Re & -> & -> & Ov & [(C & _) | (_ & p & Pa)])]; [contradiction | discriminate|].
  refine (never_panics utf8 show c v cmd I O _ _ s K U _ A NO (found_below _ _ (real_tree_at d I R) NI) Re p Pa).
  intros q x Hq Fx. exact (harmless_found d R NI H q x Hq Fx).
Qed.
Lemma can_end d (w : St) : supported c -> 2 ^ 32 + 147 <= usize_max v -> real_disk d -> Forall file_name I -> Forall file_name O -> apart I O -> harmless c I d ->
  exists e fs ts, ends d e fs ts.
Proof.
  intros K U R NI NO A H. destruct (parse_paths may d (paths I O first)) as [[|] d1] eqn:P; [|do 3 eexists; eapply ends_bad_path; exact P].
  pose proof (files_same _ _ _ _ _ P) as Fs. pose proof (search_same _ _ _ _ _ I R P) as Ss.
  destruct (list_eq_dec (list_eq_dec string_dec) (find_all_files I (tree_at d I)) []) as [F | N0]; [do 3 eexists; eapply ends_no_files; [exact P | rewrite Ss; exact F]|].
  assert (N1 : find_all_files I (tree_at d1 I) <> []) by (rewrite Ss; exact N0).
  assert (Bu : (exists cmd, built = ROk cmd) \/ exists x, built = RErr x) by (destruct built; [left | right]; eexists; reflexivity).
  destruct Bu as [(cmd & Bx) | (x & Bx)]; [|do 3 eexists; eapply ends_no_bundle; [exact P | exact N1 | exact Bx]].
  pose proof (found_below _ _ (real_tree_at d I R) NI) as Bl.
  destruct (always_can_finish _ _ utf8 cmd (all_handlers show c v) I O w _ (files_on d) (start (find_all_files I (tree_at d I)) (files_on d)) Bl (ex_intro _ 0%nat (run_none _ _ _ _ _ _))) as (n & s & Ru & Es & Fin).
  assert (Re : reachable utf8 cmd (all_handlers show c v) I O (find_all_files I (tree_at d I)) (files_on d) s) by (exists n; exact Ru).
  assert (Hs : forall p x, In p (find_all_files I (tree_at d I)) -> files_on d (render p) = Some x ->
     (c_debug c = true -> forall i, parse_dds_ignore_magic true x = Ok (Some i) -> 0 < i_data_length i) /\ (c_debug c = true -> levels_fit x)) by (apply harmless_found; assumption).
  exists Success, (s_files s), (s_tasks s). eapply ends_done; [exact P | exact N1 | exact Bx | rewrite Ss, Fs; apply runs_reachable; exact Re|].
  apply Forall_forall. intros [p ph] Hin. rewrite Forall_forall in Fin. pose proof (Fin _ Hin) as Fp. cbn [snd] in *.
  destruct ph as [| | | | | | |[|]| | |]; cbn in *; try contradiction; try exact Logic.I.
  - exfalso. exact (never_panics utf8 show c v cmd I O _ _ s K U Hs A NO Bl Re p Hin).
  - exfalso. refine (never_undefined utf8 show c v cmd I O _ _ s K _ _ A NO Bl Re p Hin); [lia|]. intros q0 x Hq Fx. exact (proj1 (Hs q0 x Hq Fx)).
Qed.
End Dds.

(** Transforming a directory of one disk and restoring it on another. *)
Lemma disk_round_trip : forall (St1 Er1 E1 St2 Er2 E2 : Type) (utf8 : string -> bool) (show1 : Er1 -> string) (show2 : Er2 -> string) (c1 c2 : cfg) (v1 v2 : env)
    (b : bundle St1 Er1) (may1 may2 : components -> bool) (I O R : components) (first1 first2 : bool) (d1 d2 : disk) e1 e2 (fs1 fs2 : files) ts1 ts2 (r : components) (x : list byte) (n : Z),
  supported c1 -> supported c2 -> 2 ^ 32 - 1 <= usize_max v1 -> zlen x <= usize_max v2 ->
  (c_debug c1 = true \/ c_debug c2 = true -> levels_fit x /\ forall i, parse_dds (c_debug c1) x = Ok (Some i) -> 0 < i_data_length i) ->
  real_disk d1 -> real_disk d2 -> Forall file_name I -> Forall file_name O -> Forall file_name R -> apart I O -> apart O R ->
  command_ends utf8 (ROk (TransformDir b) : result _ E1) (all_handlers show1 c1 v1) may1 I O first1 d1 e1 fs1 ts1 ->
  find d1 (I ++ r) = Some (File x) -> In (I ++ r, Counted n) ts1 ->
  (forall q, files_on d2 q = fs1 q) ->
  command_ends utf8 (ROk UntransformDir : result _ E2) (all_handlers show2 c2 v2 : list (handler (bundle St2 Er2) St2)) may2 O R first2 d2 e2 fs2 ts2 -> e2 <> Failed ->
  exists ph, In (O ++ r, ph) ts2 /\
    ((exists k, ph = Counted k) /\ fs2 (render (R ++ r)) = Some x \/ ph = Returned (RErr CIo) \/ ph = Returned (RErr (CFile FIo))).
Proof.
  intros St1 Er1 E1 St2 Er2 E2 utf8 show1 show2 c1 c2 v1 v2 b may1 may2 I O R first1 first2 d1 d2 e1 e2 fs1 fs2 ts1 ts2 r x n K1 K2 U1 U2 D R1 R2 NI NO NR A1 A2 X1 Fx T1 Same X2 Ne.
  destruct (ends_cases _ _ _ _ _ _ _ _ _ _ _ R1 X1) as [(_ & -> & _) | (cmd & s1 & Nf & Bx & _ & Re1 & -> & -> & Ov1 & _)]; [destruct T1|]. injection Bx as <-.
  pose proof (found_below _ _ (real_tree_at d1 I R1) NI) as B1. pose proof (found_below _ _ (real_tree_at d2 O R2) NO) as B2.
  pose proof (proj1 (find_names _ _ _ R1 Fx)) as Nx. assert (Hx : files_on d1 (render (I ++ r)) = Some x) by (apply files_on_find; assumption).
  destruct (explained _ _ _ _ _ _ _ _ A1 NO B1 Re1) as (_ & _ & Es1 & Sy1 & _).
  assert (Nr : r <> []). { assert (Hin : In (I ++ r) (find_all_files I (tree_at d1 I))) by (rewrite <- Es1; apply in_map_iff; exists (I ++ r, Counted n); split; [reflexivity | exact T1]).
    destruct (found_is_file _ _ _ R1 Hin) as (r1 & y & Er1' & N1 & _). apply app_inv_head in Er1'. subst r1. exact N1. }
  pose proof (Sy1 _ _ T1) as S1. cbn [story] in S1. destruct S1 as (_ & x0 & h & dd & w & y & w1 & _ & _ & _ & _ & Ny).
  assert (NOr : Forall file_name (O ++ r)) by (apply Forall_app; split; [exact NO | apply Forall_app in Nx; exact (proj2 Nx)]).
  assert (Fy : find d2 (O ++ r) = Some (File y)) by (apply files_on_find; [exact R2 | exact NOr | rewrite Same; exact Ny]).
  pose proof (found_here _ _ _ _ R2 Nr Fy) as Hin2.
  destruct (ends_cases _ _ _ _ _ _ _ _ _ _ _ R2 X2) as [(N2 & _ & _ & S2 & _) | (cmd2 & s2 & Nf2 & Bx2 & _ & Re2 & -> & -> & Ov2 & _)].
  - exfalso. destruct e2; [rewrite (S2 eq_refl) in Hin2; destruct Hin2 | exact (Ne eq_refl) | exact (N2 eq_refl)].
  - injection Bx2 as <-. destruct Re2 as (n2 & Re2). pose proof (run_entries _ _ _ _ _ _ _ _ _ Re2) as Es2. rewrite <- Es2 in Hin2.
    apply in_map_iff in Hin2 as ([p ph] & Ep & Hph). cbn [fst] in Ep. subst p. exists ph. split; [exact Hph|].
    destruct (directory_round_trip utf8 show1 show2 c1 c2 v1 v2 b I O R _ _ (files_on d1) (files_on d2) s1 s2 r x (Counted n) ph K1 K2 U1 U2 D A1 A2 NO NR B1 B2 Re1 Hx T1 Logic.I (Same _)
      (ex_intro _ n2 Re2) Hph) as (Y1 & Y2).
    rewrite Forall_forall in Ov2. pose proof (Ov2 _ Hph) as Op. cbn [snd] in Op.
    assert (Fp : finished ph) by (destruct ph as [| | | | | | |[|]| | |]; cbn in *; exact Op || exact Logic.I).
    destruct (Y2 Fp) as [(k & ->) | [-> | ->]]; [left | right; left; reflexivity | right; right; reflexivity]. split; [exists k; reflexivity | exact (Y1 Logic.I)].
Qed.
