(** Debug and release builds of the command line tool. *)
From Verif Require Import Base.Bytes Base.Res Model.Color565 Model.Kernel Model.Transform Model.Auto Model.Bundle Model.Dds Model.Handlers Model.Cli Model.BeFiles Model.EndianTool
  Spec.Layout Spec.Files Spec.Release Spec.ReleaseRuns Spec.Cli Proofs.ReleaseFacts Proofs.BeReleaseFacts.
From Coq Require Import String ZifyBool ZifyNat.
Open Scope list_scope.
Open Scope Z_scope.

Section Two.
Context {B W : Type}.
Variables (utf8 : string -> bool) (cmd : command B) (h h' : handler B W) (I O : components).
Hypotheses (HA : forall x p w, agree (accepts utf8 cmd h x p w) (accepts utf8 cmd h' x p w))
           (HW : forall x out w, agree (work cmd h x out w) (work cmd h' x out w)).

(** *** One file after another *)
(** what [process_file] makes of what the handlers did *)
Definition seen (r : result (handler B W) file_operation_error * files * W) : result unit file_operation_error * files * W :=
  let '(r, fs, w) := r in (match r with ROk _ => ROk tt | RErr e => RErr e end, fs, w).
Lemma handlers_agree : forall o p t fs w,
  agree (bind (multiple_handlers utf8 cmd [h] o p t fs w) (fun r => Ok (seen r))) (bind (multiple_handlers utf8 cmd [h'] o p t fs w) (fun r => Ok (seen r))).
Proof.
  intros o p t fs w. unfold multiple_handlers.
  assert (G : forall acc acc' (run run' : files -> W -> res (result unit file_operation_error * files * W)),
    agree (acc w) (acc' w) -> (forall fs w, agree (run fs w) (run' fs w)) ->
    agree (bind (try_file_handlers (fun _ => acc) (fun _ => run) [h] fs w) (fun r => Ok (seen r)))
          (bind (try_file_handlers (fun _ => acc') (fun _ => run') [h'] fs w) (fun r => Ok (seen r)))).
  { intros acc acc' run run' A R. cbn [try_file_handlers].
    destruct A as [->|(why & ->)]; [|apply agree_panic]. destruct (acc' w) as [[[] w1]|e|e]; cbn [bind]; try apply agree_refl.
    destruct (R fs w1) as [->|(why & ->)]; [|apply agree_panic]. destruct (run' fs w1) as [[[[u|e] f1] w2]|e|e]; cbn [bind]; apply agree_refl. }
  destruct cmd as [b|].
  - unfold transform_file_with_multiple_handlers. destruct (map_input o fs (render p)) as [x|e]; [|apply agree_refl].
    exact (G (h_can_handle h x (extension_of utf8 p)) (h_can_handle h' x (extension_of utf8 p))
      (into_new_file o (fun out w => transform_slice_with_bundle h x out b w) (Some (render p)) (zlen x) (render t))
      (into_new_file o (fun out w => transform_slice_with_bundle h' x out b w) (Some (render p)) (zlen x) (render t))
      (HA x p w) (fun fs w => new_file_agree W o _ _ _ _ _ fs w (fun out w => HW x out w))).
  - unfold untransform_file_with_multiple_handlers. destruct (map_input o fs (render p)) as [x|e]; [|apply agree_refl].
    exact (G (h_can_handle_untransform h x (extension_of utf8 p)) (h_can_handle_untransform h' x (extension_of utf8 p))
      (into_new_file o (fun out w => untransform_slice h x out w) (Some (render p)) (zlen x) (render t))
      (into_new_file o (fun out w => untransform_slice h' x out w) (Some (render p)) (zlen x) (render t))
      (HA x p w) (fun fs w => new_file_agree W o _ _ _ _ _ fs w (fun out w => HW x out w))).
Qed.
Lemma file_agree : forall a p fs w, agree (process_file utf8 cmd [h] I O a p fs w) (process_file utf8 cmd [h'] I O a p fs w).
Proof.
  intros a p fs w. unfold process_file. destruct (target_of I O p) as [t|]; [|apply agree_refl]. destruct (negb (dir_ok a)); [apply agree_refl|].
  cbv zeta. pose proof (handlers_agree (file_io a) p t fs w) as G.
  destruct (multiple_handlers utf8 cmd [h] (file_io a) p t fs w) as [[[r1 f1] w1]|e1|e1], (multiple_handlers utf8 cmd [h'] (file_io a) p t fs w) as [[[r2 f2] w2]|e2|e2];
    cbn [bind] in *; destruct G as [G|(y & G)]; try discriminate G; try (apply agree_panic);
    try (unfold seen in G; apply ok_inj in G; injection G as R F Q; subst; destruct r1, r2; try discriminate R; try (injection R as ->); apply agree_refl);
    left; congruence.
Qed.
Lemma files_agree : forall d entries fs w n, agree (process_files utf8 cmd [h] I O d entries fs w n) (process_files utf8 cmd [h'] I O false entries fs w n).
Proof.
  intros d entries. induction entries as [|[a p] rest IH]; intros fs w n; cbn [process_files]; [apply agree_refl|].
  apply agree_bind; [apply file_agree|]. intros [[[b|e] f1] w1] _; [|apply IH].
  rewrite andb_false_r. destruct ((2 ^ 64 <=? n + b) && d); [apply agree_panic|apply IH].
Qed.

(** *** Many at a time *)
Notation ph := (phase (B := B) (W := W)).
(** the same phase in the release build *)
Definition other (x : ph) : ph :=
  match x with
  | Choosing n x rest => Choosing n x (map (fun _ => h') rest)
  | Accepted n x _ => Accepted n x h'
  | Created n x _ => Created n x h'
  | Working n x _ d now => Working n x h' d now
  | Waiting => Waiting | HasDirectory => HasDirectory | Measured n => Measured n | Returned r => Returned r | Counted n => Counted n
  | Panicked => Panicked | Undefined => Undefined
  end.
Definition own (x : ph) : Prop :=
  match x with Choosing _ _ rest => Forall (fun k => k = h) rest | Accepted _ _ k | Created _ _ k | Working _ _ k _ _ => k = h | _ => True end.
Lemma far_other : forall x, equally_far x (other x).
Proof. intros []; constructor. rewrite map_length. reflexivity. Qed.

Lemma task_other : forall p i o partial fs x fs1 y, own x -> task_step utf8 cmd [h] p i o partial fs x fs1 y ->
  own y /\ ((y = Panicked /\ fs1 = fs) \/ task_step utf8 cmd [h'] p i o partial fs (other x) fs1 (other y)).
Proof.
  intros p i o partial fs x fs1 y Ow S.
  destruct S; cbn [own other map] in *; try (subst h0); try (inversion Ow as [|? ? Oh Or]; subst);
    (split; [first [exact Logic.I | reflexivity | assumption | repeat constructor]|]);
    try (left; split; reflexivity); right;
    try match goal with A : accepts _ _ h ?x ?p ?w = Ok _ |- _ => destruct (HA x p w) as [EQ|(why & EQ)]; rewrite A in EQ; [symmetry in EQ|discriminate EQ]
        | A : accepts _ _ h ?x ?p ?w = Ub _ |- _ => destruct (HA x p w) as [EQ|(why' & EQ)]; rewrite A in EQ; [symmetry in EQ|discriminate EQ]
        | A : work _ h ?x ?d ?w = Ok _ |- _ => destruct (HW x d w) as [EQ|(why & EQ)]; rewrite A in EQ; [symmetry in EQ|discriminate EQ]
        | A : work _ h ?x ?d ?w = Ub _ |- _ => destruct (HW x d w) as [EQ|(why' & EQ)]; rewrite A in EQ; [symmetry in EQ|discriminate EQ] end;
    try solve [econstructor; eassumption].
  (* races *)
  apply (step_input_changed utf8 cmd [h'] p i o fs _ x); [|assumption].
  match goal with M : mapped ?q = _ |- _ => destruct q; cbn [mapped other] in *; assumption end.
Qed.

Definition rel (a b : components * ph) : Prop := fst a = fst b /\ own (snd a) /\ (snd a = Panicked \/ snd b = other (snd a)).
Definition paired (s s' : state) : Prop := s_files s = s_files s' /\ s_total s = s_total s' /\ Forall2 rel (s_tasks s) (s_tasks s').
Notation reach hs := (run utf8 cmd hs I O).

Lemma step_other : forall partial s s1 s', paired s s' -> step utf8 cmd [h] I O partial s s1 ->
  paired s1 s' \/ exists s1', step utf8 cmd [h'] I O partial s' s1' /\ paired s1 s1'.
Proof.
  intros partial s s1 [fs' ts' tot'] (F & T & R) S. destruct S as [partial fs fs1 pre p x y post tot t TG S|fs pre p post tot TG|fs pre p n post tot];
    cbn [s_files s_tasks s_total] in *; subst fs' tot';
    apply Forall2_app_inv_l in R; destruct R as (pre' & r & RP & R & ->); inversion R as [|? [p' x'] ? post' (E & Ow & C) RQ]; subst;
    cbn [fst snd] in *; subst p'.
  - destruct C as [-> | ->]; [inversion S; subst; discriminate|].
    destruct (task_other _ _ _ _ _ _ _ _ Ow S) as (Oy & [(-> & ->)|S1]).
    + left. split; [reflexivity|]. split; [reflexivity|]. cbn [s_tasks]. apply Forall2_app; [assumption|]. constructor; [|assumption].
      split; [reflexivity|]. split; [exact Oy|]. left; reflexivity.
    + right. exists (State fs1 (pre' ++ (p, other y) :: post') tot). split; [econstructor; eassumption|].
      split; [reflexivity|]. split; [reflexivity|]. cbn [s_tasks]. apply Forall2_app; [assumption|]. constructor; [|assumption].
      split; [reflexivity|]. split; [exact Oy|]. right; reflexivity.
  - left. split; [reflexivity|]. split; [reflexivity|]. cbn [s_tasks]. apply Forall2_app; [assumption|]. constructor; [|assumption].
    split; [reflexivity|]. split; [exact Logic.I|]. left; reflexivity.
  - destruct C as [C|C]; [discriminate C|]. cbn [other] in C. subst x'. right. eexists. split; [apply step_count|].
    split; [reflexivity|]. split; [reflexivity|]. cbn [s_tasks]. apply Forall2_app; [assumption|]. constructor; [|assumption].
    split; [reflexivity|]. split; [exact Logic.I|]. right; reflexivity.
Qed.
Lemma run_other : forall n s s1, reach [h] n s s1 -> forall s', paired s s' -> exists n' s1', reach [h'] n' s' s1' /\ paired s1 s1'.
Proof.
  intros n s s1 R. induction R as [s|n s s1 partial s2 R IH S]; intros s' P.
  - exists 0%nat, s'. split; [constructor|exact P].
  - destruct (IH s' P) as (n' & s1' & R1 & P1). destruct (step_other _ _ _ _ P1 S) as [P2|(s2' & S2 & P2)].
    + exists n', s1'. split; assumption.
    + eexists _, s2'. split; [econstructor; eassumption|exact P2].
Qed.
Lemma start_rel : forall entries, Forall2 rel (map (fun p => (p, Waiting)) entries) (map (fun p => (p, Waiting)) entries).
Proof.
  induction entries as [|p l IH]; cbn [map]; constructor; [|exact IH]. split; [reflexivity|]. split; [exact Logic.I|]. right; reflexivity.
Qed.
Lemma reachable_other : forall entries fs s, reachable utf8 cmd [h] I O entries fs s ->
  exists s', reachable utf8 cmd [h'] I O entries fs s' /\ s_files s = s_files s' /\ s_total s = s_total s' /\ Forall2 equally_far_or_panicked (s_tasks s) (s_tasks s').
Proof.
  intros entries fs s (n & R).
  destruct (run_other n _ _ R (start entries fs)) as (n' & s' & R' & F & T & Q).
  - split; [reflexivity|]. split; [reflexivity|]. cbn [start s_tasks]. exact (start_rel entries).
  - exists s'. split; [exists n'; exact R'|]. split; [exact F|]. split; [exact T|].
    clear - Q. induction Q as [|a b l l' (E & _ & C) Q IH]; constructor; [|exact IH]. split; [exact E|].
    destruct C as [C|C]; [left; exact C|right; rewrite C; apply far_other].
Qed.
End Two.

(** *** The tool's own handler *)
Section Dds.
Context {St Er : Type}.
Variables (utf8 : string -> bool) (show : Er -> string) (c : cfg) (v : Auto.env) (cmd : command (bundle St Er)).
Lemma dds_accepts : forall x p w, agree (accepts utf8 cmd (dds_handler show c v) x p w) (accepts utf8 cmd (dds_handler show (release_build c) v) x p w).
Proof.
  intros x p w. unfold accepts. destruct cmd; cbn [dds_handler h_can_handle h_can_handle_untransform];
    (apply agree_bind; [|intros; apply agree_refl]); [apply can_agree|apply can_un_agree].
Qed.
Lemma dds_work : supported c -> forall x out w, agree (work cmd (dds_handler show c v) x out w) (work cmd (dds_handler show (release_build c) v) x out w).
Proof. intros K x out w. unfold work. destruct cmd; [exact (h_slice show c v K x out b w)|exact (h_unslice show c v K x out w)]. Qed.
Lemma be_dds_accepts : forall x p w, agree (accepts utf8 cmd (be_dds_handler show c v) x p w) (accepts utf8 cmd (be_dds_handler show (release_build c) v) x p w).
Proof.
  intros x p w. unfold accepts. destruct cmd; cbn [be_dds_handler h_can_handle h_can_handle_untransform];
    (apply agree_bind; [|intros; apply agree_refl]); [apply can_agree|apply can_un_agree].
Qed.
Lemma be_dds_work : cpu_ok c -> forall x out w, agree (work cmd (be_dds_handler show c v) x out w) (work cmd (be_dds_handler show (release_build c) v) x out w).
Proof. intros K x out w. unfold work. destruct cmd; [exact (be_h_slice show c v K x out b w)|exact (be_h_unslice show c v K x out w)]. Qed.
End Dds.

(** for the example *)
From Verif Require Import Proofs.CliExamples.
Open Scope string_scope.
Lemma one_panics : forall B W utf8 cmd (h : handler B W) (fs : files) (x y : list byte) w w1, fs "/in/a.dds" = Some x -> fs "/in/b.dds" = Some y ->
  accepts utf8 cmd h x ["in"; "a.dds"] w = Ok (true, w1) -> (exists w' why, accepts utf8 cmd h y ["in"; "b.dds"] w' = Panic why) ->
  exists s, reachable utf8 cmd [h] ["in"] ["out"] [["in"; "a.dds"]; ["in"; "b.dds"]] fs s /\
    s_tasks s = [(["in"; "a.dds"], Accepted (zlen x) x h); (["in"; "b.dds"], Panicked)].
Proof.
  intros B W utf8 cmd h fs x y w w1 X Y A (w' & why & P). pose (p := ["in"; "a.dds"]). pose (q := ["in"; "b.dds"]).
  assert (R0 : reachable utf8 cmd [h] ["in"] ["out"] [p; q] fs (start [p; q] fs)) by (exists 0%nat; constructor).
  pose proof (one_more _ _ _ _ _ _ _ _ _ [] p _ _ [(q, Waiting)] 0 ["out"; "a.dds"] false R0 eq_refl eq_refl eq_refl (step_directory _ _ _ _ _ _ _)) as R1.
  pose proof (one_more _ _ _ _ _ _ _ _ _ [] p _ _ [(q, Waiting)] 0 ["out"; "a.dds"] false R1 eq_refl eq_refl eq_refl (step_metadata _ _ _ _ _ _ _ x X)) as R2.
  pose proof (one_more _ _ _ _ _ _ _ _ _ [] p _ _ [(q, Waiting)] 0 ["out"; "a.dds"] false R2 eq_refl eq_refl eq_refl (step_open _ _ _ _ _ _ _ _ x X)) as R3.
  pose proof (one_more _ _ _ _ _ _ _ _ _ [] p _ _ [(q, Waiting)] 0 ["out"; "a.dds"] false R3 eq_refl eq_refl eq_refl (step_accepted _ _ _ _ _ _ _ _ _ _ _ _ _ X A)) as R4.
  pose (earlier := [(p, Accepted (zlen x) x h)]).
  pose proof (one_more _ _ _ _ _ _ _ _ _ earlier q _ _ [] 0 ["out"; "b.dds"] false R4 eq_refl eq_refl eq_refl (step_directory _ _ _ _ _ _ _)) as R5.
  pose proof (one_more _ _ _ _ _ _ _ _ _ earlier q _ _ [] 0 ["out"; "b.dds"] false R5 eq_refl eq_refl eq_refl (step_metadata _ _ _ _ _ _ _ y Y)) as R6.
  pose proof (one_more _ _ _ _ _ _ _ _ _ earlier q _ _ [] 0 ["out"; "b.dds"] false R6 eq_refl eq_refl eq_refl (step_open _ _ _ _ _ _ _ _ y Y)) as R7.
  pose proof (one_more _ _ _ _ _ _ _ _ _ earlier q _ _ [] 0 ["out"; "b.dds"] false R7 eq_refl eq_refl eq_refl (step_ask_panics _ _ _ _ _ _ _ _ _ _ _ _ _ Y P)) as R8.
  eexists. split; [exact R8|reflexivity].
Qed.
