(** Two runs of the tool that write different files do not notice each other. *)
From Verif Require Import Base.Bytes Base.Res Model.Transform Model.Handlers Model.Cli Model.TwoCommands Spec.Cli Spec.TwoCommands Proofs.CliFacts Proofs.CliRuns Proofs.CliExamples.
From Coq Require Import String.
Open Scope list_scope.
Open Scope Z_scope.

Section One.
Context {B W : Type}.
Variables (utf8 : string -> bool) (cmd : command B) (hs : list (handler B W)).
(** A task depends on its two files only. *)
Lemma task_local p i o partial fs ph fs1 ph1 gs : task_step utf8 cmd hs p i o partial fs ph fs1 ph1 -> gs i = fs i -> gs o = fs o ->
  exists gs1, task_step utf8 cmd hs p i o partial gs ph gs1 ph1 /\ gs1 o = fs1 o /\ (forall q, q <> o -> gs1 q = gs q).
Proof.
  intros S Gi Go. destruct S;
    match goal with
    | |- exists gs1, _ /\ gs1 o = update ?f o ?d o /\ _ => exists (update gs o d); split; [|split; [rewrite !update_same; reflexivity | intros q Nq; apply update_other; exact Nq]]
    | |- _ => exists gs; split; [|split; [exact Go | reflexivity]]
    end.
  all: econstructor; first [eassumption | rewrite Gi; eassumption | rewrite Go; eassumption].
Qed.

Variables (I O : components) (entries : list components).
Lemma step_local partial fs gs ts n fs' ts' n' : step utf8 cmd hs I O partial (State fs ts n) (State fs' ts' n') -> map fst ts = entries ->
  (forall q, concerns I O entries q -> fs q = gs q) ->
  (exists gs', step utf8 cmd hs I O partial (State gs ts n) (State gs' ts' n') /\ (forall q, concerns I O entries q -> fs' q = gs' q)) /\
  (forall q, (forall r, In (I ++ r) entries -> q <> render (O ++ r)) -> fs' q = fs q).
Proof.
  intros S Es A. inversion S as [pa f f1 pre p ph ph1 post tot t T St|f pre p post tot T|f pre p k post tot]; subst.
  - destruct (target_some _ _ _ _ T) as (r & Ep & Et). assert (Hin : In (I ++ r) (map fst (pre ++ (p, ph) :: post))) by (rewrite map_app, in_app_iff; right; left; exact Ep).
    assert (Ci : fs (render p) = gs (render p)) by (apply A; exists r; split; [exact Hin | left; rewrite Ep; reflexivity]).
    assert (Co : fs (render t) = gs (render t)) by (apply A; exists r; split; [exact Hin | right; rewrite Et; reflexivity]).
    destruct (task_local _ _ _ _ _ _ _ _ gs St (eq_sym Ci) (eq_sym Co)) as (gs1 & G & Go & Gq). split.
    + exists gs1. split; [econstructor; [exact T | exact G]|]. intros q Cq. destruct (string_dec q (render t)) as [-> | Nq]; [symmetry; exact Go|].
      rewrite (Gq _ Nq), (task_other _ _ _ _ _ _ _ _ _ _ _ St q Nq). exact (A _ Cq).
    + intros q Nq. apply (task_other _ _ _ _ _ _ _ _ _ _ _ St). rewrite Et. exact (Nq r Hin).
  - split; [|reflexivity]. exists gs. split; [constructor; exact T | exact A].
  - split; [|reflexivity]. exists gs. split; [constructor | exact A].
Qed.
End One.

Lemma two_commands : forall (B1 W1 B2 W2 : Type) (utf8 : string -> bool) (cmd1 : command B1) (cmd2 : command B2) (hs1 : list (handler B1 W1)) (hs2 : list (handler B2 W2))
    (I1 O1 I2 O2 : components) (entries1 entries2 : list components) (fs : files) (s : both),
  out_of_the_way I1 O1 I2 O2 entries1 entries2 -> out_of_the_way I2 O2 I1 O1 entries2 entries1 ->
  both_run utf8 cmd1 cmd2 hs1 hs2 I1 O1 I2 O2 (both_start entries1 entries2 fs) s ->
  exists s1 s2, reachable utf8 cmd1 hs1 I1 O1 entries1 fs s1 /\ reachable utf8 cmd2 hs2 I2 O2 entries2 fs s2 /\
    b_tasks1 s = s_tasks s1 /\ b_total1 s = s_total s1 /\ b_tasks2 s = s_tasks s2 /\ b_total2 s = s_total s2 /\
    (forall q, concerns I1 O1 entries1 q -> b_files s q = s_files s1 q) /\
    (forall q, concerns I2 O2 entries2 q -> b_files s q = s_files s2 q) /\
    (forall q, (forall r, In (I1 ++ r) entries1 -> q <> render (O1 ++ r)) -> (forall r, In (I2 ++ r) entries2 -> q <> render (O2 ++ r)) -> b_files s q = fs q).
Proof.
  intros B1 W1 B2 W2 utf8 cmd1 cmd2 hs1 hs2 I1 O1 I2 O2 entries1 entries2 fs s X1 X2 R. induction R as [|s s' R IH S].
  - exists (start entries1 fs), (start entries2 fs). split; [exists 0%nat; constructor|]. split; [exists 0%nat; constructor|].
    split; [reflexivity|]. split; [reflexivity|]. split; [reflexivity|]. split; [reflexivity|]. split; [reflexivity|]. split; reflexivity.
  - destruct IH as (s1 & s2 & (k1 & R1) & (k2 & R2) & T1 & N1 & T2 & N2 & A1 & A2 & Rest).
    pose proof (run_entries _ _ _ _ _ _ _ _ _ R1) as Es1. pose proof (run_entries _ _ _ _ _ _ _ _ _ R2) as Es2.
    destruct s1 as [gs1 ts1 n1], s2 as [gs2 ts2 n2]. cbn [s_files s_tasks s_total] in *.
    inversion S as [pa f a1 m1 a2 m2 f' a1' m1' St|pa f a1 m1 a2 m2 f' a2' m2' St]; subst; cbn [b_files b_tasks1 b_total1 b_tasks2 b_total2] in *; subst.
    + destruct (step_local _ _ _ _ _ _ _ _ gs1 _ _ _ _ _ St eq_refl A1) as ((gs' & G & Ag) & Oth).
      exists (State gs' a1' m1'), (State gs2 a2 m2). split; [eexists; econstructor; [exact R1 | exact G]|]. split; [exists k2; exact R2|].
      split; [reflexivity|]. split; [reflexivity|]. split; [reflexivity|]. split; [reflexivity|]. split; [exact Ag|]. split.
      * intros q Cq. rewrite Oth; [exact (A2 _ Cq)|]. intros r Hr E. destruct Cq as (r2 & Hr2 & [E2 | E2]); rewrite E in E2; [exact (proj1 (X1 r r2 Hr Hr2) E2) | exact (proj2 (X1 r r2 Hr Hr2) E2)].
      * intros q Q1 Q2. rewrite (Oth q Q1). exact (Rest q Q1 Q2).
    + destruct (step_local _ _ _ _ _ _ _ _ gs2 _ _ _ _ _ St eq_refl A2) as ((gs' & G & Ag) & Oth).
      exists (State gs1 a1 m1), (State gs' a2' m2'). split; [exists k1; exact R1|]. split; [eexists; econstructor; [exact R2 | exact G]|].
      split; [reflexivity|]. split; [reflexivity|]. split; [reflexivity|]. split; [reflexivity|]. split; [|split; [exact Ag|]].
      * intros q Cq. rewrite Oth; [exact (A1 _ Cq)|]. intros r Hr E. destruct Cq as (r2 & Hr2 & [E2 | E2]); rewrite E in E2; [exact (proj1 (X2 r r2 Hr Hr2) E2) | exact (proj2 (X2 r r2 Hr Hr2) E2)].
      * intros q Q1 Q2. rewrite (Oth q Q2). exact (Rest q Q1 Q2).
Qed.
Lemma apart_out_of_the_way I1 O1 I2 O2 entries1 entries2 : Forall file_name O1 -> Forall file_name O2 -> files_below I1 entries1 -> files_below I2 entries2 ->
  apart O1 I2 -> apart O1 O2 -> out_of_the_way I1 O1 I2 O2 entries1 entries2.
Proof.
  intros N1 N2 (_ & F1) (_ & F2) A B r1 r2 H1 H2. rewrite Forall_forall in F1, F2.
  destruct (F1 _ H1) as (x1 & _ & _ & Nm1). destruct (F2 _ H2) as (x2 & _ & _ & Nm2). pose proof Nm2 as NI2.
  apply Forall_app in Nm1 as (_ & Nr1). apply Forall_app in Nm2 as (_ & Nr2).
  assert (Split : forall a b (u v : components), a ++ u = b ++ v -> (exists w, a = b ++ w) \/ (exists w, b = a ++ w)).
  { induction a as [|x a IH]; intros b u v E; [right; exists b; reflexivity|]. destruct b as [|y b]; [left; exists (x :: a); reflexivity|].
    injection E as <- E. destruct (IH _ _ _ E) as [(w & ->) | (w & ->)]; [left | right]; exists w; reflexivity. }
  split; intros E; apply render_inj in E; try (apply Forall_app; split; assumption); try assumption; apply Split in E as [(w & E) | (w & E)].
  - exact (proj1 A w E).
  - exact (proj2 A w E).
  - exact (proj1 B w E).
  - exact (proj2 B w E).
Qed.

(** One run alone is a run of both. *)
Lemma second_alone : forall (B1 W1 B2 W2 : Type) (utf8 : string -> bool) (cmd1 : command B1) (cmd2 : command B2) (hs1 : list (handler B1 W1)) (hs2 : list (handler B2 W2))
    (I1 O1 I2 O2 : components) (entries1 entries2 : list components) (fs : files) (s2 : state),
  reachable utf8 cmd2 hs2 I2 O2 entries2 fs s2 ->
  both_run utf8 cmd1 cmd2 hs1 hs2 I1 O1 I2 O2 (both_start entries1 entries2 fs) (Both (s_files s2) (map (fun p => (p, Waiting)) entries1) 0 (s_tasks s2) (s_total s2)).
Proof.
  intros B1 W1 B2 W2 utf8 cmd1 cmd2 hs1 hs2 I1 O1 I2 O2 e1 e2 fs s2 (n & R). remember (start e2 fs) as s0 eqn:E0. induction R as [s|n s s1 partial s2 R IH S]; subst; [constructor|].
  eapply both_more; [exact (IH eq_refl)|]. destruct s1 as [f t k], s2 as [f2 t2 k2]. exact (second_steps _ _ _ _ _ _ _ _ _ partial _ _ _ _ _ _ _ _ S).
Qed.
