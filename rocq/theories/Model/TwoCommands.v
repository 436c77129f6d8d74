(** Two runs of the command line tool at the same time. *)
From Verif Require Import Base.Bytes Base.Res Model.Transform Model.Handlers Model.Cli.
From Coq Require Import String.
Open Scope list_scope.

Section Both.
Context {B1 W1 B2 W2 : Type}.
Variable utf8 : string -> bool.
Variable cmd1 : command B1.
Variable cmd2 : command B2.
Variable handlers1 : list (handler B1 W1).
Variable handlers2 : list (handler B2 W2).
Variables input1 output1 input2 output2 : components.

(** The files both processes see, and each one's tasks and counter.
    src/tools/dxt-lossless-transform-cli/src/commands/transform/mod.rs:171-180 *)
Record both := Both {
  b_files : files;
  b_tasks1 : list (components * phase (B := B1) (W := W1)); b_total1 : Z;
  b_tasks2 : list (components * phase (B := B2) (W := W2)); b_total2 : Z }.
(** A step of one of the two, as in Model/Cli.v. A process that finds a mapped file
    changed, whoever did it, has undefined behaviour.
    src/tools/dxt-lossless-transform-cli/src/commands/transform/mod.rs:173-180
    src/tools/dxt-lossless-transform-cli/src/commands/untransform/mod.rs:74-88 *)
Inductive both_step : both -> both -> Prop :=
| first_steps partial fs ts1 n1 ts2 n2 fs' ts1' n1' : step utf8 cmd1 handlers1 input1 output1 partial (State fs ts1 n1) (State fs' ts1' n1') ->
    both_step (Both fs ts1 n1 ts2 n2) (Both fs' ts1' n1' ts2 n2)
| second_steps partial fs ts1 n1 ts2 n2 fs' ts2' n2' : step utf8 cmd2 handlers2 input2 output2 partial (State fs ts2 n2) (State fs' ts2' n2') ->
    both_step (Both fs ts1 n1 ts2 n2) (Both fs' ts1 n1 ts2' n2').
(** Both have searched their directories and begun no task.
    src/tools/dxt-lossless-transform-cli/src/commands/transform/mod.rs:171-173 *)
Definition both_start (entries1 entries2 : list components) (fs : files) : both :=
  Both fs (map (fun p => (p, Waiting)) entries1) 0 (map (fun p => (p, Waiting)) entries2) 0.
Inductive both_run (s : both) : both -> Prop :=
| both_none : both_run s s
| both_more s1 s2 : both_run s s1 -> both_step s1 s2 -> both_run s s2.
End Both.
