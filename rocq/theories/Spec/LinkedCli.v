(** Runs of the command line tool on a disk with links. *)
From Verif Require Import Base.Bytes Base.Res Model.Bundle Model.Handlers Model.Cli Model.LinkedCli Spec.Cli.
From Coq Require Import String.
Open Scope list_scope.
Open Scope Z_scope.

Section Run.
Context {B W : Type}.
Variable utf8 : string -> bool.
Variable cmd : command B.
Variable handlers : list (handler B W).
Variable leads_to : path -> path.
Variables input_dir output_dir : components.

(** Any number of steps, in any order. *)
Inductive linked_run : state (B := B) (W := W) -> state (B := B) (W := W) -> Prop :=
| linked_none s : linked_run s s
| linked_more s s1 partial s2 : linked_run s s1 -> linked_step utf8 cmd handlers leads_to input_dir output_dir partial s1 s2 -> linked_run s s2.
Definition linked_reachable (entries : list components) (fs : files) (s : state) : Prop := linked_run (start entries fs) s.
End Run.

Section Where.
Variable leads_to : path -> path.
Variables I O : components.
Variable entries : list components.
(** No output path leads to a file that is an input. *)
Definition spares_inputs : Prop :=
  forall r1 r2, In (I ++ r1) entries -> In (I ++ r2) entries -> leads_to (render (O ++ r1)) <> leads_to (render (I ++ r2)).
(** No two output paths lead to the same file. *)
Definition outputs_differ : Prop :=
  forall r1 r2, In (I ++ r1) entries -> In (I ++ r2) entries -> leads_to (render (O ++ r1)) = leads_to (render (O ++ r2)) -> r1 = r2.
(** There are no links on the way to an output, and no input path leads to an
    output. *)
Definition plain_output : Prop :=
  (forall r, In (I ++ r) entries -> leads_to (render (O ++ r)) = render (O ++ r)) /\
  (forall r1 r2, In (I ++ r1) entries -> In (I ++ r2) entries -> leads_to (render (I ++ r1)) <> render (O ++ r2)).
End Where.
