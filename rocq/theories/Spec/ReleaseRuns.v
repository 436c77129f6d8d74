(** Runs of the command line tool built for debugging and for release, compared. *)
From Verif Require Import Base.Bytes Base.Res Model.Kernel Model.Transform Model.Dds Model.Handlers Model.Cli.
Open Scope list_scope.

Section Runs.
Context {B W : Type}.
(** Two tasks got equally far, with the same data. Which build's handlers they
    use is left out. *)
Inductive equally_far : phase (B := B) (W := W) -> phase (B := B) (W := W) -> Prop :=
| far_waiting : equally_far Waiting Waiting
| far_directory : equally_far HasDirectory HasDirectory
| far_measured n : equally_far (Measured n) (Measured n)
| far_choosing n x rest rest1 : List.length rest = List.length rest1 -> equally_far (Choosing n x rest) (Choosing n x rest1)
| far_accepted n x h h1 : equally_far (Accepted n x h) (Accepted n x h1)
| far_created n x h h1 : equally_far (Created n x h) (Created n x h1)
| far_working n x h h1 d now : equally_far (Working n x h d now) (Working n x h1 d now)
| far_returned r : equally_far (Returned r) (Returned r)
| far_counted n : equally_far (Counted n) (Counted n)
| far_panicked : equally_far Panicked Panicked
| far_undefined : equally_far Undefined Undefined.
(** The same file's task: panicked in the first run, or equally far in both. *)
Definition equally_far_or_panicked (one other : components * phase (B := B) (W := W)) : Prop :=
  fst one = fst other /\ (snd one = Panicked \/ equally_far (snd one) (snd other)).
End Runs.
