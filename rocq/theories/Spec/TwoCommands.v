(** When two runs of the tool are independent. *)
From Verif Require Import Base.Bytes Model.Handlers Model.Cli Spec.Cli.
From Coq Require Import String.
Open Scope list_scope.

(** No file that the first run writes is read or written by the second. *)
Definition out_of_the_way (input1 output1 input2 output2 : components) (entries1 entries2 : list components) : Prop :=
  forall r1 r2, In (input1 ++ r1) entries1 -> In (input2 ++ r2) entries2 ->
  render (output1 ++ r1) <> render (input2 ++ r2) /\ render (output1 ++ r1) <> render (output2 ++ r2).
(** The files that a run reads or writes. *)
Definition concerns (input output : components) (entries : list components) (q : path) : Prop :=
  exists r, In (input ++ r) entries /\ (q = render (input ++ r) \/ q = render (output ++ r)).
