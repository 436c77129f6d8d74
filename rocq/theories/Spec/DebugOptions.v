(** Plain descriptions for the options of the debug commands. *)
From Verif Require Import Base.Bytes Base.Res Model.Transform Model.Inspect.

(** The same answer, with an error replaced by a message. *)
Definition hides_error {A E} (r : result A E) (r' : result A debug_error) : Prop :=
  match r, r' with ROk a, ROk b => a = b | RErr _, RErr DMessage => True | _, _ => False end.

(** A recommendation that also counts how often it was asked for. *)
Definition counting {St S} (once : list byte -> St -> res (result S debug_error * St)) (data : list byte) (st : St * nat) : res (result S debug_error * (St * nat)) :=
  do r <- once data (fst st) ;; Ok (fst r, (snd r, Datatypes.S (snd st))).
