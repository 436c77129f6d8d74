(** Two calls that differ only in what their output buffers held before. *)
From Verif Require Import Base.Bytes Base.Res Model.Transform.

(** Both return the same, the estimator is left in the same state, and after a success the first [n] bytes are the same; or both panic alike. *)
Definition same_call {R E W} (n : nat) (r1 r2 : res (result R E * list byte * W)) : Prop :=
  match r1, r2 with
  | Ok (a1, y1, w1), Ok (a2, y2, w2) => a1 = a2 /\ w1 = w2 /\ (forall s, a1 = ROk s -> firstn n y1 = firstn n y2)
  | Panic w1, Panic w2 => w1 = w2
  | Ub w1, Ub w2 => w1 = w2
  | _, _ => False
  end.
(** The same for calls without an estimator. *)
Definition same_plain_call {R E} (n : nat) (r1 r2 : res (result R E * list byte)) : Prop :=
  match r1, r2 with
  | Ok (a1, y1), Ok (a2, y2) => a1 = a2 /\ (forall s, a1 = ROk s -> firstn n y1 = firstn n y2)
  | Panic w1, Panic w2 => w1 = w2
  | Ub w1, Ub w2 => w1 = w2
  | _, _ => False
  end.
