(** Words used by the batch colour properties. *)
From Verif Require Import Base.Bytes Model.Color565.

(** every colour is a 16-bit number *)
Definition colours (l : list Z) : Prop := Forall (fun c => 0 <= c < 65536) l.
(** two ranges of [n] are the same or do not overlap *)
Definition same_or_apart (src dst n : Z) : Prop := src = dst \/ src + n <= dst \/ dst + n <= src.
(** a0 b0 a1 b1 ... *)
Fixpoint interleave (a b : list Z) : list Z :=
  match a, b with
  | x :: a, y :: b => x :: y :: interleave a b
  | _, _ => []
  end.
