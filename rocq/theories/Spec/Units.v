(** The same estimator, reporting in other units. *)
From Verif Require Import Base.Bytes Base.Res Model.Transform Model.Auto.

(** Every size it answers goes through [f]; errors, and what it answers when asked for scratch memory, stay. *)
Definition in_units {St Er} (f : Z -> Z) (e : estimator St Er) : estimator St Er :=
  Estimator (max_compressed_size e)
    (fun st d scratch => match estimate_compressed_size e st d scratch with
                         | (ROk z, st1) => (ROk (f z), st1)
                         | (RErr er, st1) => (RErr er, st1)
                         end).

(** The larger of two sizes stays the larger. *)
Definition keeps_order (f : Z -> Z) : Prop := forall a b, 0 <= a < b -> f a < f b.
