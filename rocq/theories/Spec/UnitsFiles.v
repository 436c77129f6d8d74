(** Bundles whose estimators report in other units. *)
From Verif Require Import Base.Bytes Base.Res Model.Transform Model.Auto Model.Builders Model.Bundle Spec.Units.

(** A builder with settings given by hand asks no estimator. *)
Definition builder_in_units {St Er} (f : Z -> Z) (b : builder St Er) : builder St Er :=
  match b with
  | Manual b => Manual b
  | Auto b => Auto (AutoBuilder (in_units f (ab_estimator b)) (ab_use_all b))
  end.
(** Each of the two estimators may have units of its own. *)
Definition bundle_in_units {St Er} (f1 f2 : Z -> Z) (t : bundle St Er) : bundle St Er :=
  Bundle (option_map (builder_in_units f1) (b_bc1 t)) (option_map (builder_in_units f2) (b_bc2 t)).

(** All sizes an estimator of the builder answers, in the old units and in the new, are below the largest usize. *)
Definition sizes_fit {St Er} (v : env) (f : Z -> Z) (b : builder St Er) : Prop :=
  match b with
  | Manual _ => True
  | Auto b => forall st d n z st', estimate_compressed_size (ab_estimator b) st d n = (ROk z, st') -> 0 <= z < usize_max v /\ f z < usize_max v
  end.
