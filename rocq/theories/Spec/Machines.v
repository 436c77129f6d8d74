(** Estimators whose answers fit into 32 bits. *)
From Verif Require Import Base.Bytes Base.Res Model.Kernel Model.Transform Model.Auto Model.Builders Model.Bundle.

Definition modest {St Er} (e : estimator St Er) (bound : Z) : Prop :=
  forall st d scratch z st', estimate_compressed_size e st d scratch = (ROk z, st') -> z < bound.
(** All estimators of a bundle. *)
Definition modest_bundle {St Er} (t : bundle St Er) (bound : Z) : Prop :=
  forall b, b_bc1 t = Some (Bundle.Auto b) \/ b_bc2 t = Some (Bundle.Auto b) -> modest (ab_estimator b) bound.
