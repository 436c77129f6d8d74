(** Which textures need memory to be restored. *)
From Verif Require Import Base.Bytes Model.Color565 Model.Ycc Model.Kernel Model.Transform.
Open Scope Z_scope.

(** On a machine without x86: split colours, decorrelated, at least 1024 bytes. *)
Definition needs_memory (x86 : bool) (s : settings) (n : Z) : bool :=
  negb x86 && split_colour_endpoints s && negb (variant_eqb (decorrelation_mode s) VNone) && (1024 <=? n).
