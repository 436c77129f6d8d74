(** The BC1 transform with normalisation: when there is something to normalise,
    and which texture the search measures for each normalisation mode. *)
From Verif Require Import Base.Bytes Model.Color565 Model.Kernel Model.Normalize Spec.Pixels Spec.Normalize.

(** Some block is fully transparent, or one opaque colour. *)
Definition normalisable (x : list byte) : Prop :=
  exists k, 0 <= k /\ 8 * (k + 1) <= zlen x /\ (bc1_transparent (slice x (8 * k) 8) \/ exists v, bc1_solid (slice x (8 * k) 8) v).

(** Measured for mode None: transparent blocks rewritten; for the others: the normalised texture. *)
Definition measured (mode : color_norm) : list byte -> list byte -> Prop :=
  match mode with CNone => bc1_kept | _ => bc1_normal mode end.

(** Enough blocks for the endpoint splitter: see C42. *)
Definition splittable (c : cfg) (blocks : Z) : Prop :=
  (c_debug c = true -> 0 < blocks) /\
  (is_x86 c = true -> c_avx512vbmi c = false -> has_sse2 c = true \/ c_avx2 c = true -> 16 <= blocks).
