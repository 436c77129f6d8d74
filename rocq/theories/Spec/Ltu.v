(** What the bundled estimator should answer, given the match counter of the
    other crate. *)
From Verif Require Import Base.Bytes.

(** The number of bytes that are not matched, but at least 0. *)
Definition ltu_value (matches : list byte -> Z) (d : list byte) : Z := Z.max 0 (zlen d - matches d).
(** The same for several byte strings, added up. *)
Definition ltu_total (matches : list byte -> Z) (ds : list (list byte)) : Z := fold_right Z.add 0 (map (ltu_value matches) ds).
