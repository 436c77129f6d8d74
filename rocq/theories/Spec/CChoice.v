(** What a caller's C callbacks say about data. *)
From Verif Require Import Base.Bytes Base.Res Model.Transform Model.Auto Model.Builders Model.CApi Spec.Estimator.
Open Scope list_scope.
Open Scope Z_scope.

(** The callback for sizes succeeds, and what it stores depends on the data
    alone. It may store nothing. *)
Definition reports {St} (e : c_estimator St) (stored : list byte -> option Z) : Prop :=
  forall st d scratch, exists st', c_estimate_compressed_size e st d scratch = (0, stored d, st').
(** The size variable is 0 before the call. *)
Definition size_found (stored : option Z) : Z := match stored with Some n => n | None => 0 end.
(** The bytes shown for a candidate, BC1 or BC2. *)
Definition codec_shown (k : codec) (x : list byte) (s : settings) : list (list byte) :=
  match k with CBc1 => bc1_shown x s | CBc2 => bc2_shown x s end.
