(** The order in which the search with normalisation tries its candidates, and which of them it should return. *)
From Verif Require Import Base.Bytes Base.Res Model.Color565 Model.Kernel Model.Transform Model.Auto Model.Normalize Model.NormTransform
  Spec.Pixels Spec.Normalize Spec.Estimator Spec.NormTransform.

(** Mode by mode; for each, the settings in the order of the ordinary search. *)
Definition details_tried (all : bool) : list details :=
  flat_map (fun mode => map (fun s => Details mode (decorrelation_mode s) (split_colour_endpoints s)) (tried all)) [CNone; Color0Only; ReplicateColor].

(** Candidate [d] has the estimate [z], below [limit], for the texture [x]. [shown y s] are the bytes an estimator is shown of
    the texture [y] transformed with the settings [s]. *)
Definition estimated {Er} (limit : Z) (size : list byte -> result Z Er) (shown : list byte -> settings -> list (list byte))
    (x : list byte) (d : details) (z : Z) : Prop :=
  exists y, blockwise 8 (measured (d_norm d)) x y /\ total_size size (shown y (Settings (d_decorr d) (d_split d))) = ROk z /\ z < limit.

(** The first of the candidates with the smallest estimate; if none has one: no normalisation, variant 1, split endpoints. *)
Definition first_smallest (est : details -> Z -> Prop) (l : list details) (d : details) : Prop :=
  (d = Details CNone V1 true /\ forall d' z', In d' l -> ~ est d' z') \/
  (exists before after z, l = before ++ d :: after /\ est d z /\
     (forall d' z', In d' before -> est d' z' -> z < z') /\ (forall d' z', In d' after -> est d' z' -> z <= z')).
