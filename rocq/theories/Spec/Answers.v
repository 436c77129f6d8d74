(** Which candidate an automatic search should choose, in terms of the answers it was given. *)
From Verif Require Import Base.Bytes Base.Res Model.Transform Model.Auto Spec.Estimator.
Open Scope list_scope.
Open Scope Z_scope.

(** A round of the search: a candidate and the answers to the questions about it,
    one for each section shown; the questions and answers of a round. *)
Definition round_calls {S Er} (shown : S -> list (list byte)) (scratch : Z) (r : S * list Z) : list (call Er) :=
  map (fun q => AskedSize (fst q) scratch (ROk (snd q))) (combine (shown (fst r)) (snd r)).
Definition answered_sum (zs : list Z) : Z := fold_right Z.add 0 zs.
(** [s] has the smallest sum of answers, and is the first of those. *)
Definition first_smallest {S} (rounds : list (S * list Z)) (s : S) : Prop :=
  exists before zs after, rounds = before ++ (s, zs) :: after /\
    (forall r, In r rounds -> answered_sum zs <= answered_sum (snd r)) /\
    (forall r, In r before -> answered_sum zs < answered_sum (snd r)).
