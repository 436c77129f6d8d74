(** C52, C85: exactly which details the search with normalisation returns (Spec/NormFirst.v). *)
From Verif Require Import Base.Bytes Base.Res Model.Color565 Model.Kernel Model.Transform Model.Auto Model.Decode Model.Normalize Model.NormTransform
  Model.BigEndian Model.BeTransform Model.BeFiles Model.BeNormTransform
  Spec.YCoCg Spec.Layout Spec.BigEndian Spec.Pixels Spec.Normalize Spec.Estimator Spec.NormTransform Spec.BeFiles Spec.NormFirst
  Proofs.NormalizeFacts Proofs.NormFirst Props.Cases Props.PNormTransform Props.PBeNorm.

(** C52: with a deterministic estimator, the details returned are those of the first candidate with the smallest estimate that
    is not usize::MAX; if no candidate has one, they are: no normalisation, variant 1, split endpoints. Partial: for mode None
    the texture measured is not the one written; see C52_none_estimate_refuted. *)
Theorem C52_bc1_normalising_search_first_partial : forall (Er : Type) (c : cfg) (v : env) (mx : Z -> result Z Er) (size : list byte -> Z -> result Z Er)
    (all : bool) (fresh : Z -> byte) (even : bool) (m : list byte) (inp out len : Z) (d : details) (m' : list byte), cpu_ok c -> len mod 8 = 0 ->
  within m inp len -> within m out len -> inp + len <= out \/ out + len <= inp ->
  normalisable (slice m inp len) -> splittable c (len / 8) ->
  transform_bc1_auto_with_normalization c v (pure mx size) all fresh even inp out len m tt = Ok (ROk d, m', tt) ->
  exists scratch, mx (len / 2) = ROk scratch /\
    first_smallest (estimated (usize_max v) (fun b => size b scratch) bc1_shown (slice m inp len)) (details_tried all) d.
Proof. exact norm_first. Qed.
Print Assumptions C52_bc1_normalising_search_first_partial.

(** C85: the same on a big-endian machine, with the bytes shown to the estimator there. *)
Theorem C85_be_normalising_search_first_partial : forall (Er : Type) (debug : bool) (junk : byte) (v : env) (mx : Z -> result Z Er) (size : list byte -> Z -> result Z Er)
    (all : bool) (fresh : Z -> byte) (even : bool) (m : list byte) (inp out len : Z) (d : details) (m' : list byte), len mod 8 = 0 ->
  within m inp len -> within m out len -> inp + len <= out \/ out + len <= inp -> normalisable (slice m inp len) ->
  be_transform_bc1_auto_with_normalization (big_endian_cpu debug junk) v (pure mx size) all fresh even inp out len m tt = Ok (ROk d, m', tt) ->
  exists scratch, mx (len / 2) = ROk scratch /\
    first_smallest (estimated (usize_max v) (fun b => size b scratch) be_bc1_shown (slice m inp len)) (details_tried all) d.
Proof. exact be_norm_first. Qed.
Print Assumptions C85_be_normalising_search_first_partial.

(** A transparent block and a red one: with an estimator that always fails, with one that always answers usize::MAX, and with one
    for which all candidates are equal, where the first one wins. *)
Example C52_first_cases : let m := transparent_block ++ red_block ++ repeat xdd 16 in
  let search := fun size : list byte -> Z -> result Z unit => transform_bc1_auto_with_normalization plain_cpu (Env (2 ^ 64 - 1) (fun _ => true))
    (pure (fun n => ROk (2 * n)) size) true (fun _ => xcc) true 0 16 16 m tt in
  let search2 := fun size : list byte -> Z -> result Z unit => be_transform_bc1_auto_with_normalization (big_endian_cpu true xaa) (Env (2 ^ 64 - 1) (fun _ => true))
    (pure (fun n => ROk (2 * n)) size) true (fun _ => xcc) true 0 16 16 m tt in
  cpu_ok plain_cpu /\ splittable plain_cpu (16 / 8) /\ within m 0 16 /\ within m 16 16 /\ normalisable (slice m 0 16) /\
  (exists m', search (fun _ _ => RErr tt) = Ok (ROk (Details CNone V1 true), m', tt)) /\
  (exists m', search (fun _ _ => ROk (2 ^ 64 - 1)) = Ok (ROk (Details CNone V1 true), m', tt)) /\
  (exists m', search (fun _ _ => ROk 7) = Ok (ROk (Details CNone V2 false), m', tt)) /\
  (exists m', search2 (fun _ _ => RErr tt) = Ok (ROk (Details CNone V1 true), m', tt)) /\
  (exists m', search2 (fun _ _ => ROk 7) = Ok (ROk (Details CNone V2 false), m', tt)).
Proof.
  cbv zeta. split; [constructor; intros H; discriminate H|]. split; [split; [reflexivity|intros H; discriminate H]|].
  split; [split; vm_compute; [|split]; intros H; discriminate H|]. split; [split; vm_compute; [|split]; intros H; discriminate H|].
  split. { exists 0. split; [lia|]. split; [vm_compute; intros H; discriminate H|]. apply bc1_N_iff. vm_compute. reflexivity. }
  split; [eexists; vm_compute; reflexivity|]. split; [eexists; vm_compute; reflexivity|]. split; [eexists; vm_compute; reflexivity|].
  split; eexists; vm_compute; reflexivity.
Qed.
