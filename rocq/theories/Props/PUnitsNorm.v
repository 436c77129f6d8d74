(** C97: the units of an estimator make no difference to the normalising search either. *)
From Verif Require Import Base.Bytes Base.Res Model.Color565 Model.Kernel Model.Transform Model.Auto Model.Decode Model.Normalize Model.NormTransform
  Model.BigEndian Model.BeTransform Model.BeFiles Model.BeNormTransform Spec.Layout Spec.Estimator Spec.BigEndian Spec.Units
  Proofs.AutoTheorems Proofs.BigEndianFacts Proofs.UnitsNorm Proofs.BeUnitsNorm Props.Cases Props.CasesAuto Props.PUnits Props.PNormTransform.
Open Scope list_scope.
Open Scope Z_scope.

(** Any estimator, also one with memory, and any call at all, also with buffers that overlap: the same result, settings, memory,
    errors, panics and undefined behaviour. *)
Theorem C97_normalizing : forall (St Er : Type) (c : cfg) (v : env) (e : estimator St Er) (all : bool) (f : Z -> Z) (fresh : Z -> byte) (even : bool)
    (inp out len : Z) (m : list byte) (st : St),
  keeps_order f -> (forall st d n z st', estimate_compressed_size e st d n = (ROk z, st') -> 0 <= z < usize_max v /\ f z < usize_max v) ->
  transform_bc1_auto_with_normalization c v (in_units f e) all fresh even inp out len m st =
  transform_bc1_auto_with_normalization c v e all fresh even inp out len m st.
Proof. intros St Er c v e all f fresh even inp out len m st K H. exact (units_norm c v e all f K H fresh even inp out len m st). Qed.
Print Assumptions C97_normalizing.
Theorem C97_be_normalizing : forall (St Er : Type) (debug : bool) (junk : byte) (v : env) (e : estimator St Er) (all : bool) (f : Z -> Z) (fresh : Z -> byte) (even : bool)
    (inp out len : Z) (m : list byte) (st : St),
  keeps_order f -> (forall st d n z st', estimate_compressed_size e st d n = (ROk z, st') -> 0 <= z < usize_max v /\ f z < usize_max v) ->
  be_transform_bc1_auto_with_normalization (big_endian_cpu debug junk) v (in_units f e) all fresh even inp out len m st =
  be_transform_bc1_auto_with_normalization (big_endian_cpu debug junk) v e all fresh even inp out len m st.
Proof. intros St Er d j v e all f fresh even inp out len m st K H. exact (be_units_norm (big_endian_cpu d j) v e all f K H fresh even inp out len m st). Qed.
Print Assumptions C97_be_normalizing.

(** Bits and a penalty instead of bytes, an estimator that counts its questions, on a transparent block and a red one. *)
Example C97_normalizing_met : let m := transparent_block ++ red_block ++ repeat xdd 16 in
  keeps_order (fun z => 8 * z + 5) /\
  (forall st d n z st', estimate_compressed_size counts st d n = (ROk z, st') -> 0 <= z < usize_max roomy /\ 8 * z + 5 < usize_max roomy) /\
  (exists d m' st, transform_bc1_auto_with_normalization plain_cpu roomy counts true (fun _ => xcc) true 0 16 16 m 0 = Ok (ROk d, m', st) /\ d <> default_details) /\
  exists d m' st, be_transform_bc1_auto_with_normalization (big_endian_cpu true xaa) roomy counts true (fun _ => xcc) true 0 16 16 m 0 = Ok (ROk d, m', st) /\ d <> default_details.
Proof.
  cbv zeta. split; [exact bits_keep_order|]. split; [intros st d n z st' H; pose proof (counts_bits _ _ _ _ _ H); lia|].
  split; do 3 eexists; (split; [vm_compute; reflexivity|discriminate]).
Qed.
