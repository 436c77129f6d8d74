(** C97 on a big-endian machine. *)
From Verif Require Import Base.Bytes Base.Res Model.Color565 Model.Kernel Model.Transform Model.Auto Model.BigEndian Model.BeTransform Model.BeFiles
  Spec.Layout Spec.BigEndian Spec.Estimator Spec.BeFiles Spec.Units Proofs.BigEndianFacts Proofs.Units Proofs.BeUnits Props.Cases Props.CasesAuto Props.PUnits.
Open Scope list_scope.
Open Scope Z_scope.

Theorem C97_be_bc1 : forall (St Er : Type) (debug : bool) (junk : byte) (v : env) (e : estimator St Er) (all : bool) (f : Z -> Z) (x out : list byte) (st : St),
  keeps_order f -> (forall st d n z st', estimate_compressed_size e st d n = (ROk z, st') -> 0 <= z < usize_max v /\ f z < usize_max v) ->
  be_transform_bc1_auto (big_endian_cpu debug junk) v (in_units f e) all x out st = be_transform_bc1_auto (big_endian_cpu debug junk) v e all x out st.
Proof. intros St Er d j v e all f x out st K H. exact (be_units_bc1 (big_endian_cpu d j) v e all f K H x out st). Qed.
Print Assumptions C97_be_bc1.
Theorem C97_be_bc2 : forall (St Er : Type) (debug : bool) (junk : byte) (v : env) (e : estimator St Er) (all : bool) (f : Z -> Z) (x out : list byte) (st : St),
  keeps_order f -> (forall st d n z st', estimate_compressed_size e st d n = (ROk z, st') -> 0 <= z < usize_max v /\ f z < usize_max v) ->
  be_transform_bc2_auto (big_endian_cpu debug junk) v (in_units f e) all x out st = be_transform_bc2_auto (big_endian_cpu debug junk) v e all x out st.
Proof. intros St Er d j v e all f x out st K H. exact (be_units_bc2 (big_endian_cpu d j) v e all f K H x out st). Qed.
Print Assumptions C97_be_bc2.
Theorem C97_be_bc3_multiples : forall (St Er : Type) (debug : bool) (junk : byte) (v : env) (e : estimator St Er) (all : bool) (k d : Z) (x out : list byte) (st : St),
  1 <= k ->
  (forall st x n z st', estimate_compressed_size e st x n = (ROk z, st') -> 0 <= z /\ 2 * z < usize_max v /\ 2 * (k * z + d) < usize_max v) ->
  be_transform_bc3_auto (big_endian_cpu debug junk) v (in_units (fun z => k * z + d) e) all x out st = be_transform_bc3_auto (big_endian_cpu debug junk) v e all x out st.
Proof. intros St Er b j v e all k d x out st Hk H. exact (be_units_bc3 (big_endian_cpu b j) v e all k d Hk H x out st). Qed.
Print Assumptions C97_be_bc3_multiples.
Theorem C97_be_bc3_deterministic : forall (Er : Type) (debug : bool) (junk : byte) (v : env) (mx : Z -> result Z Er) (size : list byte -> Z -> result Z Er) (f : Z -> Z) (all : bool)
    (x out : list byte) (s : settings3) (y : list byte),
  keeps_order f -> (forall d n z, size d n = ROk z -> 0 <= z /\ 2 * z < usize_max v /\ 0 <= f z /\ 2 * f z < usize_max v) ->
  be_transform_bc3_auto (big_endian_cpu debug junk) v (pure mx size) all x out tt = Ok (ROk s, y, tt) ->
  be_transform_bc3_auto (big_endian_cpu debug junk) v (in_units f (pure mx size)) all x out tt = Ok (ROk s, y, tt).
Proof. intros Er b j v mx size f all x out s y F H R. exact (be_units_bc3_pure (big_endian_cpu b j) v mx size f all (big_endian_ok b j) F H x out s y R). Qed.
Print Assumptions C97_be_bc3_deterministic.

(** The estimators and units of C97_bc1_met and C97_bc3_deterministic_met. *)
Example C97_be_met : (exists s y st, be_transform_bc1_auto (big_endian_cpu true x5a) roomy counts true (texture 32) (texture 40) 0 = Ok (ROk s, y, st) /\ y <> texture 40) /\
  exists s y, be_transform_bc3_auto (big_endian_cpu false x00) roomy (pure twice byte_sum) true (texture 32) (texture 32) tt = Ok (ROk s, y, tt) /\ y <> texture 32.
Proof.
  split; [do 3 eexists; split; [vm_compute; reflexivity|discriminate]|]. do 2 eexists. split; [vm_compute; reflexivity|discriminate].
Qed.
