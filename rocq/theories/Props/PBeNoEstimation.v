(** C87 on a big-endian machine. *)
From Verif Require Import Base.Bytes Base.Res Model.Color565 Model.Kernel Model.Transform Model.Auto Model.BigEndian Model.BeTransform Model.BeFiles
  Spec.BigEndian Spec.Estimator Spec.BeFiles Proofs.BigEndianFacts Proofs.BeNoEstimation Props.Cases Props.CasesAuto Props.PNoEstimation.
Open Scope list_scope.
Open Scope Z_scope.

Theorem C87_be_bc1_no_estimation : forall (debug : bool) (junk : byte) (v : env) (use_all : bool) (x out : list byte),
  0 < usize_max v -> zlen x mod 8 = 0 -> zlen x <= zlen out ->
  let c := big_endian_cpu debug junk in let s := Settings (if use_all then V2 else VNone) false in
  exists y, be_transform_bc1_auto c v no_estimation use_all x out tt = Ok (ROk s, y, tt) /\ be_transform_bc1 c s x out = Ok (ROk tt, y).
Proof. intros d j v all x out. exact (be_no_estimation1 (big_endian_cpu d j) v all x out (big_endian_ok d j)). Qed.
Print Assumptions C87_be_bc1_no_estimation.
Theorem C87_be_bc2_no_estimation : forall (debug : bool) (junk : byte) (v : env) (use_all : bool) (x out : list byte),
  0 < usize_max v -> zlen x mod 16 = 0 -> zlen x <= zlen out ->
  let c := big_endian_cpu debug junk in let s := Settings (if use_all then V2 else VNone) false in
  exists y, be_transform_bc2_auto c v no_estimation use_all x out tt = Ok (ROk s, y, tt) /\ be_transform_bc2 c s x out = Ok (ROk tt, y).
Proof. intros d j v all x out. exact (be_no_estimation2 (big_endian_cpu d j) v all x out (big_endian_ok d j)). Qed.
Print Assumptions C87_be_bc2_no_estimation.
Theorem C87_be_bc3_no_estimation : forall (debug : bool) (junk : byte) (v : env) (use_all : bool) (x out : list byte),
  0 < usize_max v -> zlen x mod 16 = 0 -> zlen x <= zlen out ->
  let c := big_endian_cpu debug junk in let s := Settings3 (if use_all then V2 else V1) true false in
  exists y, be_transform_bc3_auto c v no_estimation use_all x out tt = Ok (ROk s, y, tt) /\ be_transform_bc3 c s x out = Ok (ROk tt, y).
Proof. intros d j v all x out. exact (be_no_estimation3 (big_endian_cpu d j) v all x out (big_endian_ok d j)). Qed.
Print Assumptions C87_be_bc3_no_estimation.
Example C87_be_met : 0 < usize_max no_memory /\ zlen (texture 48) mod 8 = 0 /\ zlen (texture 48) mod 16 = 0 /\ zlen (texture 48) <= zlen (texture 50) /\
  exists y, be_transform_bc1_auto (big_endian_cpu true x5a) no_memory no_estimation true (texture 48) (texture 50) tt = Ok (ROk (Settings V2 false), y, tt) /\ y <> texture 50.
Proof.
  split; [reflexivity|]. split; [reflexivity|]. split; [reflexivity|]. split; [vm_compute; discriminate|]. eexists. split; [vm_compute; reflexivity|vm_compute; discriminate].
Qed.
