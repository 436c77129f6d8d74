(** C87: automatic transforms with NoEstimation, the estimator for callers who
    need none. *)
From Verif Require Import Base.Bytes Base.Res Model.Color565 Model.Kernel Model.Transform Model.Auto Spec.YCoCg Spec.Layout Spec.Estimator Proofs.NoEstimation Props.Cases Props.CasesAuto.

(** C87: the search succeeds, even if no memory can be allocated, always chooses
    the first settings tried (not the default ones) and leaves their bytes. *)
Theorem C87_bc1_no_estimation : forall (c : cfg) (v : env) (use_all : bool) (x out : list byte),
  cpu_ok c -> (c_debug c = true -> x <> []) -> 0 < usize_max v -> zlen x mod 8 = 0 -> zlen x <= zlen out ->
  let s := Settings (if use_all then V2 else VNone) false in
  exists y, transform_bc1_auto c v no_estimation use_all x out tt = Ok (ROk s, y, tt) /\ transform_bc1 c s x out = Ok (ROk tt, y).
Proof. exact no_estimation1. Qed.
Print Assumptions C87_bc1_no_estimation.
Theorem C87_bc2_no_estimation : forall (c : cfg) (v : env) (use_all : bool) (x out : list byte),
  cpu_ok c -> (c_avx512bw c = true -> c_avx512vl c = true) -> 0 < usize_max v -> zlen x mod 16 = 0 -> zlen x <= zlen out ->
  let s := Settings (if use_all then V2 else VNone) false in
  exists y, transform_bc2_auto c v no_estimation use_all x out tt = Ok (ROk s, y, tt) /\ transform_bc2 c s x out = Ok (ROk tt, y).
Proof. exact no_estimation2. Qed.
Print Assumptions C87_bc2_no_estimation.
Theorem C87_bc3_no_estimation : forall (c : cfg) (v : env) (use_all : bool) (x out : list byte),
  cpu_ok c -> (c_debug c = true -> x <> []) -> 0 < usize_max v -> zlen x mod 16 = 0 -> zlen x <= zlen out ->
  let s := Settings3 (if use_all then V2 else V1) true false in
  exists y, transform_bc3_auto c v no_estimation use_all x out tt = Ok (ROk s, y, tt) /\ transform_bc3 c s x out = Ok (ROk tt, y).
Proof. exact no_estimation3. Qed.
Print Assumptions C87_bc3_no_estimation.
(** a debug build on a machine that can allocate nothing *)
Definition no_memory := Env (2 ^ 64 - 1) (fun _ => false).
Example C87_met : let c := debug_cpu in let v := no_memory in let x := texture 48 in let out := texture 50 in
  cpu_ok c /\ (c_debug c = true -> x <> []) /\ (c_avx512bw c = true -> c_avx512vl c = true) /\ 0 < usize_max v /\ zlen x mod 8 = 0 /\ zlen x mod 16 = 0 /\ zlen x <= zlen out /\
  alloc_ok v 1 = false /\ transform_bc1_auto c v (pure (fun _ => ROk 1) (fun _ _ => ROk 0 : result Z unit)) true x out tt = Ok (RErr (DetermineBestTransform AllocateError), out, tt) /\
  exists y, transform_bc1_auto c v no_estimation true x out tt = Ok (ROk (Settings V2 false), y, tt) /\ y <> out.
Proof.
  cbv zeta. split; [exact debug_ok|]. split; [intros _; vm_compute; discriminate|]. split; [exact (proj2 debug_supported)|]. split; [reflexivity|]. split; [reflexivity|].
  split; [reflexivity|]. split; [vm_compute; discriminate|]. split; [reflexivity|]. split; [vm_compute; reflexivity|].
  eexists. split; [vm_compute; reflexivity|vm_compute; discriminate].
Qed.
