(** C98, the C functions: what the memory behind the output pointer held before makes no difference. *)
From Verif Require Import Base.Bytes Base.Res Model.Color565 Model.Kernel Model.Transform Model.Auto Model.Builders Model.CApi
  Spec.Layout Spec.Estimator Spec.Files Spec.CApi Spec.OldContents Proofs.OldContentsC Props.Cases.
Open Scope list_scope.
Open Scope Z_scope.

(** The automatic transform, with any estimator: both calls return the same code, leave the estimator in the same state, make the same
    new builder and store the same handle; after a success the first [n] bytes are the same. *)
Theorem C98_c_auto : forall (St : Type) (k : codec) (c : cfg) (v : env) (h : heap St) (i : list byte) (n : Z) (o1 o2 : list byte) (m : Z) (b : nat)
    (ab : c_auto_builder St) (cell : handle) (st : St),
  supported c -> (c_debug c = true -> n <> 0) -> valid_for i n -> valid_for o1 m -> valid_for o2 m -> lookup (autos h) b = Ok ab ->
  exists code y1 y2 cell1 h1 st1,
    auto_transform_c k c v (Some b) (Some i) n (Some o1) m (Some cell) h st = Ok (code, Some y1, Some cell1, h1, st1) /\
    auto_transform_c k c v (Some b) (Some i) n (Some o2) m (Some cell) h st = Ok (code, Some y2, Some cell1, h1, st1) /\
    (code = Success -> firstn (Z.to_nat n) y1 = firstn (Z.to_nat n) y2).
Proof. intros St k c v h i n o1 o2 m b ab cell st K HD VI V1 V2. exact (old_c_auto k c i n o1 o2 m K HD VI V1 V2 v h b ab cell st). Qed.
Print Assumptions C98_c_auto.
(** The transform and the restore with a manual builder. *)
Theorem C98_c_manual : forall (St : Type) (k : codec) (c : cfg) (h : heap St) (i : list byte) (n : Z) (o1 o2 : list byte) (m : Z) (b : nat) (mb : manual_builder),
  supported c -> (c_debug c = true -> n <> 0) -> valid_for i n -> valid_for o1 m -> valid_for o2 m -> lookup (manuals h) b = Ok mb ->
  (exists code y1 y2, manual_transform_c k c (Some i) n (Some o1) m (Some b) h = Ok (code, Some y1) /\
    manual_transform_c k c (Some i) n (Some o2) m (Some b) h = Ok (code, Some y2) /\ (code = Success -> firstn (Z.to_nat n) y1 = firstn (Z.to_nat n) y2)) /\
  (exists code y1 y2, manual_untransform_c k c (Some i) n (Some o1) m (Some b) h = Ok (code, Some y1) /\
    manual_untransform_c k c (Some i) n (Some o2) m (Some b) h = Ok (code, Some y2) /\ (code = Success -> firstn (Z.to_nat n) y1 = firstn (Z.to_nat n) y2)).
Proof. intros St k c h i n o1 o2 m b mb K HD VI V1 V2. exact (old_c_manual k c i n o1 o2 m K HD VI V1 V2 h b mb). Qed.
Print Assumptions C98_c_manual.
(** The functions of the core crates. *)
Theorem C98_c_core : forall (k : codec) (c : cfg) (s : settings) (i : list byte) (n : Z) (o1 o2 : list byte) (m : Z),
  supported c -> (c_debug c = true -> n <> 0) -> valid_for i n -> valid_for o1 m -> valid_for o2 m ->
  (exists code y1 y2, core_transform_c k c s (Some i) n (Some o1) m = Ok (code, Some y1) /\
    core_transform_c k c s (Some i) n (Some o2) m = Ok (code, Some y2) /\ (code = CoreSuccess -> firstn (Z.to_nat n) y1 = firstn (Z.to_nat n) y2)) /\
  (exists code y1 y2, core_untransform_c k c s (Some i) n (Some o1) m = Ok (code, Some y1) /\
    core_untransform_c k c s (Some i) n (Some o2) m = Ok (code, Some y2) /\ (code = CoreSuccess -> firstn (Z.to_nat n) y1 = firstn (Z.to_nat n) y2)).
Proof. intros k c s i n o1 o2 m K HD VI V1 V2. exact (old_core_c k c i n o1 o2 m K HD VI V1 V2 s). Qed.
Print Assumptions C98_c_core.
Theorem C98_c_core_auto : forall (St : Type) (k : codec) (c : cfg) (v : env) (e : c_estimator St) (all : bool) (old : settings) (i : list byte) (n : Z) (o1 o2 : list byte) (m : Z) (st : St),
  supported c -> (c_debug c = true -> n <> 0) -> valid_for i n -> valid_for o1 m -> valid_for o2 m ->
  exists code y1 y2 s1 st1,
    core_transform_auto_c k c v (Some i) n (Some o1) m (Some e) all (Some old) st = Ok (code, Some y1, Some s1, st1) /\
    core_transform_auto_c k c v (Some i) n (Some o2) m (Some e) all (Some old) st = Ok (code, Some y2, Some s1, st1) /\
    (code = CoreSuccess -> firstn (Z.to_nat n) y1 = firstn (Z.to_nat n) y2).
Proof. intros St k c v e all old i n o1 o2 m st K HD VI V1 V2. exact (old_core_c_auto k c i n o1 o2 m K HD VI V1 V2 v e all old st). Qed.
Print Assumptions C98_c_core_auto.

(** sixteen of twenty bytes, in a debug build, into memory that held other bytes; the calls succeed, and change the memory *)
Example C98_c_met : let i := Cases.texture 20 in let n := 16 in let o1 := repeat xff 18 in let o2 := Cases.texture 18 in let m := 17 in let mb := ManualBuilder (Settings V3 true) in
  let h := Heap (St := unit) [Some mb] [] in
  supported debug_cpu /\ (c_debug debug_cpu = true -> n <> 0) /\ valid_for i n /\ valid_for o1 m /\ valid_for o2 m /\ lookup (manuals h) 0%nat = Ok mb /\
  exists y1 y2, manual_transform_c CBc1 debug_cpu (Some i) n (Some o1) m (Some 0%nat) h = Ok (Success, Some y1) /\
    manual_transform_c CBc1 debug_cpu (Some i) n (Some o2) m (Some 0%nat) h = Ok (Success, Some y2) /\ y1 <> y2 /\ firstn 16 y1 <> firstn 16 o1.
Proof.
  cbv zeta. split; [met1|]. split; [discriminate|]. split; [split; vm_compute; discriminate|]. split; [split; vm_compute; discriminate|]. split; [split; vm_compute; discriminate|].
  split; [reflexivity|]. do 2 eexists. split; [vm_compute; reflexivity|]. split; [vm_compute; reflexivity|]. split; discriminate.
Qed.
