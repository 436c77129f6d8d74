(** C97: which units an estimator reports its sizes in makes no difference. *)
From Verif Require Import Base.Bytes Base.Res Model.Color565 Model.Kernel Model.Transform Model.Auto Spec.Layout Spec.Estimator Spec.Units
  Proofs.AutoTheorems Proofs.Units Props.Cases Props.CasesAuto.
Open Scope list_scope.
Open Scope Z_scope.

(** BC1 and BC2, any estimator, also one with memory: bits instead of bytes, a penalty added, squares, or any other function that
    keeps the larger size the larger, give the same call altogether: result, settings, every byte of the buffer, errors, panics. *)
Theorem C97_bc1 : forall (St Er : Type) (c : cfg) (v : env) (e : estimator St Er) (all : bool) (f : Z -> Z) (x out : list byte) (st : St),
  keeps_order f -> (forall st d n z st', estimate_compressed_size e st d n = (ROk z, st') -> 0 <= z < usize_max v /\ f z < usize_max v) ->
  transform_bc1_auto c v (in_units f e) all x out st = transform_bc1_auto c v e all x out st.
Proof. intros St Er c v e all f x out st K H. exact (units_bc1 c v e all f K H x out st). Qed.
Print Assumptions C97_bc1.
Theorem C97_bc2 : forall (St Er : Type) (c : cfg) (v : env) (e : estimator St Er) (all : bool) (f : Z -> Z) (x out : list byte) (st : St),
  keeps_order f -> (forall st d n z st', estimate_compressed_size e st d n = (ROk z, st') -> 0 <= z < usize_max v /\ f z < usize_max v) ->
  transform_bc2_auto c v (in_units f e) all x out st = transform_bc2_auto c v e all x out st.
Proof. intros St Er c v e all f x out st K H. exact (units_bc2 c v e all f K H x out st). Qed.
Print Assumptions C97_bc2.

(** BC3 adds up two estimates, so for any estimator the units may be multiples, with something added to
    or taken off each. *)
Theorem C97_bc3_multiples : forall (St Er : Type) (c : cfg) (v : env) (e : estimator St Er) (all : bool) (k d : Z) (x out : list byte) (st : St),
  1 <= k ->
  (forall st x n z st', estimate_compressed_size e st x n = (ROk z, st') -> 0 <= z /\ 2 * z < usize_max v /\ 2 * (k * z + d) < usize_max v) ->
  transform_bc3_auto c v (in_units (fun z => k * z + d) e) all x out st = transform_bc3_auto c v e all x out st.
Proof. intros St Er c v e all k d x out st Hk H. exact (units_bc3 c v e all k d Hk H x out st). Qed.
Print Assumptions C97_bc3_multiples.

(** With an estimator that always answers the same, any units that keep the order do also for BC3: every way to store the alpha
    endpoints is tried with every way to store the colours, so both are smallest on their own. *)
Theorem C97_bc3_deterministic : forall (Er : Type) (c : cfg) (v : env) (mx : Z -> result Z Er) (size : list byte -> Z -> result Z Er) (f : Z -> Z) (all : bool)
    (x out : list byte) (s : settings3) (y : list byte),
  cpu_ok c -> keeps_order f -> (forall d n z, size d n = ROk z -> 0 <= z /\ 2 * z < usize_max v /\ 0 <= f z /\ 2 * f z < usize_max v) ->
  (c_debug c = true -> x <> []) -> transform_bc3_auto c v (pure mx size) all x out tt = Ok (ROk s, y, tt) ->
  transform_bc3_auto c v (in_units f (pure mx size)) all x out tt = Ok (ROk s, y, tt).
Proof. intros Er c v mx size f all x out s y K F H D R. exact (units_bc3_pure c v mx size f all K F H x out s y D R). Qed.
Print Assumptions C97_bc3_deterministic.

(** With one that changes its answers they do not: it answers 4 and 4, then 1 and 6, then 100 always. *)
Definition changes_its_mind : estimator nat unit :=
  Estimator (fun st n => (ROk n, st)) (fun st _ _ => (ROk (nth st [4; 4; 1; 6] 100), S st)).
Theorem C97_bc3_any_refuted : let f := fun z => z * z in
  keeps_order f /\
  (forall st d n z st', estimate_compressed_size changes_its_mind st d n = (ROk z, st') -> 0 <= z /\ 2 * z < usize_max roomy /\ 2 * f z < usize_max roomy) /\
  exists s s' y y' st st', transform_bc3_auto fast_cpu roomy changes_its_mind false (texture 32) (texture 32) 0%nat = Ok (ROk s, y, st) /\
    transform_bc3_auto fast_cpu roomy (in_units f changes_its_mind) false (texture 32) (texture 32) 0%nat = Ok (ROk s', y', st') /\ s <> s' /\ y <> y'.
Proof.
  cbv zeta. split; [|split].
  - intros a b H. nia.
  - intros st d n z st' H. cbn [changes_its_mind estimate_compressed_size] in H. injection H as <- _. cbn [usize_max roomy].
    destruct st as [|[|[|[|st]]]]; cbn [nth]; try lia. destruct st; cbn [nth]; lia.
  - do 6 eexists. split; [vm_compute; reflexivity|]. split; [vm_compute; reflexivity|]. split; discriminate.
Qed.
Print Assumptions C97_bc3_any_refuted.

(** Bits and a penalty instead of bytes, an estimator that counts its questions and fails at the third, or adds up the bytes. *)
Lemma bits_keep_order : keeps_order (fun z => 8 * z + 5).
Proof. intros a b H. lia. Qed.
Lemma squares_keep_order : keeps_order (fun z => z * z / 2 ^ 40 + z).
Proof. intros a b H. pose proof (Z.div_le_mono (a * a) (b * b) (2 ^ 40) ltac:(lia) ltac:(nia)). lia. Qed.
Lemma counts_bits : forall st d n z st', estimate_compressed_size counts st d n = (ROk z, st') -> 0 <= z /\ 2 * z < usize_max roomy /\ 2 * (8 * z + 5) < usize_max roomy.
Proof. intros st d n z st' H. cbn [counts estimate_compressed_size] in H. injection H as <- _. pose proof (sum_nonneg d). cbn [usize_max roomy]. lia. Qed.
Example C97_bc1_met : keeps_order (fun z => 8 * z + 5) /\
  (forall st d n z st', estimate_compressed_size counts st d n = (ROk z, st') -> 0 <= z < usize_max roomy /\ 8 * z + 5 < usize_max roomy) /\
  exists s y st, transform_bc1_auto debug_cpu roomy counts true (texture 32) (texture 40) 0 = Ok (ROk s, y, st) /\ s <> default_settings.
Proof.
  split; [exact bits_keep_order|]. split; [intros st d n z st' H; pose proof (counts_bits _ _ _ _ _ H); lia|].
  do 3 eexists. split; [vm_compute; reflexivity|discriminate].
Qed.
Example C97_bc3_multiples_met : 
  (forall st x n z st', estimate_compressed_size counts st x n = (ROk z, st') -> 0 <= z /\ 2 * z < usize_max roomy /\ 2 * (8 * z + 5) < usize_max roomy) /\
  exists s y st, transform_bc3_auto debug_cpu roomy counts true (texture 32) (texture 40) 0 = Ok (ROk s, y, st) /\ s <> default_settings3.
Proof. split; [exact counts_bits|]. do 3 eexists. split; [vm_compute; reflexivity|discriminate]. Qed.
Example C97_bc3_deterministic_met : let f := fun z => z * z / 2 ^ 40 + z in
  cpu_ok debug_cpu /\ keeps_order f /\ (forall d n z, byte_sum d n = ROk z -> 0 <= z /\ 2 * z < usize_max roomy /\ 0 <= f z /\ 2 * f z < usize_max roomy) /\
  exists s y, transform_bc3_auto debug_cpu roomy (pure twice byte_sum) true (texture 32) (texture 32) tt = Ok (ROk s, y, tt) /\ s <> default_settings3.
Proof.
  cbv zeta. split; [met1|]. split; [exact squares_keep_order|]. split.
  - intros d n k H. unfold byte_sum in H. assert (B : 0 <= k <= 2 ^ 40) by (injection H as <-; pose proof (sum_nonneg d); lia). clear H.
    pose proof (Z.div_le_upper_bound (k * k) (2 ^ 40) (2 ^ 40) ltac:(lia) ltac:(nia)). pose proof (Z.div_pos (k * k) (2 ^ 40) ltac:(nia) ltac:(lia)).
    set (q := k * k / 2 ^ 40) in *. clearbody q. cbn [usize_max roomy]. lia.
  - do 2 eexists. split; [vm_compute; reflexivity|discriminate].
Qed.
