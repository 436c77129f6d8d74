(** Concrete estimators for the examples beside the theorems. *)
From Verif Require Import Base.Bytes Base.Res Model.Kernel Model.Transform Model.Auto Spec.Estimator Props.Cases.

(** A 64-bit machine on which no allocation fails. *)
Definition roomy : env := Env (2 ^ 64 - 1) (fun _ => true).
(** The sum of the bytes, at most 2^40. *)
Definition byte_sum (d : list byte) (scratch : Z) : result Z unit := ROk (Z.min (2 ^ 40) (fold_right Z.add 0 (map b2z d))).
Lemma sum_nonneg : forall d, 0 <= fold_right Z.add 0 (map b2z d).
Proof. induction d as [|a d IH]; cbn [map fold_right]; [lia|]. pose proof (b2z_bound a). lia. Qed.
Lemma byte_sum_fits : forall d n z, byte_sum d n = ROk z -> 0 <= z /\ z <= usize_max roomy.
Proof. unfold byte_sum. intros d n z H. injection H as <-. pose proof (sum_nonneg d). cbn [usize_max roomy]. lia. Qed.
Lemma byte_sum_fits_twice : forall d n z, byte_sum d n = ROk z -> 0 <= z /\ 2 * z <= usize_max roomy.
Proof. unfold byte_sum. intros d n z H. injection H as <-. pose proof (sum_nonneg d). cbn [usize_max roomy]. lia. Qed.
Definition twice (n : Z) : result Z unit := ROk (2 * n).
(** One that counts its questions and fails at the third. *)
Definition third_fails : estimator Z unit :=
  Estimator (fun st n => (ROk n, st)) (fun st d n => (if st =? 2 then RErr tt else byte_sum d n, st + 1)).
Lemma third_fails_fits : forall st d n z st', estimate_compressed_size third_fails st d n = (ROk z, st') -> 2 * z <= usize_max roomy.
Proof.
  intros st d n z st' H. cbn [third_fails estimate_compressed_size] in H. destruct (st =? 2); [discriminate H|].
  injection H as H _. refine (proj2 (byte_sum_fits_twice d n z _)). rewrite <- H. reflexivity.
Qed.
(** One that counts its questions. *)
Definition counts : estimator Z unit := Estimator (fun st n => (ROk n, st + 1)) (fun st d n => (byte_sum d n, st + 1)).
Lemma counts_fits : forall st d n z st', estimate_compressed_size counts st d n = (ROk z, st') -> 2 * z <= usize_max roomy.
Proof.
  intros st d n z st' H. cbn [counts estimate_compressed_size] in H. injection H as H _. refine (proj2 (byte_sum_fits_twice d n z _)). rewrite <- H. reflexivity.
Qed.
(** what a search returned: the settings, the buffer, the state of the estimator *)
Definition chosen {S E St} (d : S) (r : res (result S E * list byte * St)) : S := match r with Ok (ROk s, _, _) => s | _ => d end.
Definition left_by {R St} (r : res (R * list byte * St)) : list byte := match r with Ok (_, y, _) => y | _ => [] end.
Definition state_of {R St} (d : St) (r : res (R * list byte * St)) : St := match r with Ok (_, _, st) => st | _ => d end.
Ltac met_auto := cbv zeta; repeat lazymatch goal with |- _ /\ _ => split end;
  first [exact byte_sum_fits | exact byte_sum_fits_twice | exact third_fails_fits | exact counts_fits | met1].
