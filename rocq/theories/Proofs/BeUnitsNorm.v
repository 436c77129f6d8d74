(** The same on a big-endian machine (Proofs/UnitsNorm.v). *)
From Verif Require Import Base.Bytes Base.Res Model.Color565 Model.Kernel Model.Transform Model.Auto Model.Decode Model.Normalize Model.NormTransform Model.BigEndian Model.BeTransform Model.BeFiles Model.BeNormTransform
  Spec.Layout Spec.Estimator Spec.Units Proofs.AutoTheorems Proofs.Units Proofs.UnitsNorm.
From Coq Require Import ZifyBool.
Open Scope list_scope.
Open Scope Z_scope.

Section Units.
Context {St Er : Type}.
Variables (c : cfg) (v : env) (e : estimator St Er) (all : bool) (f : Z -> Z).
Hypotheses (K : keeps_order f) (H : forall st d n z st', estimate_compressed_size e st d n = (ROk z, st') -> 0 <= z < usize_max v /\ f z < usize_max v).
Let A z := 0 <= z < usize_max v /\ f z < usize_max v.

Lemma be_variant_units : forall i o len comp d s s', in_step v f s s' -> both (in_step v f) (be_test_variant c e i o len comp d s) (be_test_variant c (in_units f e) i o len comp d s').
Proof.
  intros i o len comp d [b z m st] [b' z' m' st'] (B1 & B2 & B3 & S); cbn [best best_size s_mem s_est] in *; subst b' m' st'. unfold be_test_variant. cbn [s_mem s_est best best_size].
  eapply both_bind; [apply both_refl|]. intros m1 ? <-. eapply both_bind; [apply both_refl|]. intros x ? <-.
  cbn [in_units estimate_compressed_size]. destruct (estimate_compressed_size e st x comp) as [[q|er] st1] eqn:Q; cbv beta iota.
  - pose proof (H _ _ _ _ _ Q) as Aq. rewrite (S q Aq). destruct (q <? z); cbn [both].
    + repeat split. cbn [best_size]. intros z1 A1. destruct A1 as [A1 _]. destruct Aq as [A2 _]. apply order_ltb; [exact K|lia..].
    + repeat split. exact S.
  - repeat split. exact S.
Qed.
Lemma be_order_units : forall i o len comp norm order s s', in_step v f s s' ->
  both (in_step v f) (be_test_order c e i o len comp norm order s) (be_test_order c (in_units f e) i o len comp norm order s').
Proof.
  intros i o len comp norm order. induction order as [|x r IH]; intros s s' S; cbn [be_test_order]; [exact S|].
  eapply both_bind; [apply be_variant_units; exact S|]. exact IH.
Qed.
Lemma be_norms_units : forall norms is o len comp order s s', in_step v f s s' ->
  both (in_step v f) (be_test_norms c e norms is o len comp order s) (be_test_norms c (in_units f e) norms is o len comp order s').
Proof.
  induction norms as [|n r IH]; intros [|i is] o len comp order s s' S; cbn [be_test_norms]; try exact S.
  eapply both_bind; [apply be_order_units; exact S|]. intros x y. apply IH.
Qed.

Lemma be_units_ptr : forall i o n m st, be_transform_bc1_auto_ptr c v (in_units f e) all i o n m st = be_transform_bc1_auto_ptr c v e all i o n m st.
Proof.
  intros i o n m st. unfold be_transform_bc1_auto_ptr. apply search_units with (g := f) (A := A); [reflexivity|..].
  - intros. apply estimate_units.
  - intros n0 m0 st0 z st' Q. refine (estimate_answer _ _ e A _ _ _ _ _ _ _ _ Q). exact H.
  - intros a b [] []. apply order_ltb; [exact K|lia..].
  - intros z []. lia.
Qed.
Lemma be_units_norm : forall fresh even inp out len m st,
  be_transform_bc1_auto_with_normalization c v (in_units f e) all fresh even inp out len m st = be_transform_bc1_auto_with_normalization c v e all fresh even inp out len m st.
Proof.
  intros fresh even inp out len m st. unfold be_transform_bc1_auto_with_normalization.
  destruct (negb (alloc_ok v len)); [reflexivity|]. cbv zeta. change (max_compressed_size (in_units f e)) with (max_compressed_size e).
  destruct (max_compressed_size e st (len / 2)) as [[n|e1] st1]; [|reflexivity].
  destruct (negb (n =? 0) && negb (alloc_ok v n)); [reflexivity|].
  match goal with |- bind ?a _ = _ => destruct a as [[any m1]|w|w] end; cbn [bind]; [|reflexivity..].
  destruct any.
  - match goal with |- bind ?a _ = _ => destruct a as [m2|w|w] end; cbn [bind]; [|reflexivity..].
    destruct (negb (alloc_ok v (len / 2))); [reflexivity|].
    match goal with |- bind (be_test_norms _ _ ?ns ?is ?o ?l ?cm ?od ?s0) _ = _ => pose proof (be_norms_units ns is o l cm od s0 s0) as B end.
    match type of B with ?P -> _ => assert (S0 : P) end.
    { repeat split. cbn [best_size]. intros z [Z1 Z2]. lia. }
    specialize (B S0). clear S0.
    match type of B with both _ ?a ?b => destruct a as [s|w|w]; destruct b as [s'|w'|w'] end; cbn [both] in B; try contradiction; cbn [bind]; [|subst; reflexivity..].
    destruct B as (-> & -> & -> & _). reflexivity.
  - destruct (apartb inp len out len); [|reflexivity]. rewrite be_units_ptr. reflexivity.
Qed.
End Units.
