(** The units of the estimators in a bundle make no difference to whole files. *)
From Verif Require Import Base.Bytes Base.Res Model.Color565 Model.Kernel Model.Transform Model.Auto Model.Builders Model.Embed Model.Bundle Model.Dds
  Model.BigEndian Model.BeTransform Model.BeFiles Spec.Estimator Spec.Units Spec.UnitsFiles Proofs.Units Proofs.BeUnits.

Section Files.
Context {St Er : Type}.
Variables (show : Er -> string) (c : cfg) (v : env) (f1 f2 : Z -> Z).
Hypotheses (K1 : keeps_order f1) (K2 : keeps_order f2).

Lemma builder_units : forall f k (b : builder St Er) x out st, keeps_order f -> sizes_fit v f b ->
  transform_slice_with_details show k c v (builder_in_units f b) x out st = transform_slice_with_details show k c v b x out st.
Proof.
  intros f k [b|b] x out st K H; [reflexivity|]. cbn [builder_in_units transform_slice_with_details]. unfold auto_transform. cbn [ab_estimator ab_use_all].
  destruct k; cbn [core_auto]; [rewrite units_bc1|rewrite units_bc2]; first [reflexivity|exact K|exact H].
Qed.
Lemma be_builder_units : forall f k (b : builder St Er) x out st, keeps_order f -> sizes_fit v f b ->
  be_transform_slice_with_details show k c v (builder_in_units f b) x out st = be_transform_slice_with_details show k c v b x out st.
Proof.
  intros f k [b|b] x out st K H; [reflexivity|]. cbn [builder_in_units be_transform_slice_with_details]. unfold be_auto_transform. cbn [ab_estimator ab_use_all].
  destruct k; cbn [be_core_auto]; [rewrite be_units_bc1|rewrite be_units_bc2]; first [reflexivity|exact K|exact H].
Qed.

Section One.
Variable t : bundle St Er.
Hypotheses (H1 : forall b, b_bc1 t = Some b -> sizes_fit v f1 b) (H2 : forall b, b_bc2 t = Some b -> sizes_fit v f2 b).
Lemma dispatch_units : forall f x out st, dispatch_transform show c v (bundle_in_units f1 f2 t) f x out st = dispatch_transform show c v t f x out st.
Proof.
  intros f x out st. unfold dispatch_transform. destruct (zlen out <? zlen x); [reflexivity|]. cbv zeta. cbn [bundle_in_units b_bc1 b_bc2].
  destruct f; try reflexivity.
  - destruct (b_bc1 t) as [b|]; cbn [option_map]; [|reflexivity]. rewrite builder_units; [reflexivity|exact K1|apply H1; reflexivity].
  - destruct (b_bc2 t) as [b|]; cbn [option_map]; [|reflexivity]. rewrite builder_units; [reflexivity|exact K2|apply H2; reflexivity].
Qed.
Lemma be_dispatch_units : forall f x out st, be_dispatch_transform show c v (bundle_in_units f1 f2 t) f x out st = be_dispatch_transform show c v t f x out st.
Proof.
  intros f x out st. unfold be_dispatch_transform. destruct (zlen out <? zlen x); [reflexivity|]. cbv zeta. cbn [bundle_in_units b_bc1 b_bc2].
  destruct f; try reflexivity.
  - destruct (b_bc1 t) as [b|]; cbn [option_map]; [|reflexivity]. rewrite be_builder_units; [reflexivity|exact K1|apply H1; reflexivity].
  - destruct (b_bc2 t) as [b|]; cbn [option_map]; [|reflexivity]. rewrite be_builder_units; [reflexivity|exact K2|apply H2; reflexivity].
Qed.

Ltac step := match goal with
  | |- ?a = ?a => reflexivity
  | |- context [dispatch_transform show c v (bundle_in_units f1 f2 t)] => rewrite dispatch_units
  | |- context [be_dispatch_transform show c v (bundle_in_units f1 f2 t)] => rewrite be_dispatch_units
  | |- bind ?a _ = _ => destruct a; cbn [bind]
  | |- context [match ?a with _ => _ end] => destruct a
  | |- context [if ?a then _ else _] => destruct a
  end.
Lemma dds_units : forall x out st, dds_transform_bundle show c v (bundle_in_units f1 f2 t) x out st = dds_transform_bundle show c v t x out st.
Proof.
  intros x out st. unfold dds_transform_bundle. destruct (zlen out <? zlen x); [reflexivity|].
  destruct (parse_dds (c_debug c) x) as [[i|]|w|w]; cbn [bind]; try reflexivity. cbv zeta.
  repeat step.
Qed.
Lemma be_dds_units : forall x out st, be_dds_transform_bundle show c v (bundle_in_units f1 f2 t) x out st = be_dds_transform_bundle show c v t x out st.
Proof.
  intros x out st. unfold be_dds_transform_bundle. destruct (zlen out <? zlen x); [reflexivity|].
  destruct (parse_dds (c_debug c) x) as [[i|]|w|w]; cbn [bind]; try reflexivity. cbv zeta.
  repeat step.
Qed.
End One.
End Files.
