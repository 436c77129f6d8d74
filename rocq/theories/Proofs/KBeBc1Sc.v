From Verif Require Import Base.Bytes Base.Res Model.Color565 Model.Ycc Model.Kernel Model.ColorBatch Model.GenBeBc1Sc
  Proofs.KernelCheck Proofs.KernelLoop Proofs.KernelFun Proofs.Shapes Proofs.BeShapes.
From Coq Require Import ZifyBool ZifyNat.

Lemma be_bc1_sc_t_generic_transform_with_split_colour_ok : forall c, SPEC c VNone sh_bc1_sc_t (true) any_n
  (fun P n m => be_bc1_sc_t_generic_transform_with_split_colour c (P (PI 0)) (P (PO 0)) (P (PO 1)) (P (PO 2)) n m).
Proof. intros c. kstart be_bc1_sc_t_generic_transform_with_split_colour. kauto ltac:(fail). Qed.

Lemma be_bc1_sc_t_transform_with_split_colour_ok : forall c, SPEC c VNone sh_bc1_sc_t (true) any_n
  (fun P n m => be_bc1_sc_t_transform_with_split_colour c (P (PI 0)) (P (PO 0)) (P (PO 1)) (P (PO 2)) n m).
Proof. intros c. kstart be_bc1_sc_t_transform_with_split_colour. kauto ltac:(first [kcall be_bc1_sc_t_generic_transform_with_split_colour_ok]). Qed.

Lemma be_bc1_sc_u_generic_untransform_with_split_colour_ok : forall c, SPEC c VNone sh_bc1_sc_u (true) any_n
  (fun P n m => be_bc1_sc_u_generic_untransform_with_split_colour c (P (PI 0)) (P (PI 1)) (P (PI 2)) (P (PO 0)) n m).
Proof. intros c. kstart be_bc1_sc_u_generic_untransform_with_split_colour. kauto ltac:(fail). Qed.

Lemma be_bc1_sc_u_untransform_with_split_colour_ok : forall c, SPEC c VNone sh_bc1_sc_u (true) any_n
  (fun P n m => be_bc1_sc_u_untransform_with_split_colour c (P (PI 0)) (P (PI 1)) (P (PI 2)) (P (PO 0)) n m).
Proof. intros c. kstart be_bc1_sc_u_untransform_with_split_colour. kauto ltac:(first [kcall be_bc1_sc_u_generic_untransform_with_split_colour_ok]). Qed.
