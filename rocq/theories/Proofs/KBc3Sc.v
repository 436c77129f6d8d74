From Verif Require Import Base.Bytes Base.Res Model.Color565 Model.Ycc Model.Kernel Model.ColorBatch Model.GenBc3Sc
  Proofs.KernelCheck Proofs.KernelLoop Proofs.KernelFun Proofs.Shapes.
From Coq Require Import ZifyBool ZifyNat.

Lemma bc3_sc_t_generic_transform_with_split_colour_ok : forall c, SPEC c VNone sh_bc3_sc_t (true) any_n
  (fun P n m => bc3_sc_t_generic_transform_with_split_colour c (P (PI 0)) (P (PO 0)) (P (PO 1)) (P (PO 2)) (P (PO 3)) (P (PO 4)) n m).
Proof. intros c. kstart bc3_sc_t_generic_transform_with_split_colour. kauto ltac:(fail). Qed.

Lemma bc3_sc_t_transform_with_split_colour_ok : forall c, SPEC c VNone sh_bc3_sc_t (true) any_n
  (fun P n m => bc3_sc_t_transform_with_split_colour c (P (PI 0)) (P (PO 0)) (P (PO 1)) (P (PO 2)) (P (PO 3)) (P (PO 4)) n m).
Proof. intros c. kstart bc3_sc_t_transform_with_split_colour. kauto ltac:(first [kcall bc3_sc_t_generic_transform_with_split_colour_ok]). Qed.

Lemma bc3_sc_u_generic_untransform_with_split_colour_ok : forall c, SPEC c VNone sh_bc3_sc_u (true) any_n
  (fun P n m => bc3_sc_u_generic_untransform_with_split_colour c (P (PI 0)) (P (PI 1)) (P (PI 2)) (P (PI 3)) (P (PI 4)) (P (PO 0)) n m).
Proof. intros c. kstart bc3_sc_u_generic_untransform_with_split_colour. kauto ltac:(fail). Qed.

Lemma bc3_sc_u_untransform_with_split_colour_ok : forall c, SPEC c VNone sh_bc3_sc_u (true) any_n
  (fun P n m => bc3_sc_u_untransform_with_split_colour c (P (PI 0)) (P (PI 1)) (P (PI 2)) (P (PI 3)) (P (PI 4)) (P (PO 0)) n m).
Proof. intros c. kstart bc3_sc_u_untransform_with_split_colour. kauto ltac:(first [kcall bc3_sc_u_generic_untransform_with_split_colour_ok]). Qed.
