From Verif Require Import Base.Bytes Base.Res Model.Color565 Model.Ycc Model.Kernel Model.ColorBatch Model.GenBeBc3Sacr
  Proofs.KernelCheck Proofs.KernelLoop Proofs.KernelFun Proofs.Shapes Proofs.BeShapes.
From Coq Require Import ZifyBool ZifyNat.

Lemma be_bc3_sacr_t_generic_transform_with_split_alphas_colour_and_recorr_ok : forall c v, SPEC c v sh_be_bc3_sacr_t (vok v) any_n
  (fun P n m => be_bc3_sacr_t_generic_transform_with_split_alphas_colour_and_recorr c (P (PI 0)) (P (PO 0)) (P (PO 1)) (P (PO 2)) (P (PO 3)) (P (PO 4)) (P (PO 5)) n v m).
Proof. intros c v. kstart be_bc3_sacr_t_generic_transform_with_split_alphas_colour_and_recorr. kauto ltac:(fail). Qed.

Lemma be_bc3_sacr_t_transform_with_split_alphas_colour_and_recorr_ok : forall c v, SPEC c v sh_be_bc3_sacr_t (vok v) any_n
  (fun P n m => be_bc3_sacr_t_transform_with_split_alphas_colour_and_recorr c (P (PI 0)) (P (PO 0)) (P (PO 1)) (P (PO 2)) (P (PO 3)) (P (PO 4)) (P (PO 5)) n v m).
Proof. intros c v. kstart be_bc3_sacr_t_transform_with_split_alphas_colour_and_recorr. kauto ltac:(first [kcallv be_bc3_sacr_t_generic_transform_with_split_alphas_colour_and_recorr_ok]). Qed.

Lemma be_bc3_sacr_u_generic_untransform_with_split_alphas_colour_and_recorr_ok : forall c v, SPEC c v sh_be_bc3_sacr_u (vok v) any_n
  (fun P n m => be_bc3_sacr_u_generic_untransform_with_split_alphas_colour_and_recorr c (P (PI 0)) (P (PI 1)) (P (PI 2)) (P (PI 3)) (P (PI 4)) (P (PI 5)) (P (PO 0)) n v m).
Proof. intros c v. kstart be_bc3_sacr_u_generic_untransform_with_split_alphas_colour_and_recorr. kauto ltac:(fail). Qed.

Lemma be_bc3_sacr_u_untransform_with_split_alphas_colour_and_recorr_ok : forall c v, SPEC c v sh_be_bc3_sacr_u (vok v) any_n
  (fun P n m => be_bc3_sacr_u_untransform_with_split_alphas_colour_and_recorr c (P (PI 0)) (P (PI 1)) (P (PI 2)) (P (PI 3)) (P (PI 4)) (P (PI 5)) (P (PO 0)) n v m).
Proof. intros c v. kstart be_bc3_sacr_u_untransform_with_split_alphas_colour_and_recorr. kauto ltac:(first [kcallv be_bc3_sacr_u_generic_untransform_with_split_alphas_colour_and_recorr_ok]). Qed.
