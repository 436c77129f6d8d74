From Verif Require Import Base.Bytes Base.Res Model.Color565 Model.Ycc Model.Kernel Model.ColorBatch Model.GenBc3Scr
  Proofs.KernelCheck Proofs.KernelLoop Proofs.KernelFun Proofs.Shapes.
From Coq Require Import ZifyBool ZifyNat.

Lemma bc3_scr_t_generic_transform_with_split_colour_and_recorr_ok : forall c v, SPEC c v sh_bc3_scr_t (vok v) any_n
  (fun P n m => bc3_scr_t_generic_transform_with_split_colour_and_recorr c (P (PI 0)) (P (PO 0)) (P (PO 1)) (P (PO 2)) (P (PO 3)) (P (PO 4)) n v m).
Proof. intros c v. kstart bc3_scr_t_generic_transform_with_split_colour_and_recorr. kauto ltac:(fail). Qed.

Lemma bc3_scr_t_transform_with_split_colour_and_recorr_ok : forall c v, SPEC c v sh_bc3_scr_t (vok v) any_n
  (fun P n m => bc3_scr_t_transform_with_split_colour_and_recorr c (P (PI 0)) (P (PO 0)) (P (PO 1)) (P (PO 2)) (P (PO 3)) (P (PO 4)) n v m).
Proof. intros c v. kstart bc3_scr_t_transform_with_split_colour_and_recorr. kauto ltac:(first [kcallv bc3_scr_t_generic_transform_with_split_colour_and_recorr_ok]). Qed.

Lemma bc3_scr_u_generic_untransform_with_split_colour_and_recorr_ok : forall c v, SPEC c v sh_bc3_scr_u (vok v) any_n
  (fun P n m => bc3_scr_u_generic_untransform_with_split_colour_and_recorr c (P (PI 0)) (P (PI 1)) (P (PI 2)) (P (PI 3)) (P (PI 4)) (P (PO 0)) n v m).
Proof. intros c v. kstart bc3_scr_u_generic_untransform_with_split_colour_and_recorr. kauto ltac:(fail). Qed.

Lemma bc3_scr_u_untransform_with_split_colour_and_recorr_ok : forall c v, SPEC c v sh_bc3_scr_u (vok v) any_n
  (fun P n m => bc3_scr_u_untransform_with_split_colour_and_recorr c (P (PI 0)) (P (PI 1)) (P (PI 2)) (P (PI 3)) (P (PI 4)) (P (PO 0)) n v m).
Proof. intros c v. kstart bc3_scr_u_untransform_with_split_colour_and_recorr. kauto ltac:(first [kcallv bc3_scr_u_generic_untransform_with_split_colour_and_recorr_ok]). Qed.
