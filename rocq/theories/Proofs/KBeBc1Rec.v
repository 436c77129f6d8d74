From Verif Require Import Base.Bytes Base.Res Model.Color565 Model.Ycc Model.Kernel Model.ColorBatch Model.GenBeBc1Rec
  Proofs.KernelCheck Proofs.KernelLoop Proofs.KernelFun Proofs.Shapes Proofs.BeShapes.
From Coq Require Import ZifyBool ZifyNat.

Lemma be_bc1_rec_t_generic_transform_decorr_ok : forall c v, SPEC c v sh_be_bc1_rec_t (vok v) any_n
  (fun P n m => be_bc1_rec_t_generic_transform_decorr c (vnum v) (P (PI 0)) (P (PO 0)) (P (PO 1)) n m).
Proof. intros c v. kstart be_bc1_rec_t_generic_transform_decorr. kauto ltac:(fail). Qed.

Lemma be_bc1_rec_t_generic_transform_decorr_var1_ok : forall c, SPEC c V1 sh_be_bc1_rec_t (true) any_n
  (fun P n m => be_bc1_rec_t_generic_transform_decorr_var1 c (P (PI 0)) (P (PO 0)) (P (PO 1)) n m).
Proof. intros c. kstart be_bc1_rec_t_generic_transform_decorr_var1. kauto ltac:(first [kcallv be_bc1_rec_t_generic_transform_decorr_ok]). Qed.

Lemma be_bc1_rec_t_generic_transform_decorr_var2_ok : forall c, SPEC c V2 sh_be_bc1_rec_t (true) any_n
  (fun P n m => be_bc1_rec_t_generic_transform_decorr_var2 c (P (PI 0)) (P (PO 0)) (P (PO 1)) n m).
Proof. intros c. kstart be_bc1_rec_t_generic_transform_decorr_var2. kauto ltac:(first [kcallv be_bc1_rec_t_generic_transform_decorr_ok]). Qed.

Lemma be_bc1_rec_t_generic_transform_decorr_var3_ok : forall c, SPEC c V3 sh_be_bc1_rec_t (true) any_n
  (fun P n m => be_bc1_rec_t_generic_transform_decorr_var3 c (P (PI 0)) (P (PO 0)) (P (PO 1)) n m).
Proof. intros c. kstart be_bc1_rec_t_generic_transform_decorr_var3. kauto ltac:(first [kcallv be_bc1_rec_t_generic_transform_decorr_ok]). Qed.

Lemma be_bc1_rec_t_generic_transform_with_decorrelate_generic_ok : forall c v, SPEC c v sh_be_bc1_rec_t (vok v) any_n
  (fun P n m => be_bc1_rec_t_generic_transform_with_decorrelate_generic c (P (PI 0)) (P (PO 0)) (P (PO 1)) n v m).
Proof. intros c v. kstart be_bc1_rec_t_generic_transform_with_decorrelate_generic. kauto ltac:(first [kcall be_bc1_rec_t_generic_transform_decorr_var1_ok | kcall be_bc1_rec_t_generic_transform_decorr_var2_ok | kcall be_bc1_rec_t_generic_transform_decorr_var3_ok]). Qed.

Lemma be_bc1_rec_t_transform_with_decorrelate_ok : forall c v, TSPEC c v sh_be_bc1_rec_t (vok v) any_n
  (fun P n m => be_bc1_rec_t_transform_with_decorrelate c (P (PI 0)) (P (PO 0)) (8 * n) v m).
Proof. intros c v. kstart be_bc1_rec_t_transform_with_decorrelate. kauto ltac:(first [kcallv be_bc1_rec_t_generic_transform_with_decorrelate_generic_ok]). Qed.

Lemma be_bc1_rec_u_generic_untransform_recorr_ok : forall c v, SPEC c v sh_be_bc1_rec_u (vok v) any_n
  (fun P n m => be_bc1_rec_u_generic_untransform_recorr c (vnum v) (P (PI 0)) (P (PI 1)) (P (PO 0)) n m).
Proof. intros c v. kstart be_bc1_rec_u_generic_untransform_recorr. kauto ltac:(fail). Qed.

Lemma be_bc1_rec_u_generic_untransform_recorr_var1_ok : forall c, SPEC c V1 sh_be_bc1_rec_u (true) any_n
  (fun P n m => be_bc1_rec_u_generic_untransform_recorr_var1 c (P (PI 0)) (P (PI 1)) (P (PO 0)) n m).
Proof. intros c. kstart be_bc1_rec_u_generic_untransform_recorr_var1. kauto ltac:(first [kcallv be_bc1_rec_u_generic_untransform_recorr_ok]). Qed.

Lemma be_bc1_rec_u_generic_untransform_recorr_var2_ok : forall c, SPEC c V2 sh_be_bc1_rec_u (true) any_n
  (fun P n m => be_bc1_rec_u_generic_untransform_recorr_var2 c (P (PI 0)) (P (PI 1)) (P (PO 0)) n m).
Proof. intros c. kstart be_bc1_rec_u_generic_untransform_recorr_var2. kauto ltac:(first [kcallv be_bc1_rec_u_generic_untransform_recorr_ok]). Qed.

Lemma be_bc1_rec_u_generic_untransform_recorr_var3_ok : forall c, SPEC c V3 sh_be_bc1_rec_u (true) any_n
  (fun P n m => be_bc1_rec_u_generic_untransform_recorr_var3 c (P (PI 0)) (P (PI 1)) (P (PO 0)) n m).
Proof. intros c. kstart be_bc1_rec_u_generic_untransform_recorr_var3. kauto ltac:(first [kcallv be_bc1_rec_u_generic_untransform_recorr_ok]). Qed.

Lemma be_bc1_rec_u_generic_untransform_with_recorrelate_generic_ok : forall c v, SPEC c v sh_be_bc1_rec_u (vok v) any_n
  (fun P n m => be_bc1_rec_u_generic_untransform_with_recorrelate_generic c (P (PI 0)) (P (PI 1)) (P (PO 0)) n v m).
Proof. intros c v. kstart be_bc1_rec_u_generic_untransform_with_recorrelate_generic. kauto ltac:(first [kcall be_bc1_rec_u_generic_untransform_recorr_var1_ok | kcall be_bc1_rec_u_generic_untransform_recorr_var2_ok | kcall be_bc1_rec_u_generic_untransform_recorr_var3_ok]). Qed.

Lemma be_bc1_rec_u_untransform_with_recorrelate_ok : forall c v, TSPEC c v sh_be_bc1_rec_u (vok v) any_n
  (fun P n m => be_bc1_rec_u_untransform_with_recorrelate c (P (PI 0)) (P (PO 0)) (8 * n) v m).
Proof. intros c v. kstart be_bc1_rec_u_untransform_with_recorrelate. kauto ltac:(first [kcallv be_bc1_rec_u_generic_untransform_with_recorrelate_generic_ok]). Qed.
