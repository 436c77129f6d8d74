From Verif Require Import Base.Bytes Base.Res Model.Color565 Model.Ycc Model.Kernel Model.ColorBatch Model.GenBeBc3Std
  Proofs.KernelCheck Proofs.KernelLoop Proofs.KernelFun Proofs.Shapes Proofs.BeShapes.
From Coq Require Import ZifyBool ZifyNat.

Lemma be_bc3_std_t_portable32_u32_with_separate_endpoints_ok : forall c, SPEC c VNone sh_bc3_std_t (true) any_n
  (fun P n m => be_bc3_std_t_portable32_u32_with_separate_endpoints c (P (PI 0)) (P (PO 0)) (P (PO 1)) (P (PO 2)) (P (PO 3)) (padd (P (PO 0)) (n * 2)) m).
Proof. intros c. kstart be_bc3_std_t_portable32_u32_with_separate_endpoints. kauto ltac:(fail). Qed.

Lemma be_bc3_std_t_portable32_u32_ok : forall c, TSPEC c VNone sh_bc3_std_t (true) any_n
  (fun P n m => be_bc3_std_t_portable32_u32 c (P (PI 0)) (P (PO 0)) (16 * n) m).
Proof. intros c. kstart be_bc3_std_t_portable32_u32. kauto ltac:(first [kcall be_bc3_std_t_portable32_u32_with_separate_endpoints_ok]). Qed.

Lemma be_bc3_std_t_transform_ok : forall c, TSPEC c VNone sh_bc3_std_t (true) any_n
  (fun P n m => be_bc3_std_t_transform c (P (PI 0)) (P (PO 0)) (16 * n) m).
Proof. intros c. kstart be_bc3_std_t_transform. kauto ltac:(first [kcall be_bc3_std_t_portable32_u32_ok]). Qed.

Lemma be_bc3_std_u_portable32_u32_untransform_with_separate_pointers_ok : forall c, SPEC c VNone sh_bc3_std_u (true) any_n
  (fun P n m => be_bc3_std_u_portable32_u32_untransform_with_separate_pointers c (P (PI 0)) (P (PI 1)) (P (PI 2)) (P (PI 3)) (P (PO 0)) (16 * n) m).
Proof. intros c. kstart be_bc3_std_u_portable32_u32_untransform_with_separate_pointers. kauto ltac:(fail). Qed.

Lemma be_bc3_std_u_portable32_u32_untransform_v2_ok : forall c, TSPEC c VNone sh_bc3_std_u (true) any_n
  (fun P n m => be_bc3_std_u_portable32_u32_untransform_v2 c (P (PI 0)) (P (PO 0)) (16 * n) m).
Proof. intros c. kstart be_bc3_std_u_portable32_u32_untransform_v2. kauto ltac:(first [kcall be_bc3_std_u_portable32_u32_untransform_with_separate_pointers_ok]). Qed.

Lemma be_bc3_std_u_untransform_ok : forall c, TSPEC c VNone sh_bc3_std_u (true) any_n
  (fun P n m => be_bc3_std_u_untransform c (P (PI 0)) (P (PO 0)) (16 * n) m).
Proof. intros c. kstart be_bc3_std_u_untransform. kauto ltac:(first [kcall be_bc3_std_u_portable32_u32_untransform_v2_ok]). Qed.
