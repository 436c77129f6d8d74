From Verif Require Import Base.Bytes Base.Res Model.Color565 Model.Ycc Model.Kernel Model.ColorBatch Model.GenBc1Sc
  Proofs.KernelCheck Proofs.KernelLoop Proofs.KernelFun Proofs.Shapes.
From Coq Require Import ZifyBool ZifyNat.

Lemma bc1_sc_t_generic_transform_with_split_colour_ok : forall c, SPEC c VNone sh_bc1_sc_t (true) any_n
  (fun P n m => bc1_sc_t_generic_transform_with_split_colour c (P (PI 0)) (P (PO 0)) (P (PO 1)) (P (PO 2)) n m).
Proof. intros c. kstart bc1_sc_t_generic_transform_with_split_colour. kauto ltac:(fail). Qed.

Lemma bc1_sc_t_avx512bw_transform_with_split_colour_ok : forall c, SPEC c VNone sh_bc1_sc_t (c_avx512bw c && c_avx512f c && c_sse2 c) (nz_debug c)
  (fun P n m => bc1_sc_t_avx512bw_transform_with_split_colour c (P (PI 0)) (P (PO 0)) (P (PO 1)) (P (PO 2)) n m).
Proof. intros c. kstart bc1_sc_t_avx512bw_transform_with_split_colour. kauto ltac:(first [kcall bc1_sc_t_generic_transform_with_split_colour_ok]). Qed.

Lemma bc1_sc_t_avx2_transform_with_split_colour_ok : forall c, SPEC c VNone sh_bc1_sc_t (c_avx2 c) any_n
  (fun P n m => bc1_sc_t_avx2_transform_with_split_colour c (P (PI 0)) (P (PO 0)) (P (PO 1)) (P (PO 2)) n m).
Proof. intros c. kstart bc1_sc_t_avx2_transform_with_split_colour. kauto ltac:(first [kcall bc1_sc_t_generic_transform_with_split_colour_ok]). Qed.

Lemma bc1_sc_t_sse2_transform_with_split_colour_ok : forall c, SPEC c VNone sh_bc1_sc_t (c_sse2 c) any_n
  (fun P n m => bc1_sc_t_sse2_transform_with_split_colour c (P (PI 0)) (P (PO 0)) (P (PO 1)) (P (PO 2)) n m).
Proof. intros c. kstart bc1_sc_t_sse2_transform_with_split_colour. kauto ltac:(first [kcall bc1_sc_t_generic_transform_with_split_colour_ok]). Qed.

Lemma bc1_sc_t_transform_with_split_colour_x86_ok : forall c, SPEC c VNone sh_bc1_sc_t (is_x86 c) (nz_debug c)
  (fun P n m => bc1_sc_t_transform_with_split_colour_x86 c (P (PI 0)) (P (PO 0)) (P (PO 1)) (P (PO 2)) n m).
Proof. intros c. kstart bc1_sc_t_transform_with_split_colour_x86. kauto ltac:(first [kcall bc1_sc_t_generic_transform_with_split_colour_ok | kcall bc1_sc_t_avx512bw_transform_with_split_colour_ok | kcall bc1_sc_t_avx2_transform_with_split_colour_ok | kcall bc1_sc_t_sse2_transform_with_split_colour_ok]). Qed.

Lemma bc1_sc_t_transform_with_split_colour_ok : forall c, SPEC c VNone sh_bc1_sc_t (true) (nz_debug c)
  (fun P n m => bc1_sc_t_transform_with_split_colour c (P (PI 0)) (P (PO 0)) (P (PO 1)) (P (PO 2)) n m).
Proof. intros c. kstart bc1_sc_t_transform_with_split_colour. kauto ltac:(first [kcall bc1_sc_t_generic_transform_with_split_colour_ok | kcall bc1_sc_t_transform_with_split_colour_x86_ok]). Qed.

Lemma bc1_sc_u_generic_untransform_with_split_colour_ok : forall c, SPEC c VNone sh_bc1_sc_u (true) any_n
  (fun P n m => bc1_sc_u_generic_untransform_with_split_colour c (P (PI 0)) (P (PI 1)) (P (PI 2)) (P (PO 0)) n m).
Proof. intros c. kstart bc1_sc_u_generic_untransform_with_split_colour. kauto ltac:(fail). Qed.

Lemma bc1_sc_u_avx512bw_untransform_with_split_colour_ok : forall c, SPEC c VNone sh_bc1_sc_u (c_avx512bw c && c_avx512f c) (nz_debug c)
  (fun P n m => bc1_sc_u_avx512bw_untransform_with_split_colour c (P (PI 0)) (P (PI 1)) (P (PI 2)) (P (PO 0)) n m).
Proof. intros c. kstart bc1_sc_u_avx512bw_untransform_with_split_colour. kauto ltac:(first [kcall bc1_sc_u_generic_untransform_with_split_colour_ok]). Qed.

Lemma bc1_sc_u_avx2_untransform_with_split_colour_ok : forall c, SPEC c VNone sh_bc1_sc_u (c_avx2 c) (nz_debug c)
  (fun P n m => bc1_sc_u_avx2_untransform_with_split_colour c (P (PI 0)) (P (PI 1)) (P (PI 2)) (P (PO 0)) n m).
Proof. intros c. kstart bc1_sc_u_avx2_untransform_with_split_colour. kauto ltac:(first [kcall bc1_sc_u_generic_untransform_with_split_colour_ok]). Qed.

Lemma bc1_sc_u_sse2_untransform_with_split_colour_ok : forall c, SPEC c VNone sh_bc1_sc_u (c_sse2 c) (nz_debug c)
  (fun P n m => bc1_sc_u_sse2_untransform_with_split_colour c (P (PI 0)) (P (PI 1)) (P (PI 2)) (P (PO 0)) n m).
Proof. intros c. kstart bc1_sc_u_sse2_untransform_with_split_colour. kauto ltac:(first [kcall bc1_sc_u_generic_untransform_with_split_colour_ok]). Qed.

Lemma bc1_sc_u_untransform_with_split_colour_x86_ok : forall c, SPEC c VNone sh_bc1_sc_u (is_x86 c) (nz_debug c)
  (fun P n m => bc1_sc_u_untransform_with_split_colour_x86 c (P (PI 0)) (P (PI 1)) (P (PI 2)) (P (PO 0)) n m).
Proof. intros c. kstart bc1_sc_u_untransform_with_split_colour_x86. kauto ltac:(first [kcall bc1_sc_u_generic_untransform_with_split_colour_ok | kcall bc1_sc_u_avx512bw_untransform_with_split_colour_ok | kcall bc1_sc_u_avx2_untransform_with_split_colour_ok | kcall bc1_sc_u_sse2_untransform_with_split_colour_ok]). Qed.

Lemma bc1_sc_u_untransform_with_split_colour_ok : forall c, SPEC c VNone sh_bc1_sc_u (true) (nz_debug c)
  (fun P n m => bc1_sc_u_untransform_with_split_colour c (P (PI 0)) (P (PI 1)) (P (PI 2)) (P (PO 0)) n m).
Proof. intros c. kstart bc1_sc_u_untransform_with_split_colour. kauto ltac:(first [kcall bc1_sc_u_generic_untransform_with_split_colour_ok | kcall bc1_sc_u_untransform_with_split_colour_x86_ok]). Qed.
