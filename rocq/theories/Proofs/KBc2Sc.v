From Verif Require Import Base.Bytes Base.Res Model.Color565 Model.Ycc Model.Kernel Model.ColorBatch Model.GenBc2Sc
  Proofs.KernelCheck Proofs.KernelLoop Proofs.KernelFun Proofs.Shapes.
From Coq Require Import ZifyBool ZifyNat.

Lemma bc2_sc_t_generic_transform_with_split_colour_ok : forall c, SPEC c VNone sh_bc2_sc_t (true) any_n
  (fun P n m => bc2_sc_t_generic_transform_with_split_colour c (P (PI 0)) (P (PO 0)) (P (PO 1)) (P (PO 2)) (P (PO 3)) n m).
Proof. intros c. kstart bc2_sc_t_generic_transform_with_split_colour. kauto ltac:(fail). Qed.

Lemma bc2_sc_t_avx512bw_transform_with_split_colour_ok : forall c, SPEC c VNone sh_bc2_sc_t (c_avx512bw c && c_avx512f c && c_avx512vl c && c_sse2 c) any_n
  (fun P n m => bc2_sc_t_avx512bw_transform_with_split_colour c (P (PI 0)) (P (PO 0)) (P (PO 1)) (P (PO 2)) (P (PO 3)) n m).
Proof. intros c. kstart bc2_sc_t_avx512bw_transform_with_split_colour. kauto ltac:(first [kcall bc2_sc_t_generic_transform_with_split_colour_ok]). Qed.

Lemma bc2_sc_t_avx2_transform_with_split_colour_ok : forall c, SPEC c VNone sh_bc2_sc_t (c_avx2 c) any_n
  (fun P n m => bc2_sc_t_avx2_transform_with_split_colour c (P (PI 0)) (P (PO 0)) (P (PO 1)) (P (PO 2)) (P (PO 3)) n m).
Proof. intros c. kstart bc2_sc_t_avx2_transform_with_split_colour. kauto ltac:(first [kcall bc2_sc_t_generic_transform_with_split_colour_ok]). Qed.

Lemma bc2_sc_t_sse2_transform_with_split_colour_ok : forall c, SPEC c VNone sh_bc2_sc_t (c_sse2 c) any_n
  (fun P n m => bc2_sc_t_sse2_transform_with_split_colour c (P (PI 0)) (P (PO 0)) (P (PO 1)) (P (PO 2)) (P (PO 3)) n m).
Proof. intros c. kstart bc2_sc_t_sse2_transform_with_split_colour. kauto ltac:(first [kcall bc2_sc_t_generic_transform_with_split_colour_ok]). Qed.

Lemma bc2_sc_t_transform_with_split_colour_x86_ok : forall c, SPEC c VNone sh_bc2_sc_t (is_x86 c && vl_ok c) any_n
  (fun P n m => bc2_sc_t_transform_with_split_colour_x86 c (P (PI 0)) (P (PO 0)) (P (PO 1)) (P (PO 2)) (P (PO 3)) n m).
Proof. intros c. kstart bc2_sc_t_transform_with_split_colour_x86. kauto ltac:(first [kcall bc2_sc_t_generic_transform_with_split_colour_ok | kcall bc2_sc_t_avx512bw_transform_with_split_colour_ok | kcall bc2_sc_t_avx2_transform_with_split_colour_ok | kcall bc2_sc_t_sse2_transform_with_split_colour_ok]). Qed.

Lemma bc2_sc_t_transform_with_split_colour_ok : forall c, SPEC c VNone sh_bc2_sc_t (vl_ok c) any_n
  (fun P n m => bc2_sc_t_transform_with_split_colour c (P (PI 0)) (P (PO 0)) (P (PO 1)) (P (PO 2)) (P (PO 3)) n m).
Proof. intros c. kstart bc2_sc_t_transform_with_split_colour. kauto ltac:(first [kcall bc2_sc_t_generic_transform_with_split_colour_ok | kcall bc2_sc_t_transform_with_split_colour_x86_ok]). Qed.

Lemma bc2_sc_u_generic_untransform_with_split_colour_ok : forall c, SPEC c VNone sh_bc2_sc_u (true) any_n
  (fun P n m => bc2_sc_u_generic_untransform_with_split_colour c (P (PI 0)) (P (PI 1)) (P (PI 2)) (P (PI 3)) (P (PO 0)) n m).
Proof. intros c. kstart bc2_sc_u_generic_untransform_with_split_colour. kauto ltac:(fail). Qed.

Lemma bc2_sc_u_avx512bw_untransform_with_split_colour_ok : forall c, SPEC c VNone sh_bc2_sc_u (c_avx512bw c && c_avx512f c) any_n
  (fun P n m => bc2_sc_u_avx512bw_untransform_with_split_colour c (P (PI 0)) (P (PI 1)) (P (PI 2)) (P (PI 3)) (P (PO 0)) n m).
Proof. intros c. kstart bc2_sc_u_avx512bw_untransform_with_split_colour. kauto ltac:(first [kcall bc2_sc_u_generic_untransform_with_split_colour_ok]). Qed.

Lemma bc2_sc_u_avx2_untransform_with_split_colour_ok : forall c, SPEC c VNone sh_bc2_sc_u (c_avx2 c) any_n
  (fun P n m => bc2_sc_u_avx2_untransform_with_split_colour c (P (PI 0)) (P (PI 1)) (P (PI 2)) (P (PI 3)) (P (PO 0)) n m).
Proof. intros c. kstart bc2_sc_u_avx2_untransform_with_split_colour. kauto ltac:(first [kcall bc2_sc_u_generic_untransform_with_split_colour_ok]). Qed.

Lemma bc2_sc_u_sse2_untransform_with_split_colour_ok : forall c, SPEC c VNone sh_bc2_sc_u (c_sse2 c) any_n
  (fun P n m => bc2_sc_u_sse2_untransform_with_split_colour c (P (PI 0)) (P (PI 1)) (P (PI 2)) (P (PI 3)) (P (PO 0)) n m).
Proof. intros c. kstart bc2_sc_u_sse2_untransform_with_split_colour. kauto ltac:(first [kcall bc2_sc_u_generic_untransform_with_split_colour_ok]). Qed.

Lemma bc2_sc_u_untransform_with_split_colour_x86_ok : forall c, SPEC c VNone sh_bc2_sc_u (is_x86 c) any_n
  (fun P n m => bc2_sc_u_untransform_with_split_colour_x86 c (P (PI 0)) (P (PI 1)) (P (PI 2)) (P (PI 3)) (P (PO 0)) n m).
Proof. intros c. kstart bc2_sc_u_untransform_with_split_colour_x86. kauto ltac:(first [kcall bc2_sc_u_generic_untransform_with_split_colour_ok | kcall bc2_sc_u_avx512bw_untransform_with_split_colour_ok | kcall bc2_sc_u_avx2_untransform_with_split_colour_ok | kcall bc2_sc_u_sse2_untransform_with_split_colour_ok]). Qed.

Lemma bc2_sc_u_untransform_with_split_colour_ok : forall c, SPEC c VNone sh_bc2_sc_u (true) any_n
  (fun P n m => bc2_sc_u_untransform_with_split_colour c (P (PI 0)) (P (PI 1)) (P (PI 2)) (P (PI 3)) (P (PO 0)) n m).
Proof. intros c. kstart bc2_sc_u_untransform_with_split_colour. kauto ltac:(first [kcall bc2_sc_u_generic_untransform_with_split_colour_ok | kcall bc2_sc_u_untransform_with_split_colour_x86_ok]). Qed.
