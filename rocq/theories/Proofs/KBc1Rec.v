From Verif Require Import Base.Bytes Base.Res Model.Color565 Model.Ycc Model.Kernel Model.ColorBatch Model.GenBc1Rec
  Proofs.KernelCheck Proofs.KernelLoop Proofs.KernelFun Proofs.Shapes.
From Coq Require Import ZifyBool ZifyNat.

Lemma bc1_rec_t_generic_transform_decorr_ok : forall c v, SPEC c v sh_bc1_rec_t (vok v) any_n
  (fun P n m => bc1_rec_t_generic_transform_decorr c (vnum v) (P (PI 0)) (P (PO 0)) (P (PO 1)) n m).
Proof. intros c v. kstart bc1_rec_t_generic_transform_decorr. kauto ltac:(fail). Qed.

Lemma bc1_rec_t_generic_transform_decorr_var1_ok : forall c, SPEC c V1 sh_bc1_rec_t (true) any_n
  (fun P n m => bc1_rec_t_generic_transform_decorr_var1 c (P (PI 0)) (P (PO 0)) (P (PO 1)) n m).
Proof. intros c. kstart bc1_rec_t_generic_transform_decorr_var1. kauto ltac:(first [kcallv bc1_rec_t_generic_transform_decorr_ok]). Qed.

Lemma bc1_rec_t_generic_transform_decorr_var2_ok : forall c, SPEC c V2 sh_bc1_rec_t (true) any_n
  (fun P n m => bc1_rec_t_generic_transform_decorr_var2 c (P (PI 0)) (P (PO 0)) (P (PO 1)) n m).
Proof. intros c. kstart bc1_rec_t_generic_transform_decorr_var2. kauto ltac:(first [kcallv bc1_rec_t_generic_transform_decorr_ok]). Qed.

Lemma bc1_rec_t_generic_transform_decorr_var3_ok : forall c, SPEC c V3 sh_bc1_rec_t (true) any_n
  (fun P n m => bc1_rec_t_generic_transform_decorr_var3 c (P (PI 0)) (P (PO 0)) (P (PO 1)) n m).
Proof. intros c. kstart bc1_rec_t_generic_transform_decorr_var3. kauto ltac:(first [kcallv bc1_rec_t_generic_transform_decorr_ok]). Qed.

Lemma bc1_rec_t_generic_transform_with_decorrelate_generic_ok : forall c v, SPEC c v sh_bc1_rec_t (vok v) any_n
  (fun P n m => bc1_rec_t_generic_transform_with_decorrelate_generic c (P (PI 0)) (P (PO 0)) (P (PO 1)) n v m).
Proof. intros c v. kstart bc1_rec_t_generic_transform_with_decorrelate_generic. kauto ltac:(first [kcall bc1_rec_t_generic_transform_decorr_var1_ok | kcall bc1_rec_t_generic_transform_decorr_var2_ok | kcall bc1_rec_t_generic_transform_decorr_var3_ok]). Qed.

Lemma bc1_rec_t_avx512bw_transform_decorr_ok : forall c v, SPEC c v sh_bc1_rec_t (vok v && c_avx512bw c && c_avx512f c && c_sse2 c) any_n
  (fun P n m => bc1_rec_t_avx512bw_transform_decorr c (vnum v) (P (PI 0)) (P (PO 0)) (P (PO 1)) n m).
Proof. intros c v. kstart bc1_rec_t_avx512bw_transform_decorr. kauto ltac:(first [kcallv bc1_rec_t_generic_transform_with_decorrelate_generic_ok]). Qed.

Lemma bc1_rec_t_avx512bw_transform_decorr_var1_ok : forall c, SPEC c V1 sh_bc1_rec_t (c_avx512bw c && c_avx512f c && c_sse2 c) any_n
  (fun P n m => bc1_rec_t_avx512bw_transform_decorr_var1 c (P (PI 0)) (P (PO 0)) (P (PO 1)) n m).
Proof. intros c. kstart bc1_rec_t_avx512bw_transform_decorr_var1. kauto ltac:(first [kcallv bc1_rec_t_avx512bw_transform_decorr_ok]). Qed.

Lemma bc1_rec_t_avx512bw_transform_decorr_var2_ok : forall c, SPEC c V2 sh_bc1_rec_t (c_avx512bw c && c_avx512f c && c_sse2 c) any_n
  (fun P n m => bc1_rec_t_avx512bw_transform_decorr_var2 c (P (PI 0)) (P (PO 0)) (P (PO 1)) n m).
Proof. intros c. kstart bc1_rec_t_avx512bw_transform_decorr_var2. kauto ltac:(first [kcallv bc1_rec_t_avx512bw_transform_decorr_ok]). Qed.

Lemma bc1_rec_t_avx512bw_transform_decorr_var3_ok : forall c, SPEC c V3 sh_bc1_rec_t (c_avx512bw c && c_avx512f c && c_sse2 c) any_n
  (fun P n m => bc1_rec_t_avx512bw_transform_decorr_var3 c (P (PI 0)) (P (PO 0)) (P (PO 1)) n m).
Proof. intros c. kstart bc1_rec_t_avx512bw_transform_decorr_var3. kauto ltac:(first [kcallv bc1_rec_t_avx512bw_transform_decorr_ok]). Qed.

Lemma bc1_rec_t_avx512bw_transform_with_decorrelate_ok : forall c v, SPEC c v sh_bc1_rec_t (vok v && c_avx512bw c && c_avx512f c && c_sse2 c) any_n
  (fun P n m => bc1_rec_t_avx512bw_transform_with_decorrelate c (P (PI 0)) (P (PO 0)) (P (PO 1)) n v m).
Proof. intros c v. kstart bc1_rec_t_avx512bw_transform_with_decorrelate. kauto ltac:(first [kcall bc1_rec_t_avx512bw_transform_decorr_var1_ok | kcall bc1_rec_t_avx512bw_transform_decorr_var2_ok | kcall bc1_rec_t_avx512bw_transform_decorr_var3_ok]). Qed.

Lemma bc1_rec_t_avx2_transform_decorr_ok : forall c v, SPEC c v sh_bc1_rec_t (vok v && c_avx2 c) any_n
  (fun P n m => bc1_rec_t_avx2_transform_decorr c (vnum v) (P (PI 0)) (P (PO 0)) (P (PO 1)) n m).
Proof. intros c v. kstart bc1_rec_t_avx2_transform_decorr. kauto ltac:(first [kcallv bc1_rec_t_generic_transform_with_decorrelate_generic_ok]). Qed.

Lemma bc1_rec_t_avx2_transform_decorr_var1_ok : forall c, SPEC c V1 sh_bc1_rec_t (c_avx2 c) any_n
  (fun P n m => bc1_rec_t_avx2_transform_decorr_var1 c (P (PI 0)) (P (PO 0)) (P (PO 1)) n m).
Proof. intros c. kstart bc1_rec_t_avx2_transform_decorr_var1. kauto ltac:(first [kcallv bc1_rec_t_avx2_transform_decorr_ok]). Qed.

Lemma bc1_rec_t_avx2_transform_decorr_var2_ok : forall c, SPEC c V2 sh_bc1_rec_t (c_avx2 c) any_n
  (fun P n m => bc1_rec_t_avx2_transform_decorr_var2 c (P (PI 0)) (P (PO 0)) (P (PO 1)) n m).
Proof. intros c. kstart bc1_rec_t_avx2_transform_decorr_var2. kauto ltac:(first [kcallv bc1_rec_t_avx2_transform_decorr_ok]). Qed.

Lemma bc1_rec_t_avx2_transform_decorr_var3_ok : forall c, SPEC c V3 sh_bc1_rec_t (c_avx2 c) any_n
  (fun P n m => bc1_rec_t_avx2_transform_decorr_var3 c (P (PI 0)) (P (PO 0)) (P (PO 1)) n m).
Proof. intros c. kstart bc1_rec_t_avx2_transform_decorr_var3. kauto ltac:(first [kcallv bc1_rec_t_avx2_transform_decorr_ok]). Qed.

Lemma bc1_rec_t_avx2_transform_with_decorrelate_ok : forall c v, SPEC c v sh_bc1_rec_t (vok v && c_avx2 c) any_n
  (fun P n m => bc1_rec_t_avx2_transform_with_decorrelate c (P (PI 0)) (P (PO 0)) (P (PO 1)) n v m).
Proof. intros c v. kstart bc1_rec_t_avx2_transform_with_decorrelate. kauto ltac:(first [kcall bc1_rec_t_avx2_transform_decorr_var1_ok | kcall bc1_rec_t_avx2_transform_decorr_var2_ok | kcall bc1_rec_t_avx2_transform_decorr_var3_ok]). Qed.

Lemma bc1_rec_t_sse2_transform_decorr_ok : forall c v, SPEC c v sh_bc1_rec_t (vok v && c_sse2 c) any_n
  (fun P n m => bc1_rec_t_sse2_transform_decorr c (vnum v) (P (PI 0)) (P (PO 0)) (P (PO 1)) n m).
Proof. intros c v. kstart bc1_rec_t_sse2_transform_decorr. kauto ltac:(first [kcallv bc1_rec_t_generic_transform_with_decorrelate_generic_ok]). Qed.

Lemma bc1_rec_t_sse2_transform_decorr_var1_ok : forall c, SPEC c V1 sh_bc1_rec_t (c_sse2 c) any_n
  (fun P n m => bc1_rec_t_sse2_transform_decorr_var1 c (P (PI 0)) (P (PO 0)) (P (PO 1)) n m).
Proof. intros c. kstart bc1_rec_t_sse2_transform_decorr_var1. kauto ltac:(first [kcallv bc1_rec_t_sse2_transform_decorr_ok]). Qed.

Lemma bc1_rec_t_sse2_transform_decorr_var2_ok : forall c, SPEC c V2 sh_bc1_rec_t (c_sse2 c) any_n
  (fun P n m => bc1_rec_t_sse2_transform_decorr_var2 c (P (PI 0)) (P (PO 0)) (P (PO 1)) n m).
Proof. intros c. kstart bc1_rec_t_sse2_transform_decorr_var2. kauto ltac:(first [kcallv bc1_rec_t_sse2_transform_decorr_ok]). Qed.

Lemma bc1_rec_t_sse2_transform_decorr_var3_ok : forall c, SPEC c V3 sh_bc1_rec_t (c_sse2 c) any_n
  (fun P n m => bc1_rec_t_sse2_transform_decorr_var3 c (P (PI 0)) (P (PO 0)) (P (PO 1)) n m).
Proof. intros c. kstart bc1_rec_t_sse2_transform_decorr_var3. kauto ltac:(first [kcallv bc1_rec_t_sse2_transform_decorr_ok]). Qed.

Lemma bc1_rec_t_sse2_transform_with_decorrelate_ok : forall c v, SPEC c v sh_bc1_rec_t (vok v && c_sse2 c) any_n
  (fun P n m => bc1_rec_t_sse2_transform_with_decorrelate c (P (PI 0)) (P (PO 0)) (P (PO 1)) n v m).
Proof. intros c v. kstart bc1_rec_t_sse2_transform_with_decorrelate. kauto ltac:(first [kcall bc1_rec_t_sse2_transform_decorr_var1_ok | kcall bc1_rec_t_sse2_transform_decorr_var2_ok | kcall bc1_rec_t_sse2_transform_decorr_var3_ok]). Qed.

Lemma bc1_rec_t_transform_with_decorrelate_x86_ok : forall c v, SPEC c v sh_bc1_rec_t (vok v && is_x86 c) any_n
  (fun P n m => bc1_rec_t_transform_with_decorrelate_x86 c (P (PI 0)) (P (PO 0)) (P (PO 1)) n v m).
Proof. intros c v. kstart bc1_rec_t_transform_with_decorrelate_x86. kauto ltac:(first [kcallv bc1_rec_t_generic_transform_with_decorrelate_generic_ok | kcallv bc1_rec_t_avx512bw_transform_with_decorrelate_ok | kcallv bc1_rec_t_avx2_transform_with_decorrelate_ok | kcallv bc1_rec_t_sse2_transform_with_decorrelate_ok]). Qed.

Lemma bc1_rec_t_transform_with_decorrelate_ok : forall c v, TSPEC c v sh_bc1_rec_t (vok v) any_n
  (fun P n m => bc1_rec_t_transform_with_decorrelate c (P (PI 0)) (P (PO 0)) (8 * n) v m).
Proof. intros c v. kstart bc1_rec_t_transform_with_decorrelate. kauto ltac:(first [kcallv bc1_rec_t_generic_transform_with_decorrelate_generic_ok | kcallv bc1_rec_t_transform_with_decorrelate_x86_ok]). Qed.

Lemma bc1_rec_u_generic_untransform_recorr_ok : forall c v, SPEC c v sh_bc1_rec_u (vok v) any_n
  (fun P n m => bc1_rec_u_generic_untransform_recorr c (vnum v) (P (PI 0)) (P (PI 1)) (P (PO 0)) n m).
Proof. intros c v. kstart bc1_rec_u_generic_untransform_recorr. kauto ltac:(fail). Qed.

Lemma bc1_rec_u_generic_untransform_recorr_var1_ok : forall c, SPEC c V1 sh_bc1_rec_u (true) any_n
  (fun P n m => bc1_rec_u_generic_untransform_recorr_var1 c (P (PI 0)) (P (PI 1)) (P (PO 0)) n m).
Proof. intros c. kstart bc1_rec_u_generic_untransform_recorr_var1. kauto ltac:(first [kcallv bc1_rec_u_generic_untransform_recorr_ok]). Qed.

Lemma bc1_rec_u_generic_untransform_recorr_var2_ok : forall c, SPEC c V2 sh_bc1_rec_u (true) any_n
  (fun P n m => bc1_rec_u_generic_untransform_recorr_var2 c (P (PI 0)) (P (PI 1)) (P (PO 0)) n m).
Proof. intros c. kstart bc1_rec_u_generic_untransform_recorr_var2. kauto ltac:(first [kcallv bc1_rec_u_generic_untransform_recorr_ok]). Qed.

Lemma bc1_rec_u_generic_untransform_recorr_var3_ok : forall c, SPEC c V3 sh_bc1_rec_u (true) any_n
  (fun P n m => bc1_rec_u_generic_untransform_recorr_var3 c (P (PI 0)) (P (PI 1)) (P (PO 0)) n m).
Proof. intros c. kstart bc1_rec_u_generic_untransform_recorr_var3. kauto ltac:(first [kcallv bc1_rec_u_generic_untransform_recorr_ok]). Qed.

Lemma bc1_rec_u_generic_untransform_with_recorrelate_generic_ok : forall c v, SPEC c v sh_bc1_rec_u (vok v) any_n
  (fun P n m => bc1_rec_u_generic_untransform_with_recorrelate_generic c (P (PI 0)) (P (PI 1)) (P (PO 0)) n v m).
Proof. intros c v. kstart bc1_rec_u_generic_untransform_with_recorrelate_generic. kauto ltac:(first [kcall bc1_rec_u_generic_untransform_recorr_var1_ok | kcall bc1_rec_u_generic_untransform_recorr_var2_ok | kcall bc1_rec_u_generic_untransform_recorr_var3_ok]). Qed.

Lemma bc1_rec_u_avx512bw_untransform_recorr_ok : forall c v, SPEC c v sh_bc1_rec_u (vok v && c_avx512bw c && c_avx512f c && c_sse2 c) any_n
  (fun P n m => bc1_rec_u_avx512bw_untransform_recorr c (vnum v) (P (PI 0)) (P (PI 1)) (P (PO 0)) n m).
Proof. intros c v. kstart bc1_rec_u_avx512bw_untransform_recorr. kauto ltac:(first [kcallv bc1_rec_u_generic_untransform_with_recorrelate_generic_ok]). Qed.

Lemma bc1_rec_u_avx512bw_untransform_recorr_var1_ok : forall c, SPEC c V1 sh_bc1_rec_u (c_avx512bw c && c_avx512f c && c_sse2 c) any_n
  (fun P n m => bc1_rec_u_avx512bw_untransform_recorr_var1 c (P (PI 0)) (P (PI 1)) (P (PO 0)) n m).
Proof. intros c. kstart bc1_rec_u_avx512bw_untransform_recorr_var1. kauto ltac:(first [kcallv bc1_rec_u_avx512bw_untransform_recorr_ok]). Qed.

Lemma bc1_rec_u_avx512bw_untransform_recorr_var2_ok : forall c, SPEC c V2 sh_bc1_rec_u (c_avx512bw c && c_avx512f c && c_sse2 c) any_n
  (fun P n m => bc1_rec_u_avx512bw_untransform_recorr_var2 c (P (PI 0)) (P (PI 1)) (P (PO 0)) n m).
Proof. intros c. kstart bc1_rec_u_avx512bw_untransform_recorr_var2. kauto ltac:(first [kcallv bc1_rec_u_avx512bw_untransform_recorr_ok]). Qed.

Lemma bc1_rec_u_avx512bw_untransform_recorr_var3_ok : forall c, SPEC c V3 sh_bc1_rec_u (c_avx512bw c && c_avx512f c && c_sse2 c) any_n
  (fun P n m => bc1_rec_u_avx512bw_untransform_recorr_var3 c (P (PI 0)) (P (PI 1)) (P (PO 0)) n m).
Proof. intros c. kstart bc1_rec_u_avx512bw_untransform_recorr_var3. kauto ltac:(first [kcallv bc1_rec_u_avx512bw_untransform_recorr_ok]). Qed.

Lemma bc1_rec_u_avx512bw_untransform_with_recorrelate_ok : forall c v, SPEC c v sh_bc1_rec_u (vok v && c_avx512bw c && c_avx512f c && c_sse2 c) any_n
  (fun P n m => bc1_rec_u_avx512bw_untransform_with_recorrelate c (P (PI 0)) (P (PI 1)) (P (PO 0)) n v m).
Proof. intros c v. kstart bc1_rec_u_avx512bw_untransform_with_recorrelate. kauto ltac:(first [kcall bc1_rec_u_avx512bw_untransform_recorr_var1_ok | kcall bc1_rec_u_avx512bw_untransform_recorr_var2_ok | kcall bc1_rec_u_avx512bw_untransform_recorr_var3_ok]). Qed.

Lemma bc1_rec_u_avx2_untransform_recorr_ok : forall c v, SPEC c v sh_bc1_rec_u (vok v && c_avx2 c) any_n
  (fun P n m => bc1_rec_u_avx2_untransform_recorr c (vnum v) (P (PI 0)) (P (PI 1)) (P (PO 0)) n m).
Proof. intros c v. kstart bc1_rec_u_avx2_untransform_recorr. kauto ltac:(first [kcallv bc1_rec_u_generic_untransform_with_recorrelate_generic_ok]). Qed.

Lemma bc1_rec_u_avx2_untransform_recorr_var1_ok : forall c, SPEC c V1 sh_bc1_rec_u (c_avx2 c) any_n
  (fun P n m => bc1_rec_u_avx2_untransform_recorr_var1 c (P (PI 0)) (P (PI 1)) (P (PO 0)) n m).
Proof. intros c. kstart bc1_rec_u_avx2_untransform_recorr_var1. kauto ltac:(first [kcallv bc1_rec_u_avx2_untransform_recorr_ok]). Qed.

Lemma bc1_rec_u_avx2_untransform_recorr_var2_ok : forall c, SPEC c V2 sh_bc1_rec_u (c_avx2 c) any_n
  (fun P n m => bc1_rec_u_avx2_untransform_recorr_var2 c (P (PI 0)) (P (PI 1)) (P (PO 0)) n m).
Proof. intros c. kstart bc1_rec_u_avx2_untransform_recorr_var2. kauto ltac:(first [kcallv bc1_rec_u_avx2_untransform_recorr_ok]). Qed.

Lemma bc1_rec_u_avx2_untransform_recorr_var3_ok : forall c, SPEC c V3 sh_bc1_rec_u (c_avx2 c) any_n
  (fun P n m => bc1_rec_u_avx2_untransform_recorr_var3 c (P (PI 0)) (P (PI 1)) (P (PO 0)) n m).
Proof. intros c. kstart bc1_rec_u_avx2_untransform_recorr_var3. kauto ltac:(first [kcallv bc1_rec_u_avx2_untransform_recorr_ok]). Qed.

Lemma bc1_rec_u_avx2_untransform_with_recorrelate_ok : forall c v, SPEC c v sh_bc1_rec_u (vok v && c_avx2 c) any_n
  (fun P n m => bc1_rec_u_avx2_untransform_with_recorrelate c (P (PI 0)) (P (PI 1)) (P (PO 0)) n v m).
Proof. intros c v. kstart bc1_rec_u_avx2_untransform_with_recorrelate. kauto ltac:(first [kcall bc1_rec_u_avx2_untransform_recorr_var1_ok | kcall bc1_rec_u_avx2_untransform_recorr_var2_ok | kcall bc1_rec_u_avx2_untransform_recorr_var3_ok]). Qed.

Lemma bc1_rec_u_sse2_untransform_recorr_ok : forall c v, SPEC c v sh_bc1_rec_u (vok v && c_sse2 c) any_n
  (fun P n m => bc1_rec_u_sse2_untransform_recorr c (vnum v) (P (PI 0)) (P (PI 1)) (P (PO 0)) n m).
Proof. intros c v. kstart bc1_rec_u_sse2_untransform_recorr. kauto ltac:(first [kcallv bc1_rec_u_generic_untransform_with_recorrelate_generic_ok]). Qed.

Lemma bc1_rec_u_sse2_untransform_recorr_var1_ok : forall c, SPEC c V1 sh_bc1_rec_u (c_sse2 c) any_n
  (fun P n m => bc1_rec_u_sse2_untransform_recorr_var1 c (P (PI 0)) (P (PI 1)) (P (PO 0)) n m).
Proof. intros c. kstart bc1_rec_u_sse2_untransform_recorr_var1. kauto ltac:(first [kcallv bc1_rec_u_sse2_untransform_recorr_ok]). Qed.

Lemma bc1_rec_u_sse2_untransform_recorr_var2_ok : forall c, SPEC c V2 sh_bc1_rec_u (c_sse2 c) any_n
  (fun P n m => bc1_rec_u_sse2_untransform_recorr_var2 c (P (PI 0)) (P (PI 1)) (P (PO 0)) n m).
Proof. intros c. kstart bc1_rec_u_sse2_untransform_recorr_var2. kauto ltac:(first [kcallv bc1_rec_u_sse2_untransform_recorr_ok]). Qed.

Lemma bc1_rec_u_sse2_untransform_recorr_var3_ok : forall c, SPEC c V3 sh_bc1_rec_u (c_sse2 c) any_n
  (fun P n m => bc1_rec_u_sse2_untransform_recorr_var3 c (P (PI 0)) (P (PI 1)) (P (PO 0)) n m).
Proof. intros c. kstart bc1_rec_u_sse2_untransform_recorr_var3. kauto ltac:(first [kcallv bc1_rec_u_sse2_untransform_recorr_ok]). Qed.

Lemma bc1_rec_u_sse2_untransform_with_recorrelate_ok : forall c v, SPEC c v sh_bc1_rec_u (vok v && c_sse2 c) any_n
  (fun P n m => bc1_rec_u_sse2_untransform_with_recorrelate c (P (PI 0)) (P (PI 1)) (P (PO 0)) n v m).
Proof. intros c v. kstart bc1_rec_u_sse2_untransform_with_recorrelate. kauto ltac:(first [kcall bc1_rec_u_sse2_untransform_recorr_var1_ok | kcall bc1_rec_u_sse2_untransform_recorr_var2_ok | kcall bc1_rec_u_sse2_untransform_recorr_var3_ok]). Qed.

Lemma bc1_rec_u_untransform_with_recorrelate_x86_ok : forall c v, SPEC c v sh_bc1_rec_u (vok v && is_x86 c) any_n
  (fun P n m => bc1_rec_u_untransform_with_recorrelate_x86 c (P (PI 0)) (P (PI 1)) (P (PO 0)) n v m).
Proof. intros c v. kstart bc1_rec_u_untransform_with_recorrelate_x86. kauto ltac:(first [kcallv bc1_rec_u_generic_untransform_with_recorrelate_generic_ok | kcallv bc1_rec_u_avx512bw_untransform_with_recorrelate_ok | kcallv bc1_rec_u_avx2_untransform_with_recorrelate_ok | kcallv bc1_rec_u_sse2_untransform_with_recorrelate_ok]). Qed.

Lemma bc1_rec_u_untransform_with_recorrelate_ok : forall c v, TSPEC c v sh_bc1_rec_u (vok v) any_n
  (fun P n m => bc1_rec_u_untransform_with_recorrelate c (P (PI 0)) (P (PO 0)) (8 * n) v m).
Proof. intros c v. kstart bc1_rec_u_untransform_with_recorrelate. kauto ltac:(first [kcallv bc1_rec_u_generic_untransform_with_recorrelate_generic_ok | kcallv bc1_rec_u_untransform_with_recorrelate_x86_ok]). Qed.
