From Verif Require Import Base.Bytes Base.Res Model.Color565 Model.Ycc Model.Kernel Model.ColorBatch Model.GenBc2Scr
  Proofs.KernelCheck Proofs.KernelLoop Proofs.KernelFun Proofs.Shapes.
From Coq Require Import ZifyBool ZifyNat.

Lemma bc2_scr_t_generic_transform_with_split_colour_and_recorr_ok : forall c v, SPEC c v sh_bc2_scr_t (vok v) any_n
  (fun P n m => bc2_scr_t_generic_transform_with_split_colour_and_recorr c (P (PI 0)) (P (PO 0)) (P (PO 1)) (P (PO 2)) (P (PO 3)) n v m).
Proof. intros c v. kstart bc2_scr_t_generic_transform_with_split_colour_and_recorr. kauto ltac:(fail). Qed.

Lemma bc2_scr_t_avx512bw_transform_impl_ok : forall c v, SPEC c v sh_bc2_scr_t (vok v && c_avx512bw c && c_avx512f c && c_avx512vl c && c_sse2 c) any_n
  (fun P n m => bc2_scr_t_avx512bw_transform_impl c (vnum v) (P (PI 0)) (P (PO 0)) (P (PO 1)) (P (PO 2)) (P (PO 3)) n m).
Proof. intros c v. kstart bc2_scr_t_avx512bw_transform_impl. kauto ltac:(first [kcallv bc2_scr_t_generic_transform_with_split_colour_and_recorr_ok]). Qed.

Lemma bc2_scr_t_avx512bw_transform_decorr_var1_ok : forall c, SPEC c V1 sh_bc2_scr_t (c_avx512bw c && c_avx512f c && c_avx512vl c && c_sse2 c) any_n
  (fun P n m => bc2_scr_t_avx512bw_transform_decorr_var1 c (P (PI 0)) (P (PO 0)) (P (PO 1)) (P (PO 2)) (P (PO 3)) n m).
Proof. intros c. kstart bc2_scr_t_avx512bw_transform_decorr_var1. kauto ltac:(first [kcallv bc2_scr_t_avx512bw_transform_impl_ok]). Qed.

Lemma bc2_scr_t_avx512bw_transform_decorr_var2_ok : forall c, SPEC c V2 sh_bc2_scr_t (c_avx512bw c && c_avx512f c && c_avx512vl c && c_sse2 c) any_n
  (fun P n m => bc2_scr_t_avx512bw_transform_decorr_var2 c (P (PI 0)) (P (PO 0)) (P (PO 1)) (P (PO 2)) (P (PO 3)) n m).
Proof. intros c. kstart bc2_scr_t_avx512bw_transform_decorr_var2. kauto ltac:(first [kcallv bc2_scr_t_avx512bw_transform_impl_ok]). Qed.

Lemma bc2_scr_t_avx512bw_transform_decorr_var3_ok : forall c, SPEC c V3 sh_bc2_scr_t (c_avx512bw c && c_avx512f c && c_avx512vl c && c_sse2 c) any_n
  (fun P n m => bc2_scr_t_avx512bw_transform_decorr_var3 c (P (PI 0)) (P (PO 0)) (P (PO 1)) (P (PO 2)) (P (PO 3)) n m).
Proof. intros c. kstart bc2_scr_t_avx512bw_transform_decorr_var3. kauto ltac:(first [kcallv bc2_scr_t_avx512bw_transform_impl_ok]). Qed.

Lemma bc2_scr_t_avx512bw_transform_with_split_colour_and_recorr_ok : forall c v, SPEC c v sh_bc2_scr_t (vok v && c_avx512bw c && c_avx512f c && c_avx512vl c && c_sse2 c) any_n
  (fun P n m => bc2_scr_t_avx512bw_transform_with_split_colour_and_recorr c (P (PI 0)) (P (PO 0)) (P (PO 1)) (P (PO 2)) (P (PO 3)) n v m).
Proof. intros c v. kstart bc2_scr_t_avx512bw_transform_with_split_colour_and_recorr. kauto ltac:(first [kcall bc2_scr_t_avx512bw_transform_decorr_var1_ok | kcall bc2_scr_t_avx512bw_transform_decorr_var2_ok | kcall bc2_scr_t_avx512bw_transform_decorr_var3_ok]). Qed.

Lemma bc2_scr_t_avx2_transform_split_colour_and_decorr_ok : forall c v, SPEC c v sh_bc2_scr_t (vok v && c_avx2 c) any_n
  (fun P n m => bc2_scr_t_avx2_transform_split_colour_and_decorr c (vnum v) (P (PI 0)) (P (PO 0)) (P (PO 1)) (P (PO 2)) (P (PO 3)) n m).
Proof. intros c v. kstart bc2_scr_t_avx2_transform_split_colour_and_decorr. kauto ltac:(first [kcallv bc2_scr_t_generic_transform_with_split_colour_and_recorr_ok]). Qed.

Lemma bc2_scr_t_avx2_transform_split_colour_and_decorr_var1_ok : forall c, SPEC c V1 sh_bc2_scr_t (c_avx2 c) any_n
  (fun P n m => bc2_scr_t_avx2_transform_split_colour_and_decorr_var1 c (P (PI 0)) (P (PO 0)) (P (PO 1)) (P (PO 2)) (P (PO 3)) n m).
Proof. intros c. kstart bc2_scr_t_avx2_transform_split_colour_and_decorr_var1. kauto ltac:(first [kcallv bc2_scr_t_avx2_transform_split_colour_and_decorr_ok]). Qed.

Lemma bc2_scr_t_avx2_transform_split_colour_and_decorr_var2_ok : forall c, SPEC c V2 sh_bc2_scr_t (c_avx2 c) any_n
  (fun P n m => bc2_scr_t_avx2_transform_split_colour_and_decorr_var2 c (P (PI 0)) (P (PO 0)) (P (PO 1)) (P (PO 2)) (P (PO 3)) n m).
Proof. intros c. kstart bc2_scr_t_avx2_transform_split_colour_and_decorr_var2. kauto ltac:(first [kcallv bc2_scr_t_avx2_transform_split_colour_and_decorr_ok]). Qed.

Lemma bc2_scr_t_avx2_transform_split_colour_and_decorr_var3_ok : forall c, SPEC c V3 sh_bc2_scr_t (c_avx2 c) any_n
  (fun P n m => bc2_scr_t_avx2_transform_split_colour_and_decorr_var3 c (P (PI 0)) (P (PO 0)) (P (PO 1)) (P (PO 2)) (P (PO 3)) n m).
Proof. intros c. kstart bc2_scr_t_avx2_transform_split_colour_and_decorr_var3. kauto ltac:(first [kcallv bc2_scr_t_avx2_transform_split_colour_and_decorr_ok]). Qed.

Lemma bc2_scr_t_avx2_transform_with_split_colour_and_recorr_ok : forall c v, SPEC c v sh_bc2_scr_t (vok v && c_avx2 c) any_n
  (fun P n m => bc2_scr_t_avx2_transform_with_split_colour_and_recorr c (P (PI 0)) (P (PO 0)) (P (PO 1)) (P (PO 2)) (P (PO 3)) n v m).
Proof. intros c v. kstart bc2_scr_t_avx2_transform_with_split_colour_and_recorr. kauto ltac:(first [kcall bc2_scr_t_avx2_transform_split_colour_and_decorr_var1_ok | kcall bc2_scr_t_avx2_transform_split_colour_and_decorr_var2_ok | kcall bc2_scr_t_avx2_transform_split_colour_and_decorr_var3_ok]). Qed.

Lemma bc2_scr_t_sse2_transform_split_colour_and_decorr_ok : forall c v, SPEC c v sh_bc2_scr_t (vok v && c_sse2 c) any_n
  (fun P n m => bc2_scr_t_sse2_transform_split_colour_and_decorr c (vnum v) (P (PI 0)) (P (PO 0)) (P (PO 1)) (P (PO 2)) (P (PO 3)) n m).
Proof. intros c v. kstart bc2_scr_t_sse2_transform_split_colour_and_decorr. kauto ltac:(first [kcallv bc2_scr_t_generic_transform_with_split_colour_and_recorr_ok]). Qed.

Lemma bc2_scr_t_sse2_transform_split_colour_and_decorr_var1_ok : forall c, SPEC c V1 sh_bc2_scr_t (c_sse2 c) any_n
  (fun P n m => bc2_scr_t_sse2_transform_split_colour_and_decorr_var1 c (P (PI 0)) (P (PO 0)) (P (PO 1)) (P (PO 2)) (P (PO 3)) n m).
Proof. intros c. kstart bc2_scr_t_sse2_transform_split_colour_and_decorr_var1. kauto ltac:(first [kcallv bc2_scr_t_sse2_transform_split_colour_and_decorr_ok]). Qed.

Lemma bc2_scr_t_sse2_transform_split_colour_and_decorr_var2_ok : forall c, SPEC c V2 sh_bc2_scr_t (c_sse2 c) any_n
  (fun P n m => bc2_scr_t_sse2_transform_split_colour_and_decorr_var2 c (P (PI 0)) (P (PO 0)) (P (PO 1)) (P (PO 2)) (P (PO 3)) n m).
Proof. intros c. kstart bc2_scr_t_sse2_transform_split_colour_and_decorr_var2. kauto ltac:(first [kcallv bc2_scr_t_sse2_transform_split_colour_and_decorr_ok]). Qed.

Lemma bc2_scr_t_sse2_transform_split_colour_and_decorr_var3_ok : forall c, SPEC c V3 sh_bc2_scr_t (c_sse2 c) any_n
  (fun P n m => bc2_scr_t_sse2_transform_split_colour_and_decorr_var3 c (P (PI 0)) (P (PO 0)) (P (PO 1)) (P (PO 2)) (P (PO 3)) n m).
Proof. intros c. kstart bc2_scr_t_sse2_transform_split_colour_and_decorr_var3. kauto ltac:(first [kcallv bc2_scr_t_sse2_transform_split_colour_and_decorr_ok]). Qed.

Lemma bc2_scr_t_sse2_transform_with_split_colour_and_recorr_ok : forall c v, SPEC c v sh_bc2_scr_t (vok v && c_sse2 c) any_n
  (fun P n m => bc2_scr_t_sse2_transform_with_split_colour_and_recorr c (P (PI 0)) (P (PO 0)) (P (PO 1)) (P (PO 2)) (P (PO 3)) n v m).
Proof. intros c v. kstart bc2_scr_t_sse2_transform_with_split_colour_and_recorr. kauto ltac:(first [kcall bc2_scr_t_sse2_transform_split_colour_and_decorr_var1_ok | kcall bc2_scr_t_sse2_transform_split_colour_and_decorr_var2_ok | kcall bc2_scr_t_sse2_transform_split_colour_and_decorr_var3_ok]). Qed.

Lemma bc2_scr_t_transform_with_split_colour_and_recorr_x86_ok : forall c v, SPEC c v sh_bc2_scr_t (vok v && is_x86 c && vl_ok c) any_n
  (fun P n m => bc2_scr_t_transform_with_split_colour_and_recorr_x86 c (P (PI 0)) (P (PO 0)) (P (PO 1)) (P (PO 2)) (P (PO 3)) n v m).
Proof. intros c v. kstart bc2_scr_t_transform_with_split_colour_and_recorr_x86. kauto ltac:(first [kcallv bc2_scr_t_generic_transform_with_split_colour_and_recorr_ok | kcallv bc2_scr_t_avx512bw_transform_with_split_colour_and_recorr_ok | kcallv bc2_scr_t_avx2_transform_with_split_colour_and_recorr_ok | kcallv bc2_scr_t_sse2_transform_with_split_colour_and_recorr_ok]). Qed.

Lemma bc2_scr_t_transform_with_split_colour_and_recorr_ok : forall c v, SPEC c v sh_bc2_scr_t (vok v && vl_ok c) any_n
  (fun P n m => bc2_scr_t_transform_with_split_colour_and_recorr c (P (PI 0)) (P (PO 0)) (P (PO 1)) (P (PO 2)) (P (PO 3)) n v m).
Proof. intros c v. kstart bc2_scr_t_transform_with_split_colour_and_recorr. kauto ltac:(first [kcallv bc2_scr_t_generic_transform_with_split_colour_and_recorr_ok | kcallv bc2_scr_t_transform_with_split_colour_and_recorr_x86_ok]). Qed.

Lemma bc2_scr_u_generic_untransform_split_colour_recorr_ok : forall c v, SPEC c v sh_bc2_scr_u (vok v) any_n
  (fun P n m => bc2_scr_u_generic_untransform_split_colour_recorr c (vnum v) (P (PI 0)) (P (PI 1)) (P (PI 2)) (P (PI 3)) (P (PO 0)) n m).
Proof. intros c v. kstart bc2_scr_u_generic_untransform_split_colour_recorr. kauto ltac:(fail). Qed.

Lemma bc2_scr_u_generic_untransform_split_colour_recorr_var1_ok : forall c, SPEC c V1 sh_bc2_scr_u (true) any_n
  (fun P n m => bc2_scr_u_generic_untransform_split_colour_recorr_var1 c (P (PI 0)) (P (PI 1)) (P (PI 2)) (P (PI 3)) (P (PO 0)) n m).
Proof. intros c. kstart bc2_scr_u_generic_untransform_split_colour_recorr_var1. kauto ltac:(first [kcallv bc2_scr_u_generic_untransform_split_colour_recorr_ok]). Qed.

Lemma bc2_scr_u_generic_untransform_split_colour_recorr_var2_ok : forall c, SPEC c V2 sh_bc2_scr_u (true) any_n
  (fun P n m => bc2_scr_u_generic_untransform_split_colour_recorr_var2 c (P (PI 0)) (P (PI 1)) (P (PI 2)) (P (PI 3)) (P (PO 0)) n m).
Proof. intros c. kstart bc2_scr_u_generic_untransform_split_colour_recorr_var2. kauto ltac:(first [kcallv bc2_scr_u_generic_untransform_split_colour_recorr_ok]). Qed.

Lemma bc2_scr_u_generic_untransform_split_colour_recorr_var3_ok : forall c, SPEC c V3 sh_bc2_scr_u (true) any_n
  (fun P n m => bc2_scr_u_generic_untransform_split_colour_recorr_var3 c (P (PI 0)) (P (PI 1)) (P (PI 2)) (P (PI 3)) (P (PO 0)) n m).
Proof. intros c. kstart bc2_scr_u_generic_untransform_split_colour_recorr_var3. kauto ltac:(first [kcallv bc2_scr_u_generic_untransform_split_colour_recorr_ok]). Qed.

Lemma bc2_scr_u_generic_untransform_with_split_colour_and_recorr_ok : forall c v, SPEC c v sh_bc2_scr_u (vok v) any_n
  (fun P n m => bc2_scr_u_generic_untransform_with_split_colour_and_recorr c (P (PI 0)) (P (PI 1)) (P (PI 2)) (P (PI 3)) (P (PO 0)) n v m).
Proof. intros c v. kstart bc2_scr_u_generic_untransform_with_split_colour_and_recorr. kauto ltac:(first [kcall bc2_scr_u_generic_untransform_split_colour_recorr_var1_ok | kcall bc2_scr_u_generic_untransform_split_colour_recorr_var2_ok | kcall bc2_scr_u_generic_untransform_split_colour_recorr_var3_ok]). Qed.

Lemma bc2_scr_u_avx512bw_untransform_split_colour_recorr_ok : forall c v, SPEC c v sh_bc2_scr_u (vok v && c_avx512bw c && c_avx512f c) any_n
  (fun P n m => bc2_scr_u_avx512bw_untransform_split_colour_recorr c (vnum v) (P (PI 0)) (P (PI 1)) (P (PI 2)) (P (PI 3)) (P (PO 0)) n m).
Proof. intros c v. kstart bc2_scr_u_avx512bw_untransform_split_colour_recorr. kauto ltac:(first [kcallv bc2_scr_u_generic_untransform_with_split_colour_and_recorr_ok]). Qed.

Lemma bc2_scr_u_avx512bw_untransform_split_colour_recorr_var1_ok : forall c, SPEC c V1 sh_bc2_scr_u (c_avx512bw c && c_avx512f c) any_n
  (fun P n m => bc2_scr_u_avx512bw_untransform_split_colour_recorr_var1 c (P (PI 0)) (P (PI 1)) (P (PI 2)) (P (PI 3)) (P (PO 0)) n m).
Proof. intros c. kstart bc2_scr_u_avx512bw_untransform_split_colour_recorr_var1. kauto ltac:(first [kcallv bc2_scr_u_avx512bw_untransform_split_colour_recorr_ok]). Qed.

Lemma bc2_scr_u_avx512bw_untransform_split_colour_recorr_var2_ok : forall c, SPEC c V2 sh_bc2_scr_u (c_avx512bw c && c_avx512f c) any_n
  (fun P n m => bc2_scr_u_avx512bw_untransform_split_colour_recorr_var2 c (P (PI 0)) (P (PI 1)) (P (PI 2)) (P (PI 3)) (P (PO 0)) n m).
Proof. intros c. kstart bc2_scr_u_avx512bw_untransform_split_colour_recorr_var2. kauto ltac:(first [kcallv bc2_scr_u_avx512bw_untransform_split_colour_recorr_ok]). Qed.

Lemma bc2_scr_u_avx512bw_untransform_split_colour_recorr_var3_ok : forall c, SPEC c V3 sh_bc2_scr_u (c_avx512bw c && c_avx512f c) any_n
  (fun P n m => bc2_scr_u_avx512bw_untransform_split_colour_recorr_var3 c (P (PI 0)) (P (PI 1)) (P (PI 2)) (P (PI 3)) (P (PO 0)) n m).
Proof. intros c. kstart bc2_scr_u_avx512bw_untransform_split_colour_recorr_var3. kauto ltac:(first [kcallv bc2_scr_u_avx512bw_untransform_split_colour_recorr_ok]). Qed.

Lemma bc2_scr_u_avx512bw_untransform_with_split_colour_and_recorr_ok : forall c v, SPEC c v sh_bc2_scr_u (vok v && c_avx512bw c && c_avx512f c) any_n
  (fun P n m => bc2_scr_u_avx512bw_untransform_with_split_colour_and_recorr c (P (PI 0)) (P (PI 1)) (P (PI 2)) (P (PI 3)) (P (PO 0)) n v m).
Proof. intros c v. kstart bc2_scr_u_avx512bw_untransform_with_split_colour_and_recorr. kauto ltac:(first [kcall bc2_scr_u_avx512bw_untransform_split_colour_recorr_var1_ok | kcall bc2_scr_u_avx512bw_untransform_split_colour_recorr_var2_ok | kcall bc2_scr_u_avx512bw_untransform_split_colour_recorr_var3_ok]). Qed.

Lemma bc2_scr_u_avx2_untransform_split_colour_recorr_ok : forall c v, SPEC c v sh_bc2_scr_u (vok v && c_avx2 c) any_n
  (fun P n m => bc2_scr_u_avx2_untransform_split_colour_recorr c (vnum v) (P (PI 0)) (P (PI 1)) (P (PI 2)) (P (PI 3)) (P (PO 0)) n m).
Proof. intros c v. kstart bc2_scr_u_avx2_untransform_split_colour_recorr. kauto ltac:(first [kcallv bc2_scr_u_generic_untransform_with_split_colour_and_recorr_ok]). Qed.

Lemma bc2_scr_u_avx2_untransform_split_colour_recorr_var1_ok : forall c, SPEC c V1 sh_bc2_scr_u (c_avx2 c) any_n
  (fun P n m => bc2_scr_u_avx2_untransform_split_colour_recorr_var1 c (P (PI 0)) (P (PI 1)) (P (PI 2)) (P (PI 3)) (P (PO 0)) n m).
Proof. intros c. kstart bc2_scr_u_avx2_untransform_split_colour_recorr_var1. kauto ltac:(first [kcallv bc2_scr_u_avx2_untransform_split_colour_recorr_ok]). Qed.

Lemma bc2_scr_u_avx2_untransform_split_colour_recorr_var2_ok : forall c, SPEC c V2 sh_bc2_scr_u (c_avx2 c) any_n
  (fun P n m => bc2_scr_u_avx2_untransform_split_colour_recorr_var2 c (P (PI 0)) (P (PI 1)) (P (PI 2)) (P (PI 3)) (P (PO 0)) n m).
Proof. intros c. kstart bc2_scr_u_avx2_untransform_split_colour_recorr_var2. kauto ltac:(first [kcallv bc2_scr_u_avx2_untransform_split_colour_recorr_ok]). Qed.

Lemma bc2_scr_u_avx2_untransform_split_colour_recorr_var3_ok : forall c, SPEC c V3 sh_bc2_scr_u (c_avx2 c) any_n
  (fun P n m => bc2_scr_u_avx2_untransform_split_colour_recorr_var3 c (P (PI 0)) (P (PI 1)) (P (PI 2)) (P (PI 3)) (P (PO 0)) n m).
Proof. intros c. kstart bc2_scr_u_avx2_untransform_split_colour_recorr_var3. kauto ltac:(first [kcallv bc2_scr_u_avx2_untransform_split_colour_recorr_ok]). Qed.

Lemma bc2_scr_u_avx2_untransform_with_split_colour_and_recorr_ok : forall c v, SPEC c v sh_bc2_scr_u (vok v && c_avx2 c) any_n
  (fun P n m => bc2_scr_u_avx2_untransform_with_split_colour_and_recorr c (P (PI 0)) (P (PI 1)) (P (PI 2)) (P (PI 3)) (P (PO 0)) n v m).
Proof. intros c v. kstart bc2_scr_u_avx2_untransform_with_split_colour_and_recorr. kauto ltac:(first [kcall bc2_scr_u_avx2_untransform_split_colour_recorr_var1_ok | kcall bc2_scr_u_avx2_untransform_split_colour_recorr_var2_ok | kcall bc2_scr_u_avx2_untransform_split_colour_recorr_var3_ok]). Qed.

Lemma bc2_scr_u_sse2_untransform_split_colour_recorr_ok : forall c v, SPEC c v sh_bc2_scr_u (vok v && c_sse2 c) any_n
  (fun P n m => bc2_scr_u_sse2_untransform_split_colour_recorr c (vnum v) (P (PI 0)) (P (PI 1)) (P (PI 2)) (P (PI 3)) (P (PO 0)) n m).
Proof. intros c v. kstart bc2_scr_u_sse2_untransform_split_colour_recorr. kauto ltac:(first [kcallv bc2_scr_u_generic_untransform_with_split_colour_and_recorr_ok]). Qed.

Lemma bc2_scr_u_sse2_untransform_split_colour_recorr_var1_ok : forall c, SPEC c V1 sh_bc2_scr_u (c_sse2 c) any_n
  (fun P n m => bc2_scr_u_sse2_untransform_split_colour_recorr_var1 c (P (PI 0)) (P (PI 1)) (P (PI 2)) (P (PI 3)) (P (PO 0)) n m).
Proof. intros c. kstart bc2_scr_u_sse2_untransform_split_colour_recorr_var1. kauto ltac:(first [kcallv bc2_scr_u_sse2_untransform_split_colour_recorr_ok]). Qed.

Lemma bc2_scr_u_sse2_untransform_split_colour_recorr_var2_ok : forall c, SPEC c V2 sh_bc2_scr_u (c_sse2 c) any_n
  (fun P n m => bc2_scr_u_sse2_untransform_split_colour_recorr_var2 c (P (PI 0)) (P (PI 1)) (P (PI 2)) (P (PI 3)) (P (PO 0)) n m).
Proof. intros c. kstart bc2_scr_u_sse2_untransform_split_colour_recorr_var2. kauto ltac:(first [kcallv bc2_scr_u_sse2_untransform_split_colour_recorr_ok]). Qed.

Lemma bc2_scr_u_sse2_untransform_split_colour_recorr_var3_ok : forall c, SPEC c V3 sh_bc2_scr_u (c_sse2 c) any_n
  (fun P n m => bc2_scr_u_sse2_untransform_split_colour_recorr_var3 c (P (PI 0)) (P (PI 1)) (P (PI 2)) (P (PI 3)) (P (PO 0)) n m).
Proof. intros c. kstart bc2_scr_u_sse2_untransform_split_colour_recorr_var3. kauto ltac:(first [kcallv bc2_scr_u_sse2_untransform_split_colour_recorr_ok]). Qed.

Lemma bc2_scr_u_sse2_untransform_with_split_colour_and_recorr_ok : forall c v, SPEC c v sh_bc2_scr_u (vok v && c_sse2 c) any_n
  (fun P n m => bc2_scr_u_sse2_untransform_with_split_colour_and_recorr c (P (PI 0)) (P (PI 1)) (P (PI 2)) (P (PI 3)) (P (PO 0)) n v m).
Proof. intros c v. kstart bc2_scr_u_sse2_untransform_with_split_colour_and_recorr. kauto ltac:(first [kcall bc2_scr_u_sse2_untransform_split_colour_recorr_var1_ok | kcall bc2_scr_u_sse2_untransform_split_colour_recorr_var2_ok | kcall bc2_scr_u_sse2_untransform_split_colour_recorr_var3_ok]). Qed.

Lemma bc2_scr_u_untransform_with_split_colour_and_recorr_x86_ok : forall c v, SPEC c v sh_bc2_scr_u (vok v && is_x86 c) any_n
  (fun P n m => bc2_scr_u_untransform_with_split_colour_and_recorr_x86 c (P (PI 0)) (P (PI 1)) (P (PI 2)) (P (PI 3)) (P (PO 0)) n v m).
Proof. intros c v. kstart bc2_scr_u_untransform_with_split_colour_and_recorr_x86. kauto ltac:(first [kcallv bc2_scr_u_generic_untransform_with_split_colour_and_recorr_ok | kcallv bc2_scr_u_avx512bw_untransform_with_split_colour_and_recorr_ok | kcallv bc2_scr_u_avx2_untransform_with_split_colour_and_recorr_ok | kcallv bc2_scr_u_sse2_untransform_with_split_colour_and_recorr_ok]). Qed.

Lemma bc2_scr_u_untransform_with_split_colour_and_recorr_ok : forall c v, SPEC c v sh_bc2_scr_u (vok v) any_n
  (fun P n m => bc2_scr_u_untransform_with_split_colour_and_recorr c (P (PI 0)) (P (PI 1)) (P (PI 2)) (P (PI 3)) (P (PO 0)) n v m).
Proof. intros c v. kstart bc2_scr_u_untransform_with_split_colour_and_recorr. kauto ltac:(first [kcallv bc2_scr_u_generic_untransform_with_split_colour_and_recorr_ok | kcallv bc2_scr_u_untransform_with_split_colour_and_recorr_x86_ok]). Qed.
