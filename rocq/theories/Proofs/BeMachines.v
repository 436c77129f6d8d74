(** Release builds on different big-endian machines do the same (C93). *)
From Verif Require Import Base.Bytes Base.Res Model.Color565 Model.Ycc Model.Kernel Model.Transform Model.Auto Model.Builders Model.Embed Model.Bundle Model.Dds Model.Handlers
  Model.BigEndian Model.BeTransform Model.BeFiles
  Proofs.KernelCheck Proofs.KernelLoop Proofs.KernelFun Proofs.Shapes Spec.YCoCg Spec.Layout Spec.BigEndian Spec.Files Spec.Release
  Proofs.LayoutFacts Proofs.ShapeLayout Proofs.Families Proofs.BeFamilies Proofs.BeTransformFacts Proofs.TransformFacts Proofs.SliceFacts Proofs.BeSliceFacts
  Proofs.TransformProps Proofs.BigEndianFacts Proofs.ReleaseFacts Proofs.BeReleaseFacts Proofs.Machines.
From Coq Require Import String ZifyBool ZifyNat.
Open Scope list_scope.
Open Scope Z_scope.

Section Two.
Variables (c1 c2 : cfg).
Hypotheses (K1 : cpu_ok c1) (K2 : cpu_ok c2) (D1 : c_debug c1 = false) (D2 : c_debug c2 = false).

Lemma be_t_same1 : forall m N s, 0 <= N -> 8 * N <= zlen (m_in m) -> 8 * N <= zlen (m_out m) ->
  be_transform_bc1_with_settings c1 (Ptr BIn 0) (Ptr BOut 0) (8 * N) s m = be_transform_bc1_with_settings c2 (Ptr BIn 0) (Ptr BOut 0) (8 * N) s m.
Proof.
  intros m N s HN A B. pose proof (be_release1 c1 m N K1 HN s A B) as R1. pose proof (be_release1 c2 m N K2 HN s A B) as R2.
  rewrite (is_release c1 D1) in R1. rewrite (is_release c2 D2) in R2. rewrite R1, R2. reflexivity.
Qed.
Lemma be_u_same1 : forall m N s, 0 <= N -> 8 * N <= zlen (m_in m) -> 8 * N <= zlen (m_out m) ->
  be_untransform_bc1_with_settings c1 (Ptr BIn 0) (Ptr BOut 0) (8 * N) s m = be_untransform_bc1_with_settings c2 (Ptr BIn 0) (Ptr BOut 0) (8 * N) s m.
Proof.
  intros m N s HN Hi Ho.
  destruct (be_untransform_bc1_ptr c2 s 0 0 N m K2) as (y & -> & Y); [lia..|].
  destruct (be_untransform_bc1_ptr c1 s 0 0 N m K1) as (y' & -> & Y'); [lia..|].
  destruct (be_bc1_fam (decorrelation_mode s) (split_colour_endpoints s)) as (sht & shu & FM).
  rewrite (same_inverse _ _ _ _ _ _ _ y' y FM ltac:(lia) (whole_blocks 8 _ (m_in m) N ltac:(lia) eq_refl HN Hi) Y' Y). reflexivity.
Qed.
Lemma be_slices_same1 : forall s x out, be_transform_bc1 c1 s x out = be_transform_bc1 c2 s x out /\ be_untransform_bc1 c1 s x out = be_untransform_bc1 c2 s x out.
Proof.
  intros s x out. split; apply checked_same; try lia; intros N HN E L; [apply be_t_same1|apply be_u_same1]; cbn [m_in m_out]; lia.
Qed.
Lemma be_auto_same1 : forall St Er v (e : estimator St Er) all x out st, be_transform_bc1_auto c1 v e all x out st = be_transform_bc1_auto c2 v e all x out st.
Proof.
  intros St Er v e all x out st. apply auto_checked_same; [lia|]. intros N HN E L. unfold be_transform_bc1_auto_ptr.
  apply (search_same _ _ _ _ _ _ _ _ _ _ _ _ _ (sized (8 * N) (8 * N))).
  - intros s m (A & B). apply be_t_same1; assumption.
  - intros s m m' (A & B) Q. pose proof (be_release1 c1 m N K1 HN s A B) as R. rewrite (is_release c1 D1) in R. rewrite R in Q. apply ok_inj in Q. subst m'. apply len_kept; [split; assumption|].
    destruct (be_bc1_fam (decorrelation_mode s) (split_colour_endpoints s)) as (sht & shu & FM).
    unfold be_bc1_layout, zlen. rewrite (fam_len _ _ _ _ _ _ FM ltac:(lia)) by (apply (whole_blocks 8); [lia|reflexivity|lia..]).
    pose proof (zlen_slice _ (m_in m) 0 (8 * N)) as Z. unfold zlen in Z at 2. lia.
  - intros. reflexivity.
  - split; cbn [m_in m_out]; lia.
Qed.

Lemma be_t_same2 : forall m N s, 0 <= N -> 16 * N <= zlen (m_in m) -> 16 * N <= zlen (m_out m) ->
  be_transform_bc2_with_settings c1 (Ptr BIn 0) (Ptr BOut 0) (16 * N) s m = be_transform_bc2_with_settings c2 (Ptr BIn 0) (Ptr BOut 0) (16 * N) s m.
Proof.
  intros m N s HN A B. pose proof (be_release2 c1 m N K1 HN s A B) as R1. pose proof (be_release2 c2 m N K2 HN s A B) as R2.
  rewrite (is_release c1 D1) in R1. rewrite (is_release c2 D2) in R2. rewrite R1, R2. reflexivity.
Qed.
Lemma be_u_same2 : forall m N s, 0 <= N -> 16 * N <= zlen (m_in m) -> 16 * N <= zlen (m_out m) ->
  be_untransform_bc2_with_settings c1 (Ptr BIn 0) (Ptr BOut 0) (16 * N) s m = be_untransform_bc2_with_settings c2 (Ptr BIn 0) (Ptr BOut 0) (16 * N) s m.
Proof.
  intros m N s HN Hi Ho.
  destruct (be_untransform_bc2_ptr c2 s 0 0 N m K2) as (y & -> & Y); [lia..|].
  destruct (be_untransform_bc2_ptr c1 s 0 0 N m K1) as (y' & -> & Y'); [lia..|].
  destruct (be_bc2_fam (decorrelation_mode s) (split_colour_endpoints s)) as (sht & shu & FM).
  rewrite (same_inverse _ _ _ _ _ _ _ y' y FM ltac:(lia) (whole_blocks 16 _ (m_in m) N ltac:(lia) eq_refl HN Hi) Y' Y). reflexivity.
Qed.
Lemma be_slices_same2 : forall s x out, be_transform_bc2 c1 s x out = be_transform_bc2 c2 s x out /\ be_untransform_bc2 c1 s x out = be_untransform_bc2 c2 s x out.
Proof.
  intros s x out. split; apply checked_same; try lia; intros N HN E L; [apply be_t_same2|apply be_u_same2]; cbn [m_in m_out]; lia.
Qed.
Lemma be_auto_same2 : forall St Er v (e : estimator St Er) all x out st, be_transform_bc2_auto c1 v e all x out st = be_transform_bc2_auto c2 v e all x out st.
Proof.
  intros St Er v e all x out st. apply auto_checked_same; [lia|]. intros N HN E L. unfold be_transform_bc2_auto_ptr.
  apply (search_same _ _ _ _ _ _ _ _ _ _ _ _ _ (sized (16 * N) (16 * N))).
  - intros s m (A & B). apply be_t_same2; assumption.
  - intros s m m' (A & B) Q. pose proof (be_release2 c1 m N K1 HN s A B) as R. rewrite (is_release c1 D1) in R. rewrite R in Q. apply ok_inj in Q. subst m'. apply len_kept; [split; assumption|].
    destruct (be_bc2_fam (decorrelation_mode s) (split_colour_endpoints s)) as (sht & shu & FM).
    unfold be_bc2_layout, zlen. rewrite (fam_len _ _ _ _ _ _ FM ltac:(lia)) by (apply (whole_blocks 16); [lia|reflexivity|lia..]).
    pose proof (zlen_slice _ (m_in m) 0 (16 * N)) as Z. unfold zlen in Z at 2. lia.
  - intros. reflexivity.
  - split; cbn [m_in m_out]; lia.
Qed.

Lemma be_t_same3 : forall m N s, 0 <= N -> 16 * N <= zlen (m_in m) -> 16 * N <= zlen (m_out m) ->
  be_transform_bc3_with_settings c1 (Ptr BIn 0) (Ptr BOut 0) (16 * N) s m = be_transform_bc3_with_settings c2 (Ptr BIn 0) (Ptr BOut 0) (16 * N) s m.
Proof.
  intros m N s HN A B. pose proof (be_release3 c1 m N K1 HN s A B) as R1. pose proof (be_release3 c2 m N K2 HN s A B) as R2.
  rewrite (is_release c1 D1) in R1. rewrite (is_release c2 D2) in R2. rewrite R1, R2. reflexivity.
Qed.
Lemma be_u_same3 : forall m N s, 0 <= N -> 16 * N <= zlen (m_in m) -> 16 * N <= zlen (m_out m) ->
  be_untransform_bc3_with_settings c1 (Ptr BIn 0) (Ptr BOut 0) (16 * N) s m = be_untransform_bc3_with_settings c2 (Ptr BIn 0) (Ptr BOut 0) (16 * N) s m.
Proof.
  intros m N s HN Hi Ho.
  destruct (be_untransform_bc3_ptr c2 s 0 0 N m K2) as (y & -> & Y); [lia..|].
  destruct (be_untransform_bc3_ptr c1 s 0 0 N m K1) as (y' & -> & Y'); [lia..|].
  destruct (be_bc3_fam (decorrelation_mode3 s) (split_alpha_endpoints s) (split_colour_endpoints3 s)) as (sht & shu & FM).
  rewrite (same_inverse _ _ _ _ _ _ _ y' y FM ltac:(lia) (whole_blocks 16 _ (m_in m) N ltac:(lia) eq_refl HN Hi) Y' Y). reflexivity.
Qed.
Lemma be_slices_same3 : forall s x out, be_transform_bc3 c1 s x out = be_transform_bc3 c2 s x out /\ be_untransform_bc3 c1 s x out = be_untransform_bc3 c2 s x out.
Proof.
  intros s x out. split; apply checked_same; try lia; intros N HN E L; [apply be_t_same3|apply be_u_same3]; cbn [m_in m_out]; lia.
Qed.
Lemma be_auto_same3 : forall St Er v (e : estimator St Er) all x out st, be_transform_bc3_auto c1 v e all x out st = be_transform_bc3_auto c2 v e all x out st.
Proof.
  intros St Er v e all x out st. apply auto_checked_same; [lia|]. intros N HN E L. unfold be_transform_bc3_auto_ptr.
  apply (search_same _ _ _ _ _ _ _ _ _ _ _ _ _ (sized (16 * N) (16 * N))).
  - intros s m (A & B). apply be_t_same3; assumption.
  - intros s m m' (A & B) Q. pose proof (be_release3 c1 m N K1 HN s A B) as R. rewrite (is_release c1 D1) in R. rewrite R in Q. apply ok_inj in Q. subst m'. apply len_kept; [split; assumption|].
    destruct (be_bc3_fam (decorrelation_mode3 s) (split_alpha_endpoints s) (split_colour_endpoints3 s)) as (sht & shu & FM).
    unfold be_bc3_layout, zlen. rewrite (fam_len _ _ _ _ _ _ FM ltac:(lia)) by (apply (whole_blocks 16); [lia|reflexivity|lia..]).
    pose proof (zlen_slice _ (m_in m) 0 (16 * N)) as Z. unfold zlen in Z at 2. lia.
  - intros z m st' _. unfold estimate_bc3. rewrite D1, D2. reflexivity.
  - split; cbn [m_in m_out]; lia.
Qed.

Lemma be_dispatch_same : forall St Er (show : Er -> string) v (t : bundle St Er) f x out st, be_dispatch_transform show c1 v t f x out st = be_dispatch_transform show c2 v t f x out st.
Proof.
  intros St Er show v t f x out st. unfold be_dispatch_transform. destruct (zlen out <? zlen x); [reflexivity|]. cbv zeta.
  assert (D : forall k b, be_transform_slice_with_details show k c1 v b x out st = be_transform_slice_with_details show k c2 v b x out st).
  { intros [] [b|b]; unfold be_transform_slice_with_details, be_manual_transform, be_auto_transform, be_core_transform, be_core_auto; cbv zeta.
    - rewrite (proj1 (be_slices_same1 _ x out)). reflexivity.
    - rewrite be_auto_same1. reflexivity.
    - rewrite (proj1 (be_slices_same2 _ x out)). reflexivity.
    - rewrite be_auto_same2. reflexivity. }
  destruct f; try reflexivity; [destruct (b_bc1 t)|destruct (b_bc2 t)]; try reflexivity; rewrite D; reflexivity.
Qed.
Lemma be_undispatch_same : forall h x out, be_dispatch_untransform c1 h x out = be_dispatch_untransform c2 h x out.
Proof.
  intros h x out. unfold be_dispatch_untransform. destruct (zlen out <? zlen x) eqn:L; [reflexivity|]. cbv zeta.
  pose proof (zlen_nonneg _ x).
  destruct (header_format h) as [[]|]; try reflexivity.
  - destruct (from_header bc1_details h); [|reflexivity]. cbn [codec_block]. destruct (zlen x mod 8 =? 0) eqn:M; cbn [negb]; [|reflexivity].
    cbn [be_core_untransform_ptr].
    assert (E : zlen x = 8 * (zlen x / 8)) by (pose proof (Z.div_mod (zlen x) 8 ltac:(lia)); lia). rewrite E.
    rewrite be_u_same1 by (cbn [m_in m_out]; lia). reflexivity.
  - destruct (from_header bc2_details h); [|reflexivity]. cbn [codec_block]. destruct (zlen x mod 16 =? 0) eqn:M; cbn [negb]; [|reflexivity].
    cbn [be_core_untransform_ptr].
    assert (E : zlen x = 16 * (zlen x / 16)) by (pose proof (Z.div_mod (zlen x) 16 ltac:(lia)); lia). rewrite E.
    rewrite be_u_same2 by (cbn [m_in m_out]; lia). reflexivity.
Qed.
Lemma be_dds_same : forall St Er (show : Er -> string) v (t : bundle St Er) x out st, be_dds_transform_bundle show c1 v t x out st = be_dds_transform_bundle show c2 v t x out st.
Proof.
  intros St Er show v t x out st. unfold be_dds_transform_bundle. rewrite D1, D2. destruct (zlen out <? zlen x); [reflexivity|].
  destruct (parse_dds false x) as [[i|]|w|w]; cbn [bind]; try reflexivity. cbv zeta.
  destruct (usize_add false v (i_data_offset i) (i_data_length i)) as [n|w|w]; cbn [bind]; try reflexivity. destruct (zlen x <? n); [reflexivity|].
  destruct (Dds.range x 0 (i_data_offset i)) as [hd|w|w]; cbn [bind]; try reflexivity.
  destruct (copy_range out 0 (i_data_offset i) hd) as [o|w|w]; cbn [bind]; try reflexivity.
  destruct (dds_format_to_transform_format (i_format i) false); [|reflexivity].
  destruct (Dds.range x (i_data_offset i) n) as [T|w|w]; cbn [bind]; try reflexivity.
  destruct (Dds.range o (i_data_offset i) n) as [T'|w|w]; cbn [bind]; try reflexivity.
  rewrite be_dispatch_same. reflexivity.
Qed.
Lemma be_undds_same : forall v x out, be_dds_untransform c1 v x out = be_dds_untransform c2 v x out.
Proof.
  intros v x out. unfold be_dds_untransform. rewrite D1, D2. destruct (zlen x <? 4); [reflexivity|]. destruct (zlen out <? zlen x); [reflexivity|]. cbv zeta.
  destruct (parse_dds_ignore_magic false x) as [[i|]|w|w]; cbn [bind]; try reflexivity.
  destruct (usize_add false v (i_data_offset i) (i_data_length i)) as [n|w|w]; cbn [bind]; try reflexivity. destruct (zlen x <? n); [reflexivity|].
  destruct (copy_range out 0 4 (u32_bytes DDS_MAGIC)) as [o1|w|w]; cbn [bind]; try reflexivity.
  destruct (Dds.range x 4 (i_data_offset i)) as [hd|w|w]; cbn [bind]; try reflexivity.
  destruct (copy_range o1 4 (i_data_offset i) hd) as [o|w|w]; cbn [bind]; try reflexivity.
  destruct (Dds.range x (i_data_offset i) n) as [T|w|w]; cbn [bind]; try reflexivity.
  destruct (Dds.range o (i_data_offset i) n) as [T'|w|w]; cbn [bind]; try reflexivity.
  rewrite be_undispatch_same. reflexivity.
Qed.
End Two.

Section Mixed.
Variables (c1 c2 : cfg).
Hypotheses (K1 : cpu_ok c1) (K2 : cpu_ok c2) (D2 : c_debug c2 = false).
Let KR := release_ok c1 K1.
Lemma be_mixed_auto : forall St Er v (e : estimator St Er) all x out st,
  agree (be_transform_bc1_auto c1 v e all x out st) (be_transform_bc1_auto c2 v e all x out st) /\
  agree (be_transform_bc2_auto c1 v e all x out st) (be_transform_bc2_auto c2 v e all x out st) /\
  agree (be_transform_bc3_auto c1 v e all x out st) (be_transform_bc3_auto c2 v e all x out st).
Proof.
  intros St Er v e all x out st. split; [|split].
  - apply (agree_eq _ _ _ _ (be_auto1 c1 v e all x out st K1)). exact (be_auto_same1 _ c2 KR K2 eq_refl D2 St Er v e all x out st).
  - apply (agree_eq _ _ _ _ (be_auto2 c1 v e all x out st K1)). exact (be_auto_same2 _ c2 KR K2 eq_refl D2 St Er v e all x out st).
  - apply (agree_eq _ _ _ _ (be_auto3 c1 v e all x out st K1)). exact (be_auto_same3 _ c2 KR K2 eq_refl D2 St Er v e all x out st).
Qed.
Lemma be_mixed_dds : forall St Er (show : Er -> string) v (t : bundle St Er) x out st,
  agree (be_dds_transform_bundle show c1 v t x out st) (be_dds_transform_bundle show c2 v t x out st).
Proof. intros St Er show v t x out st. apply (agree_eq _ _ _ _ (be_dds_agree St Er show c1 v t x out st K1)). exact (be_dds_same _ c2 KR K2 eq_refl D2 St Er show v t x out st). Qed.
Lemma be_mixed_undds : forall v x out, agree (be_dds_untransform c1 v x out) (be_dds_untransform c2 v x out).
Proof. intros v x out. apply (agree_eq _ _ _ _ (be_undds_agree c1 v x out K1)). exact (be_undds_same _ c2 KR K2 eq_refl D2 v x out). Qed.

Section Files.
Context {St Er : Type}.
Variables (show : Er -> string) (v : Auto.env).
Let h := @be_dds_handler St Er show c1 v.
Let h' := @be_dds_handler St Er show c2 v.
Lemma be_m_slice : forall x out b w, agree (transform_slice_with_bundle h x out b w) (transform_slice_with_bundle h' x out b w).
Proof. intros x out b w. unfold transform_slice_with_bundle. destruct (zlen out <? zlen x); [apply agree_refl|]. exact (be_mixed_dds St Er show v b x out w). Qed.
Lemma be_m_unslice : forall x out w, agree (untransform_slice h x out w) (untransform_slice h' x out w).
Proof.
  intros x out w. unfold untransform_slice. destruct (zlen out <? zlen x); [apply agree_refl|]. cbn [h_untransform h h' be_dds_handler].
  apply agree_bind; [exact (be_mixed_undds v x out)|intros; apply agree_refl].
Qed.
Lemma be_m_files : forall o ip op x out b fs w,
  agree (transform_file_with_handler o h ip op b fs w) (transform_file_with_handler o h' ip op b fs w) /\
  agree (untransform_file_with_handler o h ip op fs w) (untransform_file_with_handler o h' ip op fs w) /\
  agree (transform_file_to_slice_with_handler o h ip out b fs w) (transform_file_to_slice_with_handler o h' ip out b fs w) /\
  agree (untransform_file_to_slice_with_handler o h ip out fs w) (untransform_file_to_slice_with_handler o h' ip out fs w) /\
  agree (transform_slice_to_file_with_handler o h x op b fs w) (transform_slice_to_file_with_handler o h' x op b fs w) /\
  agree (untransform_slice_to_file_with_handler o h x op fs w) (untransform_slice_to_file_with_handler o h' x op fs w).
Proof.
  intros o ip op x out b fs w. split; [|split; [|split; [|split; [|split]]]].
  - unfold transform_file_with_handler. destruct (map_input o fs ip); [|left; reflexivity]. apply new_file_agree. intros. apply be_m_slice.
  - unfold untransform_file_with_handler. destruct (map_input o fs ip); [|left; reflexivity]. apply new_file_agree. intros. apply be_m_unslice.
  - unfold transform_file_to_slice_with_handler. destruct (map_input o fs ip); [|left; reflexivity]. apply prefix_agree. intros. apply be_m_slice.
  - unfold untransform_file_to_slice_with_handler. destruct (map_input o fs ip); [|left; reflexivity]. apply prefix_agree. intros. apply be_m_unslice.
  - unfold transform_slice_to_file_with_handler. apply new_file_agree. intros. apply be_m_slice.
  - unfold untransform_slice_to_file_with_handler. apply new_file_agree. intros. apply be_m_unslice.
Qed.
End Files.
End Mixed.
