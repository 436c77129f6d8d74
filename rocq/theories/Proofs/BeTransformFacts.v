(** Proofs/TransformFacts.v for a big-endian machine (generated by tools/gen_be.py). *)
From Verif Require Import Base.Bytes Base.Res Model.Color565 Model.Ycc Model.Kernel Model.Transform
  Model.GenBeBc1Std Model.GenBeBc1Rec Model.GenBeBc1Sc Model.GenBeBc1Scr
  Model.GenBeBc2Std Model.GenBeBc2Rec Model.GenBeBc2Sc Model.GenBeBc2Scr
  Model.GenBeBc3Std Model.GenBeBc3Rec Model.GenBeBc3Sc Model.GenBeBc3Scr
  Model.GenBeBc3Sa Model.GenBeBc3Sar Model.GenBeBc3Sac Model.GenBeBc3Sacr
  Model.BeTransform
  Proofs.KernelCheck Proofs.KernelLoop Proofs.KernelFun Proofs.Shapes Proofs.BeShapes Spec.YCoCg Spec.Layout Spec.BigEndian
  Proofs.LayoutFacts Proofs.ShapeLayout Proofs.Families Proofs.BeFamilies Proofs.KBc1ScrU Proofs.TransformFacts
  Proofs.KBeBc1Std Proofs.KBeBc1Rec Proofs.KBeBc1Sc Proofs.KBeBc1Scr Proofs.KBeBc2Std Proofs.KBeBc2Rec Proofs.KBeBc2Sc Proofs.KBeBc2Scr Proofs.KBeBc3Std Proofs.KBeBc3Rec Proofs.KBeBc3Sc Proofs.KBeBc3Scr Proofs.KBeBc3Sa Proofs.KBeBc3Sar Proofs.KBeBc3Sac Proofs.KBeBc3Sacr Proofs.KBeBc1ScrU.
From Coq Require Import ZifyBool ZifyNat.

Section Bc1.
Variables (c : cfg) (s : settings) (a b N : Z) (m : mem).
Hypotheses (K : cpu_ok c)
  (Ha : 0 <= a) (Hb : 0 <= b) (HN : 0 <= N)
  (Hi : a + 8 * N <= zlen (m_in m)) (Ho : b + 8 * N <= zlen (m_out m)).

Lemma be_transform_bc1_ptr : be_transform_bc1_with_settings c (Ptr BIn a) (Ptr BOut b) (8 * N) s m =
  Ok (Mem (m_in m) (m_aux m) (splice (m_out m) b (be_bc1_layout (decorrelation_mode s) (split_colour_endpoints s) (slice (m_in m) a (8 * N))))).
Proof.
  destruct s as [v sp]. cbn [decorrelation_mode split_colour_endpoints] in *. unfold be_transform_bc1_with_settings.
  cbn [decorrelation_mode split_colour_endpoints]. replace (8 * N mod 8 =? 0) with true by lia.
  rewrite debug_assert_t. cbn [bind]. cbv zeta.
  destruct sp.
  { destruct (variant_eqb v VNone) eqn:EV; cbn [negb].
    { destruct v; try discriminate EV. kernel (be_bc1_sc_t_transform_with_split_colour_ok c) be_fam_bc1_sc a b N m. fin_t a N m. }
    { assert (VO : vok v = true) by (destruct v; [discriminate EV|reflexivity..]). kernel (be_bc1_scr_t_transform_with_split_colour_and_recorr_ok c v) (be_fam_bc1_scr v) a b N m. fin_t a N m. } }
  { destruct (variant_eqb v VNone) eqn:EV; cbn [negb].
    { destruct v; try discriminate EV. kernel (be_bc1_std_t_transform_ok c) be_fam_bc1_std a b N m. fin_t a N m. }
    { assert (VO : vok v = true) by (destruct v; [discriminate EV|reflexivity..]). kernel (be_bc1_rec_t_transform_with_decorrelate_ok c v) (be_fam_bc1_rec v) a b N m. fin_t a N m. } }
Qed.

Lemma be_untransform_bc1_ptr : exists y, be_untransform_bc1_with_settings c (Ptr BIn a) (Ptr BOut b) (8 * N) s m =
  Ok (Mem (m_in m) (m_aux m) (splice (m_out m) b y)) /\
  inverse_of 8 (be_bc1_fields (decorrelation_mode s) (split_colour_endpoints s)) (slice (m_in m) a (8 * N)) y.
Proof.
  destruct s as [v sp]. cbn [decorrelation_mode split_colour_endpoints] in *. unfold be_untransform_bc1_with_settings.
  cbn [decorrelation_mode split_colour_endpoints]. replace (8 * N mod 8 =? 0) with true by lia.
  rewrite debug_assert_t. cbn [bind]. cbv zeta.
  destruct sp.
  { destruct (variant_eqb v VNone) eqn:EV; cbn [negb].
    { destruct v; try discriminate EV. kernel (be_bc1_sc_u_untransform_with_split_colour_ok c) be_fam_bc1_sc a b N m. fin_u a N m. }
    { assert (VO : vok v = true) by (destruct v; [discriminate EV|reflexivity..]). kernel (be_bc1_scr_u_untransform_ok c v) (be_fam_bc1_scr v) a b N m. fin_u a N m. } }
  { destruct (variant_eqb v VNone) eqn:EV; cbn [negb].
    { destruct v; try discriminate EV. kernel (be_bc1_std_u_untransform_ok c) be_fam_bc1_std a b N m. fin_u a N m. }
    { assert (VO : vok v = true) by (destruct v; [discriminate EV|reflexivity..]). kernel (be_bc1_rec_u_untransform_with_recorrelate_ok c v) (be_fam_bc1_rec v) a b N m. fin_u a N m. } }
Qed.

End Bc1.

Section Bc2.
Variables (c : cfg) (s : settings) (a b N : Z) (m : mem).
Hypotheses (K : cpu_ok c)
  (Ha : 0 <= a) (Hb : 0 <= b) (HN : 0 <= N)
  (Hi : a + 16 * N <= zlen (m_in m)) (Ho : b + 16 * N <= zlen (m_out m)).

Lemma be_transform_bc2_ptr : be_transform_bc2_with_settings c (Ptr BIn a) (Ptr BOut b) (16 * N) s m =
  Ok (Mem (m_in m) (m_aux m) (splice (m_out m) b (be_bc2_layout (decorrelation_mode s) (split_colour_endpoints s) (slice (m_in m) a (16 * N))))).
Proof.
  destruct s as [v sp]. cbn [decorrelation_mode split_colour_endpoints] in *. unfold be_transform_bc2_with_settings.
  cbn [decorrelation_mode split_colour_endpoints]. replace (16 * N mod 16 =? 0) with true by lia.
  rewrite debug_assert_t. cbn [bind]. cbv zeta.
  destruct sp.
  { destruct (variant_eqb v VNone) eqn:EV; cbn [negb].
    { destruct v; try discriminate EV. kernel (be_bc2_sc_t_transform_with_split_colour_ok c) be_fam_bc2_sc a b N m. fin_t a N m. }
    { assert (VO : vok v = true) by (destruct v; [discriminate EV|reflexivity..]). kernel (be_bc2_scr_t_transform_with_split_colour_and_recorr_ok c v) (be_fam_bc2_scr v) a b N m. fin_t a N m. } }
  { destruct (variant_eqb v VNone) eqn:EV; cbn [negb].
    { destruct v; try discriminate EV. kernel (be_bc2_std_t_transform_ok c) be_fam_bc2_std a b N m. fin_t a N m. }
    { assert (VO : vok v = true) by (destruct v; [discriminate EV|reflexivity..]). kernel (be_bc2_rec_t_transform_with_decorrelate_ok c v) (be_fam_bc2_rec v) a b N m. fin_t a N m. } }
Qed.

Lemma be_untransform_bc2_ptr : exists y, be_untransform_bc2_with_settings c (Ptr BIn a) (Ptr BOut b) (16 * N) s m =
  Ok (Mem (m_in m) (m_aux m) (splice (m_out m) b y)) /\
  inverse_of 16 (be_bc2_fields (decorrelation_mode s) (split_colour_endpoints s)) (slice (m_in m) a (16 * N)) y.
Proof.
  destruct s as [v sp]. cbn [decorrelation_mode split_colour_endpoints] in *. unfold be_untransform_bc2_with_settings.
  cbn [decorrelation_mode split_colour_endpoints]. replace (16 * N mod 16 =? 0) with true by lia.
  rewrite debug_assert_t. cbn [bind]. cbv zeta.
  destruct sp.
  { destruct (variant_eqb v VNone) eqn:EV; cbn [negb].
    { destruct v; try discriminate EV. kernel (be_bc2_sc_u_untransform_with_split_colour_ok c) be_fam_bc2_sc a b N m. fin_u a N m. }
    { assert (VO : vok v = true) by (destruct v; [discriminate EV|reflexivity..]). kernel (be_bc2_scr_u_untransform_with_split_colour_and_recorr_ok c v) (be_fam_bc2_scr v) a b N m. fin_u a N m. } }
  { destruct (variant_eqb v VNone) eqn:EV; cbn [negb].
    { destruct v; try discriminate EV. kernel (be_bc2_std_u_untransform_ok c) be_fam_bc2_std a b N m. fin_u a N m. }
    { assert (VO : vok v = true) by (destruct v; [discriminate EV|reflexivity..]). kernel (be_bc2_rec_u_untransform_with_recorrelate_ok c v) (be_fam_bc2_rec v) a b N m. fin_u a N m. } }
Qed.

End Bc2.

Section Bc3.
Variables (c : cfg) (s : settings3) (a b N : Z) (m : mem).
Hypotheses (K : cpu_ok c)
  (Ha : 0 <= a) (Hb : 0 <= b) (HN : 0 <= N)
  (Hi : a + 16 * N <= zlen (m_in m)) (Ho : b + 16 * N <= zlen (m_out m)).

Lemma be_transform_bc3_ptr : be_transform_bc3_with_settings c (Ptr BIn a) (Ptr BOut b) (16 * N) s m =
  Ok (Mem (m_in m) (m_aux m) (splice (m_out m) b (be_bc3_layout (decorrelation_mode3 s) (split_alpha_endpoints s) (split_colour_endpoints3 s) (slice (m_in m) a (16 * N))))).
Proof.
  destruct s as [v sa sp]. cbn [decorrelation_mode3 split_alpha_endpoints split_colour_endpoints3] in *. unfold be_transform_bc3_with_settings.
  cbn [decorrelation_mode3 split_alpha_endpoints split_colour_endpoints3]. replace (16 * N mod 16 =? 0) with true by lia.
  rewrite debug_assert_t. cbn [bind]. cbv zeta.
  destruct sa; destruct sp.
  { destruct (variant_eqb v VNone) eqn:EV; cbn [negb].
    { destruct v; try discriminate EV. kernel (be_bc3_sac_t_transform_with_split_alphas_and_colour_ok c) be_fam_bc3_sac a b N m. fin_t a N m. }
    { assert (VO : vok v = true) by (destruct v; [discriminate EV|reflexivity..]). kernel (be_bc3_sacr_t_transform_with_split_alphas_colour_and_recorr_ok c v) (be_fam_bc3_sacr v) a b N m. fin_t a N m. } }
  { destruct (variant_eqb v VNone) eqn:EV; cbn [negb].
    { destruct v; try discriminate EV. kernel (be_bc3_sa_t_transform_with_split_alphas_ok c) be_fam_bc3_sa a b N m. fin_t a N m. }
    { assert (VO : vok v = true) by (destruct v; [discriminate EV|reflexivity..]). kernel (be_bc3_sar_t_transform_with_split_alphas_and_recorr_ok c v) (be_fam_bc3_sar v) a b N m. fin_t a N m. } }
  { destruct (variant_eqb v VNone) eqn:EV; cbn [negb].
    { destruct v; try discriminate EV. kernel (be_bc3_sc_t_transform_with_split_colour_ok c) be_fam_bc3_sc a b N m. fin_t a N m. }
    { assert (VO : vok v = true) by (destruct v; [discriminate EV|reflexivity..]). kernel (be_bc3_scr_t_transform_with_split_colour_and_recorr_ok c v) (be_fam_bc3_scr v) a b N m. fin_t a N m. } }
  { destruct (variant_eqb v VNone) eqn:EV; cbn [negb].
    { destruct v; try discriminate EV. kernel (be_bc3_std_t_transform_ok c) be_fam_bc3_std a b N m. fin_t a N m. }
    { assert (VO : vok v = true) by (destruct v; [discriminate EV|reflexivity..]). kernel (be_bc3_rec_t_transform_with_decorrelate_ok c v) (be_fam_bc3_rec v) a b N m. fin_t a N m. } }
Qed.

Lemma be_untransform_bc3_ptr : exists y, be_untransform_bc3_with_settings c (Ptr BIn a) (Ptr BOut b) (16 * N) s m =
  Ok (Mem (m_in m) (m_aux m) (splice (m_out m) b y)) /\
  inverse_of 16 (be_bc3_fields (decorrelation_mode3 s) (split_alpha_endpoints s) (split_colour_endpoints3 s)) (slice (m_in m) a (16 * N)) y.
Proof.
  destruct s as [v sa sp]. cbn [decorrelation_mode3 split_alpha_endpoints split_colour_endpoints3] in *. unfold be_untransform_bc3_with_settings.
  cbn [decorrelation_mode3 split_alpha_endpoints split_colour_endpoints3]. replace (16 * N mod 16 =? 0) with true by lia.
  rewrite debug_assert_t. cbn [bind]. cbv zeta.
  destruct sa; destruct sp.
  { destruct (variant_eqb v VNone) eqn:EV; cbn [negb].
    { destruct v; try discriminate EV. kernel (be_bc3_sac_u_untransform_with_split_alphas_and_colour_ok c) be_fam_bc3_sac a b N m. fin_u a N m. }
    { assert (VO : vok v = true) by (destruct v; [discriminate EV|reflexivity..]). kernel (be_bc3_sacr_u_untransform_with_split_alphas_colour_and_recorr_ok c v) (be_fam_bc3_sacr v) a b N m. fin_u a N m. } }
  { destruct (variant_eqb v VNone) eqn:EV; cbn [negb].
    { destruct v; try discriminate EV. kernel (be_bc3_sa_u_untransform_with_split_alphas_ok c) be_fam_bc3_sa a b N m. fin_u a N m. }
    { assert (VO : vok v = true) by (destruct v; [discriminate EV|reflexivity..]). kernel (be_bc3_sar_u_untransform_with_split_alphas_and_recorr_ok c v) (be_fam_bc3_sar v) a b N m. fin_u a N m. } }
  { destruct (variant_eqb v VNone) eqn:EV; cbn [negb].
    { destruct v; try discriminate EV. kernel (be_bc3_sc_u_untransform_with_split_colour_ok c) be_fam_bc3_sc a b N m. fin_u a N m. }
    { assert (VO : vok v = true) by (destruct v; [discriminate EV|reflexivity..]). kernel (be_bc3_scr_u_untransform_with_split_colour_and_recorr_ok c v) (be_fam_bc3_scr v) a b N m. fin_u a N m. } }
  { destruct (variant_eqb v VNone) eqn:EV; cbn [negb].
    { destruct v; try discriminate EV. kernel (be_bc3_std_u_untransform_ok c) be_fam_bc3_std a b N m. fin_u a N m. }
    { assert (VO : vok v = true) by (destruct v; [discriminate EV|reflexivity..]). kernel (be_bc3_rec_u_untransform_with_recorrelate_ok c v) (be_fam_bc3_rec v) a b N m. fin_u a N m. } }
Qed.

End Bc3.

