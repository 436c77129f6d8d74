(** Debug builds on a big-endian machine do what release builds do, or panic. *)
From Verif Require Import Base.Bytes Base.Res Model.Color565 Model.Ycc Model.Kernel Model.Transform Model.Auto Model.Builders Model.Embed Model.Bundle Model.Dds Model.Handlers
  Model.BigEndian Model.BeTransform Model.BeFiles
  Proofs.KernelCheck Proofs.KernelLoop Proofs.KernelFun Proofs.Shapes Spec.YCoCg Spec.Layout Spec.BigEndian Spec.Files Spec.Release
  Proofs.LayoutFacts Proofs.ShapeLayout Proofs.Families Proofs.BeFamilies Proofs.BeTransformFacts Proofs.TransformFacts Proofs.SliceFacts Proofs.BeSliceFacts
  Proofs.TransformProps Proofs.ReleaseFacts.
From Coq Require Import ZifyBool ZifyNat.

Section Ptr.
Variables (c : cfg) (m : mem) (N : Z).
Hypotheses (K : cpu_ok c) (HN : 0 <= N).
Let r := release_build c.
Lemma be_release1 : forall s, 8 * N <= zlen (m_in m) -> 8 * N <= zlen (m_out m) ->
  be_transform_bc1_with_settings r (Ptr BIn 0) (Ptr BOut 0) (8 * N) s m =
  Ok (Mem (m_in m) (m_aux m) (splice (m_out m) 0 (be_bc1_layout (decorrelation_mode s) (split_colour_endpoints s) (slice (m_in m) 0 (8 * N))))).
Proof. intros s Hi Ho. apply be_transform_bc1_ptr; first [exact (release_ok c K) | lia]. Qed.
Lemma be_same1 : forall s, 8 * N <= zlen (m_in m) -> 8 * N <= zlen (m_out m) ->
  be_transform_bc1_with_settings c (Ptr BIn 0) (Ptr BOut 0) (8 * N) s m = be_transform_bc1_with_settings r (Ptr BIn 0) (Ptr BOut 0) (8 * N) s m.
Proof. intros s Hi Ho. rewrite (be_release1 s Hi Ho). apply be_transform_bc1_ptr; first [exact K | lia]. Qed.
Lemma be_unsame1 : forall s, 8 * N <= zlen (m_in m) -> 8 * N <= zlen (m_out m) ->
  be_untransform_bc1_with_settings c (Ptr BIn 0) (Ptr BOut 0) (8 * N) s m = be_untransform_bc1_with_settings r (Ptr BIn 0) (Ptr BOut 0) (8 * N) s m.
Proof.
  intros s Hi Ho.
  destruct (be_untransform_bc1_ptr r s 0 0 N m (release_ok c K)) as (y & -> & Y); [lia..|].
  destruct (be_untransform_bc1_ptr c s 0 0 N m K) as (y' & -> & Y'); [lia..|].
  destruct (be_bc1_fam (decorrelation_mode s) (split_colour_endpoints s)) as (sht & shu & FM).
  rewrite (same_inverse _ _ _ _ _ _ _ y' y FM ltac:(lia) (whole_blocks 8 _ (m_in m) N ltac:(lia) eq_refl HN Hi) Y' Y).
  reflexivity.
Qed.
Lemma be_release2 : forall s, 16 * N <= zlen (m_in m) -> 16 * N <= zlen (m_out m) ->
  be_transform_bc2_with_settings r (Ptr BIn 0) (Ptr BOut 0) (16 * N) s m =
  Ok (Mem (m_in m) (m_aux m) (splice (m_out m) 0 (be_bc2_layout (decorrelation_mode s) (split_colour_endpoints s) (slice (m_in m) 0 (16 * N))))).
Proof. intros s Hi Ho. apply be_transform_bc2_ptr; first [exact (release_ok c K) | lia]. Qed.
Lemma be_same2 : forall s, 16 * N <= zlen (m_in m) -> 16 * N <= zlen (m_out m) ->
  be_transform_bc2_with_settings c (Ptr BIn 0) (Ptr BOut 0) (16 * N) s m = be_transform_bc2_with_settings r (Ptr BIn 0) (Ptr BOut 0) (16 * N) s m.
Proof. intros s Hi Ho. rewrite (be_release2 s Hi Ho). apply be_transform_bc2_ptr; first [exact K | lia]. Qed.
Lemma be_unsame2 : forall s, 16 * N <= zlen (m_in m) -> 16 * N <= zlen (m_out m) ->
  be_untransform_bc2_with_settings c (Ptr BIn 0) (Ptr BOut 0) (16 * N) s m = be_untransform_bc2_with_settings r (Ptr BIn 0) (Ptr BOut 0) (16 * N) s m.
Proof.
  intros s Hi Ho.
  destruct (be_untransform_bc2_ptr r s 0 0 N m (release_ok c K)) as (y & -> & Y); [lia..|].
  destruct (be_untransform_bc2_ptr c s 0 0 N m K) as (y' & -> & Y'); [lia..|].
  destruct (be_bc2_fam (decorrelation_mode s) (split_colour_endpoints s)) as (sht & shu & FM).
  rewrite (same_inverse _ _ _ _ _ _ _ y' y FM ltac:(lia) (whole_blocks 16 _ (m_in m) N ltac:(lia) eq_refl HN Hi) Y' Y).
  reflexivity.
Qed.
Lemma be_release3 : forall s, 16 * N <= zlen (m_in m) -> 16 * N <= zlen (m_out m) ->
  be_transform_bc3_with_settings r (Ptr BIn 0) (Ptr BOut 0) (16 * N) s m =
  Ok (Mem (m_in m) (m_aux m) (splice (m_out m) 0 (be_bc3_layout (decorrelation_mode3 s) (split_alpha_endpoints s) (split_colour_endpoints3 s) (slice (m_in m) 0 (16 * N))))).
Proof. intros s Hi Ho. apply be_transform_bc3_ptr; first [exact (release_ok c K) | lia]. Qed.
Lemma be_same3 : forall s, 16 * N <= zlen (m_in m) -> 16 * N <= zlen (m_out m) ->
  be_transform_bc3_with_settings c (Ptr BIn 0) (Ptr BOut 0) (16 * N) s m = be_transform_bc3_with_settings r (Ptr BIn 0) (Ptr BOut 0) (16 * N) s m.
Proof. intros s Hi Ho. rewrite (be_release3 s Hi Ho). apply be_transform_bc3_ptr; first [exact K | lia]. Qed.
Lemma be_unsame3 : forall s, 16 * N <= zlen (m_in m) -> 16 * N <= zlen (m_out m) ->
  be_untransform_bc3_with_settings c (Ptr BIn 0) (Ptr BOut 0) (16 * N) s m = be_untransform_bc3_with_settings r (Ptr BIn 0) (Ptr BOut 0) (16 * N) s m.
Proof.
  intros s Hi Ho.
  destruct (be_untransform_bc3_ptr r s 0 0 N m (release_ok c K)) as (y & -> & Y); [lia..|].
  destruct (be_untransform_bc3_ptr c s 0 0 N m K) as (y' & -> & Y'); [lia..|].
  destruct (be_bc3_fam (decorrelation_mode3 s) (split_alpha_endpoints s) (split_colour_endpoints3 s)) as (sht & shu & FM).
  rewrite (same_inverse _ _ _ _ _ _ _ y' y FM ltac:(lia) (whole_blocks 16 _ (m_in m) N ltac:(lia) eq_refl HN Hi) Y' Y).
  reflexivity.
Qed.
End Ptr.

(** ** Slices *)
Lemma checked_same : forall blk run run' x out, 0 < blk ->
  (forall N, 0 <= N -> zlen x = blk * N -> zlen x <= zlen out ->
     run (Ptr BIn 0) (Ptr BOut 0) (blk * N) (Mem x [] out) = run' (Ptr BIn 0) (Ptr BOut 0) (blk * N) (Mem x [] out)) ->
  checked blk run x out = checked blk run' x out.
Proof.
  intros blk run run' x out Hb H. unfold checked.
  destruct (zlen x mod blk =? 0) eqn:M; cbn [negb]; [|reflexivity].
  destruct (zlen out <? zlen x) eqn:L; [reflexivity|].
  pose proof (zlen_nonneg _ x). assert (E : zlen x = blk * (zlen x / blk)) by (pose proof (Z.div_mod (zlen x) blk ltac:(lia)); lia).
  rewrite E. rewrite (H (zlen x / blk)); [reflexivity|apply Z.div_pos; lia|exact E|lia].
Qed.
Lemma be_slice1 : forall c s x out, cpu_ok c -> be_transform_bc1 c s x out = be_transform_bc1 (release_build c) s x out.
Proof. intros c s x out K. apply checked_same; [lia|]. intros N HN E L. apply be_same1; cbn [m_in m_out]; first [exact K | lia]. Qed.
Lemma be_unslice1 : forall c s x out, cpu_ok c -> be_untransform_bc1 c s x out = be_untransform_bc1 (release_build c) s x out.
Proof. intros c s x out K. apply checked_same; [lia|]. intros N HN E L. apply be_unsame1; cbn [m_in m_out]; first [exact K | lia]. Qed.
Lemma be_slice2 : forall c s x out, cpu_ok c -> be_transform_bc2 c s x out = be_transform_bc2 (release_build c) s x out.
Proof. intros c s x out K. apply checked_same; [lia|]. intros N HN E L. apply be_same2; cbn [m_in m_out]; first [exact K | lia]. Qed.
Lemma be_unslice2 : forall c s x out, cpu_ok c -> be_untransform_bc2 c s x out = be_untransform_bc2 (release_build c) s x out.
Proof. intros c s x out K. apply checked_same; [lia|]. intros N HN E L. apply be_unsame2; cbn [m_in m_out]; first [exact K | lia]. Qed.
Lemma be_slice3 : forall c s x out, cpu_ok c -> be_transform_bc3 c s x out = be_transform_bc3 (release_build c) s x out.
Proof. intros c s x out K. apply checked_same; [lia|]. intros N HN E L. apply be_same3; cbn [m_in m_out]; first [exact K | lia]. Qed.
Lemma be_unslice3 : forall c s x out, cpu_ok c -> be_untransform_bc3 c s x out = be_untransform_bc3 (release_build c) s x out.
Proof. intros c s x out K. apply checked_same; [lia|]. intros N HN E L. apply be_unsame3; cbn [m_in m_out]; first [exact K | lia]. Qed.

(** ** The automatic transforms *)
Section AutoAgree.
Context {St Er : Type}.
Variables (c : cfg) (v : Auto.env) (e : estimator St Er).
Lemma be_auto1 : forall all x out st, cpu_ok c -> agree (be_transform_bc1_auto c v e all x out st) (be_transform_bc1_auto (release_build c) v e all x out st).
Proof.
  intros all x out st K. apply auto_checked_agree; [lia|]. intros N HN E L. unfold be_transform_bc1_auto_ptr.
  apply (search_agree v e _ _ _ _ _ _ _ _ _ (sized (8 * N) (8 * N))).
  - intros s m (A & B). left. apply be_same1; assumption.
  - intros s m m' (A & B) Q. rewrite (be_release1 c m N K HN s A B) in Q. apply ok_inj in Q. subst m'. apply len_kept; [split; assumption|].
    destruct (be_bc1_fam (decorrelation_mode s) (split_colour_endpoints s)) as (sht & shu & FM).
    unfold be_bc1_layout, zlen. rewrite (fam_len _ _ _ _ _ _ FM ltac:(lia)) by (apply (whole_blocks 8); [lia|reflexivity|lia..]).
    pose proof (zlen_slice _ (m_in m) 0 (8 * N)) as Z. unfold zlen in Z at 2. lia.
  - intros. apply agree_refl.
  - split; cbn [m_in m_out]; lia.
Qed.
Lemma be_auto2 : forall all x out st, cpu_ok c -> agree (be_transform_bc2_auto c v e all x out st) (be_transform_bc2_auto (release_build c) v e all x out st).
Proof.
  intros all x out st K. apply auto_checked_agree; [lia|]. intros N HN E L. unfold be_transform_bc2_auto_ptr.
  apply (search_agree v e _ _ _ _ _ _ _ _ _ (sized (16 * N) (16 * N))).
  - intros s m (A & B). left. apply be_same2; assumption.
  - intros s m m' (A & B) Q. rewrite (be_release2 c m N K HN s A B) in Q. apply ok_inj in Q. subst m'. apply len_kept; [split; assumption|].
    destruct (be_bc2_fam (decorrelation_mode s) (split_colour_endpoints s)) as (sht & shu & FM).
    unfold be_bc2_layout, zlen. rewrite (fam_len _ _ _ _ _ _ FM ltac:(lia)) by (apply (whole_blocks 16); [lia|reflexivity|lia..]).
    pose proof (zlen_slice _ (m_in m) 0 (16 * N)) as Z. unfold zlen in Z at 2. lia.
  - intros. apply agree_refl.
  - split; cbn [m_in m_out]; lia.
Qed.
Lemma be_auto3 : forall all x out st, cpu_ok c -> agree (be_transform_bc3_auto c v e all x out st) (be_transform_bc3_auto (release_build c) v e all x out st).
Proof.
  intros all x out st K. apply auto_checked_agree; [lia|]. intros N HN E L. unfold be_transform_bc3_auto_ptr.
  apply (search_agree v e _ _ _ _ _ _ _ _ _ (sized (16 * N) (16 * N))).
  - intros s m (A & B). left. apply be_same3; assumption.
  - intros s m m' (A & B) Q. rewrite (be_release3 c m N K HN s A B) in Q. apply ok_inj in Q. subst m'. apply len_kept; [split; assumption|].
    destruct (be_bc3_fam (decorrelation_mode3 s) (split_alpha_endpoints s) (split_colour_endpoints3 s)) as (sht & shu & FM).
    unfold be_bc3_layout, zlen. rewrite (fam_len _ _ _ _ _ _ FM ltac:(lia)) by (apply (whole_blocks 16); [lia|reflexivity|lia..]).
    pose proof (zlen_slice _ (m_in m) 0 (16 * N)) as Z. unfold zlen in Z at 2. lia.
  - intros z m st' _. unfold estimate_bc3. apply agree_bind; [apply agree_refl|]. intros [[a|er] st1] _; [|apply agree_refl].
    apply agree_bind; [apply agree_refl|]. intros p _. apply agree_bind; [apply agree_refl|]. intros [[b|er] st2] _; [|apply agree_refl].
    cbv zeta. destruct (a + b <=? usize_max v); [apply agree_refl|]. destruct (c_debug c); [apply agree_panic|apply agree_refl].
  - split; cbn [m_in m_out]; lia.
Qed.
End AutoAgree.

(** ** Files *)
Lemma be_core_agree : forall k c s x out, cpu_ok c -> agree (be_core_transform k c s x out) (be_core_transform k (release_build c) s x out).
Proof. intros [] c s x out K; left; [apply be_slice1; exact K|apply be_slice2; exact K]. Qed.
Lemma be_core_auto_agree : forall St Er k c v (e : estimator St Er) all x out st, cpu_ok c ->
  agree (be_core_auto k c v e all x out st) (be_core_auto k (release_build c) v e all x out st).
Proof. intros St Er [] c v e all x out st K; [apply be_auto1; exact K|apply be_auto2; exact K]. Qed.
Lemma be_dispatch_agree : forall St Er (show : Er -> string) c v (t : bundle St Er) f x out st, cpu_ok c ->
  agree (be_dispatch_transform show c v t f x out st) (be_dispatch_transform show (release_build c) v t f x out st).
Proof.
  intros St Er show c v t f x out st K. unfold be_dispatch_transform. destruct (zlen out <? zlen x); [apply agree_refl|]. cbv zeta.
  assert (D : forall k b, agree (be_transform_slice_with_details show k c v b x out st) (be_transform_slice_with_details show k (release_build c) v b x out st)).
  { intros k [b|b]; unfold be_transform_slice_with_details; cbv zeta.
    - apply agree_bind; [|intros; apply agree_refl]. unfold be_manual_transform. apply agree_bind; [apply be_core_agree; exact K|intros; apply agree_refl].
    - apply agree_bind; [|intros; apply agree_refl]. unfold be_auto_transform. apply agree_bind; [apply be_core_auto_agree; exact K|intros; apply agree_refl]. }
  destruct f; try apply agree_refl; [destruct (b_bc1 t)|destruct (b_bc2 t)]; try apply agree_refl; (apply agree_bind; [apply D|intros; apply agree_refl]).
Qed.
Lemma be_undispatch_agree : forall c h x out, cpu_ok c -> agree (be_dispatch_untransform c h x out) (be_dispatch_untransform (release_build c) h x out).
Proof.
  intros c h x out K. unfold be_dispatch_untransform. destruct (zlen out <? zlen x) eqn:L; [apply agree_refl|]. cbv zeta.
  pose proof (zlen_nonneg _ x).
  destruct (header_format h) as [[]|]; try apply agree_refl.
  - destruct (from_header bc1_details h); [|apply agree_refl]. cbn [codec_block]. destruct (zlen x mod 8 =? 0) eqn:M; cbn [negb]; [|apply agree_refl].
    apply agree_bind; [|intros; apply agree_refl]. cbn [be_core_untransform_ptr].
    assert (E : zlen x = 8 * (zlen x / 8)) by (pose proof (Z.div_mod (zlen x) 8 ltac:(lia)); lia). rewrite E.
    left. apply be_unsame1; cbn [m_in m_out]; first [exact K | lia].
  - destruct (from_header bc2_details h); [|apply agree_refl]. cbn [codec_block]. destruct (zlen x mod 16 =? 0) eqn:M; cbn [negb]; [|apply agree_refl].
    apply agree_bind; [|intros; apply agree_refl]. cbn [be_core_untransform_ptr].
    assert (E : zlen x = 16 * (zlen x / 16)) by (pose proof (Z.div_mod (zlen x) 16 ltac:(lia)); lia). rewrite E.
    left. apply be_unsame2; cbn [m_in m_out]; first [exact K | lia].
Qed.
Lemma be_dds_agree : forall St Er (show : Er -> string) c v (t : bundle St Er) x out st, cpu_ok c ->
  agree (be_dds_transform_bundle show c v t x out st) (be_dds_transform_bundle show (release_build c) v t x out st).
Proof.
  intros St Er show c v t x out st K. unfold be_dds_transform_bundle. destruct (zlen out <? zlen x); [apply agree_refl|].
  apply agree_bind; [apply parse_agree|]. intros [i|] _; [|apply agree_refl]. cbv zeta.
  apply agree_bind; [apply add_agree|]. intros n _. destruct (zlen x <? n); [apply agree_refl|].
  apply agree_bind; [apply agree_refl|]. intros hd _. apply agree_bind; [apply agree_refl|]. intros o _.
  destruct (dds_format_to_transform_format (i_format i) false); [|apply agree_refl].
  apply agree_bind; [apply add_agree|]. intros n2 _. do 2 (apply agree_bind; [apply agree_refl|]; intros ? _).
  apply agree_bind; [apply be_dispatch_agree; exact K|]. intros; apply agree_refl.
Qed.
Lemma be_undds_agree : forall c v x out, cpu_ok c -> agree (be_dds_untransform c v x out) (be_dds_untransform (release_build c) v x out).
Proof.
  intros c v x out K. unfold be_dds_untransform. destruct (zlen x <? 4); [apply agree_refl|]. destruct (zlen out <? zlen x); [apply agree_refl|]. cbv zeta.
  apply agree_bind; [apply parse_ignore_agree|]. intros [i|] _; [|apply agree_refl].
  apply agree_bind; [apply add_agree|]. intros n _. destruct (zlen x <? n); [apply agree_refl|].
  do 3 (apply agree_bind; [apply agree_refl|]; intros ? _). apply agree_bind; [apply add_agree|]. intros n2 _.
  do 2 (apply agree_bind; [apply agree_refl|]; intros ? _).
  apply agree_bind; [apply be_undispatch_agree; exact K|]. intros; apply agree_refl.
Qed.

Section FilesAgree.
Context {St Er : Type}.
Variables (show : Er -> string) (c : cfg) (v : Auto.env).
Hypothesis (K : cpu_ok c).
Let h := @be_dds_handler St Er show c v.
Let h' := @be_dds_handler St Er show (release_build c) v.
Lemma be_h_slice : forall x out b w, agree (transform_slice_with_bundle h x out b w) (transform_slice_with_bundle h' x out b w).
Proof. intros x out b w. unfold transform_slice_with_bundle. destruct (zlen out <? zlen x); [apply agree_refl|]. exact (be_dds_agree St Er show c v b x out w K). Qed.
Lemma be_h_unslice : forall x out w, agree (untransform_slice h x out w) (untransform_slice h' x out w).
Proof.
  intros x out w. unfold untransform_slice. destruct (zlen out <? zlen x); [apply agree_refl|]. cbn [h_untransform h h' be_dds_handler].
  apply agree_bind; [exact (be_undds_agree c v x out K)|intros; apply agree_refl].
Qed.
Lemma be_h_files : forall o ip op b fs w,
  agree (transform_file_with_handler o h ip op b fs w) (transform_file_with_handler o h' ip op b fs w) /\
  agree (untransform_file_with_handler o h ip op fs w) (untransform_file_with_handler o h' ip op fs w).
Proof.
  intros o ip op b fs w. unfold transform_file_with_handler, untransform_file_with_handler.
  destruct (map_input o fs ip); [|split; apply agree_refl]. split; apply new_file_agree; intros; [apply be_h_slice|apply be_h_unslice].
Qed.
Lemma be_h_to_slice : forall o ip out b fs w,
  agree (transform_file_to_slice_with_handler o h ip out b fs w) (transform_file_to_slice_with_handler o h' ip out b fs w) /\
  agree (untransform_file_to_slice_with_handler o h ip out fs w) (untransform_file_to_slice_with_handler o h' ip out fs w).
Proof.
  intros o ip out b fs w. unfold transform_file_to_slice_with_handler, untransform_file_to_slice_with_handler.
  destruct (map_input o fs ip); [|split; apply agree_refl]. split; apply prefix_agree; intros; [apply be_h_slice|apply be_h_unslice].
Qed.
Lemma be_h_from_slice : forall o x op b fs w,
  agree (transform_slice_to_file_with_handler o h x op b fs w) (transform_slice_to_file_with_handler o h' x op b fs w) /\
  agree (untransform_slice_to_file_with_handler o h x op fs w) (untransform_slice_to_file_with_handler o h' x op fs w).
Proof.
  intros o x op b fs w. unfold transform_slice_to_file_with_handler, untransform_slice_to_file_with_handler.
  split; apply new_file_agree; intros; [apply be_h_slice|apply be_h_unslice].
Qed.
End FilesAgree.

