(** The same on a big-endian machine (Proofs/OldContents.v). *)
From Verif Require Import Base.Bytes Base.Res Model.Color565 Model.Kernel Model.Transform Model.Auto Model.Builders Model.Embed Model.Bundle Model.Dds Model.BigEndian Model.BeTransform Model.BeFiles
  Spec.Layout Spec.BigEndian Spec.Estimator Spec.Files Spec.BeFiles Spec.OldContents Proofs.LayoutFacts Proofs.Families Proofs.TransformFacts Proofs.SliceFacts Proofs.TransformProps Proofs.AutoFacts Proofs.AutoProps Proofs.AutoTheorems Proofs.BundleFacts
  Proofs.BeFamilies Proofs.BeTransformFacts Proofs.BeSliceFacts Proofs.BeAutoProps Proofs.BeAutoTheorems Proofs.BeBundleFacts Proofs.OldContents.
From Coq Require Import ZifyBool ZifyNat.
Open Scope list_scope.
Open Scope Z_scope.

Section Autos.
Context {St Er : Type}.
Variables (c : cfg) (v : env) (e : estimator St Er) (all : bool) (x out1 out2 : list byte) (st : St).
Hypotheses (K : cpu_ok c).
Lemma be_old_bc1 : zlen x <= zlen out1 -> zlen x <= zlen out2 ->
  same_call (List.length x) (be_transform_bc1_auto c v e all x out1 st) (be_transform_bc1_auto c v e all x out2 st).
Proof.
  intros H1 H2. destruct (Z.eq_dec (zlen x mod 8) 0) as [M|M].
  - refine (auto_old _ _ _ v e _ (fun s => be_bc1_layout (decorrelation_mode s) (split_colour_endpoints s) x) _ out1 out2 _ _ _ _ _ st _
      (be_bc1_AUTO c v e all x out1 K M H1) (be_bc1_AUTO c v e all x out2 K M H2)).
    intros s. exact (be_layout_len CBc1 s x M).
  - rewrite (proj1 (be_lC15_bc1_auto_validation St Er c v e all x out1 st) M), (proj1 (be_lC15_bc1_auto_validation St Er c v e all x out2 st) M).
    cbn [same_call]. split; [reflexivity|]. split; [reflexivity|]. congruence.
Qed.
Lemma be_old_bc2 : zlen x <= zlen out1 -> zlen x <= zlen out2 ->
  same_call (List.length x) (be_transform_bc2_auto c v e all x out1 st) (be_transform_bc2_auto c v e all x out2 st).
Proof.
  intros H1 H2. destruct (Z.eq_dec (zlen x mod 16) 0) as [M|M].
  - refine (auto_old _ _ _ v e _ (fun s => be_bc2_layout (decorrelation_mode s) (split_colour_endpoints s) x) _ out1 out2 _ _ _ _ _ st _
      (be_bc2_AUTO c v e all x out1 K M H1) (be_bc2_AUTO c v e all x out2 K M H2)).
    intros s. exact (be_layout_len CBc2 s x M).
  - rewrite (proj1 (be_lC15_bc2_auto_validation St Er c v e all x out1 st) M), (proj1 (be_lC15_bc2_auto_validation St Er c v e all x out2 st) M).
    cbn [same_call]. split; [reflexivity|]. split; [reflexivity|]. congruence.
Qed.
Lemma be_old_bc3 : zlen x <= zlen out1 -> zlen x <= zlen out2 -> (forall st d n z st', estimate_compressed_size e st d n = (ROk z, st') -> 2 * z <= usize_max v) ->
  same_call (List.length x) (be_transform_bc3_auto c v e all x out1 st) (be_transform_bc3_auto c v e all x out2 st).
Proof.
  intros H1 H2 B. destruct (Z.eq_dec (zlen x mod 16) 0) as [M|M].
  - refine (auto_old _ _ _ v e _ (fun s => be_bc3_layout (decorrelation_mode3 s) (split_alpha_endpoints s) (split_colour_endpoints3 s) x) _ out1 out2 _ _ _ _ _ st _
      (be_bc3_AUTO c v e all x out1 K B M H1) (be_bc3_AUTO c v e all x out2 K B M H2)).
    intros s. destruct (be_bc3_fam (decorrelation_mode3 s) (split_alpha_endpoints s) (split_colour_endpoints3 s)) as (sht & shu & FM).
    apply Nat2Z.inj. exact (lay_zlen _ _ _ _ _ _ x FM ltac:(lia) M).
  - rewrite (proj1 (be_lC15_bc3_auto_validation St Er c v e all x out1 st) M), (proj1 (be_lC15_bc3_auto_validation St Er c v e all x out2 st) M).
    cbn [same_call]. split; [reflexivity|]. split; [reflexivity|]. congruence.
Qed.
End Autos.

Section Dispatch.
Context {St Er : Type}.
Variables (show : Er -> string) (c : cfg) (v : env) (x out1 out2 : list byte) (st : St).
Hypotheses (K : cpu_ok c) (L : zlen out1 = zlen out2).

Lemma be_old_manual : forall k s, same_plain_call (List.length x) (be_core_transform k c s x out1) (be_core_transform k c s x out2).
Proof.
  intros k s. destruct (Z.eq_dec (zlen x mod codec_block k) 0) as [M|M].
  - destruct (Z_le_gt_dec (zlen x) (zlen out1)) as [G|G].
    + rewrite !be_core_transform_ok by (assumption || lia). cbn [same_plain_call]. split; [reflexivity|]. intros s0 _.
      rewrite <- (be_layout_len k s x M). rewrite !firstn_app, Nat.sub_diag, !firstn_O. reflexivity.
    + destruct k; cbn [be_core_transform codec_block] in *; unfold be_transform_bc1, be_transform_bc2, checked; rewrite <- L;
      [replace (zlen x mod 8 =? 0) with true by lia|replace (zlen x mod 16 =? 0) with true by lia]; cbn [negb]; replace (zlen out1 <? zlen x) with true by lia; same_error.
  - destruct k; cbn [be_core_transform codec_block] in *; unfold be_transform_bc1, be_transform_bc2, checked;
      [replace (zlen x mod 8 =? 0) with false by lia|replace (zlen x mod 16 =? 0) with false by lia]; cbn [negb]; same_error.
Qed.

Lemma be_old_auto : forall k (e : estimator St Er) all, same_call (List.length x) (be_core_auto k c v e all x out1 st) (be_core_auto k c v e all x out2 st).
Proof.
  intros k e all. destruct (Z_le_gt_dec (zlen x) (zlen out1)) as [G|G].
  - destruct k; cbn [be_core_auto]; [apply be_old_bc1|apply be_old_bc2]; assumption || lia.
  - destruct k; cbn [be_core_auto]; unfold be_transform_bc1_auto, be_transform_bc2_auto, auto_checked; rewrite <- L; replace (zlen out1 <? zlen x) with true by lia;
      match goal with |- context [negb ?b] => destruct (negb b) end; same_error.
Qed.

Lemma be_old_builder : forall k (b : builder St Er),
  same_call (List.length x) (be_transform_slice_with_details show k c v b x out1 st) (be_transform_slice_with_details show k c v b x out2 st).
Proof.
  intros k [b|b]; unfold be_transform_slice_with_details.
  - unfold be_manual_transform. pose proof (be_old_manual k (mb_settings b)) as H.
    destruct (be_core_transform k c (mb_settings b) x out1) as [[a1 y1]|w|w], (be_core_transform k c (mb_settings b) x out2) as [[a2 y2]|w'|w']; cbn [same_plain_call bind] in *; try contradiction; try (subst; reflexivity).
    destruct H as (<- & H). destruct a1 as [u|er]; cbn [map_err fst snd bind same_call]; [|same_error]. split; [reflexivity|]. split; [reflexivity|]. intros s0 _. exact (H _ eq_refl).
  - unfold be_auto_transform. pose proof (be_old_auto k (ab_estimator b) (ab_use_all b)) as H.
    destruct (be_core_auto k c v (ab_estimator b) (ab_use_all b) x out1 st) as [[[a1 y1] w1]|w|w], (be_core_auto k c v (ab_estimator b) (ab_use_all b) x out2 st) as [[[a2 y2] w2]|w'|w']; cbn [same_call bind] in *; try contradiction; try (subst; reflexivity).
    destruct H as (<- & <- & H). destruct a1 as [u|er]; cbn [bind same_call]; [|same_error]. split; [reflexivity|]. split; [reflexivity|]. intros s0 _. exact (H _ eq_refl).
Qed.

Lemma be_old_dispatch : forall (t : bundle St Er) f, same_call (List.length x) (be_dispatch_transform show c v t f x out1 st) (be_dispatch_transform show c v t f x out2 st).
Proof.
  intros t f. unfold be_dispatch_transform. rewrite <- L. destruct (zlen out1 <? zlen x); [same_error|].
  assert (R : forall k (b : builder St Er) (g : settings -> header),
    same_call (List.length x)
      (do r <- be_transform_slice_with_details show k c v b x out1 st ;; match r with (RErr e1, out, st1) => Ok (RErr e1, out, st1) | (ROk d, out, st1) => Ok (ROk (g d), out, st1) end)
      (do r <- be_transform_slice_with_details show k c v b x out2 st ;; match r with (RErr e1, out, st1) => Ok (RErr e1, out, st1) | (ROk d, out, st1) => Ok (ROk (g d), out, st1) end)).
  { intros k b g. pose proof (be_old_builder k b) as H.
    destruct (be_transform_slice_with_details show k c v b x out1 st) as [[[a1 y1] w1]|w|w], (be_transform_slice_with_details show k c v b x out2 st) as [[[a2 y2] w2]|w'|w']; cbn [same_call bind] in *; try contradiction; try (subst; reflexivity).
    destruct H as (<- & <- & H). destruct a1 as [u|er]; cbn [bind same_call]; [|same_error]. split; [reflexivity|]. split; [reflexivity|]. intros s0 _. exact (H _ eq_refl). }
  destruct f; [destruct (b_bc1 t) as [b|]; [apply R|same_error]|destruct (b_bc2 t) as [b|]; [apply R|same_error]|same_error..].
Qed.

Lemma be_old_undispatch : forall h, same_plain_call (List.length x) (be_dispatch_untransform c h x out1) (be_dispatch_untransform c h x out2).
Proof.
  intros h. unfold be_dispatch_untransform. rewrite <- L. destruct (zlen out1 <? zlen x) eqn:G; [same_error|].
  assert (R : forall k s, zlen x mod codec_block k = 0 -> same_plain_call (E := transform_error) (List.length x)
      (do m <- be_core_untransform_ptr k c (Ptr BIn 0) (Ptr BOut 0) (zlen x) s (Mem x [] out1) ;; Ok (ROk tt, m_out m))
      (do m <- be_core_untransform_ptr k c (Ptr BIn 0) (Ptr BOut 0) (zlen x) s (Mem x [] out2) ;; Ok (ROk tt, m_out m))).
  { intros k s M. destruct (be_core_untransform_ok k c s x out1 K M ltac:(lia)) as (z1 & -> & _ & L1 & T1).
    destruct (be_core_untransform_ok k c s x out2 K M ltac:(lia)) as (z2 & -> & _ & L2 & T2). cbn [bind m_out same_plain_call]. split; [reflexivity|]. intros s0 _.
    assert (E : z1 = z2). { apply (be_layout_inj k s); [unfold zlen in *; rewrite L1; exact M|congruence|congruence]. }
    subst z2. rewrite <- L1. rewrite !firstn_app, Nat.sub_diag, !firstn_O. reflexivity. }
  destruct (header_format h) as [[]|]; try same_error.
  - destruct (from_header bc1_details h) as [s|]; [|same_error]. destruct (negb (zlen x mod codec_block CBc1 =? 0)) eqn:M; [same_error|]. apply R. lia.
  - destruct (from_header bc2_details h) as [s|]; [|same_error]. destruct (negb (zlen x mod codec_block CBc2 =? 0)) eqn:M; [same_error|]. apply R. lia.
Qed.
End Dispatch.

Section Dds.
Context {St Er : Type}.
Variables (show : Er -> string) (c : cfg) (v : env).
Hypothesis K : cpu_ok c.

Lemma be_undispatch_len : forall h x out u y, be_dispatch_untransform c h x out = Ok (ROk u, y) -> zlen y = zlen out.
Proof.
  intros h x out u y. unfold be_dispatch_untransform. destruct (zlen out <? zlen x) eqn:G; [congruence|].
  assert (R : forall k s, zlen x mod codec_block k = 0 -> (do m <- be_core_untransform_ptr k c (Ptr BIn 0) (Ptr BOut 0) (zlen x) s (Mem x [] out) ;; Ok (ROk tt, m_out m)) =
    Ok (ROk u, y) :> res (result unit transform_error * list byte) -> zlen y = zlen out).
  { intros k s M. destruct (be_core_untransform_ok k c s x out K M ltac:(lia)) as (z1 & -> & _ & L1 & T1). cbn [bind m_out]. intros Q. injection Q as _ <-.
    unfold zlen in *. rewrite app_length, skipn_length. lia. }
  destruct (header_format h) as [[]|]; try congruence.
  - destruct (from_header bc1_details h) as [s|]; [|congruence]. destruct (negb (zlen x mod codec_block CBc1 =? 0)) eqn:M; [congruence|]. apply (R CBc1). lia.
  - destruct (from_header bc2_details h) as [s|]; [|congruence]. destruct (negb (zlen x mod codec_block CBc2 =? 0)) eqn:M; [congruence|]. apply (R CBc2). lia.
Qed.


Lemma be_old_dds : forall (t : bundle St Er) x out1 out2 st, zlen out1 = zlen out2 -> (forall i, parse_dds (c_debug c) x = Ok (Some i) -> 4 <= i_data_offset i) ->
  same_call (List.length x) (be_dds_transform_bundle show c v t x out1 st) (be_dds_transform_bundle show c v t x out2 st).
Proof.
  intros t x out1 out2 st L D. unfold be_dds_transform_bundle. rewrite <- L. destruct (zlen out1 <? zlen x) eqn:G; [same_error|].
  destruct (parse_dds (c_debug c) x) as [[i|]|w|w]; cbn [bind]; [|same_error|reflexivity|reflexivity]. pose proof (D i eq_refl) as D4. clear D.
  destruct (usize_add (c_debug c) v (i_data_offset i) (i_data_length i)) as [te|w|w] eqn:A; cbn [bind]; [|reflexivity..].
  destruct (zlen x <? te) eqn:G1; [same_error|].
  destruct (range x 0 (i_data_offset i)) as [head|w|w] eqn:R0; cbn [bind]; [|reflexivity..]. apply range_len in R0.
  destruct (copy_upto 0 (i_data_offset i) out1 out2 head) as [(w & -> & ->)|(z1 & z2 & -> & -> & U & L1)]; [split; [lia|split; [exact L|reflexivity]]|reflexivity|]. cbn [bind].
  destruct (dds_format_to_transform_format (i_format i) false) as [f|er]; [|same_error].
  destruct (range x (i_data_offset i) te) as [tex|w|w] eqn:R1; cbn [bind]; [|reflexivity..]. apply range_len in R1.
  destruct U as (P & L2 & F). destruct (range_upto z1 z2 (i_data_offset i) te L2) as [(w & -> & ->)|(_ & B1 & B2 & t1 & t2 & -> & -> & T1 & T2)]; cbn [bind]; [reflexivity|].
  pose proof (be_old_dispatch show c v tex t1 t2 st K ltac:(lia) t f) as O.
  destruct (be_dispatch_transform show c v t f tex t1 st) as [[[a1 y1] w1]|w|w] eqn:Q1, (be_dispatch_transform show c v t f tex t2 st) as [[[a2 y2] w2]|w'|w'] eqn:Q2; cbn [same_call bind] in *; try contradiction; try (subst; reflexivity).
  destruct O as (<- & <- & O). destruct a1 as [h|er]; [|same_error]. specialize (O h eq_refl).
  destruct (be_dispatch_ok show c v t f tex t1 st h y1 w1 K Q1) as (k1 & s1 & _ & _ & M1 & _ & Y1). destruct (be_dispatch_ok show c v t f tex t2 st h y2 w1 K Q2) as (k2 & s2 & _ & _ & M2 & _ & Y2).
  assert (N1 : zlen y1 = te - i_data_offset i). { subst y1. unfold zlen in *. rewrite app_length, skipn_length, be_layout_len by exact M1. lia. }
  assert (N2 : zlen y2 = te - i_data_offset i). { subst y2. unfold zlen in *. rewrite app_length, skipn_length, be_layout_len by exact M2. lia. }
  assert (EY : y1 = y2) by (apply (equal_target y1 y2 (List.length tex)); [unfold zlen in *; lia..|exact O]). clear Y1 Y2. subst y2.
  pose proof (splice_upto (i_data_offset i) z1 z2 y1 (conj P (conj L2 F)) ltac:(lia)) as U. replace (i_data_offset i + zlen y1) with te in U by lia.
  assert (E1 : zlen (splice z1 (i_data_offset i) y1) = zlen out1) by (rewrite zlen_splice by lia; exact L1).
  assert (E2 : zlen (splice z2 (i_data_offset i) y1) = zlen out1) by (rewrite zlen_splice by lia; lia).
  set (q1 := splice z1 (i_data_offset i) y1) in *. set (q2 := splice z2 (i_data_offset i) y1) in *. clearbody q1 q2.
  assert (W : forall p o1 o2, upto p o1 o2 -> 4 <= p -> p <= zlen o1 -> zlen x <= p -> firstn (List.length x) (write_to_ptr h o1 0) = firstn (List.length x) (write_to_ptr h o2 0)).
  { intros p o1 o2 U1 G4 G5 G6. unfold write_to_ptr. refine (upto_all _ _ _ p (splice_keeps p 0 o1 o2 (u32_bytes h) U1 ltac:(lia) _ _) _); [change (zlen (u32_bytes h)) with 4; lia..|unfold zlen in *; lia]. }
  destruct (te <? zlen x) eqn:G2.
  - destruct (range x te (zlen x)) as [left|w|w]; cbn [bind]; [|reflexivity..]. rewrite E1, E2.
    destruct (copy_upto te (zlen out1) q1 q2 left U) as [(w & -> & ->)|(z3 & z4 & -> & -> & U3 & L3)]; cbn [bind]; [reflexivity|].
    cbn [same_call]. split; [reflexivity|]. split; [reflexivity|]. intros _ _. apply (W (zlen out1)); [exact U3|lia..].
  - cbn [bind same_call]. split; [reflexivity|]. split; [reflexivity|]. intros _ _. apply (W te); [exact U|lia..].
Qed.

Lemma be_old_undds : forall x out1 out2, zlen out1 = zlen out2 ->
  same_plain_call (List.length x) (be_dds_untransform c v x out1) (be_dds_untransform c v x out2).
Proof.
  intros x out1 out2 L. unfold be_dds_untransform. destruct (zlen x <? 4) eqn:G0; [same_error|]. rewrite <- L. destruct (zlen out1 <? zlen x) eqn:G; [same_error|]. cbv zeta.
  destruct (parse_dds_ignore_magic (c_debug c) x) as [[i|]|w|w] eqn:PI; cbn [bind]; [|same_error|reflexivity|reflexivity].
  destruct (usize_add (c_debug c) v (i_data_offset i) (i_data_length i)) as [te|w|w] eqn:A; cbn [bind]; [|reflexivity..].
  destruct (zlen x <? te) eqn:G1; [same_error|].
  destruct (copy_upto 0 4 out1 out2 (u32_bytes DDS_MAGIC)) as [(w & -> & ->)|(m1 & m2 & -> & -> & U0 & L0)]; [split; [lia|split; [exact L|reflexivity]]|reflexivity|]. cbn [bind].
  destruct (range x 4 (i_data_offset i)) as [head|w|w] eqn:R0; cbn [bind]; [|reflexivity..]. apply range_len in R0.
  destruct (copy_upto 4 (i_data_offset i) m1 m2 head U0) as [(w & -> & ->)|(z1 & z2 & -> & -> & U & L1)]; [reflexivity|]. cbn [bind].
  destruct (range x (i_data_offset i) te) as [tex|w|w] eqn:R1; cbn [bind]; [|reflexivity..]. apply range_len in R1.
  destruct U as (P & L2 & F). destruct (range_upto z1 z2 (i_data_offset i) te L2) as [(w & -> & ->)|(_ & B1 & B2 & t1 & t2 & -> & -> & T1 & T2)]; cbn [bind]; [reflexivity|].
  pose proof (be_old_undispatch c tex t1 t2 K ltac:(lia) (read_from_ptr x 0)) as O.
  destruct (be_dispatch_untransform c (read_from_ptr x 0) tex t1) as [[a1 y1]|w|w] eqn:Q1, (be_dispatch_untransform c (read_from_ptr x 0) tex t2) as [[a2 y2]|w'|w'] eqn:Q2; cbn [same_plain_call bind] in *; try contradiction; try (subst; reflexivity).
  destruct O as (<- & O). destruct a1 as [h|er]; [|same_error]. specialize (O h eq_refl).
  pose proof (be_undispatch_len _ _ _ _ _ Q1) as N1. pose proof (be_undispatch_len _ _ _ _ _ Q2) as N2.
  assert (EY : y1 = y2) by (apply (equal_target y1 y2 (List.length tex)); [unfold zlen in *; lia..|exact O]). subst y2.
  pose proof (splice_upto (i_data_offset i) z1 z2 y1 (conj P (conj L2 F)) ltac:(lia)) as U. replace (i_data_offset i + zlen y1) with te in U by lia.
  assert (E1 : zlen (splice z1 (i_data_offset i) y1) = zlen out1) by (rewrite zlen_splice by lia; lia).
  assert (E2 : zlen (splice z2 (i_data_offset i) y1) = zlen out1) by (rewrite zlen_splice by lia; lia).
  set (q1 := splice z1 (i_data_offset i) y1) in *. set (q2 := splice z2 (i_data_offset i) y1) in *. clearbody q1 q2.
  destruct (te <? zlen x) eqn:G2.
  - destruct (range x te (zlen x)) as [left|w|w]; cbn [bind]; [|reflexivity..]. rewrite E1, E2.
    destruct (copy_upto te (zlen out1) q1 q2 left U) as [(w & -> & ->)|(z3 & z4 & -> & -> & U3 & L3)]; cbn [bind]; [reflexivity|].
    cbn [same_plain_call]. split; [reflexivity|]. intros _ _. apply (upto_all _ _ _ (zlen out1)); [exact U3|unfold zlen in *; lia].
  - cbn [bind same_plain_call]. split; [reflexivity|]. intros _ _. apply (upto_all _ _ _ te); [exact U|unfold zlen in *; lia].
Qed.
End Dds.
