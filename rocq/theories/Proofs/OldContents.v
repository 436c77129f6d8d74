(** What an output buffer held before makes no difference. *)
From Verif Require Import Base.Bytes Base.Res Model.Color565 Model.Kernel Model.Transform Model.Auto Model.Builders Model.Embed Model.Bundle Model.Dds
  Spec.Layout Spec.Estimator Spec.Files Spec.OldContents Proofs.LayoutFacts Proofs.Families Proofs.TransformFacts Proofs.SliceFacts Proofs.TransformProps Proofs.AutoFacts Proofs.AutoProps Proofs.AutoTheorems Proofs.BundleFacts.
From Coq Require Import ZifyBool ZifyNat.
Open Scope list_scope.
Open Scope Z_scope.

Lemma auto_old : forall St Er S v (e : estimator St Er) (shown : S -> list (list byte)) (L : S -> list byte) n out1 out2 order dflt k run1 run2 st,
  (forall s, List.length (L s) = n) ->
  AUTO (out := out1) v e shown (fun s => L s ++ skipn n out1) order dflt k run1 -> AUTO (out := out2) v e shown (fun s => L s ++ skipn n out2) order dflt k run2 ->
  same_call n (run1 st) (run2 st).
Proof.
  intros St Er S v e shown L n out1 out2 order dflt k run1 run2 st HL A1 A2. destruct (A1 st) as (y1 & B1). destruct (A2 st) as (y2 & B2).
  assert (P : forall s o, firstn n (L s ++ o) = L s) by (intros s o; rewrite <- (HL s); rewrite firstn_app, Nat.sub_diag, firstn_O, app_nil_r; apply firstn_all).
  destruct (max_compressed_size e st k) as [[z|e1] st1].
  - destruct (negb (z =? 0) && negb (alloc_ok v z)).
    + destruct B1 as (-> & _), B2 as (-> & _). cbn [same_call]. split; [reflexivity|]. split; [reflexivity|]. congruence.
    + destruct (srch e shown z order dflt (usize_max v) st1) as [[s|e1] st2]; destruct B1 as (-> & Y1), B2 as (-> & Y2); cbn [same_call]; (split; [reflexivity|]; split; [reflexivity|]).
      * intros s0 _. subst y1 y2. rewrite !P. reflexivity.
      * congruence.
  - destruct B1 as (-> & _), B2 as (-> & _). cbn [same_call]. split; [reflexivity|]. split; [reflexivity|]. congruence.
Qed.

Section Autos.
Context {St Er : Type}.
Variables (c : cfg) (v : env) (e : estimator St Er) (all : bool) (x out1 out2 : list byte) (st : St).
Hypotheses (K : supported c) (D : c_debug c = true -> x <> []).
Lemma old_bc1 : zlen x <= zlen out1 -> zlen x <= zlen out2 ->
  same_call (List.length x) (transform_bc1_auto c v e all x out1 st) (transform_bc1_auto c v e all x out2 st).
Proof.
  intros H1 H2. destruct (Z.eq_dec (zlen x mod 8) 0) as [M|M].
  - refine (auto_old _ _ _ v e _ (fun s => bc1_layout (decorrelation_mode s) (split_colour_endpoints s) x) _ out1 out2 _ _ _ _ _ st _
      (bc1_AUTO c v e all x out1 (proj1 K) D M H1) (bc1_AUTO c v e all x out2 (proj1 K) D M H2)).
    intros s. exact (layout_len CBc1 s x M).
  - rewrite (proj1 (lC15_bc1_auto_validation St Er c v e all x out1 st) M), (proj1 (lC15_bc1_auto_validation St Er c v e all x out2 st) M).
    cbn [same_call]. split; [reflexivity|]. split; [reflexivity|]. congruence.
Qed.
Lemma old_bc2 : zlen x <= zlen out1 -> zlen x <= zlen out2 ->
  same_call (List.length x) (transform_bc2_auto c v e all x out1 st) (transform_bc2_auto c v e all x out2 st).
Proof.
  intros H1 H2. destruct (Z.eq_dec (zlen x mod 16) 0) as [M|M].
  - refine (auto_old _ _ _ v e _ (fun s => bc2_layout (decorrelation_mode s) (split_colour_endpoints s) x) _ out1 out2 _ _ _ _ _ st _
      (bc2_AUTO c v e all x out1 (proj1 K) (proj2 K) M H1) (bc2_AUTO c v e all x out2 (proj1 K) (proj2 K) M H2)).
    intros s. exact (layout_len CBc2 s x M).
  - rewrite (proj1 (lC15_bc2_auto_validation St Er c v e all x out1 st) M), (proj1 (lC15_bc2_auto_validation St Er c v e all x out2 st) M).
    cbn [same_call]. split; [reflexivity|]. split; [reflexivity|]. congruence.
Qed.
Lemma old_bc3 : zlen x <= zlen out1 -> zlen x <= zlen out2 -> (forall st d n z st', estimate_compressed_size e st d n = (ROk z, st') -> 2 * z <= usize_max v) ->
  same_call (List.length x) (transform_bc3_auto c v e all x out1 st) (transform_bc3_auto c v e all x out2 st).
Proof.
  intros H1 H2 B. destruct (Z.eq_dec (zlen x mod 16) 0) as [M|M].
  - refine (auto_old _ _ _ v e _ (fun s => bc3_layout (decorrelation_mode3 s) (split_alpha_endpoints s) (split_colour_endpoints3 s) x) _ out1 out2 _ _ _ _ _ st _
      (bc3_AUTO c v e all x out1 (proj1 K) D B M H1) (bc3_AUTO c v e all x out2 (proj1 K) D B M H2)).
    intros s. destruct (bc3_fam (decorrelation_mode3 s) (split_alpha_endpoints s) (split_colour_endpoints3 s)) as (sht & shu & FM).
    apply Nat2Z.inj. exact (lay_zlen _ _ _ _ _ _ x FM ltac:(lia) M).
  - rewrite (proj1 (lC15_bc3_auto_validation St Er c v e all x out1 st) M), (proj1 (lC15_bc3_auto_validation St Er c v e all x out2 st) M).
    cbn [same_call]. split; [reflexivity|]. split; [reflexivity|]. congruence.
Qed.
End Autos.

Ltac same_error := cbn [same_call same_plain_call]; repeat (split; [reflexivity|]); congruence.

Section Dispatch.
Context {St Er : Type}.
Variables (show : Er -> string) (c : cfg) (v : env) (x out1 out2 : list byte) (st : St).
Hypotheses (K : supported c) (D : c_debug c = true -> x <> []) (L : zlen out1 = zlen out2).

Lemma old_manual : forall k s, same_plain_call (List.length x) (core_transform k c s x out1) (core_transform k c s x out2).
Proof.
  intros k s. destruct (Z.eq_dec (zlen x mod codec_block k) 0) as [M|M].
  - destruct (Z_le_gt_dec (zlen x) (zlen out1)) as [G|G].
    + rewrite !core_transform_ok by (assumption || lia). cbn [same_plain_call]. split; [reflexivity|]. intros s0 _.
      rewrite <- (layout_len k s x M). rewrite !firstn_app, Nat.sub_diag, !firstn_O. reflexivity.
    + destruct k; cbn [core_transform codec_block] in *; unfold transform_bc1, transform_bc2, checked; rewrite <- L;
      [replace (zlen x mod 8 =? 0) with true by lia|replace (zlen x mod 16 =? 0) with true by lia]; cbn [negb]; replace (zlen out1 <? zlen x) with true by lia; same_error.
  - destruct k; cbn [core_transform codec_block] in *; unfold transform_bc1, transform_bc2, checked;
      [replace (zlen x mod 8 =? 0) with false by lia|replace (zlen x mod 16 =? 0) with false by lia]; cbn [negb]; same_error.
Qed.

Lemma old_auto : forall k (e : estimator St Er) all, same_call (List.length x) (core_auto k c v e all x out1 st) (core_auto k c v e all x out2 st).
Proof.
  intros k e all. destruct (Z_le_gt_dec (zlen x) (zlen out1)) as [G|G].
  - destruct k; cbn [core_auto]; [apply old_bc1|apply old_bc2]; assumption || lia.
  - destruct k; cbn [core_auto]; unfold transform_bc1_auto, transform_bc2_auto, auto_checked; rewrite <- L; replace (zlen out1 <? zlen x) with true by lia;
      match goal with |- context [negb ?b] => destruct (negb b) end; same_error.
Qed.

Lemma old_builder : forall k (b : builder St Er),
  same_call (List.length x) (transform_slice_with_details show k c v b x out1 st) (transform_slice_with_details show k c v b x out2 st).
Proof.
  intros k [b|b]; unfold transform_slice_with_details.
  - unfold manual_transform. pose proof (old_manual k (mb_settings b)) as H.
    destruct (core_transform k c (mb_settings b) x out1) as [[a1 y1]|w|w], (core_transform k c (mb_settings b) x out2) as [[a2 y2]|w'|w']; cbn [same_plain_call bind] in *; try contradiction; try (subst; reflexivity).
    destruct H as (<- & H). destruct a1 as [u|er]; cbn [map_err fst snd bind same_call]; [|same_error]. split; [reflexivity|]. split; [reflexivity|]. intros s0 _. exact (H _ eq_refl).
  - unfold auto_transform. pose proof (old_auto k (ab_estimator b) (ab_use_all b)) as H.
    destruct (core_auto k c v (ab_estimator b) (ab_use_all b) x out1 st) as [[[a1 y1] w1]|w|w], (core_auto k c v (ab_estimator b) (ab_use_all b) x out2 st) as [[[a2 y2] w2]|w'|w']; cbn [same_call bind] in *; try contradiction; try (subst; reflexivity).
    destruct H as (<- & <- & H). destruct a1 as [u|er]; cbn [bind same_call]; [|same_error]. split; [reflexivity|]. split; [reflexivity|]. intros s0 _. exact (H _ eq_refl).
Qed.

Lemma old_dispatch : forall (t : bundle St Er) f, same_call (List.length x) (dispatch_transform show c v t f x out1 st) (dispatch_transform show c v t f x out2 st).
Proof.
  intros t f. unfold dispatch_transform. rewrite <- L. destruct (zlen out1 <? zlen x); [same_error|].
  assert (R : forall k (b : builder St Er) (g : settings -> header),
    same_call (List.length x)
      (do r <- transform_slice_with_details show k c v b x out1 st ;; match r with (RErr e1, out, st1) => Ok (RErr e1, out, st1) | (ROk d, out, st1) => Ok (ROk (g d), out, st1) end)
      (do r <- transform_slice_with_details show k c v b x out2 st ;; match r with (RErr e1, out, st1) => Ok (RErr e1, out, st1) | (ROk d, out, st1) => Ok (ROk (g d), out, st1) end)).
  { intros k b g. pose proof (old_builder k b) as H.
    destruct (transform_slice_with_details show k c v b x out1 st) as [[[a1 y1] w1]|w|w], (transform_slice_with_details show k c v b x out2 st) as [[[a2 y2] w2]|w'|w']; cbn [same_call bind] in *; try contradiction; try (subst; reflexivity).
    destruct H as (<- & <- & H). destruct a1 as [u|er]; cbn [bind same_call]; [|same_error]. split; [reflexivity|]. split; [reflexivity|]. intros s0 _. exact (H _ eq_refl). }
  destruct f; [destruct (b_bc1 t) as [b|]; [apply R|same_error]|destruct (b_bc2 t) as [b|]; [apply R|same_error]|same_error..].
Qed.

Lemma old_undispatch : forall h, same_plain_call (List.length x) (dispatch_untransform c h x out1) (dispatch_untransform c h x out2).
Proof.
  intros h. unfold dispatch_untransform. rewrite <- L. destruct (zlen out1 <? zlen x) eqn:G; [same_error|].
  assert (R : forall k s, zlen x mod codec_block k = 0 -> same_plain_call (E := transform_error) (List.length x)
      (do m <- core_untransform_ptr k c (Ptr BIn 0) (Ptr BOut 0) (zlen x) s (Mem x [] out1) ;; Ok (ROk tt, m_out m))
      (do m <- core_untransform_ptr k c (Ptr BIn 0) (Ptr BOut 0) (zlen x) s (Mem x [] out2) ;; Ok (ROk tt, m_out m))).
  { intros k s M. destruct (core_untransform_ok k c s x out1 K D M ltac:(lia)) as (z1 & -> & _ & L1 & T1).
    destruct (core_untransform_ok k c s x out2 K D M ltac:(lia)) as (z2 & -> & _ & L2 & T2). cbn [bind m_out same_plain_call]. split; [reflexivity|]. intros s0 _.
    assert (E : z1 = z2). { apply (layout_inj k s); [unfold zlen in *; rewrite L1; exact M|congruence|congruence]. }
    subst z2. rewrite <- L1. rewrite !firstn_app, Nat.sub_diag, !firstn_O. reflexivity. }
  destruct (header_format h) as [[]|]; try same_error.
  - destruct (from_header bc1_details h) as [s|]; [|same_error]. destruct (negb (zlen x mod codec_block CBc1 =? 0)) eqn:M; [same_error|]. apply R. lia.
  - destruct (from_header bc2_details h) as [s|]; [|same_error]. destruct (negb (zlen x mod codec_block CBc2 =? 0)) eqn:M; [same_error|]. apply R. lia.
Qed.
End Dispatch.

Definition upto (p : Z) (o1 o2 : list byte) : Prop := 0 <= p /\ zlen o1 = zlen o2 /\ firstn (Z.to_nat p) o1 = firstn (Z.to_nat p) o2.
Lemma splice_upto : forall p o1 o2 d, upto p o1 o2 -> p + zlen d <= zlen o1 -> upto (p + zlen d) (splice o1 p d) (splice o2 p d).
Proof.
  intros p o1 o2 d (P & L & F) B. pose proof (zlen_nonneg _ d). split; [lia|]. split; [rewrite !zlen_splice by lia; exact L|].
  assert (X : forall o, zlen o = zlen o1 -> firstn (Z.to_nat (p + zlen d)) (splice o p d) = firstn (Z.to_nat p) o ++ d).
  { intros o Lo. unfold splice. rewrite app_assoc. rewrite firstn_app.
    assert (N : List.length (firstn (Z.to_nat p) o ++ d) = Z.to_nat (p + zlen d)) by (rewrite app_length, firstn_length; unfold zlen in *; lia).
    rewrite N, Nat.sub_diag, firstn_O, app_nil_r. rewrite <- N. apply firstn_all. }
  rewrite !X by congruence. rewrite F. reflexivity.
Qed.
Lemma splice_keeps : forall p q o1 o2 d, upto p o1 o2 -> 0 <= q -> q + zlen d <= p -> q + zlen d <= zlen o1 -> upto p (splice o1 q d) (splice o2 q d).
Proof.
  intros p q o1 o2 d (P & L & F) Q B B1. split; [exact P|]. split; [rewrite !zlen_splice by lia; exact L|].
  unfold splice. rewrite !app_assoc, !(firstn_app (Z.to_nat p)).
  assert (F1 : firstn (Z.to_nat q) o1 = firstn (Z.to_nat q) o2).
  { transitivity (firstn (Z.to_nat q) (firstn (Z.to_nat p) o1)); [|rewrite F]; rewrite firstn_firstn; f_equal; pose proof (zlen_nonneg _ d); lia. }
  rewrite F1. f_equal. rewrite !app_length, !firstn_length.
  assert (S : forall o : list byte, firstn (Z.to_nat p - (Nat.min (Z.to_nat q) (List.length o) + List.length d)) (skipn (Z.to_nat q + List.length d) o) =
    skipn (Z.to_nat q + List.length d) (firstn (Z.to_nat p) o) \/ zlen o < q).
  { intros o. destruct (Z_lt_le_dec (zlen o) q) as [G|G]; [right; exact G|left]. rewrite firstn_skipn_comm. f_equal. f_equal. unfold zlen in *. lia. }
  destruct (S o1) as [S1|S1]; [|pose proof (zlen_nonneg _ d); lia]. 
  replace (Nat.min (Z.to_nat q) (List.length o2)) with (Nat.min (Z.to_nat q) (List.length o1)) by (unfold zlen in *; lia).
  rewrite S1. destruct (S o2) as [S2|S2]; [|pose proof (zlen_nonneg _ d); lia].
  replace (Nat.min (Z.to_nat q) (List.length o2)) with (Nat.min (Z.to_nat q) (List.length o1)) in S2 by (unfold zlen in *; lia). rewrite S2. rewrite F. reflexivity.
Qed.

Lemma range_upto : forall o1 o2 a b, zlen o1 = zlen o2 ->
  (exists w, range o1 a b = Panic w /\ range o2 a b = Panic w) \/
  (0 <= a /\ a <= b /\ b <= zlen o1 /\ exists t1 t2, range o1 a b = Ok t1 /\ range o2 a b = Ok t2 /\ zlen t1 = b - a /\ zlen t2 = b - a).
Proof.
  intros o1 o2 a b L. unfold range. rewrite <- L. destruct ((0 <=? a) && (a <=? b) && (b <=? zlen o1)) eqn:G; [right|left; eexists; split; reflexivity].
  repeat (split; [lia|]). exists (slice o1 a (b - a)), (slice o2 a (b - a)). split; [reflexivity|]. split; [reflexivity|]. split; apply zlen_slice; lia.
Qed.
Lemma copy_upto : forall a b o1 o2 d, upto a o1 o2 ->
  (exists w, copy_range o1 a b d = Panic w /\ copy_range o2 a b d = Panic w) \/
  (exists z1 z2, copy_range o1 a b d = Ok z1 /\ copy_range o2 a b d = Ok z2 /\ upto b z1 z2 /\ zlen z1 = zlen o1).
Proof.
  intros a b o1 o2 d U. pose proof U as (P & L & F). unfold copy_range.
  destruct (range_upto o1 o2 a b L) as [(w & -> & ->)|(A & B & C & t1 & t2 & -> & -> & L1 & L2)]; cbn [bind]; [left; exists w; split; reflexivity|].
  rewrite L1, L2. destruct (b - a =? zlen d) eqn:G; [right|left; eexists; split; reflexivity].
  do 2 eexists. split; [reflexivity|]. split; [reflexivity|]. pose proof (splice_upto a o1 o2 d U ltac:(lia)) as V. replace (a + zlen d) with b in V by lia. split; [exact V|]. apply zlen_splice; lia.
Qed.


Section Dds.
Context {St Er : Type}.
Variables (show : Er -> string) (c : cfg) (v : env).
Hypothesis K : supported c.

Lemma undispatch_len : forall h x out u y, (c_debug c = true -> x <> []) -> dispatch_untransform c h x out = Ok (ROk u, y) -> zlen y = zlen out.
Proof.
  intros h x out u y D. unfold dispatch_untransform. destruct (zlen out <? zlen x) eqn:G; [congruence|].
  assert (R : forall k s, zlen x mod codec_block k = 0 -> (do m <- core_untransform_ptr k c (Ptr BIn 0) (Ptr BOut 0) (zlen x) s (Mem x [] out) ;; Ok (ROk tt, m_out m)) =
    Ok (ROk u, y) :> res (result unit transform_error * list byte) -> zlen y = zlen out).
  { intros k s M. destruct (core_untransform_ok k c s x out K D M ltac:(lia)) as (z1 & -> & _ & L1 & T1). cbn [bind m_out]. intros Q. injection Q as _ <-.
    unfold zlen in *. rewrite app_length, skipn_length. lia. }
  destruct (header_format h) as [[]|]; try congruence.
  - destruct (from_header bc1_details h) as [s|]; [|congruence]. destruct (negb (zlen x mod codec_block CBc1 =? 0)) eqn:M; [congruence|]. apply (R CBc1). lia.
  - destruct (from_header bc2_details h) as [s|]; [|congruence]. destruct (negb (zlen x mod codec_block CBc2 =? 0)) eqn:M; [congruence|]. apply (R CBc2). lia.
Qed.

Lemma add_debug : forall a b z, c_debug c = true -> usize_add (c_debug c) v a b = Ok z -> z = a + b.
Proof. intros a b z D. unfold usize_add. rewrite D. destruct (a + b <=? usize_max v); congruence. Qed.
Lemma range_len : forall l a b t, range l a b = Ok t -> zlen t = b - a /\ 0 <= a /\ a <= b /\ b <= zlen l.
Proof. intros l a b t. unfold range. destruct ((0 <=? a) && (a <=? b) && (b <=? zlen l)) eqn:G; [|congruence]. intros Q. injection Q as <-. split; [apply zlen_slice; lia|lia]. Qed.
Lemma upto_all : forall n o1 o2 p, upto p o1 o2 -> Z.of_nat n <= p -> firstn n o1 = firstn n o2.
Proof.
  intros n o1 o2 p (P & L & F) G. transitivity (firstn n (firstn (Z.to_nat p) o1)); [|rewrite F]; rewrite firstn_firstn; f_equal; lia.
Qed.
Lemma equal_target : forall (t1 t2 : list byte) n, zlen t1 = Z.of_nat n -> zlen t2 = Z.of_nat n -> firstn n t1 = firstn n t2 -> t1 = t2.
Proof. intros t1 t2 n L1 L2 F. rewrite !firstn_all2 in F by (unfold zlen in *; lia). exact F. Qed.

Lemma old_dds : forall (t : bundle St Er) x out1 out2 st, zlen out1 = zlen out2 -> (forall i, parse_dds (c_debug c) x = Ok (Some i) -> 4 <= i_data_offset i /\ (c_debug c = true -> 0 < i_data_length i)) ->
  same_call (List.length x) (dds_transform_bundle show c v t x out1 st) (dds_transform_bundle show c v t x out2 st).
Proof.
  intros t x out1 out2 st L D. unfold dds_transform_bundle. rewrite <- L. destruct (zlen out1 <? zlen x) eqn:G; [same_error|].
  destruct (parse_dds (c_debug c) x) as [[i|]|w|w]; cbn [bind]; [|same_error|reflexivity|reflexivity]. destruct (D i eq_refl) as (D4 & DD). clear D.
  destruct (usize_add (c_debug c) v (i_data_offset i) (i_data_length i)) as [te|w|w] eqn:A; cbn [bind]; [|reflexivity..].
  destruct (zlen x <? te) eqn:G1; [same_error|].
  destruct (range x 0 (i_data_offset i)) as [head|w|w] eqn:R0; cbn [bind]; [|reflexivity..]. apply range_len in R0.
  destruct (copy_upto 0 (i_data_offset i) out1 out2 head) as [(w & -> & ->)|(z1 & z2 & -> & -> & U & L1)]; [split; [lia|split; [exact L|reflexivity]]|reflexivity|]. cbn [bind].
  destruct (dds_format_to_transform_format (i_format i) false) as [f|er]; [|same_error].
  destruct (range x (i_data_offset i) te) as [tex|w|w] eqn:R1; cbn [bind]; [|reflexivity..]. apply range_len in R1.
  destruct U as (P & L2 & F). destruct (range_upto z1 z2 (i_data_offset i) te L2) as [(w & -> & ->)|(_ & B1 & B2 & t1 & t2 & -> & -> & T1 & T2)]; cbn [bind]; [reflexivity|].
  assert (NE : c_debug c = true -> tex <> []). { intros Dc. pose proof (add_debug _ _ _ Dc A). specialize (DD Dc). intros ->. unfold zlen in R1. cbn [List.length] in R1. lia. }
  pose proof (old_dispatch show c v tex t1 t2 st K NE ltac:(lia) t f) as O.
  destruct (dispatch_transform show c v t f tex t1 st) as [[[a1 y1] w1]|w|w] eqn:Q1, (dispatch_transform show c v t f tex t2 st) as [[[a2 y2] w2]|w'|w'] eqn:Q2; cbn [same_call bind] in *; try contradiction; try (subst; reflexivity).
  destruct O as (<- & <- & O). destruct a1 as [h|er]; [|same_error]. specialize (O h eq_refl).
  destruct (dispatch_ok show c v t f tex t1 st h y1 w1 K NE Q1) as (k1 & s1 & _ & _ & M1 & _ & Y1). destruct (dispatch_ok show c v t f tex t2 st h y2 w1 K NE Q2) as (k2 & s2 & _ & _ & M2 & _ & Y2).
  assert (N1 : zlen y1 = te - i_data_offset i). { subst y1. unfold zlen in *. rewrite app_length, skipn_length, layout_len by exact M1. lia. }
  assert (N2 : zlen y2 = te - i_data_offset i). { subst y2. unfold zlen in *. rewrite app_length, skipn_length, layout_len by exact M2. lia. }
  assert (EY : y1 = y2) by (apply (equal_target y1 y2 (List.length tex)); [unfold zlen in *; lia..|exact O]). clear Y1 Y2. subst y2.
  pose proof (splice_upto (i_data_offset i) z1 z2 y1 (conj P (conj L2 F)) ltac:(lia)) as U. replace (i_data_offset i + zlen y1) with te in U by lia.
  assert (E1 : zlen (splice z1 (i_data_offset i) y1) = zlen out1) by (rewrite zlen_splice by lia; exact L1).
  assert (E2 : zlen (splice z2 (i_data_offset i) y1) = zlen out1) by (rewrite zlen_splice by lia; lia).
  set (q1 := splice z1 (i_data_offset i) y1) in *. set (q2 := splice z2 (i_data_offset i) y1) in *. clearbody q1 q2.
  assert (W : forall p o1 o2, upto p o1 o2 -> 4 <= p -> p <= zlen o1 -> zlen x <= p -> firstn (List.length x) (write_to_ptr h o1 0) = firstn (List.length x) (write_to_ptr h o2 0)).
  { intros p o1 o2 U1 G4 G5 G6. unfold write_to_ptr. refine (upto_all _ _ _ p (splice_keeps p 0 o1 o2 (u32_bytes h) U1 ltac:(lia) _ _) _); [change (zlen (u32_bytes h)) with 4; lia..|unfold zlen in *; lia]. }
  destruct (te <? zlen x) eqn:G2.
  - destruct (range x te (zlen x)) as [left|w|w]; cbn [bind]; [|reflexivity..]. rewrite E1, E2.
    destruct (copy_upto te (zlen out1) q1 q2 left U) as [(w & -> & ->)|(z3 & z4 & -> & -> & U3 & L3)]; cbn [bind]; [reflexivity|].
    cbn [same_call]. split; [reflexivity|]. split; [reflexivity|]. intros _ _. apply (W (zlen out1)); [exact U3|lia..].
  - cbn [bind same_call]. split; [reflexivity|]. split; [reflexivity|]. intros _ _. apply (W te); [exact U|lia..].
Qed.

Lemma old_undds : forall x out1 out2, zlen out1 = zlen out2 -> (c_debug c = true -> forall i, parse_dds_ignore_magic true x = Ok (Some i) -> 0 < i_data_length i) ->
  same_plain_call (List.length x) (dds_untransform c v x out1) (dds_untransform c v x out2).
Proof.
  intros x out1 out2 L D. unfold dds_untransform. destruct (zlen x <? 4) eqn:G0; [same_error|]. rewrite <- L. destruct (zlen out1 <? zlen x) eqn:G; [same_error|]. cbv zeta.
  destruct (parse_dds_ignore_magic (c_debug c) x) as [[i|]|w|w] eqn:PI; cbn [bind]; [|same_error|reflexivity|reflexivity].
  assert (DD : c_debug c = true -> 0 < i_data_length i) by (intros Dc; apply D; [exact Dc|rewrite <- Dc; exact PI]). clear D PI.
  destruct (usize_add (c_debug c) v (i_data_offset i) (i_data_length i)) as [te|w|w] eqn:A; cbn [bind]; [|reflexivity..].
  destruct (zlen x <? te) eqn:G1; [same_error|].
  destruct (copy_upto 0 4 out1 out2 (u32_bytes DDS_MAGIC)) as [(w & -> & ->)|(m1 & m2 & -> & -> & U0 & L0)]; [split; [lia|split; [exact L|reflexivity]]|reflexivity|]. cbn [bind].
  destruct (range x 4 (i_data_offset i)) as [head|w|w] eqn:R0; cbn [bind]; [|reflexivity..]. apply range_len in R0.
  destruct (copy_upto 4 (i_data_offset i) m1 m2 head U0) as [(w & -> & ->)|(z1 & z2 & -> & -> & U & L1)]; [reflexivity|]. cbn [bind].
  destruct (range x (i_data_offset i) te) as [tex|w|w] eqn:R1; cbn [bind]; [|reflexivity..]. apply range_len in R1.
  destruct U as (P & L2 & F). destruct (range_upto z1 z2 (i_data_offset i) te L2) as [(w & -> & ->)|(_ & B1 & B2 & t1 & t2 & -> & -> & T1 & T2)]; cbn [bind]; [reflexivity|].
  assert (NE : c_debug c = true -> tex <> []). { intros Dc. pose proof (add_debug _ _ _ Dc A). specialize (DD Dc). intros ->. unfold zlen in R1. cbn [List.length] in R1. lia. }
  pose proof (old_undispatch c tex t1 t2 K NE ltac:(lia) (read_from_ptr x 0)) as O.
  destruct (dispatch_untransform c (read_from_ptr x 0) tex t1) as [[a1 y1]|w|w] eqn:Q1, (dispatch_untransform c (read_from_ptr x 0) tex t2) as [[a2 y2]|w'|w'] eqn:Q2; cbn [same_plain_call bind] in *; try contradiction; try (subst; reflexivity).
  destruct O as (<- & O). destruct a1 as [h|er]; [|same_error]. specialize (O h eq_refl).
  pose proof (undispatch_len _ _ _ _ _ NE Q1) as N1. pose proof (undispatch_len _ _ _ _ _ NE Q2) as N2.
  assert (EY : y1 = y2) by (apply (equal_target y1 y2 (List.length tex)); [unfold zlen in *; lia..|exact O]). subst y2.
  pose proof (splice_upto (i_data_offset i) z1 z2 y1 (conj P (conj L2 F)) ltac:(lia)) as U. replace (i_data_offset i + zlen y1) with te in U by lia.
  assert (E1 : zlen (splice z1 (i_data_offset i) y1) = zlen out1) by (rewrite zlen_splice by lia; lia).
  assert (E2 : zlen (splice z2 (i_data_offset i) y1) = zlen out1) by (rewrite zlen_splice by lia; lia).
  set (q1 := splice z1 (i_data_offset i) y1) in *. set (q2 := splice z2 (i_data_offset i) y1) in *. clearbody q1 q2.
  destruct (te <? zlen x) eqn:G2.
  - destruct (range x te (zlen x)) as [left|w|w]; cbn [bind]; [|reflexivity..]. rewrite E1, E2.
    destruct (copy_upto te (zlen out1) q1 q2 left U) as [(w & -> & ->)|(z3 & z4 & -> & -> & U3 & L3)]; cbn [bind]; [reflexivity|].
    cbn [same_plain_call]. split; [reflexivity|]. intros _ _. apply (upto_all _ _ _ (zlen out1)); [exact U3|unfold zlen in *; lia].
  - cbn [bind same_plain_call]. split; [reflexivity|]. intros _ _. apply (upto_all _ _ _ te); [exact U|unfold zlen in *; lia].
Qed.
End Dds.
