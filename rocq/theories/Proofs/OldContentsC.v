(** What an output buffer held before makes no difference: the C functions. *)
From Verif Require Import Base.Bytes Base.Res Model.Color565 Model.Kernel Model.Transform Model.Auto Model.Builders Model.CApi
  Spec.Layout Spec.Estimator Spec.Files Spec.CApi Spec.OldContents Proofs.SliceFacts Proofs.BundleFacts Proofs.OldContents Proofs.CApiFacts.
From Coq Require Import ZifyBool ZifyNat.
Open Scope list_scope.
Open Scope Z_scope.

Lemma first_of : forall (l r : list byte) n, List.length l = n -> firstn n (l ++ r) = l.
Proof. intros l r n <-. rewrite firstn_app, firstn_all, Nat.sub_diag. apply app_nil_r. Qed.

Section Old.
Variables (k : codec) (c : cfg) (i : list byte) (n : Z) (o1 o2 : list byte) (m : Z).
Hypotheses (K : supported c) (HD : c_debug c = true -> n <> 0) (VI : valid_for i n) (V1 : valid_for o1 m) (V2 : valid_for o2 m).

Lemma lay_first : forall s r, expected_code (codec_block k) n m = 0 ->
  firstn (Z.to_nat n) (texture_layout k s (firstn (Z.to_nat n) i) ++ r) = texture_layout k s (firstn (Z.to_nat n) i).
Proof.
  intros s r E. destruct VI as (I1 & I2). apply first_of. rewrite layout_len.
  - pose proof (zlen_firstn _ i n I1 I2) as ZI. unfold zlen in ZI. lia.
  - rewrite (zlen_firstn _ i n I1 I2). destruct (expected_cases (codec_block k) n m) as [(_ & M & _)|[(E1 & _)|(E1 & _)]]; [exact M|lia|lia].
Qed.

Lemma old_slices : forall {St} v (e : c_estimator St) all st,
  exists r y1 y2 st', core_auto k c v (of_c_estimator e) all (firstn (Z.to_nat n) i) (firstn (Z.to_nat m) o1) st = Ok (r, y1, st') /\
    core_auto k c v (of_c_estimator e) all (firstn (Z.to_nat n) i) (firstn (Z.to_nat m) o2) st = Ok (r, y2, st') /\
    (forall s, r = ROk s -> firstn (Z.to_nat n) (put_back o1 y1) = firstn (Z.to_nat n) (put_back o2 y2)).
Proof.
  intros St v e all st. destruct VI as (I1 & I2), V1 as (A1 & A2), V2 as (B1 & B2).
  assert (D : c_debug c = true -> firstn (Z.to_nat n) i <> []) by (intros Dc; apply firstn_nonempty; auto).
  assert (L : zlen (firstn (Z.to_nat m) o1) = zlen (firstn (Z.to_nat m) o2)) by (rewrite !zlen_firstn; lia).
  pose proof (old_auto c v _ _ _ st K D L k (of_c_estimator e) all) as H.
  destruct (slices_auto k c v e all i n o1 m st K HD VI V1) as (r1 & y1 & w1 & E1 & P1).
  destruct (slices_auto k c v e all i n o2 m st K HD VI V2) as (r2 & y2 & w2 & E2 & P2).
  rewrite E1, E2 in *. cbn [same_call] in H. destruct H as (<- & <- & _). exists r1, y1, y2, w1. split; [reflexivity|]. split; [reflexivity|].
  intros s ->. destruct P1 as (X & _ & ->), P2 as (_ & _ & ->). rewrite !lay_first by exact X. reflexivity.
Qed.

Lemma old_c_auto : forall {St} v (h : heap St) b ab cell st, lookup (autos h) b = Ok ab ->
  exists code y1 y2 cell1 h1 st1,
    auto_transform_c k c v (Some b) (Some i) n (Some o1) m (Some cell) h st = Ok (code, Some y1, Some cell1, h1, st1) /\
    auto_transform_c k c v (Some b) (Some i) n (Some o2) m (Some cell) h st = Ok (code, Some y2, Some cell1, h1, st1) /\
    (code = Success -> firstn (Z.to_nat n) y1 = firstn (Z.to_nat n) y2).
Proof.
  intros St v h b ab cell st HB. unfold auto_transform_c. rewrite HB, (from_raw_ok _ _ VI), (from_raw_ok _ _ V1), (from_raw_ok _ _ V2). cbn [bind]. unfold auto_transform.
  cbn [ab_estimator ab_use_all auto_use_all auto_new].
  destruct (old_slices v (ca_estimator ab) (ca_use_all ab) st) as (r & y1 & y2 & w & -> & -> & P). cbn [bind].
  destruct r as [s|[z|a d|[|e1]]]; cbn [from_auto_transform_error bind code_of_error]; do 6 eexists; (split; [reflexivity|]; split; [reflexivity|]); try discriminate.
  intros _. exact (P _ eq_refl).
Qed.

Lemma old_core_c_auto : forall {St} v (e : c_estimator St) all old st,
  exists code y1 y2 s1 st1,
    core_transform_auto_c k c v (Some i) n (Some o1) m (Some e) all (Some old) st = Ok (code, Some y1, Some s1, st1) /\
    core_transform_auto_c k c v (Some i) n (Some o2) m (Some e) all (Some old) st = Ok (code, Some y2, Some s1, st1) /\
    (code = CoreSuccess -> firstn (Z.to_nat n) y1 = firstn (Z.to_nat n) y2).
Proof.
  intros St v e all old st. unfold core_transform_auto_c. rewrite (from_raw_ok _ _ VI), (from_raw_ok _ _ V1), (from_raw_ok _ _ V2). cbn [bind].
  destruct (old_slices v e all st) as (r & y1 & y2 & w & -> & -> & P). cbn [bind].
  destruct r as [s|[z|a d|[|e1]]]; cbn [core_code_of_auto]; do 5 eexists; (split; [reflexivity|]; split; [reflexivity|]); try discriminate.
  intros _. exact (P _ eq_refl).
Qed.

Lemma codes_inj : forall e1 e2, code_number e1 = code_number e2 -> e1 = e2.
Proof. intros [] []; cbn; intros H; try reflexivity; discriminate H. Qed.
Lemma core_codes_inj : forall e1 e2, core_code_number e1 = core_code_number e2 -> e1 = e2.
Proof. intros [] []; cbn; intros H; try reflexivity; discriminate H. Qed.

Lemma old_if : forall s (code0 : bool), (code0 = true -> expected_code (codec_block k) n m = 0) -> code0 = (expected_code (codec_block k) n m =? 0) ->
  code0 = true -> firstn (Z.to_nat n) (if expected_code (codec_block k) n m =? 0 then texture_layout k s (firstn (Z.to_nat n) i) ++ skipn (Z.to_nat n) o1 else o1) =
    firstn (Z.to_nat n) (if expected_code (codec_block k) n m =? 0 then texture_layout k s (firstn (Z.to_nat n) i) ++ skipn (Z.to_nat n) o2 else o2).
Proof. intros s b X Y Z. rewrite <- Y, Z. rewrite !lay_first by auto. reflexivity. Qed.

Lemma unique_source : forall s x1 x2, expected_code (codec_block k) n m = 0 -> zlen x1 = n -> zlen x2 = n -> texture_layout k s x1 = texture_layout k s x2 -> x1 = x2.
Proof.
  intros s x1 x2 E L1 L2 Q. apply (layout_inj k s); [|unfold zlen in *; lia|exact Q].
  rewrite L1. destruct (expected_cases (codec_block k) n m) as [(_ & M & _)|[(E1 & _)|(E1 & _)]]; [exact M|lia|lia].
Qed.

Lemma old_c_manual : forall {St} (h : heap St) b mb, lookup (manuals h) b = Ok mb ->
  (exists code y1 y2, manual_transform_c k c (Some i) n (Some o1) m (Some b) h = Ok (code, Some y1) /\
    manual_transform_c k c (Some i) n (Some o2) m (Some b) h = Ok (code, Some y2) /\ (code = Success -> firstn (Z.to_nat n) y1 = firstn (Z.to_nat n) y2)) /\
  (exists code y1 y2, manual_untransform_c k c (Some i) n (Some o1) m (Some b) h = Ok (code, Some y1) /\
    manual_untransform_c k c (Some i) n (Some o2) m (Some b) h = Ok (code, Some y2) /\ (code = Success -> firstn (Z.to_nat n) y1 = firstn (Z.to_nat n) y2)).
Proof.
  intros St h b mb HB. split.
  - destruct (manual_c_transform k c h i n o1 m b mb K HD VI V1 HB) as (e1 & -> & N1). destruct (manual_c_transform k c h i n o2 m b mb K HD VI V2 HB) as (e2 & -> & N2).
    assert (e1 = e2) as <- by (apply codes_inj; congruence). do 3 eexists. split; [reflexivity|]. split; [reflexivity|]. intros ->. cbn in N1.
    apply (old_if _ true); [intros; lia|lia|reflexivity].
  - destruct (manual_c_untransform k c h i n o1 m b mb K HD VI V1 HB) as (e1 & y1 & -> & N1 & _ & S1). destruct (manual_c_untransform k c h i n o2 m b mb K HD VI V2 HB) as (e2 & y2 & -> & N2 & _ & S2).
    assert (e1 = e2) as <- by (apply codes_inj; congruence). do 3 eexists. split; [reflexivity|]. split; [reflexivity|]. intros ->.
    destruct (S1 eq_refl) as (x1 & L1 & T1 & ->), (S2 eq_refl) as (x2 & L2 & T2 & ->). cbn in N1.
    rewrite (unique_source (mb_settings mb) x1 x2) by congruence. rewrite !first_of by (unfold zlen in L2; lia). reflexivity.
Qed.
Lemma old_core_c : forall s,
  (exists code y1 y2, core_transform_c k c s (Some i) n (Some o1) m = Ok (code, Some y1) /\
    core_transform_c k c s (Some i) n (Some o2) m = Ok (code, Some y2) /\ (code = CoreSuccess -> firstn (Z.to_nat n) y1 = firstn (Z.to_nat n) y2)) /\
  (exists code y1 y2, core_untransform_c k c s (Some i) n (Some o1) m = Ok (code, Some y1) /\
    core_untransform_c k c s (Some i) n (Some o2) m = Ok (code, Some y2) /\ (code = CoreSuccess -> firstn (Z.to_nat n) y1 = firstn (Z.to_nat n) y2)).
Proof.
  intros s. assert (Z0 : (match expected_code (codec_block k) n m with 1 => 5 | 2 => 6 | _ => 0 end) = 0 -> expected_code (codec_block k) n m = 0).
  { destruct (expected_cases (codec_block k) n m) as [(-> & _)|[(-> & _)|(-> & _)]]; [reflexivity|discriminate|discriminate]. }
  split.
  - destruct (core_c_transform k c s i n o1 m K HD VI V1) as (e1 & -> & N1). destruct (core_c_transform k c s i n o2 m K HD VI V2) as (e2 & -> & N2).
    assert (e1 = e2) as <- by (apply core_codes_inj; congruence). do 3 eexists. split; [reflexivity|]. split; [reflexivity|]. intros ->. cbn [core_code_number] in N1. symmetry in N1. apply Z0 in N1.
    apply (old_if _ true); [intros; lia|lia|reflexivity].
  - destruct (core_c_untransform k c s i n o1 m K HD VI V1) as (e1 & y1 & -> & N1 & _ & S1). destruct (core_c_untransform k c s i n o2 m K HD VI V2) as (e2 & y2 & -> & N2 & _ & S2).
    assert (e1 = e2) as <- by (apply core_codes_inj; congruence). do 3 eexists. split; [reflexivity|]. split; [reflexivity|]. intros ->. cbn [core_code_number] in N1. symmetry in N1. apply Z0 in N1.
    destruct (S1 eq_refl) as (x1 & L1 & T1 & ->), (S2 eq_refl) as (x2 & L2 & T2 & ->).
    rewrite (unique_source s x1 x2) by congruence. rewrite !first_of by (unfold zlen in L2; lia). reflexivity.
Qed.
End Old.
