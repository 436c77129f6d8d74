(** Normalising transforms and what memory held before (C98). *)
From Verif Require Import Base.Bytes Base.Res Model.Color565 Model.Kernel Model.Transform Model.Auto Model.Decode Model.Normalize Model.NormTransform
  Model.BigEndian Model.BeTransform Model.BeFiles Model.BeNormTransform
  Spec.YCoCg Spec.Layout Spec.BigEndian Spec.Pixels Spec.Normalize Spec.Estimator Spec.NormTransform Spec.BeFiles
  Proofs.LayoutFacts Proofs.BigEndianFacts Proofs.NormLoop Proofs.NormalizeFacts Proofs.NormDerived Proofs.NormTransformFacts Proofs.NormAuto Proofs.NormAutoTheorems
  Proofs.BeNormAuto Proofs.BeNormAutoTheorems Proofs.AutoFacts Proofs.AutoProps.
From Coq Require Import ZifyBool ZifyNat.

Lemma old_norm_search : forall (St Er : Type) c v (e : estimator St Er) all fresh1 fresh2 even m1 m2 inp1 inp2 out1 out2 len st, cpu_ok c -> len mod 8 = 0 ->
  within m1 inp1 len -> within m1 out1 len -> inp1 + len <= out1 \/ out1 + len <= inp1 ->
  within m2 inp2 len -> within m2 out2 len -> inp2 + len <= out2 \/ out2 + len <= inp2 ->
  slice m1 inp1 len = slice m2 inp2 len ->
  (c_debug c = true -> 0 < len) -> (normalisable (slice m1 inp1 len) -> even = true /\ splittable c (len / 8)) ->
  exists r st' m1' m2',
    transform_bc1_auto_with_normalization c v e all fresh1 even inp1 out1 len m1 st = Ok (r, m1', st') /\
    transform_bc1_auto_with_normalization c v e all fresh2 even inp2 out2 len m2 st = Ok (r, m2', st') /\
    only_changes [(out1, len)] m1 m1' /\ only_changes [(out2, len)] m2 m2' /\ (forall d, r = ROk d -> slice m1' out1 len = slice m2' out2 len).
Proof.
  intros St Er c v e all fresh1 fresh2 even m1 m2 inp1 inp2 out1 out2 len st K M WI1 WO1 A1 WI2 WO2 A2 SE D1 SL. apply apartb_iff in A1. apply apartb_iff in A2.
  assert (Hx : zlen (slice m1 inp1 len) = len) by (destruct WI1 as [? [? ?]]; apply zlen_slice; lia).
  destruct (norm_dec (slice m1 inp1 len) ltac:(lia)) as [N|N].
  - destruct (SL N) as (-> & S1). 
    destruct (auto_some_exact c v e all fresh1 m1 inp1 out1 len st K M WI1 WO1 A1 N S1) as (y0 & y1 & y2 & B0 & B1 & B2 & R).
    pose proof N as N2. rewrite SE in N2.
    destruct (auto_some_exact c v e all fresh2 m2 inp2 out2 len st K M WI2 WO2 A2 N2 S1) as (w0 & w1 & w2 & C0 & C1 & C2 & Q).
    rewrite <- SE in C0, C1, C2, Q.
    assert (w0 = y0) by (apply (measured_functional CNone (slice m1 inp1 len)); [lia|assumption..]).
    assert (w1 = y1) by (apply (measured_functional Color0Only (slice m1 inp1 len)); [lia|assumption..]).
    assert (w2 = y2) by (apply (measured_functional ReplicateColor (slice m1 inp1 len)); [lia|assumption..]). subst w0 w1 w2.
    destruct (negb (alloc_ok v len)).
    { exists (RErr AllocateError), st, m1, m2. repeat split; try assumption; try apply oc_refl; discriminate. }
    destruct (max_compressed_size e st (len / 2)) as [[scratch|e1] st1].
    2:{ exists (RErr (SizeEstimationError e1)), st1, m1, m2. repeat split; try assumption; try apply oc_refl; discriminate. }
    destruct (negb (scratch =? 0) && negb (alloc_ok v scratch)).
    { exists (RErr AllocateError), st1, m1, m2. repeat split; try assumption; try apply oc_refl; discriminate. }
    destruct (negb (alloc_ok v (len / 2))).
    { exists (RErr AllocateError), st1, m1, m2. repeat split; try assumption; try apply oc_refl; discriminate. }
    destruct R as (d & bs & st2 & n1 & T1 & R & OC1 & L1). destruct Q as (d' & bs' & st2' & n2 & T2 & Q & OC2 & L2).
    rewrite T1 in T2. injection T2 as <- <- <-. exists (ROk d), st2, n1, n2. split; [exact R|]. split; [exact Q|]. split; [exact OC1|]. split; [exact OC2|].
    intros _ _. rewrite L1, L2. reflexivity.
  - destruct (auto_none c v e all fresh1 even m1 inp1 out1 len st K D1 M WI1 WO1 A1 N) as (n1 & OC1 & R).
    pose proof N as N2. rewrite SE in N2.
    destruct (auto_none c v e all fresh2 even m2 inp2 out2 len st K D1 M WI2 WO2 A2 N2) as (n2 & OC2 & Q). rewrite <- SE in Q.
    destruct (negb (alloc_ok v len)); [do 4 eexists; split; [exact R|]; split; [exact Q|]; split; [exact OC1|]; split; [exact OC2|]; intros ? H; discriminate H|].
    destruct (max_compressed_size e st (len / 2)) as [[k|e1] st1]; [|do 4 eexists; split; [exact R|]; split; [exact Q|]; split; [exact OC1|]; split; [exact OC2|]; intros ? H; discriminate H].
    destruct (negb (k =? 0) && negb (alloc_ok v k)); [do 4 eexists; split; [exact R|]; split; [exact Q|]; split; [exact OC1|]; split; [exact OC2|]; intros ? H; discriminate H|].
    destruct (max_compressed_size e st1 (len / 2)) as [[k2|e1] st2]; [|do 4 eexists; split; [exact R|]; split; [exact Q|]; split; [exact OC1|]; split; [exact OC2|]; intros ? H; discriminate H].
    destruct (negb (k2 =? 0) && negb (alloc_ok v k2)); [do 4 eexists; split; [exact R|]; split; [exact Q|]; split; [exact OC1|]; split; [exact OC2|]; intros ? H; discriminate H|].
    destruct (srch e (bc1_shown (slice m1 inp1 len)) k2 (order1 all) default_settings (usize_max v) st2) as [[s|e1] st3].
    + destruct R as [R L1]. destruct Q as [Q L2]. do 4 eexists. split; [exact R|]. split; [exact Q|]. split; [exact OC1|]. split; [exact OC2|].
      intros _ _. rewrite L1, L2. reflexivity.
    + do 4 eexists; split; [exact R|]; split; [exact Q|]; split; [exact OC1|]; split; [exact OC2|]; intros ? H; discriminate H.
Qed.

Lemma be_old_norm_search : forall (St Er : Type) c v (e : estimator St Er) all fresh1 fresh2 even m1 m2 inp1 inp2 out1 out2 len st, cpu_ok c -> len mod 8 = 0 ->
  within m1 inp1 len -> within m1 out1 len -> inp1 + len <= out1 \/ out1 + len <= inp1 ->
  within m2 inp2 len -> within m2 out2 len -> inp2 + len <= out2 \/ out2 + len <= inp2 ->
  slice m1 inp1 len = slice m2 inp2 len ->
  (c_debug c = true -> 0 < len) -> (normalisable (slice m1 inp1 len) -> even = true) ->
  exists r st' m1' m2',
    be_transform_bc1_auto_with_normalization c v e all fresh1 even inp1 out1 len m1 st = Ok (r, m1', st') /\
    be_transform_bc1_auto_with_normalization c v e all fresh2 even inp2 out2 len m2 st = Ok (r, m2', st') /\
    only_changes [(out1, len)] m1 m1' /\ only_changes [(out2, len)] m2 m2' /\ (forall d, r = ROk d -> slice m1' out1 len = slice m2' out2 len).
Proof.
  intros St Er c v e all fresh1 fresh2 even m1 m2 inp1 inp2 out1 out2 len st K M WI1 WO1 A1 WI2 WO2 A2 SE D1 SL. apply apartb_iff in A1. apply apartb_iff in A2.
  assert (Hx : zlen (slice m1 inp1 len) = len) by (destruct WI1 as [? [? ?]]; apply zlen_slice; lia).
  destruct (norm_dec (slice m1 inp1 len) ltac:(lia)) as [N|N].
  - assert (even = true) as -> by exact (SL N). assert (S1 : c_debug c = true -> 0 < len / 8) by (intros D; specialize (D1 D); lia).
    destruct (be_auto_some_exact c v e all fresh1 m1 inp1 out1 len st K M WI1 WO1 A1 N S1) as (y0 & y1 & y2 & B0 & B1 & B2 & R).
    pose proof N as N2. rewrite SE in N2.
    destruct (be_auto_some_exact c v e all fresh2 m2 inp2 out2 len st K M WI2 WO2 A2 N2 S1) as (w0 & w1 & w2 & C0 & C1 & C2 & Q).
    rewrite <- SE in C0, C1, C2, Q.
    assert (w0 = y0) by (apply (measured_functional CNone (slice m1 inp1 len)); [lia|assumption..]).
    assert (w1 = y1) by (apply (measured_functional Color0Only (slice m1 inp1 len)); [lia|assumption..]).
    assert (w2 = y2) by (apply (measured_functional ReplicateColor (slice m1 inp1 len)); [lia|assumption..]). subst w0 w1 w2.
    destruct (negb (alloc_ok v len)).
    { exists (RErr AllocateError), st, m1, m2. repeat split; try assumption; try apply oc_refl; discriminate. }
    destruct (max_compressed_size e st (len / 2)) as [[scratch|e1] st1].
    2:{ exists (RErr (SizeEstimationError e1)), st1, m1, m2. repeat split; try assumption; try apply oc_refl; discriminate. }
    destruct (negb (scratch =? 0) && negb (alloc_ok v scratch)).
    { exists (RErr AllocateError), st1, m1, m2. repeat split; try assumption; try apply oc_refl; discriminate. }
    destruct (negb (alloc_ok v (len / 2))).
    { exists (RErr AllocateError), st1, m1, m2. repeat split; try assumption; try apply oc_refl; discriminate. }
    destruct R as (d & bs & st2 & n1 & T1 & R & OC1 & L1). destruct Q as (d' & bs' & st2' & n2 & T2 & Q & OC2 & L2).
    rewrite T1 in T2. injection T2 as <- <- <-. exists (ROk d), st2, n1, n2. split; [exact R|]. split; [exact Q|]. split; [exact OC1|]. split; [exact OC2|].
    intros _ _. rewrite L1, L2. reflexivity.
  - destruct (be_auto_none c v e all fresh1 even m1 inp1 out1 len st K M WI1 WO1 A1 N) as (n1 & OC1 & R).
    pose proof N as N2. rewrite SE in N2.
    destruct (be_auto_none c v e all fresh2 even m2 inp2 out2 len st K M WI2 WO2 A2 N2) as (n2 & OC2 & Q). rewrite <- SE in Q.
    destruct (negb (alloc_ok v len)); [do 4 eexists; split; [exact R|]; split; [exact Q|]; split; [exact OC1|]; split; [exact OC2|]; intros ? H; discriminate H|].
    destruct (max_compressed_size e st (len / 2)) as [[k|e1] st1]; [|do 4 eexists; split; [exact R|]; split; [exact Q|]; split; [exact OC1|]; split; [exact OC2|]; intros ? H; discriminate H].
    destruct (negb (k =? 0) && negb (alloc_ok v k)); [do 4 eexists; split; [exact R|]; split; [exact Q|]; split; [exact OC1|]; split; [exact OC2|]; intros ? H; discriminate H|].
    destruct (max_compressed_size e st1 (len / 2)) as [[k2|e1] st2]; [|do 4 eexists; split; [exact R|]; split; [exact Q|]; split; [exact OC1|]; split; [exact OC2|]; intros ? H; discriminate H].
    destruct (negb (k2 =? 0) && negb (alloc_ok v k2)); [do 4 eexists; split; [exact R|]; split; [exact Q|]; split; [exact OC1|]; split; [exact OC2|]; intros ? H; discriminate H|].
    destruct (srch e (be_bc1_shown (slice m1 inp1 len)) k2 (order1 all) default_settings (usize_max v) st2) as [[s|e1] st3].
    + destruct R as [R L1]. destruct Q as [Q L2]. do 4 eexists. split; [exact R|]. split; [exact Q|]. split; [exact OC1|]. split; [exact OC2|].
      intros _ _. rewrite L1, L2. reflexivity.
    + do 4 eexists; split; [exact R|]; split; [exact Q|]; split; [exact OC1|]; split; [exact OC2|]; intros ? H; discriminate H.
Qed.

Lemma old_norm_transform : forall c even m1 m2 inp1 inp2 out1 out2 work1 work2 len d, cpu_ok c -> len mod 8 = 0 ->
  within m1 inp1 len -> within m1 out1 len -> within m1 work1 (len / 2) -> inp1 + len <= out1 \/ out1 + len <= inp1 ->
  inp1 + len <= work1 \/ work1 + len / 2 <= inp1 -> work1 + len / 2 <= out1 \/ out1 + len <= work1 ->
  within m2 inp2 len -> within m2 out2 len -> within m2 work2 (len / 2) -> inp2 + len <= out2 \/ out2 + len <= inp2 ->
  inp2 + len <= work2 \/ work2 + len / 2 <= inp2 -> work2 + len / 2 <= out2 \/ out2 + len <= work2 ->
  slice m1 inp1 len = slice m2 inp2 len -> even = true \/ d_decorr d = VNone -> (d_split d = true -> splittable c (len / 8)) ->
  exists m1' m2', transform_bc1_with_normalize_blocks c even inp1 out1 work1 len d m1 = Ok m1' /\
    transform_bc1_with_normalize_blocks c even inp2 out2 work2 len d m2 = Ok m2' /\
    only_changes [(out1, len); (work1, len / 2)] m1 m1' /\ only_changes [(out2, len); (work2, len / 2)] m2 m2' /\ slice m1' out1 len = slice m2' out2 len.
Proof.
  intros c even m1 m2 inp1 inp2 out1 out2 work1 work2 len d K M WI1 WO1 WW1 A1 A1' B1 WI2 WO2 WW2 A2 A2' B2 SE E S.
  assert (LN : len <= zlen (repeat x00 (Z.to_nat len))) by (unfold zlen; rewrite repeat_length; destruct WI1 as (? & ? & ?); lia).
  destruct (lC51 c c even m1 inp1 out1 work1 len d (repeat x00 (Z.to_nat len))) as (n1 & y1 & F1 & O1 & Y1 & _ & L1 & _); try assumption.
  { intros D SP. destruct (S SP) as [H _]. specialize (H D). lia. }
  destruct (lC51 c c even m2 inp2 out2 work2 len d (repeat x00 (Z.to_nat len))) as (n2 & y2 & F2 & O2 & Y2 & _ & L2 & _); try assumption.
  { intros D SP. destruct (S SP) as [H _]. specialize (H D). lia. }
  rewrite <- SE in Y2.
  exists n1, n2. split; [exact F1|]. split; [exact F2|]. split; [exact O1|]. split; [exact O2|]. rewrite L1, L2. f_equal.
  apply (blockwise_functional 8 (bc1_normal (d_norm d)) (slice m1 inp1 len)); try assumption; try lia.
  - destruct WI1 as (? & ? & ?). rewrite zlen_slice by lia. exact M.
  - intros b b' b'' _. apply bc1_functional.
Qed.

Lemma be_old_norm_transform : forall c even m1 m2 inp1 inp2 out1 out2 work1 work2 len d, cpu_ok c -> len mod 8 = 0 ->
  within m1 inp1 len -> within m1 out1 len -> within m1 work1 (len / 2) -> inp1 + len <= out1 \/ out1 + len <= inp1 ->
  inp1 + len <= work1 \/ work1 + len / 2 <= inp1 -> work1 + len / 2 <= out1 \/ out1 + len <= work1 ->
  within m2 inp2 len -> within m2 out2 len -> within m2 work2 (len / 2) -> inp2 + len <= out2 \/ out2 + len <= inp2 ->
  inp2 + len <= work2 \/ work2 + len / 2 <= inp2 -> work2 + len / 2 <= out2 \/ out2 + len <= work2 ->
  slice m1 inp1 len = slice m2 inp2 len -> even = true \/ d_decorr d = VNone -> (c_debug c = true -> d_split d = true -> 0 < len) ->
  exists m1' m2', be_transform_bc1_with_normalize_blocks c even inp1 out1 work1 len d m1 = Ok m1' /\
    be_transform_bc1_with_normalize_blocks c even inp2 out2 work2 len d m2 = Ok m2' /\
    only_changes [(out1, len); (work1, len / 2)] m1 m1' /\ only_changes [(out2, len); (work2, len / 2)] m2 m2' /\ slice m1' out1 len = slice m2' out2 len.
Proof.
  intros c even m1 m2 inp1 inp2 out1 out2 work1 work2 len d K M WI1 WO1 WW1 A1 A1' B1 WI2 WO2 WW2 A2 A2' B2 SE E S.
  assert (LN : len <= zlen (repeat x00 (Z.to_nat len))) by (unfold zlen; rewrite repeat_length; destruct WI1 as (? & ? & ?); lia).
  destruct (be_lC51 c c even m1 inp1 out1 work1 len d (repeat x00 (Z.to_nat len))) as (n1 & y1 & F1 & O1 & Y1 & _ & L1 & _); try assumption.
  { intros SP D. specialize (S D SP). lia. }
  destruct (be_lC51 c c even m2 inp2 out2 work2 len d (repeat x00 (Z.to_nat len))) as (n2 & y2 & F2 & O2 & Y2 & _ & L2 & _); try assumption.
  { intros SP D. specialize (S D SP). lia. }
  rewrite <- SE in Y2.
  exists n1, n2. split; [exact F1|]. split; [exact F2|]. split; [exact O1|]. split; [exact O2|]. rewrite L1, L2. f_equal.
  apply (blockwise_functional 8 (bc1_normal (d_norm d)) (slice m1 inp1 len)); try assumption; try lia.
  - destruct WI1 as (? & ? & ?). rewrite zlen_slice by lia. exact M.
  - intros b b' b'' _. apply bc1_functional.
Qed.
