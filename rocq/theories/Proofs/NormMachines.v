(** The normalising transform and its search on two machines (C95). *)
From Verif Require Import Base.Bytes Base.Res Model.Color565 Model.Kernel Model.Transform Model.Auto Model.Decode Model.Normalize Model.NormTransform
  Model.BigEndian Model.BeTransform Model.BeFiles Model.BeNormTransform
  Spec.YCoCg Spec.Layout Spec.BigEndian Spec.Pixels Spec.Normalize Spec.Estimator Spec.NormTransform Spec.BeFiles
  Proofs.LayoutFacts Proofs.BigEndianFacts Proofs.NormLoop Proofs.NormalizeFacts Proofs.NormDerived Proofs.NormTransformFacts Proofs.NormAuto Proofs.NormAutoTheorems
  Proofs.BeNormAuto Proofs.BeNormAutoTheorems Proofs.AutoFacts Proofs.AutoProps.
From Coq Require Import ZifyBool ZifyNat.

Lemma same_area : forall m m1 m2 out len, within m out len -> only_changes [(out, len)] m m1 -> only_changes [(out, len)] m m2 ->
  slice m1 out len = slice m2 out len -> m1 = m2.
Proof.
  intros m m1 m2 out len (O1 & O2 & O3) [Z1 C1] [Z2 C2] S. apply znth_ext; [lia|].
  intros i Hi. destruct ((out <=? i) && (i <? out + len)) eqn:E.
  - pose proof (f_equal (fun l => znth l (i - out)) S) as T. cbv beta in T. rewrite !znth_slice in T by lia. replace (out + (i - out)) with i in T by lia. exact T.
  - assert (NI : forall p l, In (p, l) [(out, len)] -> ~ (p <= i < p + l)) by (intros p l [H|[]]; injection H as <- <-; lia).
    rewrite C1, C2; try assumption; try lia. reflexivity.
Qed.

Lemma norm_search_same : forall (St Er : Type) c1 c2 v (e : estimator St Er) all fresh1 fresh2 even1 even2 m inp out len st, cpu_ok c1 -> cpu_ok c2 -> len mod 8 = 0 ->
  within m inp len -> within m out len -> inp + len <= out \/ out + len <= inp ->
  (c_debug c1 = true -> 0 < len) -> (c_debug c2 = true -> 0 < len) -> (normalisable (slice m inp len) -> even1 = true /\ even2 = true /\ splittable c1 (len / 8) /\ splittable c2 (len / 8)) ->
  exists r st' m1 m2,
    transform_bc1_auto_with_normalization c1 v e all fresh1 even1 inp out len m st = Ok (r, m1, st') /\
    transform_bc1_auto_with_normalization c2 v e all fresh2 even2 inp out len m st = Ok (r, m2, st') /\
    only_changes [(out, len)] m m1 /\ only_changes [(out, len)] m m2 /\ (forall d, r = ROk d -> m1 = m2).
Proof.
  intros St Er c1 c2 v e all fresh1 fresh2 even1 even2 m inp out len st K1 K2 M WI WO A D1 D2 SL. apply apartb_iff in A.
  assert (Hx : zlen (slice m inp len) = len) by (destruct WI as [? [? ?]]; apply zlen_slice; lia).
  destruct (norm_dec (slice m inp len) ltac:(lia)) as [N|N].
  - destruct (SL N) as (-> & -> & S1 & S2).
    destruct (auto_some_exact c1 v e all fresh1 m inp out len st K1 M WI WO A N S1) as (y0 & y1 & y2 & B0 & B1 & B2 & R).
    destruct (auto_some_exact c2 v e all fresh2 m inp out len st K2 M WI WO A N S2) as (w0 & w1 & w2 & C0 & C1 & C2 & Q).
    assert (w0 = y0) by (apply (measured_functional CNone (slice m inp len)); [lia|assumption..]).
    assert (w1 = y1) by (apply (measured_functional Color0Only (slice m inp len)); [lia|assumption..]).
    assert (w2 = y2) by (apply (measured_functional ReplicateColor (slice m inp len)); [lia|assumption..]). subst w0 w1 w2.
    destruct (negb (alloc_ok v len)).
    { exists (RErr AllocateError), st, m, m. repeat split; try assumption; apply oc_refl. }
    destruct (max_compressed_size e st (len / 2)) as [[scratch|e1] st1].
    2:{ exists (RErr (SizeEstimationError e1)), st1, m, m. repeat split; try assumption; apply oc_refl. }
    destruct (negb (scratch =? 0) && negb (alloc_ok v scratch)).
    { exists (RErr AllocateError), st1, m, m. repeat split; try assumption; apply oc_refl. }
    destruct (negb (alloc_ok v (len / 2))).
    { exists (RErr AllocateError), st1, m, m. repeat split; try assumption; apply oc_refl. }
    destruct R as (d & bs & st2 & m1 & T1 & R & OC1 & L1). destruct Q as (d' & bs' & st2' & m2 & T2 & Q & OC2 & L2).
    rewrite T1 in T2. injection T2 as <- <- <-. exists (ROk d), st2, m1, m2. split; [exact R|]. split; [exact Q|]. split; [exact OC1|]. split; [exact OC2|].
    intros _ _. apply (same_area m m1 m2 out len WO OC1 OC2). rewrite L1, L2. reflexivity.
  - destruct (auto_none c1 v e all fresh1 even1 m inp out len st K1 D1 M WI WO A N) as (m1 & OC1 & R).
    destruct (auto_none c2 v e all fresh2 even2 m inp out len st K2 D2 M WI WO A N) as (m2 & OC2 & Q).
    destruct (negb (alloc_ok v len)); [do 4 eexists; split; [exact R|]; split; [exact Q|]; split; [exact OC1|]; split; [exact OC2|]; intros ? H; discriminate H|].
    destruct (max_compressed_size e st (len / 2)) as [[n|e1] st1];
      [|do 4 eexists; split; [exact R|]; split; [exact Q|]; split; [exact OC1|]; split; [exact OC2|]; intros ? H; discriminate H].
    destruct (negb (n =? 0) && negb (alloc_ok v n)); [do 4 eexists; split; [exact R|]; split; [exact Q|]; split; [exact OC1|]; split; [exact OC2|]; intros ? H; discriminate H|].
    destruct (max_compressed_size e st1 (len / 2)) as [[n2|e1] st2];
      [|do 4 eexists; split; [exact R|]; split; [exact Q|]; split; [exact OC1|]; split; [exact OC2|]; intros ? H; discriminate H].
    destruct (negb (n2 =? 0) && negb (alloc_ok v n2)); [do 4 eexists; split; [exact R|]; split; [exact Q|]; split; [exact OC1|]; split; [exact OC2|]; intros ? H; discriminate H|].
    destruct (srch e (bc1_shown (slice m inp len)) n2 (order1 all) default_settings (usize_max v) st2) as [[s|e1] st3].
    + destruct R as [R L1]. destruct Q as [Q L2]. do 4 eexists. split; [exact R|]. split; [exact Q|]. split; [exact OC1|]. split; [exact OC2|].
      intros _ _. apply (same_area m m1 m2 out len WO OC1 OC2). rewrite L1, L2. reflexivity.
    + do 4 eexists. split; [exact R|]. split; [exact Q|]. split; [exact OC1|]. split; [exact OC2|]. intros ? H. discriminate H.
Qed.

Lemma be_norm_search_same : forall (St Er : Type) c1 c2 v (e : estimator St Er) all fresh1 fresh2 even1 even2 m inp out len st, cpu_ok c1 -> cpu_ok c2 -> len mod 8 = 0 ->
  within m inp len -> within m out len -> inp + len <= out \/ out + len <= inp ->
  (c_debug c1 = true -> 0 < len) -> (c_debug c2 = true -> 0 < len) -> (normalisable (slice m inp len) -> even1 = true /\ even2 = true) ->
  exists r st' m1 m2,
    be_transform_bc1_auto_with_normalization c1 v e all fresh1 even1 inp out len m st = Ok (r, m1, st') /\
    be_transform_bc1_auto_with_normalization c2 v e all fresh2 even2 inp out len m st = Ok (r, m2, st') /\
    only_changes [(out, len)] m m1 /\ only_changes [(out, len)] m m2 /\ (forall d, r = ROk d -> m1 = m2).
Proof.
  intros St Er c1 c2 v e all fresh1 fresh2 even1 even2 m inp out len st K1 K2 M WI WO A D1 D2 SL. apply apartb_iff in A.
  assert (Hx : zlen (slice m inp len) = len) by (destruct WI as [? [? ?]]; apply zlen_slice; lia).
  destruct (norm_dec (slice m inp len) ltac:(lia)) as [N|N].
  - destruct (SL N) as (-> & ->). assert (S1 : c_debug c1 = true -> 0 < len / 8) by (intros D; specialize (D1 D); lia). assert (S2 : c_debug c2 = true -> 0 < len / 8) by (intros D; specialize (D2 D); lia).
    destruct (be_auto_some_exact c1 v e all fresh1 m inp out len st K1 M WI WO A N S1) as (y0 & y1 & y2 & B0 & B1 & B2 & R).
    destruct (be_auto_some_exact c2 v e all fresh2 m inp out len st K2 M WI WO A N S2) as (w0 & w1 & w2 & C0 & C1 & C2 & Q).
    assert (w0 = y0) by (apply (measured_functional CNone (slice m inp len)); [lia|assumption..]).
    assert (w1 = y1) by (apply (measured_functional Color0Only (slice m inp len)); [lia|assumption..]).
    assert (w2 = y2) by (apply (measured_functional ReplicateColor (slice m inp len)); [lia|assumption..]). subst w0 w1 w2.
    destruct (negb (alloc_ok v len)).
    { exists (RErr AllocateError), st, m, m. repeat split; try assumption; apply oc_refl. }
    destruct (max_compressed_size e st (len / 2)) as [[scratch|e1] st1].
    2:{ exists (RErr (SizeEstimationError e1)), st1, m, m. repeat split; try assumption; apply oc_refl. }
    destruct (negb (scratch =? 0) && negb (alloc_ok v scratch)).
    { exists (RErr AllocateError), st1, m, m. repeat split; try assumption; apply oc_refl. }
    destruct (negb (alloc_ok v (len / 2))).
    { exists (RErr AllocateError), st1, m, m. repeat split; try assumption; apply oc_refl. }
    destruct R as (d & bs & st2 & m1 & T1 & R & OC1 & L1). destruct Q as (d' & bs' & st2' & m2 & T2 & Q & OC2 & L2).
    rewrite T1 in T2. injection T2 as <- <- <-. exists (ROk d), st2, m1, m2. split; [exact R|]. split; [exact Q|]. split; [exact OC1|]. split; [exact OC2|].
    intros _ _. apply (same_area m m1 m2 out len WO OC1 OC2). rewrite L1, L2. reflexivity.
  - destruct (be_auto_none c1 v e all fresh1 even1 m inp out len st K1 M WI WO A N) as (m1 & OC1 & R).
    destruct (be_auto_none c2 v e all fresh2 even2 m inp out len st K2 M WI WO A N) as (m2 & OC2 & Q).
    destruct (negb (alloc_ok v len)); [do 4 eexists; split; [exact R|]; split; [exact Q|]; split; [exact OC1|]; split; [exact OC2|]; intros ? H; discriminate H|].
    destruct (max_compressed_size e st (len / 2)) as [[n|e1] st1];
      [|do 4 eexists; split; [exact R|]; split; [exact Q|]; split; [exact OC1|]; split; [exact OC2|]; intros ? H; discriminate H].
    destruct (negb (n =? 0) && negb (alloc_ok v n)); [do 4 eexists; split; [exact R|]; split; [exact Q|]; split; [exact OC1|]; split; [exact OC2|]; intros ? H; discriminate H|].
    destruct (max_compressed_size e st1 (len / 2)) as [[n2|e1] st2];
      [|do 4 eexists; split; [exact R|]; split; [exact Q|]; split; [exact OC1|]; split; [exact OC2|]; intros ? H; discriminate H].
    destruct (negb (n2 =? 0) && negb (alloc_ok v n2)); [do 4 eexists; split; [exact R|]; split; [exact Q|]; split; [exact OC1|]; split; [exact OC2|]; intros ? H; discriminate H|].
    destruct (srch e (be_bc1_shown (slice m inp len)) n2 (order1 all) default_settings (usize_max v) st2) as [[s|e1] st3].
    + destruct R as [R L1]. destruct Q as [Q L2]. do 4 eexists. split; [exact R|]. split; [exact Q|]. split; [exact OC1|]. split; [exact OC2|].
      intros _ _. apply (same_area m m1 m2 out len WO OC1 OC2). rewrite L1, L2. reflexivity.
    + do 4 eexists. split; [exact R|]. split; [exact Q|]. split; [exact OC1|]. split; [exact OC2|]. intros ? H. discriminate H.
Qed.

Lemma norm_transform_same : forall c1 c2 even1 even2 m inp out work1 work2 len d, cpu_ok c1 -> cpu_ok c2 -> len mod 8 = 0 ->
  within m inp len -> within m out len -> within m work1 (len / 2) -> within m work2 (len / 2) -> inp + len <= out \/ out + len <= inp ->
  inp + len <= work1 \/ work1 + len / 2 <= inp -> work1 + len / 2 <= out \/ out + len <= work1 ->
  inp + len <= work2 \/ work2 + len / 2 <= inp -> work2 + len / 2 <= out \/ out + len <= work2 ->
  even1 = true \/ d_decorr d = VNone -> even2 = true \/ d_decorr d = VNone -> (d_split d = true -> splittable c1 (len / 8)) -> (d_split d = true -> splittable c2 (len / 8)) ->
  exists m1 m2, transform_bc1_with_normalize_blocks c1 even1 inp out work1 len d m = Ok m1 /\
    transform_bc1_with_normalize_blocks c2 even2 inp out work2 len d m = Ok m2 /\
    only_changes [(out, len); (work1, len / 2)] m m1 /\ only_changes [(out, len); (work2, len / 2)] m m2 /\ slice m1 out len = slice m2 out len.
Proof.
  intros c1 c2 even1 even2 m inp out work1 work2 len d K1 K2 M WI WO W1 W2 A A1 B1 A2 B2 E1 E2 S1 S2.
  assert (LN : len <= zlen (repeat x00 (Z.to_nat len))) by (unfold zlen; rewrite repeat_length; destruct WI as (? & ? & ?); lia).
  destruct (lC51 c1 c1 even1 m inp out work1 len d (repeat x00 (Z.to_nat len))) as (m1 & y1 & F1 & O1 & Y1 & _ & L1 & _); try assumption.
  
  { intros D SP. destruct (S1 SP) as [H _]. specialize (H D). lia. }
  destruct (lC51 c2 c2 even2 m inp out work2 len d (repeat x00 (Z.to_nat len))) as (m2 & y2 & F2 & O2 & Y2 & _ & L2 & _); try assumption.
  
  { intros D SP. destruct (S2 SP) as [H _]. specialize (H D). lia. }
  exists m1, m2. split; [exact F1|]. split; [exact F2|]. split; [exact O1|]. split; [exact O2|]. rewrite L1, L2. f_equal.
  apply (blockwise_functional 8 (bc1_normal (d_norm d)) (slice m inp len)); try assumption; try lia.
  - destruct WI as (? & ? & ?). rewrite zlen_slice by lia. exact M.
  - intros b b' b'' _. apply bc1_functional.
Qed.

Lemma be_norm_transform_same : forall c1 c2 even1 even2 m inp out work1 work2 len d, cpu_ok c1 -> cpu_ok c2 -> len mod 8 = 0 ->
  within m inp len -> within m out len -> within m work1 (len / 2) -> within m work2 (len / 2) -> inp + len <= out \/ out + len <= inp ->
  inp + len <= work1 \/ work1 + len / 2 <= inp -> work1 + len / 2 <= out \/ out + len <= work1 ->
  inp + len <= work2 \/ work2 + len / 2 <= inp -> work2 + len / 2 <= out \/ out + len <= work2 ->
  even1 = true \/ d_decorr d = VNone -> even2 = true \/ d_decorr d = VNone -> (c_debug c1 = true -> d_split d = true -> 0 < len) -> (c_debug c2 = true -> d_split d = true -> 0 < len) ->
  exists m1 m2, be_transform_bc1_with_normalize_blocks c1 even1 inp out work1 len d m = Ok m1 /\
    be_transform_bc1_with_normalize_blocks c2 even2 inp out work2 len d m = Ok m2 /\
    only_changes [(out, len); (work1, len / 2)] m m1 /\ only_changes [(out, len); (work2, len / 2)] m m2 /\ slice m1 out len = slice m2 out len.
Proof.
  intros c1 c2 even1 even2 m inp out work1 work2 len d K1 K2 M WI WO W1 W2 A A1 B1 A2 B2 E1 E2 S1 S2.
  assert (LN : len <= zlen (repeat x00 (Z.to_nat len))) by (unfold zlen; rewrite repeat_length; destruct WI as (? & ? & ?); lia).
  destruct (be_lC51 c1 c1 even1 m inp out work1 len d (repeat x00 (Z.to_nat len))) as (m1 & y1 & F1 & O1 & Y1 & _ & L1 & _); try assumption.
  { intros SP D. specialize (S1 D SP). lia. }
  
  destruct (be_lC51 c2 c2 even2 m inp out work2 len d (repeat x00 (Z.to_nat len))) as (m2 & y2 & F2 & O2 & Y2 & _ & L2 & _); try assumption.
  { intros SP D. specialize (S2 D SP). lia. }
  
  exists m1, m2. split; [exact F1|]. split; [exact F2|]. split; [exact O1|]. split; [exact O2|]. rewrite L1, L2. f_equal.
  apply (blockwise_functional 8 (bc1_normal (d_norm d)) (slice m inp len)); try assumption; try lia.
  - destruct WI as (? & ? & ?). rewrite zlen_slice by lia. exact M.
  - intros b b' b'' _. apply bc1_functional.
Qed.
