(** The builders, and searches with estimators that have state, on a big-endian machine. *)
From Verif Require Import Base.Bytes Base.Res Model.Color565 Model.Kernel Model.Transform Model.Auto Model.Builders Model.BigEndian Model.BeTransform Model.BeFiles
  Spec.YCoCg Spec.Layout Spec.BigEndian Spec.Estimator Spec.Answers Spec.BeFiles
  Proofs.AutoProps Proofs.AutoTheorems Proofs.AutoAnswers Proofs.BeAutoProps Proofs.BeAutoTheorems Proofs.BigEndianFacts Proofs.BigEndianProps Proofs.CApiFacts.
From Coq Require Import ZifyBool ZifyNat.
Open Scope list_scope.
Open Scope Z_scope.

Lemma be_manual_round_trip : forall (k : codec) (d1 d2 : bool) (j1 j2 : byte) (b : manual_builder) (x out1 out2 : list byte),
  zlen x mod codec_block k = 0 -> zlen x <= zlen out1 -> zlen x <= zlen out2 ->
  exists y z, be_manual_transform k (big_endian_cpu d1 j1) b x out1 = Ok (ROk tt, y) /\
    be_manual_untransform k (big_endian_cpu d2 j2) b (firstn (List.length x) y) out2 = Ok (ROk tt, z) /\ firstn (List.length x) z = x.
Proof.
  intros k d1 d2 j1 j2 b x out1 out2 Hm H1 H2. unfold be_manual_transform, be_manual_untransform, be_core_transform, be_core_untransform. destruct k; cbn [codec_block] in Hm.
  - destruct (lC65_bc1_lossless d1 d2 j1 j2 (mb_settings b) x out1 out2 Hm H1 H2) as (y & z & A & B & C). exists y, z. rewrite A, B. auto.
  - destruct (lC65_bc2_lossless d1 d2 j1 j2 (mb_settings b) x out1 out2 Hm H1 H2) as (y & z & A & B & C). exists y, z. rewrite A, B. auto.
Qed.

Lemma be_builder_errors : forall (St Er : Type) (k : codec) (c : cfg) (v : env) (m : manual_builder) (b : auto_builder St Er) (x out : list byte) (st : St),
  (zlen x mod codec_block k <> 0 ->
    be_manual_transform k c m x out = Ok (RErr (BcInvalidLength (zlen x)), out) /\
    be_manual_untransform k c m x out = Ok (RErr (BcInvalidLength (zlen x)), out) /\
    be_auto_transform k c v b x out st = Ok (RErr (BcInvalidLength (zlen x)), out, st)) /\
  (zlen x mod codec_block k = 0 -> zlen out < zlen x ->
    be_manual_transform k c m x out = Ok (RErr (BcOutputBufferTooSmall (zlen x) (zlen out)), out) /\
    be_manual_untransform k c m x out = Ok (RErr (BcOutputBufferTooSmall (zlen x) (zlen out)), out) /\
    be_auto_transform k c v b x out st = Ok (RErr (BcOutputBufferTooSmall (zlen x) (zlen out)), out, st)).
Proof.
  intros St Er k c v m b x out st. unfold be_manual_transform, be_manual_untransform, be_auto_transform, be_core_transform, be_core_untransform, be_core_auto.
  split; intros H; [|intros H1]; destruct k; cbn [codec_block] in *;
    unfold be_transform_bc1, be_transform_bc2, be_untransform_bc1, be_untransform_bc2, be_transform_bc1_auto, be_transform_bc2_auto, checked, auto_checked.
  1,2: replace (zlen x mod _ =? 0) with false by lia; auto.
  all: replace (zlen x mod _ =? 0) with true by lia; cbn [negb]; replace (zlen out <? zlen x) with true by lia; auto.
Qed.

Lemma be_auto_round_trip : forall (St Er : Type) (k : codec) (d1 d2 : bool) (j1 j2 : byte) (v : env) (b : auto_builder St Er) (x out out2 : list byte) (st st' : St) m y,
  be_auto_transform k (big_endian_cpu d1 j1) v b x out st = Ok (ROk m, y, st') -> zlen x <= zlen out2 ->
  candidate (ab_use_all b) (decorrelation_mode (mb_settings m)) /\
  exists z, be_manual_untransform k (big_endian_cpu d2 j2) m (firstn (List.length x) y) out2 = Ok (ROk tt, z) /\ firstn (List.length x) z = x.
Proof.
  intros St Er k d1 d2 j1 j2 v b x out out2 st st' m y H H2. unfold be_auto_transform in H.
  destruct (be_core_auto k (big_endian_cpu d1 j1) v (ab_estimator b) (ab_use_all b) x out st) as [[[[s|e] y1] st1]| |] eqn:E; cbn [bind] in H; try discriminate.
  injection H as <- <- _. unfold manual_decorrelation_mode, manual_split_colour_endpoints. cbn [mb_settings decorrelation_mode split_colour_endpoints].
  rewrite from_to_internal. replace (Settings (decorrelation_mode s) (split_colour_endpoints s)) with s by (destruct s; reflexivity).
  unfold be_manual_untransform. cbn [mb_settings]. destruct k; cbn [be_core_auto be_core_untransform] in *.
  - split.
    + unfold be_transform_bc1_auto in E. pose proof (valid_auto _ _ _ _ _ _ _ _ E) as (Hm & Ho).
      destruct (AUTO_ok _ _ _ _ _ _ _ _ _ _ _ _ (be_bc1_AUTO (big_endian_cpu d1 j1) v (ab_estimator b) (ab_use_all b) x out (big_endian_ok d1 j1) Hm Ho)
        ltac:(apply order1_in; unfold candidate; auto) E) as (I & _). apply order1_in in I. exact I.
    + destruct (be_lC21_bc1_auto_lossless St Er d1 d2 j1 j2 v _ _ x out out2 st st1 s y1 E H2) as (z & A & B). exists z. rewrite A. auto.
  - split.
    + unfold be_transform_bc2_auto in E. pose proof (valid_auto _ _ _ _ _ _ _ _ E) as (Hm & Ho).
      destruct (AUTO_ok _ _ _ _ _ _ _ _ _ _ _ _ (be_bc2_AUTO (big_endian_cpu d1 j1) v (ab_estimator b) (ab_use_all b) x out (big_endian_ok d1 j1) Hm Ho)
        ltac:(apply order1_in; unfold candidate; auto) E) as (I & _). apply order1_in in I. exact I.
    + destruct (be_lC21_bc2_auto_lossless St Er d1 d2 j1 j2 v _ _ x out out2 st st1 s y1 E H2) as (z & A & B). exists z. rewrite A. auto.
Qed.

(** ** Estimators with state *)
Section Answers.
Context {St Er : Type}.
Lemma be_bc1_answers : forall (d : bool) (j : byte) (v : env) (e : estimator St Er) (all : bool) (x out : list byte) (st : St) s y st' log,
  (forall st d n z st', estimate_compressed_size e st d n = (ROk z, st') -> z < usize_max v) ->
  be_transform_bc1_auto (big_endian_cpu d j) v (logging e) all x out (st, []) = Ok (ROk s, y, (st', log)) ->
  be_transform_bc1_auto (big_endian_cpu d j) v e all x out st = Ok (ROk s, y, st') /\
  exists scratch rounds, log = AskedMax (zlen x / 2) (ROk scratch) :: flat_map (round_calls (be_bc1_shown x) scratch) rounds /\
    map fst rounds = tried all /\ Forall (fun r => List.length (snd r) = List.length (be_bc1_shown x (fst r))) rounds /\ first_smallest rounds s.
Proof.
  intros d j v e all x out st s y st' log HU H. split.
  - rewrite <- (be_bc1_log_same (big_endian_cpu d j) v e all x out st []), H. reflexivity.
  - pose proof H as H0. unfold be_transform_bc1_auto in H0. apply valid_auto in H0. destruct H0 as (Hm & Ho).
    destruct (AUTO_answers v e (be_bc1_shown x) _ (tried all) default_settings (zlen x / 2) _ st s y st' log (fun _ _ z => z < usize_max v)
      (be_bc1_AUTO (big_endian_cpu d j) v (logging e) all x out (big_endian_ok d j) Hm Ho)) as (scratch & rounds & _ & R1 & R2 & R3 & R4).
    + apply order1_in. unfold candidate. auto.
    + intros n s0 d0 z s1. apply HU.
    + intros n s0 zs F. inversion F as [|d0 z ds zs0 Q F0]; subst. inversion F0; subst. cbn [answered_sum fold_right]. lia.
    + exact H.
    + exists scratch, rounds. split; [exact R1|]. split; [exact R2|]. split; [exact (lengths _ _ _ R3)|exact R4].
Qed.
Lemma be_bc2_answers : forall (d : bool) (j : byte) (v : env) (e : estimator St Er) (all : bool) (x out : list byte) (st : St) s y st' log,
  (forall st d n z st', estimate_compressed_size e st d n = (ROk z, st') -> z < usize_max v) ->
  be_transform_bc2_auto (big_endian_cpu d j) v (logging e) all x out (st, []) = Ok (ROk s, y, (st', log)) ->
  be_transform_bc2_auto (big_endian_cpu d j) v e all x out st = Ok (ROk s, y, st') /\
  exists scratch rounds, log = AskedMax (zlen x / 4) (ROk scratch) :: flat_map (round_calls (be_bc2_shown x) scratch) rounds /\
    map fst rounds = tried all /\ Forall (fun r => List.length (snd r) = List.length (be_bc2_shown x (fst r))) rounds /\ first_smallest rounds s.
Proof.
  intros d j v e all x out st s y st' log HU H. split.
  - rewrite <- (be_bc2_log_same (big_endian_cpu d j) v e all x out st []), H. reflexivity.
  - pose proof H as H0. unfold be_transform_bc2_auto in H0. apply valid_auto in H0. destruct H0 as (Hm & Ho).
    destruct (AUTO_answers v e (be_bc2_shown x) _ (tried all) default_settings (zlen x / 4) _ st s y st' log (fun _ _ z => z < usize_max v)
      (be_bc2_AUTO (big_endian_cpu d j) v (logging e) all x out (big_endian_ok d j) Hm Ho)) as (scratch & rounds & _ & R1 & R2 & R3 & R4).
    + apply order1_in. unfold candidate. auto.
    + intros n s0 d0 z s1. apply HU.
    + intros n s0 zs F. inversion F as [|d0 z ds zs0 Q F0]; subst. inversion F0; subst. cbn [answered_sum fold_right]. lia.
    + exact H.
    + exists scratch, rounds. split; [exact R1|]. split; [exact R2|]. split; [exact (lengths _ _ _ R3)|exact R4].
Qed.
Lemma be_bc3_answers : forall (d : bool) (j : byte) (v : env) (e : estimator St Er) (all : bool) (x out : list byte) (st : St) s y st' log,
  (forall st d n z st', estimate_compressed_size e st d n = (ROk z, st') -> 2 * z < usize_max v) ->
  be_transform_bc3_auto (big_endian_cpu d j) v (logging e) all x out (st, []) = Ok (ROk s, y, (st', log)) ->
  be_transform_bc3_auto (big_endian_cpu d j) v e all x out st = Ok (ROk s, y, st') /\
  exists scratch rounds, log = AskedMax (zlen x / 4) (ROk scratch) :: flat_map (round_calls (be_bc3_shown x) scratch) rounds /\
    map fst rounds = tried3 all /\ Forall (fun r => List.length (snd r) = List.length (be_bc3_shown x (fst r))) rounds /\ first_smallest rounds s.
Proof.
  intros d j v e all x out st s y st' log HU H. split.
  - rewrite <- (be_bc3_log_same (big_endian_cpu d j) v e all x out st []), H. reflexivity.
  - pose proof H as H0. unfold be_transform_bc3_auto in H0. apply valid_auto in H0. destruct H0 as (Hm & Ho).
    assert (B : forall st d n z st', estimate_compressed_size (logging e) st d n = (ROk z, st') -> 2 * z <= usize_max v).
    { intros s0 d0 n z s1 E. cbn [logging estimate_compressed_size] in E. destruct (estimate_compressed_size e (fst s0) d0 n) as [r s2] eqn:Q. injection E as -> _.
      specialize (HU _ _ _ _ _ Q). lia. }
    destruct (AUTO_answers v e (be_bc3_shown x) _ (tried3 all) default_settings3 (zlen x / 4) _ st s y st' log (fun _ _ z => 2 * z < usize_max v)
      (be_bc3_AUTO (big_endian_cpu d j) v (logging e) all x out (big_endian_ok d j) B Hm Ho)) as (scratch & rounds & _ & R1 & R2 & R3 & R4).
    + apply order3_in. unfold candidate. auto.
    + intros n s0 d0 z s1. apply HU.
    + intros n s0 zs F. inversion F as [|d0 z ds zs0 Q F0]; subst. inversion F0 as [|d1 z1 ds1 zs1 Q1 F1]; subst. inversion F1; subst. cbn [answered_sum fold_right]. lia.
    + exact H.
    + exists scratch, rounds. split; [exact R1|]. split; [exact R2|]. split; [exact (lengths _ _ _ R3)|exact R4].
Qed.
End Answers.
