(** The C functions on a big-endian machine. *)
From Verif Require Import Base.Bytes Base.Res Model.Color565 Model.Ycc Model.Kernel Model.Transform Model.Auto Model.Builders Model.CApi Model.BigEndian Model.BeTransform Model.BeFiles Model.BeCApi
  Spec.Layout Spec.Estimator Spec.Files Spec.CApi Spec.BigEndian Spec.BeFiles Proofs.SliceFacts Proofs.TransformProps Proofs.AutoFacts Proofs.AutoProps Proofs.AutoTheorems Proofs.BundleFacts
  Proofs.BeAutoProps Proofs.BeBundleFacts Proofs.BigEndianFacts Proofs.CApiFacts.
From Coq Require Import ZifyBool ZifyNat.

Lemma be_core_auto_total : forall {St Er} k c v (e : estimator St Er) all x out st, cpu_ok c ->
  zlen x mod codec_block k = 0 -> zlen x <= zlen out ->
  exists r y st', be_core_auto k c v e all x out st = Ok (r, y, st') /\
    match r with
    | ROk s => candidate all (decorrelation_mode s) /\ y = be_texture_layout k s x ++ skipn (List.length x) out
    | RErr (DetermineBestTransform AllocateError) => (exists n, alloc_ok v n = false) /\ y = out
    | RErr (DetermineBestTransform (SizeEstimationError e1)) => est_failed e e1 /\ (y = out \/ exists s, y = be_texture_layout k s x ++ skipn (List.length x) out)
    | RErr _ => False
    end.
Proof.
  intros St Er k c v e all x out st K Hm Ho.
  destruct k; cbn [be_core_auto codec_block be_texture_layout] in *.
  - destruct (AUTO_total v e _ _ _ _ _ _ st (be_bc1_AUTO c v e all x out K Hm Ho) ltac:(apply order1_in; unfold candidate; auto)) as (r & y & st' & E & P).
    exists r, y, st'. split; [exact E|]. destruct r as [s|[]]; auto. rewrite <- order1_in. exact P.
  - destruct (AUTO_total v e _ _ _ _ _ _ st (be_bc2_AUTO c v e all x out K Hm Ho) ltac:(apply order1_in; unfold candidate; auto)) as (r & y & st' & E & P).
    exists r, y, st'. split; [exact E|]. destruct r as [s|[]]; auto. rewrite <- order1_in. exact P.
Qed.
Lemma be_core_transform_bad : forall k c s x out, 
  (expected_code (codec_block k) (zlen x) (zlen out) = 1 -> exists w, be_core_transform k c s x out = Ok (RErr (InvalidLength w), out)) /\
  (expected_code (codec_block k) (zlen x) (zlen out) = 2 -> exists a b, be_core_transform k c s x out = Ok (RErr (OutputBufferTooSmall a b), out)).
Proof.
  intros [] c s x out; cbn [be_core_transform codec_block].
  - destruct (core_checked CBc1 (fun a b n => be_transform_bc1_with_settings c a b n s) x out) as (w & _ & A & B). split; intros H; eauto.
  - destruct (core_checked CBc2 (fun a b n => be_transform_bc2_with_settings c a b n s) x out) as (w & _ & A & B). split; intros H; eauto.
Qed.
Lemma be_core_untransform_bad : forall k c s x out, 
  (expected_code (codec_block k) (zlen x) (zlen out) = 1 -> exists w, be_core_untransform k c s x out = Ok (RErr (InvalidLength w), out)) /\
  (expected_code (codec_block k) (zlen x) (zlen out) = 2 -> exists a b, be_core_untransform k c s x out = Ok (RErr (OutputBufferTooSmall a b), out)).
Proof.
  intros [] c s x out; cbn [be_core_untransform codec_block].
  - destruct (core_checked CBc1 (fun a b n => be_untransform_bc1_with_settings c a b n s) x out) as (w & _ & A & B). split; intros H; eauto.
  - destruct (core_checked CBc2 (fun a b n => be_untransform_bc2_with_settings c a b n s) x out) as (w & _ & A & B). split; intros H; eauto.
Qed.
Lemma be_core_auto_bad : forall {St Er} k c v (e : estimator St Er) all x out st, 
  (expected_code (codec_block k) (zlen x) (zlen out) = 1 -> exists w, be_core_auto k c v e all x out st = Ok (RErr (AutoInvalidLength w), out, st)) /\
  (expected_code (codec_block k) (zlen x) (zlen out) = 2 -> exists a b, be_core_auto k c v e all x out st = Ok (RErr (AutoOutputBufferTooSmall a b), out, st)).
Proof.
  intros St Er k c v e all x out st. unfold be_core_auto, be_transform_bc1_auto, be_transform_bc2_auto, auto_checked, expected_code.
  destruct k; cbn [codec_block].
  - destruct (zlen x mod 8 =? 0); cbn [negb]; [|split; intros; eauto; lia].
    destruct (zlen out <? zlen x); split; intros; eauto; lia.
  - destruct (zlen x mod 16 =? 0); cbn [negb]; [|split; intros; eauto; lia].
    destruct (zlen out <? zlen x); split; intros; eauto; lia.
Qed.
Lemma be_slices_transform : forall k c s i n o m, cpu_ok c -> valid_for i n -> valid_for o m ->
  exists r y, be_core_transform k c s (firstn (Z.to_nat n) i) (firstn (Z.to_nat m) o) = Ok (r, y) /\
    match r with
    | ROk _ => expected_code (codec_block k) n m = 0 /\ put_back o y = be_texture_layout k s (firstn (Z.to_nat n) i) ++ skipn (Z.to_nat n) o
    | RErr (InvalidLength _) => expected_code (codec_block k) n m = 1 /\ put_back o y = o
    | RErr (OutputBufferTooSmall _ _) => expected_code (codec_block k) n m = 2 /\ put_back o y = o
    end.
Proof.
  intros k c s i n o m K VI VO. pose proof VI as (I1 & I2). pose proof VO as (O1 & O2).
  pose proof (zlen_firstn _ i n I1 I2) as ZI. pose proof (zlen_firstn _ o m O1 O2) as ZO.
  destruct (be_core_transform_bad k c s (firstn (Z.to_nat n) i) (firstn (Z.to_nat m) o)) as (B1 & B2). rewrite ZI, ZO in B1, B2.
  destruct (expected_cases (codec_block k) n m) as [(E & M & L)|[(E & M)|(E & M & L)]].
  - rewrite be_core_transform_ok; [|exact K|rewrite ZI; exact M|rewrite ZI, ZO; exact L].
    do 2 eexists. split; [reflexivity|]. split; [exact E|]. rewrite (length_firstn_n i n VI). apply put_back_part; auto.
    unfold zlen. rewrite be_layout_len by (rewrite ZI; exact M). exact ZI.
  - destruct (B1 E) as (w & B). do 2 eexists. split; [exact B|]. split; [exact E|]. apply put_back_all. exact VO.
  - destruct (B2 E) as (a & b & B). do 2 eexists. split; [exact B|]. split; [exact E|]. apply put_back_all. exact VO.
Qed.
Lemma be_slices_untransform : forall k c s i n o m, cpu_ok c -> valid_for i n -> valid_for o m ->
  exists r y, be_core_untransform k c s (firstn (Z.to_nat n) i) (firstn (Z.to_nat m) o) = Ok (r, y) /\
    match r with
    | ROk _ => expected_code (codec_block k) n m = 0 /\ exists x, zlen x = n /\ be_texture_layout k s x = firstn (Z.to_nat n) i /\ put_back o y = x ++ skipn (Z.to_nat n) o
    | RErr (InvalidLength _) => expected_code (codec_block k) n m = 1 /\ put_back o y = o
    | RErr (OutputBufferTooSmall _ _) => expected_code (codec_block k) n m = 2 /\ put_back o y = o
    end.
Proof.
  intros k c s i n o m K VI VO. pose proof VI as (I1 & I2). pose proof VO as (O1 & O2).
  pose proof (zlen_firstn _ i n I1 I2) as ZI. pose proof (zlen_firstn _ o m O1 O2) as ZO.
  destruct (be_core_untransform_bad k c s (firstn (Z.to_nat n) i) (firstn (Z.to_nat m) o)) as (B1 & B2). rewrite ZI, ZO in B1, B2.
  destruct (expected_cases (codec_block k) n m) as [(E & M & L)|[(E & M)|(E & M & L)]].
  - destruct (be_core_untransform_ok k c s (firstn (Z.to_nat n) i) (firstn (Z.to_nat m) o) K) as (x & _ & U & LX & T).
    + rewrite ZI; exact M.
    + rewrite ZI, ZO; exact L.
    + do 2 eexists. split; [exact U|]. split; [exact E|]. exists x.
      assert (ZX : zlen x = n) by (unfold zlen; rewrite LX; exact ZI). split; [exact ZX|]. split; [exact T|].
      replace (List.length x) with (Z.to_nat n) by (unfold zlen in ZX; lia). apply put_back_part; auto.
  - destruct (B1 E) as (w & B). do 2 eexists. split; [exact B|]. split; [exact E|]. apply put_back_all. exact VO.
  - destruct (B2 E) as (a & b & B). do 2 eexists. split; [exact B|]. split; [exact E|]. apply put_back_all. exact VO.
Qed.
Lemma be_slices_auto : forall {St} k c v (e : c_estimator St) all i n o m st, cpu_ok c -> valid_for i n -> valid_for o m ->
  exists r y st', be_core_auto k c v (of_c_estimator e) all (firstn (Z.to_nat n) i) (firstn (Z.to_nat m) o) st = Ok (r, y, st') /\
    match r with
    | ROk s => expected_code (codec_block k) n m = 0 /\ candidate all (decorrelation_mode s) /\
        put_back o y = be_texture_layout k s (firstn (Z.to_nat n) i) ++ skipn (Z.to_nat n) o
    | RErr (AutoInvalidLength _) => expected_code (codec_block k) n m = 1 /\ put_back o y = o /\ st' = st
    | RErr (AutoOutputBufferTooSmall _ _) => expected_code (codec_block k) n m = 2 /\ put_back o y = o /\ st' = st
    | RErr (DetermineBestTransform AllocateError) => expected_code (codec_block k) n m = 0 /\ (exists n, alloc_ok v n = false) /\ put_back o y = o
    | RErr (DetermineBestTransform (SizeEstimationError e1)) => expected_code (codec_block k) n m = 0 /\ estimator_failed e /\ same_after n o (put_back o y)
    end.
Proof.
  intros St k c v e all i n o m st K VI VO. pose proof VI as (I1 & I2). pose proof VO as (O1 & O2).
  pose proof (zlen_firstn _ i n I1 I2) as ZI. pose proof (zlen_firstn _ o m O1 O2) as ZO.
  destruct (be_core_auto_bad k c v (of_c_estimator e) all (firstn (Z.to_nat n) i) (firstn (Z.to_nat m) o) st) as (B1 & B2). rewrite ZI, ZO in B1, B2.
  destruct (expected_cases (codec_block k) n m) as [(E & M & L)|[(E & M)|(E & M & L)]].
  - destruct (be_core_auto_total k c v (of_c_estimator e) all (firstn (Z.to_nat n) i) (firstn (Z.to_nat m) o) st K) as (r & y & st' & U & P).
    + rewrite ZI; exact M.
    + rewrite ZI, ZO; exact L.
    + exists r, y, st'. split; [exact U|].
      assert (PB : forall s, put_back o (be_texture_layout k s (firstn (Z.to_nat n) i) ++ skipn (Z.to_nat n) (firstn (Z.to_nat m) o)) = be_texture_layout k s (firstn (Z.to_nat n) i) ++ skipn (Z.to_nat n) o).
      { intros s. apply put_back_part; auto. unfold zlen. rewrite be_layout_len by (rewrite ZI; exact M). exact ZI. }
      rewrite (length_firstn_n i n VI) in P. destruct r as [s|[w|a b|[|e1]]]; try contradiction.
      * destruct P as (P1 & ->). auto.
      * destruct P as (P1 & ->). rewrite put_back_all by exact VO. auto.
      * destruct P as (P1 & P2). split; [exact E|]. split; [exact (c_failed _ _ _ P1)|]. destruct P2 as [->|(s & ->)].
        -- rewrite put_back_all by exact VO. apply same_after_refl.
        -- rewrite PB. apply same_after_part; [lia|lia|]. unfold zlen. rewrite be_layout_len by (rewrite ZI; exact M). exact ZI.
  - destruct (B1 E) as (w & B). do 3 eexists. split; [exact B|]. split; [exact E|]. split; [apply put_back_all; exact VO|reflexivity].
  - destruct (B2 E) as (a & b & B). do 3 eexists. split; [exact B|]. split; [exact E|]. split; [apply put_back_all; exact VO|reflexivity].
Qed.
Lemma be_manual_c_transform : forall {St} k c (h : heap St) i n o m b mb, cpu_ok c -> valid_for i n -> valid_for o m ->
  lookup (manuals h) b = Ok mb ->
  exists code, be_manual_transform_c k c (Some i) n (Some o) m (Some b) h = Ok (code, Some
      (if expected_code (codec_block k) n m =? 0 then be_texture_layout k (mb_settings mb) (firstn (Z.to_nat n) i) ++ skipn (Z.to_nat n) o else o)) /\
    code_number code = expected_code (codec_block k) n m.
Proof.
  intros St k c h i n o m b mb K VI VO HB. unfold be_manual_transform_c, manual_call.
  rewrite (from_raw_ok _ _ VI), (from_raw_ok _ _ VO), HB. cbn [bind]. unfold be_manual_transform.
  destruct (be_slices_transform k c (mb_settings mb) i n o m K VI VO) as (r & y & -> & P). cbn [bind fst snd].
  destruct r as [[]|[w|a d]]; destruct P as (E & ->); rewrite E; cbn; eexists; split; reflexivity.
Qed.
Lemma be_manual_c_untransform : forall {St} k c (h : heap St) i n o m b mb, cpu_ok c -> valid_for i n -> valid_for o m ->
  lookup (manuals h) b = Ok mb ->
  exists code o1, be_manual_untransform_c k c (Some i) n (Some o) m (Some b) h = Ok (code, Some o1) /\
    code_number code = expected_code (codec_block k) n m /\
    (code <> Success -> o1 = o) /\
    (code = Success -> exists x, zlen x = n /\ be_texture_layout k (mb_settings mb) x = firstn (Z.to_nat n) i /\ o1 = x ++ skipn (Z.to_nat n) o).
Proof.
  intros St k c h i n o m b mb K VI VO HB. unfold be_manual_untransform_c, manual_call.
  rewrite (from_raw_ok _ _ VI), (from_raw_ok _ _ VO), HB. cbn [bind]. unfold be_manual_untransform.
  destruct (be_slices_untransform k c (mb_settings mb) i n o m K VI VO) as (r & y & -> & P). cbn [bind fst snd].
  destruct r as [[]|[w|a d]]; destruct P as (E & P); rewrite E; cbn; do 2 eexists; split; try reflexivity; split; try reflexivity;
    (split; [intros Q|intros Q]); try congruence; exact P.
Qed.
Lemma be_auto_c_transform : forall {St} k c v (h : heap St) i n o m b ab cell st, cpu_ok c -> valid_for i n -> valid_for o m ->
  lookup (autos h) b = Ok ab ->
  exists code o1 cell1 h1 st1, be_auto_transform_c k c v (Some b) (Some i) n (Some o) m (Some cell) h st = Ok (code, Some o1, Some cell1, h1, st1) /\
    (expected_code (codec_block k) n m <> 0 -> code_number code = expected_code (codec_block k) n m /\ o1 = o /\ st1 = st) /\
    (expected_code (codec_block k) n m = 0 -> code = Success \/ code = CAllocationFailed \/ code = CSizeEstimationFailed) /\
    (code = CAllocationFailed -> exists z, alloc_ok v z = false) /\
    (code = CSizeEstimationFailed -> estimator_failed (ca_estimator ab)) /\
    (code <> Success -> cell1 = None /\ h1 = h /\ same_after n o o1) /\
    (code = Success -> exists s, candidate (ca_use_all ab) (decorrelation_mode s) /\
       o1 = be_texture_layout k s (firstn (Z.to_nat n) i) ++ skipn (Z.to_nat n) o /\
       cell1 = Some (List.length (manuals h)) /\ h1 = Heap (manuals h ++ [Some (ManualBuilder s)]) (autos h)).
Proof.
  intros St k c v h i n o m b ab cell st K VI VO HB. unfold be_auto_transform_c.
  rewrite HB, (from_raw_ok _ _ VI), (from_raw_ok _ _ VO). cbn [bind]. unfold be_auto_transform. cbn [ab_estimator ab_use_all auto_use_all auto_new].
  destruct (be_slices_auto k c v (ca_estimator ab) (ca_use_all ab) i n o m st K VI VO) as (r & y & st' & -> & P). cbn [bind].
  destruct r as [s|[w|a d|[|e1]]]; cbn [from_auto_transform_error bind code_of_error].
  - destruct P as (E & C & ->). do 5 eexists. split; [reflexivity|].
    split; [intros; lia|]. split; [auto|]. split; [discriminate|]. split; [discriminate|]. split; [congruence|].
    intros _. exists s. split; [exact C|]. split; [reflexivity|]. split; [reflexivity|].
    unfold manual_decorrelation_mode, manual_split_colour_endpoints. cbn [mb_settings decorrelation_mode split_colour_endpoints].
    rewrite from_to_internal. destruct s; reflexivity.
  - destruct P as (E & -> & ->). do 5 eexists. split; [reflexivity|]. rewrite E.
    split; [auto|]. split; [lia|]. split; [discriminate|]. split; [discriminate|]. split; [|discriminate]. auto using same_after_refl.
  - destruct P as (E & -> & ->). do 5 eexists. split; [reflexivity|]. rewrite E.
    split; [auto|]. split; [lia|]. split; [discriminate|]. split; [discriminate|]. split; [|discriminate]. auto using same_after_refl.
  - destruct P as (E & A & ->). do 5 eexists. split; [reflexivity|]. rewrite E.
    split; [lia|]. split; [auto|]. split; [auto|]. split; [discriminate|]. split; [|discriminate]. auto using same_after_refl.
  - destruct P as (E & A & S). do 5 eexists. split; [reflexivity|]. rewrite E.
    split; [lia|]. split; [auto|]. split; [discriminate|]. split; [auto|]. split; [|discriminate]. auto.
Qed.
Lemma be_core_c_transform : forall k c s i n o m, cpu_ok c -> valid_for i n -> valid_for o m ->
  exists code, be_core_transform_c k c s (Some i) n (Some o) m = Ok (code, Some
      (if expected_code (codec_block k) n m =? 0 then be_texture_layout k s (firstn (Z.to_nat n) i) ++ skipn (Z.to_nat n) o else o)) /\
    core_code_number code = (match expected_code (codec_block k) n m with 1 => 5 | 2 => 6 | _ => 0 end).
Proof.
  intros k c s i n o m K VI VO. unfold be_core_transform_c, core_call.
  rewrite (from_raw_ok _ _ VI), (from_raw_ok _ _ VO). cbn [bind].
  destruct (be_slices_transform k c s i n o m K VI VO) as (r & y & -> & P). cbn [bind fst snd].
  destruct r as [[]|[w|a d]]; destruct P as (E & ->); rewrite E; cbn; eexists; split; reflexivity.
Qed.
Lemma be_core_c_untransform : forall k c s i n o m, cpu_ok c -> valid_for i n -> valid_for o m ->
  exists code o1, be_core_untransform_c k c s (Some i) n (Some o) m = Ok (code, Some o1) /\
    core_code_number code = (match expected_code (codec_block k) n m with 1 => 5 | 2 => 6 | _ => 0 end) /\
    (code <> CoreSuccess -> o1 = o) /\
    (code = CoreSuccess -> exists x, zlen x = n /\ be_texture_layout k s x = firstn (Z.to_nat n) i /\ o1 = x ++ skipn (Z.to_nat n) o).
Proof.
  intros k c s i n o m K VI VO. unfold be_core_untransform_c, core_call.
  rewrite (from_raw_ok _ _ VI), (from_raw_ok _ _ VO). cbn [bind].
  destruct (be_slices_untransform k c s i n o m K VI VO) as (r & y & -> & P). cbn [bind fst snd].
  destruct r as [[]|[w|a d]]; destruct P as (E & P); rewrite E; cbn; do 2 eexists; split; try reflexivity; split; try reflexivity;
    (split; [intros Q|intros Q]); try congruence; exact P.
Qed.
Lemma be_core_c_auto : forall {St} k c v (e : c_estimator St) all i n o m old st, cpu_ok c -> valid_for i n -> valid_for o m ->
  exists code o1 s1 st1, be_core_transform_auto_c k c v (Some i) n (Some o) m (Some e) all (Some old) st = Ok (code, Some o1, Some s1, st1) /\
    (expected_code (codec_block k) n m <> 0 -> core_code_number code = 4 + expected_code (codec_block k) n m /\ o1 = o /\ st1 = st) /\
    (expected_code (codec_block k) n m = 0 -> code = CoreSuccess \/ code = CoreSizeEstimationError) /\
    (code = CoreSizeEstimationError -> (exists z, alloc_ok v z = false) \/ estimator_failed e) /\
    (code <> CoreSuccess -> s1 = old /\ same_after n o o1) /\
    (code = CoreSuccess -> candidate all (decorrelation_mode s1) /\ o1 = be_texture_layout k s1 (firstn (Z.to_nat n) i) ++ skipn (Z.to_nat n) o).
Proof.
  intros St k c v e all i n o m old st K VI VO. unfold be_core_transform_auto_c.
  rewrite (from_raw_ok _ _ VI), (from_raw_ok _ _ VO). cbn [bind].
  destruct (be_slices_auto k c v e all i n o m st K VI VO) as (r & y & st' & -> & P). cbn [bind].
  destruct r as [s|[w|a d|[|e1]]]; cbn [core_code_of_auto].
  - destruct P as (E & C & ->). do 4 eexists. split; [reflexivity|].
    split; [intros; lia|]. split; [auto|]. split; [discriminate|]. split; [congruence|]. auto.
  - destruct P as (E & -> & ->). do 4 eexists. split; [reflexivity|]. rewrite E.
    split; [auto|]. split; [lia|]. split; [discriminate|]. split; [|discriminate]. auto using same_after_refl.
  - destruct P as (E & -> & ->). do 4 eexists. split; [reflexivity|]. rewrite E.
    split; [auto|]. split; [lia|]. split; [discriminate|]. split; [|discriminate]. auto using same_after_refl.
  - destruct P as (E & A & ->). do 4 eexists. split; [reflexivity|]. rewrite E.
    split; [lia|]. split; [auto|]. split; [auto|]. split; [|discriminate]. auto using same_after_refl.
  - destruct P as (E & A & S). do 4 eexists. split; [reflexivity|]. rewrite E.
    split; [lia|]. split; [auto|]. split; [auto|]. split; [|discriminate]. auto.
Qed.
Lemma be_manual_nulls : forall {St} k c (h : heap St) i n o m b code,
  first_null [(is_null i, 5); (is_null o, 9); (is_null b, 10)] = Some code ->
  (exists e, be_manual_transform_c k c i n o m b h = Ok (e, o) /\ code_number e = code) /\
  (exists e, be_manual_untransform_c k c i n o m b h = Ok (e, o) /\ code_number e = code).
Proof.
  intros St k c h i n o m b code H. unfold be_manual_transform_c, be_manual_untransform_c, manual_call.
  destruct i; [|injection H as <-; split; eexists; split; reflexivity].
  destruct o; [|injection H as <-; split; eexists; split; reflexivity].
  destruct b; [discriminate|]. injection H as <-. split; eexists; split; reflexivity.
Qed.
Lemma be_auto_nulls : forall {St} k c v (h : heap St) b i n o m cell st code,
  first_null [(is_null b, 11); (is_null i, 5); (is_null o, 9); (is_null cell, 12)] = Some code ->
  exists e, be_auto_transform_c k c v b i n o m cell h st = Ok (e, o, cell, h, st) /\ code_number e = code.
Proof.
  intros St k c v h b i n o m cell st code H. unfold be_auto_transform_c.
  destruct b; [|injection H as <-; eexists; split; reflexivity].
  destruct i; [|injection H as <-; eexists; split; reflexivity].
  destruct o; [|injection H as <-; eexists; split; reflexivity].
  destruct cell; [discriminate|injection H as <-; eexists; split; reflexivity].
Qed.
Lemma be_core_nulls : forall k c s i n o m code,
  first_null [(is_null i, 1); (is_null o, 2)] = Some code ->
  (exists e, be_core_transform_c k c s i n o m = Ok (e, o) /\ core_code_number e = code) /\
  (exists e, be_core_untransform_c k c s i n o m = Ok (e, o) /\ core_code_number e = code).
Proof.
  intros k c s i n o m code H. unfold be_core_transform_c, be_core_untransform_c, core_call.
  destruct i; [|injection H as <-; split; eexists; split; reflexivity].
  destruct o; [discriminate|injection H as <-; split; eexists; split; reflexivity].
Qed.
Lemma be_core_auto_nulls : forall {St} k c v (e : option (c_estimator St)) all i n o m old st code,
  first_null [(is_null i, 1); (is_null o, 2); (is_null e, 3); (is_null old, 4)] = Some code ->
  exists x, be_core_transform_auto_c k c v i n o m e all old st = Ok (x, o, old, st) /\ core_code_number x = code.
Proof.
  intros St k c v e all i n o m old st code H. unfold be_core_transform_auto_c.
  destruct i; [|injection H as <-; eexists; split; reflexivity].
  destruct o; [|injection H as <-; eexists; split; reflexivity].
  destruct e; [|injection H as <-; eexists; split; reflexivity].
  destruct old; [discriminate|injection H as <-; eexists; split; reflexivity].
Qed.
Lemma be_untransform_layout : forall {St} k c (h : heap St) s x o m b mb, cpu_ok c -> zlen x mod codec_block k = 0 ->
  zlen x <= m -> valid_for o m -> lookup (manuals h) b = Ok mb -> mb_settings mb = s -> forall rest,
  be_manual_untransform_c k c (Some (be_texture_layout k s x ++ rest)) (zlen x) (Some o) m (Some b) h = Ok (Success, Some (x ++ skipn (List.length x) o)).
Proof.
  intros St k c h s x o m b mb K M LE VO HB <- rest. pose proof (be_layout_len k (mb_settings mb) x M) as LL.
  assert (VI : valid_for (be_texture_layout k (mb_settings mb) x ++ rest) (zlen x)).
  { unfold valid_for, zlen. rewrite app_length, LL. lia. }
  destruct (be_manual_c_untransform k c h _ (zlen x) o m b mb K VI VO HB) as (code & o1 & E & C & _ & P).
  assert (code = Success) as ->.
  { destruct (expected_cases (codec_block k) (zlen x) m) as [(X & _)|[(_ & X)|(_ & _ & X)]]; [|lia|lia]. rewrite X in C. destruct code; cbn in C; lia || reflexivity. }
  destruct (P eq_refl) as (x' & ZX & T & ->). rewrite E.
  assert (x' = x) as ->.
  { apply (be_layout_inj k (mb_settings mb)); [rewrite ZX; exact M|unfold zlen in ZX; lia|].
    rewrite T. unfold zlen. rewrite Nat2Z.id, firstn_app, LL, Nat.sub_diag. cbn [firstn]. rewrite app_nil_r. rewrite <- LL at 1. apply firstn_all. }
  unfold zlen. rewrite Nat2Z.id. reflexivity.
Qed.
Lemma be_c_round_trip : forall {St} k c1 c2 (h : heap St) i n o m o1 o2 m2 b, cpu_ok c1 -> cpu_ok c2 ->
  be_manual_transform_c k c1 (Some i) n (Some o) m (Some b) h = Ok (Success, Some o1) -> valid_for o2 m2 -> n <= m2 ->
  be_manual_untransform_c k c2 (Some o1) n (Some o2) m2 (Some b) h = Ok (Success, Some (firstn (Z.to_nat n) i ++ skipn (Z.to_nat n) o2)).
Proof.
  intros St k c1 c2 h i n o m o1 o2 m2 b K1 K2 H VO LE.
  assert (Q := H). unfold be_manual_transform_c, manual_call in Q.
  destruct (from_raw_parts i n) as [x| |] eqn:RI; cbn [bind] in Q; try discriminate.
  destruct (from_raw_parts o m) as [y| |] eqn:RO; cbn [bind] in Q; try discriminate.
  destruct (lookup (manuals h) b) as [mb| |] eqn:LB; cbn [bind] in Q; try discriminate. clear Q.
  apply from_raw_inv in RI, RO. destruct RI as (VI & _), RO as (VO1 & _). pose proof VI as (I1 & I2).
  destruct (be_manual_c_transform k c1 h i n o m b mb K1 VI VO1 LB) as (code & E & C). rewrite E in H. injection H as -> <-.
  destruct (success_expected _ _ _ _ C eq_refl) as (M & L). rewrite <- C. cbn [code_number Z.eqb].
  pose proof (zlen_firstn _ i n I1 I2) as ZI.
  pose proof (be_untransform_layout k c2 h (mb_settings mb) (firstn (Z.to_nat n) i) o2 m2 b mb K2) as U. rewrite ZI in U.
  rewrite (length_firstn_n i n VI) in U. apply U; auto.
Qed.
Lemma be_c_auto_round_trip : forall {St} k c1 c2 v (h : heap St) i n o m o1 o2 m2 b cell cell1 h1 st st1, cpu_ok c1 -> cpu_ok c2 ->
 
  be_auto_transform_c k c1 v (Some b) (Some i) n (Some o) m (Some cell) h st = Ok (Success, Some o1, Some cell1, h1, st1) -> valid_for o2 m2 -> n <= m2 ->
  be_manual_untransform_c k c2 (Some o1) n (Some o2) m2 cell1 h1 = Ok (Success, Some (firstn (Z.to_nat n) i ++ skipn (Z.to_nat n) o2)).
Proof.
  intros St k c1 c2 v h i n o m o1 o2 m2 b cell cell1 h1 st st1 K1 K2 H VO LE.
  assert (Q := H). unfold be_auto_transform_c in Q.
  destruct (lookup (autos h) b) as [ab| |] eqn:LB; cbn [bind] in Q; try discriminate.
  destruct (from_raw_parts i n) as [x| |] eqn:RI; cbn [bind] in Q; try discriminate.
  destruct (from_raw_parts o m) as [y| |] eqn:RO; cbn [bind] in Q; try discriminate. clear Q.
  apply from_raw_inv in RI, RO. destruct RI as (VI & _), RO as (VO1 & _). pose proof VI as (I1 & I2).
  destruct (be_auto_c_transform k c1 v h i n o m b ab cell st K1 VI VO1 LB) as (code & o1' & cell1' & h1' & st1' & E & X & _ & _ & _ & _ & P).
  rewrite E in H. injection H as -> <- <- <- <-. destruct (P eq_refl) as (s & _ & -> & -> & ->).
  assert (M : n mod codec_block k = 0 /\ n <= m).
  { destruct (expected_cases (codec_block k) n m) as [(Y & Z)|[(Y & _)|(Y & _)]]; [exact Z| |]; rewrite Y in X; destruct X as (X & _); try lia; cbn in X; lia. }
  pose proof (zlen_firstn _ i n I1 I2) as ZI.
  pose proof (be_untransform_layout k c2 (Heap (manuals h ++ [Some (ManualBuilder s)]) (autos h)) s (firstn (Z.to_nat n) i) o2 m2 (List.length (manuals h)) (ManualBuilder s) K2) as U. rewrite ZI in U.
  rewrite (length_firstn_n i n VI) in U. apply U; auto; [tauto|].
  cbn [manuals]. unfold lookup. rewrite nth_error_app2, Nat.sub_diag by lia. reflexivity.
Qed.
Lemma be_auto_c_numbers : forall (St : Type) (k : codec) (c : cfg) (v : env) (h : heap St) (i : list byte) (n : Z) (o : list byte) (m : Z) (b : nat)
    (ab : c_auto_builder St) (cell : handle) (st : St),
  cpu_ok c -> valid_for i n -> valid_for o m -> lookup (autos h) b = Ok ab ->
  exists code o1 cell1 h1 st1, be_auto_transform_c k c v (Some b) (Some i) n (Some o) m (Some cell) h st = Ok (code, Some o1, Some cell1, h1, st1) /\
    (expected_code (codec_block k) n m <> 0 -> code_number code = expected_code (codec_block k) n m /\ o1 = o /\ st1 = st) /\
    (expected_code (codec_block k) n m = 0 -> code_number code = 0 \/ code_number code = 3 \/ code_number code = 4) /\
    (code_number code = 3 -> exists z, alloc_ok v z = false) /\
    (code_number code = 4 -> estimator_failed (ca_estimator ab)) /\
    (code_number code <> 0 -> cell1 = None /\ h1 = h /\ same_after n o o1) /\
    (code_number code = 0 -> exists s, candidate (ca_use_all ab) (decorrelation_mode s) /\
       o1 = be_texture_layout k s (firstn (Z.to_nat n) i) ++ skipn (Z.to_nat n) o /\
       cell1 = Some (List.length (manuals h)) /\ h1 = Heap (manuals h ++ [Some (ManualBuilder s)]) (autos h)).
Proof.
  intros St k c v h i n o m b ab cell st K VI VO HL. destruct (be_auto_c_transform k c v h i n o m b ab cell st K VI VO HL) as (code & o1 & cell1 & h1 & st1 & E & P1 & P2 & P3 & P4 & P5 & P6).
  exists code, o1, cell1, h1, st1. split; [exact E|]. split; [exact P1|]. split; [intros Q; destruct (P2 Q) as [->|[->| ->]]; cbn [code_number]; auto|].
  split; [intros Q; apply P3; destruct code; (reflexivity || discriminate Q)|]. split; [intros Q; apply P4; destruct code; (reflexivity || discriminate Q)|].
  split; [intros Q; apply P5; intros ->; apply Q; reflexivity|intros Q; apply P6; destruct code; (reflexivity || discriminate Q)].
Qed.
Lemma be_core_c_numbers : forall (St : Type) (k : codec) (c : cfg) (v : env) (e : c_estimator St) (all : bool) (i : list byte) (n : Z) (o : list byte) (m : Z)
    (old : settings) (st : St),
  cpu_ok c -> valid_for i n -> valid_for o m ->
  exists code o1 s1 st1, be_core_transform_auto_c k c v (Some i) n (Some o) m (Some e) all (Some old) st = Ok (code, Some o1, Some s1, st1) /\
    (expected_code (codec_block k) n m <> 0 -> core_code_number code = 4 + expected_code (codec_block k) n m /\ o1 = o /\ st1 = st) /\
    (expected_code (codec_block k) n m = 0 -> core_code_number code = 0 \/ core_code_number code = 7) /\
    (core_code_number code = 7 -> (exists z, alloc_ok v z = false) \/ estimator_failed e) /\
    (core_code_number code <> 0 -> s1 = old /\ same_after n o o1) /\
    (core_code_number code = 0 -> candidate all (decorrelation_mode s1) /\ o1 = be_texture_layout k s1 (firstn (Z.to_nat n) i) ++ skipn (Z.to_nat n) o).
Proof.
  intros St k c v e all i n o m old st K VI VO. destruct (be_core_c_auto k c v e all i n o m old st K VI VO) as (code & o1 & s1 & st1 & E & P1 & P2 & P3 & P4 & P5).
  exists code, o1, s1, st1. split; [exact E|]. split; [exact P1|]. split; [intros Q; destruct (P2 Q) as [->| ->]; cbn [core_code_number]; auto|].
  split; [intros Q; apply P3; destruct code; (reflexivity || discriminate Q)|].
  split; [intros Q; apply P4; intros ->; apply Q; reflexivity|intros Q; apply P5; destruct code; (reflexivity || discriminate Q)].
Qed.

From Verif Require Import Proofs.BeFilesFacts.
Lemma be_same_bytes : forall (St : Type) (k : codec) (c : cfg) (d : bool) (j : byte) (h : heap St) (i : list byte) (n : Z) (o : list byte) (m : Z) (b : nat) (mb : manual_builder),
  supported c -> (c_debug c = true -> n <> 0) -> valid_for i n -> valid_for o m -> lookup (manuals h) b = Ok mb -> decorrelation_mode (mb_settings mb) = VNone ->
  be_manual_transform_c k (big_endian_cpu d j) (Some i) n (Some o) m (Some b) h = manual_transform_c k c (Some i) n (Some o) m (Some b) h.
Proof.
  intros St k c d j h i n o m b mb K HD VI VO HB HM.
  destruct (be_manual_c_transform k (big_endian_cpu d j) h i n o m b mb (big_endian_ok d j) VI VO HB) as (e1 & E1 & C1).
  destruct (manual_c_transform k c h i n o m b mb K HD VI VO HB) as (e2 & E2 & C2).
  rewrite E1, E2, texture_none by exact HM. f_equal. f_equal. destruct e1, e2; (reflexivity || (cbn in C1, C2; congruence)).
Qed.
