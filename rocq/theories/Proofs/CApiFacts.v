(** The C functions and histories of calls to them. *)
From Verif Require Import Base.Bytes Base.Res Model.Color565 Model.Ycc Model.Kernel Model.Transform Model.Auto Model.Builders Model.CApi
  Spec.Layout Spec.Estimator Spec.Files Spec.CApi Proofs.SliceFacts Proofs.TransformProps Proofs.AutoFacts Proofs.AutoProps Proofs.AutoTheorems Proofs.BundleFacts.
From Coq Require Import ZifyBool ZifyNat.

(** ** Why a search fails *)
Definition est_failed {St Er} (e : estimator St Er) (e1 : Er) : Prop :=
  exists st1 st2, (exists n, max_compressed_size e st1 n = (RErr e1, st2)) \/ (exists d n, estimate_compressed_size e st1 d n = (RErr e1, st2)).

Lemma est_all_failed : forall {St Er} (e : estimator St Er) ds n acc st e1 st', est_all e ds n acc st = (RErr e1, st') -> est_failed e e1.
Proof.
  intros St Er e ds n. induction ds as [|d ds IH]; intros acc st e1 st' H; cbn [est_all] in H; [discriminate|].
  destruct (estimate_compressed_size e st d n) as [[z|e2] st1] eqn:E; [exact (IH _ _ _ _ H)|]. injection H as -> ->.
  exists st, st'. right. exists d, n. exact E.
Qed.
Lemma srch_failed : forall {St Er S} (e : estimator St Er) (shown : S -> list (list byte)) n order best bs st e1 st',
  srch e shown n order best bs st = (RErr e1, st') -> est_failed e e1.
Proof.
  intros St Er S e shown n order. induction order as [|a r IH]; intros best bs st e1 st' H; cbn [srch] in H; [discriminate|].
  destruct (est_all e (shown a) n 0 st) as [[z|e2] st1] eqn:E.
  - destruct (z <? bs); exact (IH _ _ _ _ _ H).
  - injection H as -> ->. exact (est_all_failed _ _ _ _ _ _ _ E).
Qed.

Lemma AUTO_total : forall {St Er S} {out} v (e : estimator St Er) (shown : S -> list (list byte)) L order dflt k run st,
  AUTO (out := out) v e shown L order dflt k run -> In dflt order ->
  exists r y st', run st = Ok (r, y, st') /\
    match r with
    | ROk s => In s order /\ y = L s
    | RErr (DetermineBestTransform AllocateError) => (exists n, alloc_ok v n = false) /\ y = out
    | RErr (DetermineBestTransform (SizeEstimationError e1)) => est_failed e e1 /\ (y = out \/ exists s, y = L s)
    | RErr _ => False
    end.
Proof.
  intros St Er S out v e shown L order dflt k run st A Hd. destruct (A st) as (y & B).
  destruct (max_compressed_size e st k) as [[n|e1] st1] eqn:M.
  2:{ destruct B as (B & O). exists (RErr (DetermineBestTransform (SizeEstimationError e1))), y, st1. split; [exact B|]. split; [|auto].
      exists st, st1. left. exists k. exact M. }
  destruct (negb (n =? 0) && negb (alloc_ok v n)) eqn:G.
  { destruct B as (B & O). exists (RErr (DetermineBestTransform AllocateError)), y, st1. split; [exact B|]. split; [|exact O]. exists n.
    destruct (alloc_ok v n); [|reflexivity]. rewrite andb_false_r in G. discriminate. }
  destruct (srch e shown n order dflt (usize_max v) st1) as [[s|e1] st2] eqn:E; destruct B as (B & O).
  - exists (ROk s), y, st2. split; [exact B|]. split; [|exact O]. apply srch_in in E. destruct E as [->|E]; assumption.
  - exists (RErr (DetermineBestTransform (SizeEstimationError e1))), y, st2. split; [exact B|]. split; [|auto]. exact (srch_failed _ _ _ _ _ _ _ _ _ E).
Qed.

Lemma core_auto_total : forall {St Er} k c v (e : estimator St Er) all x out st, supported c -> (c_debug c = true -> x <> []) ->
  zlen x mod codec_block k = 0 -> zlen x <= zlen out ->
  exists r y st', core_auto k c v e all x out st = Ok (r, y, st') /\
    match r with
    | ROk s => candidate all (decorrelation_mode s) /\ y = texture_layout k s x ++ skipn (List.length x) out
    | RErr (DetermineBestTransform AllocateError) => (exists n, alloc_ok v n = false) /\ y = out
    | RErr (DetermineBestTransform (SizeEstimationError e1)) => est_failed e e1 /\ (y = out \/ exists s, y = texture_layout k s x ++ skipn (List.length x) out)
    | RErr _ => False
    end.
Proof.
  intros St Er k c v e all x out st (K & VL) HD Hm Ho.
  destruct k; cbn [core_auto codec_block texture_layout] in *.
  - destruct (AUTO_total v e _ _ _ _ _ _ st (bc1_AUTO c v e all x out K HD Hm Ho) ltac:(apply order1_in; unfold candidate; auto)) as (r & y & st' & E & P).
    exists r, y, st'. split; [exact E|]. destruct r as [s|[]]; auto. rewrite <- order1_in. exact P.
  - destruct (AUTO_total v e _ _ _ _ _ _ st (bc2_AUTO c v e all x out K VL Hm Ho) ltac:(apply order1_in; unfold candidate; auto)) as (r & y & st' & E & P).
    exists r, y, st'. split; [exact E|]. destruct r as [s|[]]; auto. rewrite <- order1_in. exact P.
Qed.

(** ** Memory *)
Lemma zlen_firstn : forall A (l : list A) n, 0 <= n -> n <= zlen l -> zlen (firstn (Z.to_nat n) l) = n.
Proof. intros A l n H1 H2. unfold zlen in *. rewrite firstn_length. lia. Qed.
Lemma from_raw_ok : forall l n, valid_for l n -> from_raw_parts l n = Ok (firstn (Z.to_nat n) l).
Proof. intros l n (H1 & H2). unfold from_raw_parts. replace ((0 <=? n) && (n <=? zlen l)) with true by lia. reflexivity. Qed.
Lemma from_raw_inv : forall l n r, from_raw_parts l n = Ok r -> valid_for l n /\ r = firstn (Z.to_nat n) l.
Proof.
  intros l n r H. unfold from_raw_parts in H. destruct ((0 <=? n) && (n <=? zlen l)) eqn:E; [|discriminate].
  injection H as <-. split; [unfold valid_for; lia|reflexivity].
Qed.
Lemma put_back_all : forall o m, valid_for o m -> put_back o (firstn (Z.to_nat m) o) = o.
Proof.
  intros o m (H1 & H2). unfold put_back. rewrite splice_at_0, firstn_length.
  replace (Nat.min (Z.to_nat m) (List.length o)) with (Z.to_nat m) by (unfold zlen in H2; lia). apply firstn_skipn.
Qed.
Lemma put_back_part : forall o m y n, valid_for o m -> 0 <= n -> n <= m -> zlen y = n ->
  put_back o (y ++ skipn (Z.to_nat n) (firstn (Z.to_nat m) o)) = y ++ skipn (Z.to_nat n) o.
Proof.
  intros o m y n (H1 & H2) H3 H4 H5. unfold put_back. rewrite splice_at_0. unfold zlen in *.
  rewrite app_length, skipn_length, firstn_length. rewrite <- app_assoc. f_equal.
  replace (List.length y + (Nat.min (Z.to_nat m) (List.length o) - Z.to_nat n))%nat with (Z.to_nat m) by lia.
  rewrite <- (firstn_skipn (Z.to_nat m) o) at 3. rewrite skipn_app, firstn_length.
  replace (Z.to_nat n - Nat.min (Z.to_nat m) (List.length o))%nat with O by lia. reflexivity.
Qed.
Lemma same_after_refl : forall n l, same_after n l l.
Proof. intros n l. split; reflexivity. Qed.
Lemma same_after_part : forall n (l y : list byte), 0 <= n -> n <= zlen l -> zlen y = n -> same_after n l (y ++ skipn (Z.to_nat n) l).
Proof.
  intros n l y H1 H2 H3. unfold same_after, zlen in *. split.
  - rewrite app_length, skipn_length. lia.
  - rewrite skipn_app, skipn_all2 by lia. cbn [app]. replace (Z.to_nat n - List.length y)%nat with O by lia. reflexivity.
Qed.
Lemma firstn_nonempty : forall A (l : list A) n, n <> 0 -> 0 <= n -> n <= zlen l -> firstn (Z.to_nat n) l <> [].
Proof. intros A l n H0 H1 H2 E. pose proof (zlen_firstn A l n H1 H2) as Z. rewrite E in Z. unfold zlen in Z. cbn in Z. lia. Qed.
Lemma length_firstn_n : forall (l : list byte) n, valid_for l n -> List.length (firstn (Z.to_nat n) l) = Z.to_nat n.
Proof. intros l n (H1 & H2). unfold zlen in H2. rewrite firstn_length. lia. Qed.

(** ** The calls with non-null pointers *)
Lemma core_checked : forall k run x out, exists w,
  (expected_code (codec_block k) (zlen x) (zlen out) = 0 -> checked (codec_block k) run x out = checked (codec_block k) run x out) /\
  (expected_code (codec_block k) (zlen x) (zlen out) = 1 -> checked (codec_block k) run x out = Ok (RErr (InvalidLength w), out)) /\
  (expected_code (codec_block k) (zlen x) (zlen out) = 2 -> checked (codec_block k) run x out = Ok (RErr (OutputBufferTooSmall (zlen x) (zlen out)), out)).
Proof.
  intros k run x out. exists (zlen x). unfold expected_code, checked.
  destruct (zlen x mod codec_block k =? 0); cbn [negb]; [|split; [|split]; intros; try reflexivity; lia].
  destruct (zlen out <? zlen x); split; [|split| |split]; intros; try reflexivity; lia.
Qed.
Lemma expected_cases : forall blk n m, (expected_code blk n m = 0 /\ n mod blk = 0 /\ n <= m) \/ (expected_code blk n m = 1 /\ n mod blk <> 0) \/
  (expected_code blk n m = 2 /\ n mod blk = 0 /\ m < n).
Proof.
  intros blk n m. unfold expected_code. destruct (n mod blk =? 0) eqn:A; cbn [negb]; [|right; left; lia].
  destruct (m <? n) eqn:B; [right; right|left]; lia.
Qed.
Lemma core_transform_bad : forall k c s x out, 
  (expected_code (codec_block k) (zlen x) (zlen out) = 1 -> exists w, core_transform k c s x out = Ok (RErr (InvalidLength w), out)) /\
  (expected_code (codec_block k) (zlen x) (zlen out) = 2 -> exists a b, core_transform k c s x out = Ok (RErr (OutputBufferTooSmall a b), out)).
Proof.
  intros [] c s x out; cbn [core_transform codec_block].
  - destruct (core_checked CBc1 (fun a b n => transform_bc1_with_settings c a b n s) x out) as (w & _ & A & B). split; intros H; eauto.
  - destruct (core_checked CBc2 (fun a b n => transform_bc2_with_settings c a b n s) x out) as (w & _ & A & B). split; intros H; eauto.
Qed.
Lemma core_untransform_bad : forall k c s x out, 
  (expected_code (codec_block k) (zlen x) (zlen out) = 1 -> exists w, core_untransform k c s x out = Ok (RErr (InvalidLength w), out)) /\
  (expected_code (codec_block k) (zlen x) (zlen out) = 2 -> exists a b, core_untransform k c s x out = Ok (RErr (OutputBufferTooSmall a b), out)).
Proof.
  intros [] c s x out; cbn [core_untransform codec_block].
  - destruct (core_checked CBc1 (fun a b n => untransform_bc1_with_settings c a b n s) x out) as (w & _ & A & B). split; intros H; eauto.
  - destruct (core_checked CBc2 (fun a b n => untransform_bc2_with_settings c a b n s) x out) as (w & _ & A & B). split; intros H; eauto.
Qed.
Lemma core_auto_bad : forall {St Er} k c v (e : estimator St Er) all x out st, 
  (expected_code (codec_block k) (zlen x) (zlen out) = 1 -> exists w, core_auto k c v e all x out st = Ok (RErr (AutoInvalidLength w), out, st)) /\
  (expected_code (codec_block k) (zlen x) (zlen out) = 2 -> exists a b, core_auto k c v e all x out st = Ok (RErr (AutoOutputBufferTooSmall a b), out, st)).
Proof.
  intros St Er k c v e all x out st. unfold core_auto, transform_bc1_auto, transform_bc2_auto, auto_checked, expected_code.
  destruct k; cbn [codec_block].
  - destruct (zlen x mod 8 =? 0); cbn [negb]; [|split; intros; eauto; lia].
    destruct (zlen out <? zlen x); split; intros; eauto; lia.
  - destruct (zlen x mod 16 =? 0); cbn [negb]; [|split; intros; eauto; lia].
    destruct (zlen out <? zlen x); split; intros; eauto; lia.
Qed.

(** what the Rust functions give on the slices the C functions make *)
Lemma slices_transform : forall k c s i n o m, supported c -> (c_debug c = true -> n <> 0) -> valid_for i n -> valid_for o m ->
  exists r y, core_transform k c s (firstn (Z.to_nat n) i) (firstn (Z.to_nat m) o) = Ok (r, y) /\
    match r with
    | ROk _ => expected_code (codec_block k) n m = 0 /\ put_back o y = texture_layout k s (firstn (Z.to_nat n) i) ++ skipn (Z.to_nat n) o
    | RErr (InvalidLength _) => expected_code (codec_block k) n m = 1 /\ put_back o y = o
    | RErr (OutputBufferTooSmall _ _) => expected_code (codec_block k) n m = 2 /\ put_back o y = o
    end.
Proof.
  intros k c s i n o m K HD VI VO. pose proof VI as (I1 & I2). pose proof VO as (O1 & O2).
  pose proof (zlen_firstn _ i n I1 I2) as ZI. pose proof (zlen_firstn _ o m O1 O2) as ZO.
  destruct (core_transform_bad k c s (firstn (Z.to_nat n) i) (firstn (Z.to_nat m) o)) as (B1 & B2). rewrite ZI, ZO in B1, B2.
  destruct (expected_cases (codec_block k) n m) as [(E & M & L)|[(E & M)|(E & M & L)]].
  - rewrite core_transform_ok; [|exact K|intros D; apply firstn_nonempty; auto|rewrite ZI; exact M|rewrite ZI, ZO; exact L].
    do 2 eexists. split; [reflexivity|]. split; [exact E|]. rewrite (length_firstn_n i n VI). apply put_back_part; auto.
    unfold zlen. rewrite layout_len by (rewrite ZI; exact M). exact ZI.
  - destruct (B1 E) as (w & B). do 2 eexists. split; [exact B|]. split; [exact E|]. apply put_back_all. exact VO.
  - destruct (B2 E) as (a & b & B). do 2 eexists. split; [exact B|]. split; [exact E|]. apply put_back_all. exact VO.
Qed.
Lemma slices_untransform : forall k c s i n o m, supported c -> (c_debug c = true -> n <> 0) -> valid_for i n -> valid_for o m ->
  exists r y, core_untransform k c s (firstn (Z.to_nat n) i) (firstn (Z.to_nat m) o) = Ok (r, y) /\
    match r with
    | ROk _ => expected_code (codec_block k) n m = 0 /\ exists x, zlen x = n /\ texture_layout k s x = firstn (Z.to_nat n) i /\ put_back o y = x ++ skipn (Z.to_nat n) o
    | RErr (InvalidLength _) => expected_code (codec_block k) n m = 1 /\ put_back o y = o
    | RErr (OutputBufferTooSmall _ _) => expected_code (codec_block k) n m = 2 /\ put_back o y = o
    end.
Proof.
  intros k c s i n o m K HD VI VO. pose proof VI as (I1 & I2). pose proof VO as (O1 & O2).
  pose proof (zlen_firstn _ i n I1 I2) as ZI. pose proof (zlen_firstn _ o m O1 O2) as ZO.
  destruct (core_untransform_bad k c s (firstn (Z.to_nat n) i) (firstn (Z.to_nat m) o)) as (B1 & B2). rewrite ZI, ZO in B1, B2.
  destruct (expected_cases (codec_block k) n m) as [(E & M & L)|[(E & M)|(E & M & L)]].
  - destruct (core_untransform_ok k c s (firstn (Z.to_nat n) i) (firstn (Z.to_nat m) o) K) as (x & _ & U & LX & T).
    + intros D; apply firstn_nonempty; auto.
    + rewrite ZI; exact M.
    + rewrite ZI, ZO; exact L.
    + do 2 eexists. split; [exact U|]. split; [exact E|]. exists x.
      assert (ZX : zlen x = n) by (unfold zlen; rewrite LX; exact ZI). split; [exact ZX|]. split; [exact T|].
      replace (List.length x) with (Z.to_nat n) by (unfold zlen in ZX; lia). apply put_back_part; auto.
  - destruct (B1 E) as (w & B). do 2 eexists. split; [exact B|]. split; [exact E|]. apply put_back_all. exact VO.
  - destruct (B2 E) as (a & b & B). do 2 eexists. split; [exact B|]. split; [exact E|]. apply put_back_all. exact VO.
Qed.
Lemma c_failed : forall St (e : c_estimator St) e1, est_failed (of_c_estimator e) e1 -> estimator_failed e.
Proof.
  intros St e e1 (st1 & st2 & [(n & H)|(d & n & H)]); cbn in H; unfold c_answer in H.
  - destruct (c_max_compressed_size e st1 n) as [[code o] st] eqn:E. destruct (code =? 0) eqn:Z; [discriminate|].
    exists st1, st, code, o. split; [lia|]. eauto.
  - destruct (c_estimate_compressed_size e st1 d n) as [[code o] st] eqn:E. destruct (code =? 0) eqn:Z; [discriminate|].
    exists st1, st, code, o. split; [lia|]. eauto.
Qed.
Lemma slices_auto : forall {St} k c v (e : c_estimator St) all i n o m st, supported c -> (c_debug c = true -> n <> 0) -> valid_for i n -> valid_for o m ->
  exists r y st', core_auto k c v (of_c_estimator e) all (firstn (Z.to_nat n) i) (firstn (Z.to_nat m) o) st = Ok (r, y, st') /\
    match r with
    | ROk s => expected_code (codec_block k) n m = 0 /\ candidate all (decorrelation_mode s) /\
        put_back o y = texture_layout k s (firstn (Z.to_nat n) i) ++ skipn (Z.to_nat n) o
    | RErr (AutoInvalidLength _) => expected_code (codec_block k) n m = 1 /\ put_back o y = o /\ st' = st
    | RErr (AutoOutputBufferTooSmall _ _) => expected_code (codec_block k) n m = 2 /\ put_back o y = o /\ st' = st
    | RErr (DetermineBestTransform AllocateError) => expected_code (codec_block k) n m = 0 /\ (exists n, alloc_ok v n = false) /\ put_back o y = o
    | RErr (DetermineBestTransform (SizeEstimationError e1)) => expected_code (codec_block k) n m = 0 /\ estimator_failed e /\ same_after n o (put_back o y)
    end.
Proof.
  intros St k c v e all i n o m st K HD VI VO. pose proof VI as (I1 & I2). pose proof VO as (O1 & O2).
  pose proof (zlen_firstn _ i n I1 I2) as ZI. pose proof (zlen_firstn _ o m O1 O2) as ZO.
  destruct (core_auto_bad k c v (of_c_estimator e) all (firstn (Z.to_nat n) i) (firstn (Z.to_nat m) o) st) as (B1 & B2). rewrite ZI, ZO in B1, B2.
  destruct (expected_cases (codec_block k) n m) as [(E & M & L)|[(E & M)|(E & M & L)]].
  - destruct (core_auto_total k c v (of_c_estimator e) all (firstn (Z.to_nat n) i) (firstn (Z.to_nat m) o) st K) as (r & y & st' & U & P).
    + intros D; apply firstn_nonempty; auto.
    + rewrite ZI; exact M.
    + rewrite ZI, ZO; exact L.
    + exists r, y, st'. split; [exact U|].
      assert (PB : forall s, put_back o (texture_layout k s (firstn (Z.to_nat n) i) ++ skipn (Z.to_nat n) (firstn (Z.to_nat m) o)) = texture_layout k s (firstn (Z.to_nat n) i) ++ skipn (Z.to_nat n) o).
      { intros s. apply put_back_part; auto. unfold zlen. rewrite layout_len by (rewrite ZI; exact M). exact ZI. }
      rewrite (length_firstn_n i n VI) in P. destruct r as [s|[w|a b|[|e1]]]; try contradiction.
      * destruct P as (P1 & ->). auto.
      * destruct P as (P1 & ->). rewrite put_back_all by exact VO. auto.
      * destruct P as (P1 & P2). split; [exact E|]. split; [exact (c_failed _ _ _ P1)|]. destruct P2 as [->|(s & ->)].
        -- rewrite put_back_all by exact VO. apply same_after_refl.
        -- rewrite PB. apply same_after_part; [lia|lia|]. unfold zlen. rewrite layout_len by (rewrite ZI; exact M). exact ZI.
  - destruct (B1 E) as (w & B). do 3 eexists. split; [exact B|]. split; [exact E|]. split; [apply put_back_all; exact VO|reflexivity].
  - destruct (B2 E) as (a & b & B). do 3 eexists. split; [exact B|]. split; [exact E|]. split; [apply put_back_all; exact VO|reflexivity].
Qed.

(** ** C33 *)
Lemma manual_c_transform : forall {St} k c (h : heap St) i n o m b mb, supported c -> (c_debug c = true -> n <> 0) -> valid_for i n -> valid_for o m ->
  lookup (manuals h) b = Ok mb ->
  exists code, manual_transform_c k c (Some i) n (Some o) m (Some b) h = Ok (code, Some
      (if expected_code (codec_block k) n m =? 0 then texture_layout k (mb_settings mb) (firstn (Z.to_nat n) i) ++ skipn (Z.to_nat n) o else o)) /\
    code_number code = expected_code (codec_block k) n m.
Proof.
  intros St k c h i n o m b mb K HD VI VO HB. unfold manual_transform_c, manual_call.
  rewrite (from_raw_ok _ _ VI), (from_raw_ok _ _ VO), HB. cbn [bind]. unfold manual_transform.
  destruct (slices_transform k c (mb_settings mb) i n o m K HD VI VO) as (r & y & -> & P). cbn [bind fst snd].
  destruct r as [[]|[w|a d]]; destruct P as (E & ->); rewrite E; cbn; eexists; split; reflexivity.
Qed.
Lemma manual_c_untransform : forall {St} k c (h : heap St) i n o m b mb, supported c -> (c_debug c = true -> n <> 0) -> valid_for i n -> valid_for o m ->
  lookup (manuals h) b = Ok mb ->
  exists code o1, manual_untransform_c k c (Some i) n (Some o) m (Some b) h = Ok (code, Some o1) /\
    code_number code = expected_code (codec_block k) n m /\
    (code <> Success -> o1 = o) /\
    (code = Success -> exists x, zlen x = n /\ texture_layout k (mb_settings mb) x = firstn (Z.to_nat n) i /\ o1 = x ++ skipn (Z.to_nat n) o).
Proof.
  intros St k c h i n o m b mb K HD VI VO HB. unfold manual_untransform_c, manual_call.
  rewrite (from_raw_ok _ _ VI), (from_raw_ok _ _ VO), HB. cbn [bind]. unfold manual_untransform.
  destruct (slices_untransform k c (mb_settings mb) i n o m K HD VI VO) as (r & y & -> & P). cbn [bind fst snd].
  destruct r as [[]|[w|a d]]; destruct P as (E & P); rewrite E; cbn; do 2 eexists; split; try reflexivity; split; try reflexivity;
    (split; [intros Q|intros Q]); try congruence; exact P.
Qed.

Lemma from_to_internal : forall m, to_internal_variant (from_internal_variant m) = m.
Proof. intros []; reflexivity. Qed.

Lemma auto_c_transform : forall {St} k c v (h : heap St) i n o m b ab cell st, supported c -> (c_debug c = true -> n <> 0) -> valid_for i n -> valid_for o m ->
  lookup (autos h) b = Ok ab ->
  exists code o1 cell1 h1 st1, auto_transform_c k c v (Some b) (Some i) n (Some o) m (Some cell) h st = Ok (code, Some o1, Some cell1, h1, st1) /\
    (expected_code (codec_block k) n m <> 0 -> code_number code = expected_code (codec_block k) n m /\ o1 = o /\ st1 = st) /\
    (expected_code (codec_block k) n m = 0 -> code = Success \/ code = CAllocationFailed \/ code = CSizeEstimationFailed) /\
    (code = CAllocationFailed -> exists z, alloc_ok v z = false) /\
    (code = CSizeEstimationFailed -> estimator_failed (ca_estimator ab)) /\
    (code <> Success -> cell1 = None /\ h1 = h /\ same_after n o o1) /\
    (code = Success -> exists s, candidate (ca_use_all ab) (decorrelation_mode s) /\
       o1 = texture_layout k s (firstn (Z.to_nat n) i) ++ skipn (Z.to_nat n) o /\
       cell1 = Some (List.length (manuals h)) /\ h1 = Heap (manuals h ++ [Some (ManualBuilder s)]) (autos h)).
Proof.
  intros St k c v h i n o m b ab cell st K HD VI VO HB. unfold auto_transform_c.
  rewrite HB, (from_raw_ok _ _ VI), (from_raw_ok _ _ VO). cbn [bind]. unfold auto_transform. cbn [ab_estimator ab_use_all auto_use_all auto_new].
  destruct (slices_auto k c v (ca_estimator ab) (ca_use_all ab) i n o m st K HD VI VO) as (r & y & st' & -> & P). cbn [bind].
  destruct r as [s|[w|a d|[|e1]]]; cbn [from_auto_transform_error bind code_of_error].
  - destruct P as (E & C & ->). do 5 eexists. split; [reflexivity|].
    split; [intros; lia|]. split; [auto|]. split; [discriminate|]. split; [discriminate|]. split; [congruence|].
    intros _. exists s. split; [exact C|]. split; [reflexivity|]. split; [reflexivity|].
    unfold manual_decorrelation_mode, manual_split_colour_endpoints. cbn [mb_settings decorrelation_mode split_colour_endpoints].
    rewrite from_to_internal. destruct s; reflexivity.
  - destruct P as (E & -> & ->). do 5 eexists. split; [reflexivity|]. rewrite E.
    split; [auto|]. split; [lia|]. split; [discriminate|]. split; [discriminate|]. split; [|discriminate]. auto using same_after_refl.
  - destruct P as (E & -> & ->). do 5 eexists. split; [reflexivity|]. rewrite E.
    split; [auto|]. split; [lia|]. split; [discriminate|]. split; [discriminate|]. split; [|discriminate]. auto using same_after_refl.
  - destruct P as (E & A & ->). do 5 eexists. split; [reflexivity|]. rewrite E.
    split; [lia|]. split; [auto|]. split; [auto|]. split; [discriminate|]. split; [|discriminate]. auto using same_after_refl.
  - destruct P as (E & A & S). do 5 eexists. split; [reflexivity|]. rewrite E.
    split; [lia|]. split; [auto|]. split; [discriminate|]. split; [auto|]. split; [|discriminate]. auto.
Qed.

Lemma core_c_transform : forall k c s i n o m, supported c -> (c_debug c = true -> n <> 0) -> valid_for i n -> valid_for o m ->
  exists code, core_transform_c k c s (Some i) n (Some o) m = Ok (code, Some
      (if expected_code (codec_block k) n m =? 0 then texture_layout k s (firstn (Z.to_nat n) i) ++ skipn (Z.to_nat n) o else o)) /\
    core_code_number code = (match expected_code (codec_block k) n m with 1 => 5 | 2 => 6 | _ => 0 end).
Proof.
  intros k c s i n o m K HD VI VO. unfold core_transform_c, core_call.
  rewrite (from_raw_ok _ _ VI), (from_raw_ok _ _ VO). cbn [bind].
  destruct (slices_transform k c s i n o m K HD VI VO) as (r & y & -> & P). cbn [bind fst snd].
  destruct r as [[]|[w|a d]]; destruct P as (E & ->); rewrite E; cbn; eexists; split; reflexivity.
Qed.
Lemma core_c_untransform : forall k c s i n o m, supported c -> (c_debug c = true -> n <> 0) -> valid_for i n -> valid_for o m ->
  exists code o1, core_untransform_c k c s (Some i) n (Some o) m = Ok (code, Some o1) /\
    core_code_number code = (match expected_code (codec_block k) n m with 1 => 5 | 2 => 6 | _ => 0 end) /\
    (code <> CoreSuccess -> o1 = o) /\
    (code = CoreSuccess -> exists x, zlen x = n /\ texture_layout k s x = firstn (Z.to_nat n) i /\ o1 = x ++ skipn (Z.to_nat n) o).
Proof.
  intros k c s i n o m K HD VI VO. unfold core_untransform_c, core_call.
  rewrite (from_raw_ok _ _ VI), (from_raw_ok _ _ VO). cbn [bind].
  destruct (slices_untransform k c s i n o m K HD VI VO) as (r & y & -> & P). cbn [bind fst snd].
  destruct r as [[]|[w|a d]]; destruct P as (E & P); rewrite E; cbn; do 2 eexists; split; try reflexivity; split; try reflexivity;
    (split; [intros Q|intros Q]); try congruence; exact P.
Qed.
Lemma core_c_auto : forall {St} k c v (e : c_estimator St) all i n o m old st, supported c -> (c_debug c = true -> n <> 0) -> valid_for i n -> valid_for o m ->
  exists code o1 s1 st1, core_transform_auto_c k c v (Some i) n (Some o) m (Some e) all (Some old) st = Ok (code, Some o1, Some s1, st1) /\
    (expected_code (codec_block k) n m <> 0 -> core_code_number code = 4 + expected_code (codec_block k) n m /\ o1 = o /\ st1 = st) /\
    (expected_code (codec_block k) n m = 0 -> code = CoreSuccess \/ code = CoreSizeEstimationError) /\
    (code = CoreSizeEstimationError -> (exists z, alloc_ok v z = false) \/ estimator_failed e) /\
    (code <> CoreSuccess -> s1 = old /\ same_after n o o1) /\
    (code = CoreSuccess -> candidate all (decorrelation_mode s1) /\ o1 = texture_layout k s1 (firstn (Z.to_nat n) i) ++ skipn (Z.to_nat n) o).
Proof.
  intros St k c v e all i n o m old st K HD VI VO. unfold core_transform_auto_c.
  rewrite (from_raw_ok _ _ VI), (from_raw_ok _ _ VO). cbn [bind].
  destruct (slices_auto k c v e all i n o m st K HD VI VO) as (r & y & st' & -> & P). cbn [bind].
  destruct r as [s|[w|a d|[|e1]]]; cbn [core_code_of_auto].
  - destruct P as (E & C & ->). do 4 eexists. split; [reflexivity|].
    split; [intros; lia|]. split; [auto|]. split; [discriminate|]. split; [congruence|]. auto.
  - destruct P as (E & -> & ->). do 4 eexists. split; [reflexivity|]. rewrite E.
    split; [auto|]. split; [lia|]. split; [discriminate|]. split; [|discriminate]. auto using same_after_refl.
  - destruct P as (E & -> & ->). do 4 eexists. split; [reflexivity|]. rewrite E.
    split; [auto|]. split; [lia|]. split; [discriminate|]. split; [|discriminate]. auto using same_after_refl.
  - destruct P as (E & A & ->). do 4 eexists. split; [reflexivity|]. rewrite E.
    split; [lia|]. split; [auto|]. split; [auto|]. split; [|discriminate]. auto using same_after_refl.
  - destruct P as (E & A & S). do 4 eexists. split; [reflexivity|]. rewrite E.
    split; [lia|]. split; [auto|]. split; [auto|]. split; [|discriminate]. auto.
Qed.

(** null pointers *)
Lemma manual_nulls : forall {St} k c (h : heap St) i n o m b code,
  first_null [(is_null i, 5); (is_null o, 9); (is_null b, 10)] = Some code ->
  (exists e, manual_transform_c k c i n o m b h = Ok (e, o) /\ code_number e = code) /\
  (exists e, manual_untransform_c k c i n o m b h = Ok (e, o) /\ code_number e = code).
Proof.
  intros St k c h i n o m b code H. unfold manual_transform_c, manual_untransform_c, manual_call.
  destruct i; [|injection H as <-; split; eexists; split; reflexivity].
  destruct o; [|injection H as <-; split; eexists; split; reflexivity].
  destruct b; [discriminate|]. injection H as <-. split; eexists; split; reflexivity.
Qed.
Lemma auto_nulls : forall {St} k c v (h : heap St) b i n o m cell st code,
  first_null [(is_null b, 11); (is_null i, 5); (is_null o, 9); (is_null cell, 12)] = Some code ->
  exists e, auto_transform_c k c v b i n o m cell h st = Ok (e, o, cell, h, st) /\ code_number e = code.
Proof.
  intros St k c v h b i n o m cell st code H. unfold auto_transform_c.
  destruct b; [|injection H as <-; eexists; split; reflexivity].
  destruct i; [|injection H as <-; eexists; split; reflexivity].
  destruct o; [|injection H as <-; eexists; split; reflexivity].
  destruct cell; [discriminate|injection H as <-; eexists; split; reflexivity].
Qed.
Lemma core_nulls : forall k c s i n o m code,
  first_null [(is_null i, 1); (is_null o, 2)] = Some code ->
  (exists e, core_transform_c k c s i n o m = Ok (e, o) /\ core_code_number e = code) /\
  (exists e, core_untransform_c k c s i n o m = Ok (e, o) /\ core_code_number e = code).
Proof.
  intros k c s i n o m code H. unfold core_transform_c, core_untransform_c, core_call.
  destruct i; [|injection H as <-; split; eexists; split; reflexivity].
  destruct o; [discriminate|injection H as <-; split; eexists; split; reflexivity].
Qed.
Lemma core_auto_nulls : forall {St} k c v (e : option (c_estimator St)) all i n o m old st code,
  first_null [(is_null i, 1); (is_null o, 2); (is_null e, 3); (is_null old, 4)] = Some code ->
  exists x, core_transform_auto_c k c v i n o m e all old st = Ok (x, o, old, st) /\ core_code_number x = code.
Proof.
  intros St k c v e all i n o m old st code H. unfold core_transform_auto_c.
  destruct i; [|injection H as <-; eexists; split; reflexivity].
  destruct o; [|injection H as <-; eexists; split; reflexivity].
  destruct e; [|injection H as <-; eexists; split; reflexivity].
  destruct old; [discriminate|injection H as <-; eexists; split; reflexivity].
Qed.

(** round trips *)
Lemma untransform_layout : forall {St} k c (h : heap St) s x o m b mb, supported c -> (c_debug c = true -> x <> []) -> zlen x mod codec_block k = 0 ->
  zlen x <= m -> valid_for o m -> lookup (manuals h) b = Ok mb -> mb_settings mb = s -> forall rest,
  manual_untransform_c k c (Some (texture_layout k s x ++ rest)) (zlen x) (Some o) m (Some b) h = Ok (Success, Some (x ++ skipn (List.length x) o)).
Proof.
  intros St k c h s x o m b mb K HD M LE VO HB <- rest. pose proof (layout_len k (mb_settings mb) x M) as LL.
  assert (VI : valid_for (texture_layout k (mb_settings mb) x ++ rest) (zlen x)).
  { unfold valid_for, zlen. rewrite app_length, LL. lia. }
  assert (HD' : c_debug c = true -> zlen x <> 0).
  { intros D Q. apply (HD D). destruct x; [reflexivity|]. unfold zlen in Q. cbn [List.length] in Q. lia. }
  destruct (manual_c_untransform k c h _ (zlen x) o m b mb K HD' VI VO HB) as (code & o1 & E & C & _ & P).
  assert (code = Success) as ->.
  { destruct (expected_cases (codec_block k) (zlen x) m) as [(X & _)|[(_ & X)|(_ & _ & X)]]; [|lia|lia]. rewrite X in C. destruct code; cbn in C; lia || reflexivity. }
  destruct (P eq_refl) as (x' & ZX & T & ->). rewrite E.
  assert (x' = x) as ->.
  { apply (layout_inj k (mb_settings mb)); [rewrite ZX; exact M|unfold zlen in ZX; lia|].
    rewrite T. unfold zlen. rewrite Nat2Z.id, firstn_app, LL, Nat.sub_diag. cbn [firstn]. rewrite app_nil_r. rewrite <- LL at 1. apply firstn_all. }
  unfold zlen. rewrite Nat2Z.id. reflexivity.
Qed.
Lemma success_expected : forall code blk n m, code_number code = expected_code blk n m -> code = Success -> n mod blk = 0 /\ n <= m.
Proof. intros code blk n m H ->. cbn in H. destruct (expected_cases blk n m) as [(X & Y)|[(X & _)|(X & _)]]; [exact Y|lia|lia]. Qed.

Lemma c_round_trip : forall {St} k c1 c2 (h : heap St) i n o m o1 o2 m2 b, supported c1 -> supported c2 -> (c_debug c1 = true \/ c_debug c2 = true -> n <> 0) ->
  manual_transform_c k c1 (Some i) n (Some o) m (Some b) h = Ok (Success, Some o1) -> valid_for o2 m2 -> n <= m2 ->
  manual_untransform_c k c2 (Some o1) n (Some o2) m2 (Some b) h = Ok (Success, Some (firstn (Z.to_nat n) i ++ skipn (Z.to_nat n) o2)).
Proof.
  intros St k c1 c2 h i n o m o1 o2 m2 b K1 K2 HD H VO LE.
  assert (Q := H). unfold manual_transform_c, manual_call in Q.
  destruct (from_raw_parts i n) as [x| |] eqn:RI; cbn [bind] in Q; try discriminate.
  destruct (from_raw_parts o m) as [y| |] eqn:RO; cbn [bind] in Q; try discriminate.
  destruct (lookup (manuals h) b) as [mb| |] eqn:LB; cbn [bind] in Q; try discriminate. clear Q.
  apply from_raw_inv in RI, RO. destruct RI as (VI & _), RO as (VO1 & _). pose proof VI as (I1 & I2).
  destruct (manual_c_transform k c1 h i n o m b mb K1 ltac:(auto) VI VO1 LB) as (code & E & C). rewrite E in H. injection H as -> <-.
  destruct (success_expected _ _ _ _ C eq_refl) as (M & L). rewrite <- C. cbn [code_number Z.eqb].
  pose proof (zlen_firstn _ i n I1 I2) as ZI.
  pose proof (untransform_layout k c2 h (mb_settings mb) (firstn (Z.to_nat n) i) o2 m2 b mb K2) as U. rewrite ZI in U.
  rewrite (length_firstn_n i n VI) in U. apply U; auto. intros D. apply firstn_nonempty; auto.
Qed.
Lemma c_auto_round_trip : forall {St} k c1 c2 v (h : heap St) i n o m o1 o2 m2 b cell cell1 h1 st st1, supported c1 -> supported c2 ->
  (c_debug c1 = true \/ c_debug c2 = true -> n <> 0) ->
  auto_transform_c k c1 v (Some b) (Some i) n (Some o) m (Some cell) h st = Ok (Success, Some o1, Some cell1, h1, st1) -> valid_for o2 m2 -> n <= m2 ->
  manual_untransform_c k c2 (Some o1) n (Some o2) m2 cell1 h1 = Ok (Success, Some (firstn (Z.to_nat n) i ++ skipn (Z.to_nat n) o2)).
Proof.
  intros St k c1 c2 v h i n o m o1 o2 m2 b cell cell1 h1 st st1 K1 K2 HD H VO LE.
  assert (Q := H). unfold auto_transform_c in Q.
  destruct (lookup (autos h) b) as [ab| |] eqn:LB; cbn [bind] in Q; try discriminate.
  destruct (from_raw_parts i n) as [x| |] eqn:RI; cbn [bind] in Q; try discriminate.
  destruct (from_raw_parts o m) as [y| |] eqn:RO; cbn [bind] in Q; try discriminate. clear Q.
  apply from_raw_inv in RI, RO. destruct RI as (VI & _), RO as (VO1 & _). pose proof VI as (I1 & I2).
  destruct (auto_c_transform k c1 v h i n o m b ab cell st K1 ltac:(auto) VI VO1 LB) as (code & o1' & cell1' & h1' & st1' & E & X & _ & _ & _ & _ & P).
  rewrite E in H. injection H as -> <- <- <- <-. destruct (P eq_refl) as (s & _ & -> & -> & ->).
  assert (M : n mod codec_block k = 0 /\ n <= m).
  { destruct (expected_cases (codec_block k) n m) as [(Y & Z)|[(Y & _)|(Y & _)]]; [exact Z| |]; rewrite Y in X; destruct X as (X & _); try lia; cbn in X; lia. }
  pose proof (zlen_firstn _ i n I1 I2) as ZI.
  pose proof (untransform_layout k c2 (Heap (manuals h ++ [Some (ManualBuilder s)]) (autos h)) s (firstn (Z.to_nat n) i) o2 m2 (List.length (manuals h)) (ManualBuilder s) K2) as U. rewrite ZI in U.
  rewrite (length_firstn_n i n VI) in U. apply U; auto; [intros D; apply firstn_nonempty; auto|tauto|].
  cbn [manuals]. unfold lookup. rewrite nth_error_app2, Nat.sub_diag by lia. reflexivity.
Qed.

(** ** The automatic transforms leave the rest of the output alone *)
Lemma AUTO_inside : forall {St Er S} {out} v (e : estimator St Er) (shown : S -> list (list byte)) L (x : list byte) order dflt k run st r y st',
  AUTO (out := out) v e shown (fun s => L s ++ skipn (List.length x) out) order dflt k run -> In dflt order ->
  (forall s, List.length (L s) = List.length x) -> zlen x <= zlen out ->
  run st = Ok (r, y, st') -> same_after (zlen x) out y.
Proof.
  intros St Er S out v e shown L x order dflt k run st r y st' A Hd HL Ho H.
  assert (P : forall s, same_after (zlen x) out (L s ++ skipn (List.length x) out)).
  { intros s. replace (List.length x) with (Z.to_nat (zlen x)) by (unfold zlen; lia). apply same_after_part; [unfold zlen; lia|exact Ho|unfold zlen; rewrite HL; reflexivity]. }
  destruct r as [s|r].
  - destruct (AUTO_ok _ _ _ _ _ _ _ _ _ _ _ _ A Hd H) as (_ & ->). apply P.
  - destruct (AUTO_fail _ _ _ _ _ _ _ _ _ _ _ _ A H) as [->|(s & ->)]; [apply same_after_refl|apply P].
Qed.
Lemma bad_same : forall {St Er S} blk run x out (st : St) r y st', (zlen x mod blk <> 0 \/ zlen out < zlen x) ->
  @auto_checked St Er S blk run x out st = Ok (r, y, st') -> y = out.
Proof.
  intros St Er S blk run x out st r y st' N H. unfold auto_checked in H. destruct (zlen x mod blk =? 0) eqn:M; cbn [negb] in H.
  - destruct (zlen out <? zlen x) eqn:L; [injection H as _ <- _; reflexivity|lia].
  - injection H as _ <- _. reflexivity.
Qed.
Lemma bc1_auto_inside : forall {St Er} c v (e : estimator St Er) all x out st r y st', cpu_ok c -> (c_debug c = true -> x <> []) ->
  transform_bc1_auto c v e all x out st = Ok (r, y, st') -> same_after (zlen x) out y.
Proof.
  intros St Er c v e all x out st r y st' K HD H.
  assert (DEC : zlen x mod 8 = 0 /\ zlen x <= zlen out \/ (zlen x mod 8 <> 0 \/ zlen out < zlen x)) by lia.
  destruct DEC as [(Hm & Ho)|N]; [|rewrite (bad_same _ _ _ _ _ _ _ _ N H); apply same_after_refl].
  apply (AUTO_inside v e (bc1_shown x) (fun s => bc1_layout (decorrelation_mode s) (split_colour_endpoints s) x) x _ _ _ _ _ _ _ _ (bc1_AUTO c v e all x out K HD Hm Ho)
    ltac:(apply order1_in; unfold candidate; auto) (fun s => layout_len CBc1 s x Hm) Ho H).
Qed.
Lemma bc2_auto_inside : forall {St Er} c v (e : estimator St Er) all x out st r y st', cpu_ok c -> (c_avx512bw c = true -> c_avx512vl c = true) ->
  transform_bc2_auto c v e all x out st = Ok (r, y, st') -> same_after (zlen x) out y.
Proof.
  intros St Er c v e all x out st r y st' K VL H.
  assert (DEC : zlen x mod 16 = 0 /\ zlen x <= zlen out \/ (zlen x mod 16 <> 0 \/ zlen out < zlen x)) by lia.
  destruct DEC as [(Hm & Ho)|N]; [|rewrite (bad_same _ _ _ _ _ _ _ _ N H); apply same_after_refl].
  apply (AUTO_inside v e (bc2_shown x) (fun s => bc2_layout (decorrelation_mode s) (split_colour_endpoints s) x) x _ _ _ _ _ _ _ _ (bc2_AUTO c v e all x out K VL Hm Ho)
    ltac:(apply order1_in; unfold candidate; auto) (fun s => layout_len CBc2 s x Hm) Ho H).
Qed.
Lemma bc3_layout_len : forall s x, zlen x mod 16 = 0 -> List.length (bc3_layout (decorrelation_mode3 s) (split_alpha_endpoints s) (split_colour_endpoints3 s) x) = List.length x.
Proof.
  intros s x H. destruct (bc3_fam (decorrelation_mode3 s) (split_alpha_endpoints s) (split_colour_endpoints3 s)) as (sht & shu & FM).
  apply (fam_len _ _ _ _ _ _ FM); unfold zlen in H; lia.
Qed.
Lemma bc3_auto_inside : forall {St Er} c v (e : estimator St Er) all x out st r y st', cpu_ok c -> (c_debug c = true -> x <> []) ->
  (forall st d n z st', estimate_compressed_size e st d n = (ROk z, st') -> 2 * z <= usize_max v) ->
  transform_bc3_auto c v e all x out st = Ok (r, y, st') -> same_after (zlen x) out y.
Proof.
  intros St Er c v e all x out st r y st' K HD HS H.
  assert (DEC : zlen x mod 16 = 0 /\ zlen x <= zlen out \/ (zlen x mod 16 <> 0 \/ zlen out < zlen x)) by lia.
  destruct DEC as [(Hm & Ho)|N]; [|rewrite (bad_same _ _ _ _ _ _ _ _ N H); apply same_after_refl].
  apply (AUTO_inside v e (bc3_shown x) (fun s => bc3_layout (decorrelation_mode3 s) (split_alpha_endpoints s) (split_colour_endpoints3 s) x) x _ _ _ _ _ _ _ _ (bc3_AUTO c v e all x out K HD HS Hm Ho)
    ltac:(apply order3_in; unfold candidate; auto) (fun s => bc3_layout_len s x Hm) Ho H).
Qed.

(** the same with the numbers a C caller sees *)
Lemma auto_c_numbers : forall (St : Type) (k : codec) (c : cfg) (v : env) (h : heap St) (i : list byte) (n : Z) (o : list byte) (m : Z) (b : nat)
    (ab : c_auto_builder St) (cell : handle) (st : St),
  supported c -> (c_debug c = true -> n <> 0) -> valid_for i n -> valid_for o m -> lookup (autos h) b = Ok ab ->
  exists code o1 cell1 h1 st1, auto_transform_c k c v (Some b) (Some i) n (Some o) m (Some cell) h st = Ok (code, Some o1, Some cell1, h1, st1) /\
    (expected_code (codec_block k) n m <> 0 -> code_number code = expected_code (codec_block k) n m /\ o1 = o /\ st1 = st) /\
    (expected_code (codec_block k) n m = 0 -> code_number code = 0 \/ code_number code = 3 \/ code_number code = 4) /\
    (code_number code = 3 -> exists z, alloc_ok v z = false) /\
    (code_number code = 4 -> estimator_failed (ca_estimator ab)) /\
    (code_number code <> 0 -> cell1 = None /\ h1 = h /\ same_after n o o1) /\
    (code_number code = 0 -> exists s, candidate (ca_use_all ab) (decorrelation_mode s) /\
       o1 = texture_layout k s (firstn (Z.to_nat n) i) ++ skipn (Z.to_nat n) o /\
       cell1 = Some (List.length (manuals h)) /\ h1 = Heap (manuals h ++ [Some (ManualBuilder s)]) (autos h)).
Proof.
  intros St k c v h i n o m b ab cell st K HD VI VO HL. destruct (auto_c_transform k c v h i n o m b ab cell st K HD VI VO HL) as (code & o1 & cell1 & h1 & st1 & E & P1 & P2 & P3 & P4 & P5 & P6).
  exists code, o1, cell1, h1, st1. split; [exact E|]. split; [exact P1|]. split; [intros Q; destruct (P2 Q) as [->|[->| ->]]; cbn [code_number]; auto|].
  split; [intros Q; apply P3; destruct code; (reflexivity || discriminate Q)|]. split; [intros Q; apply P4; destruct code; (reflexivity || discriminate Q)|].
  split; [intros Q; apply P5; intros ->; apply Q; reflexivity|intros Q; apply P6; destruct code; (reflexivity || discriminate Q)].
Qed.
Lemma core_c_numbers : forall (St : Type) (k : codec) (c : cfg) (v : env) (e : c_estimator St) (all : bool) (i : list byte) (n : Z) (o : list byte) (m : Z)
    (old : settings) (st : St),
  supported c -> (c_debug c = true -> n <> 0) -> valid_for i n -> valid_for o m ->
  exists code o1 s1 st1, core_transform_auto_c k c v (Some i) n (Some o) m (Some e) all (Some old) st = Ok (code, Some o1, Some s1, st1) /\
    (expected_code (codec_block k) n m <> 0 -> core_code_number code = 4 + expected_code (codec_block k) n m /\ o1 = o /\ st1 = st) /\
    (expected_code (codec_block k) n m = 0 -> core_code_number code = 0 \/ core_code_number code = 7) /\
    (core_code_number code = 7 -> (exists z, alloc_ok v z = false) \/ estimator_failed e) /\
    (core_code_number code <> 0 -> s1 = old /\ same_after n o o1) /\
    (core_code_number code = 0 -> candidate all (decorrelation_mode s1) /\ o1 = texture_layout k s1 (firstn (Z.to_nat n) i) ++ skipn (Z.to_nat n) o).
Proof.
  intros St k c v e all i n o m old st K HD VI VO. destruct (core_c_auto k c v e all i n o m old st K HD VI VO) as (code & o1 & s1 & st1 & E & P1 & P2 & P3 & P4 & P5).
  exists code, o1, s1, st1. split; [exact E|]. split; [exact P1|]. split; [intros Q; destruct (P2 Q) as [->| ->]; cbn [core_code_number]; auto|].
  split; [intros Q; apply P3; destruct code; (reflexivity || discriminate Q)|].
  split; [intros Q; apply P4; intros ->; apply Q; reflexivity|intros Q; apply P5; destruct code; (reflexivity || discriminate Q)].
Qed.
