(** Proofs of the entry-point properties (generated by tools/gen_tprops.py; the
    statements are in Props/PBc1.v, PBc2.v and PBc3.v). *)
From Verif Require Import Base.Bytes Base.Res Model.Color565 Model.Kernel Model.Transform Spec.YCoCg Spec.Layout.
From Verif Require Import Proofs.KernelCheck Proofs.KernelLoop Proofs.KernelFun Proofs.Shapes Proofs.LayoutFacts Proofs.ShapeLayout
  Proofs.Families Proofs.TransformFacts Proofs.SliceFacts.
From Coq Require Import ZifyBool ZifyNat Permutation.

(** Sections that are only moved. *)
Lemma cat_len : forall w off k x, (0 < k)%nat -> (List.length x mod k = 0)%nat -> (off + w <= k)%nat ->
  List.length (List.concat (map (raw off w) (blocks k x))) = (List.length x / k * w)%nat.
Proof.
  intros w off k x Hk Hm Hw. pose proof (fam_div k Hk x Hm) as D. rewrite (length_concat_const w).
  - rewrite map_length. unfold blocks. rewrite chunks_length. reflexivity.
  - intros b Hb. apply in_map_iff in Hb. destruct Hb as (q & <- & Hq).
    apply (chunks_in k (List.length x / k) x) in Hq; [|lia]. unfold raw. rewrite firstn_length, skipn_length. lia.
Qed.
Lemma col_len : forall w (f : field) k x, (forall b, List.length (f b) = w) -> 
  List.length (List.concat (map f (blocks k x))) = (List.length x / k * w)%nat.
Proof.
  intros w f k x H. rewrite (length_concat_const w).
  - rewrite map_length. unfold blocks. rewrite chunks_length. reflexivity.
  - intros b Hb. apply in_map_iff in Hb. destruct Hb as (q & <- & Hq). apply H.
Qed.
Lemma slice_mid : forall (p q r : list byte) off n, 0 <= off -> Z.of_nat (List.length p) = off -> Z.of_nat (List.length q) = n ->
  slice (p ++ q ++ r) off n = q.
Proof.
  intros p q r off n Ho Hp Hq. unfold slice. replace (Z.to_nat off) with (List.length p) by lia.
  rewrite skipn_app, skipn_all, Nat.sub_diag. cbn [skipn app]. replace (Z.to_nat n) with (List.length q) by lia.
  rewrite firstn_app, firstn_all, Nat.sub_diag. apply app_nil_r.
Qed.
Definition ccol (v : variant) (sp : bool) (off k : nat) (x : list byte) : list byte :=
  lay (colour_fields v sp off) (blocks k x).
Lemma ccol_len : forall v sp off k x, List.length (ccol v sp off k x) = (List.length x / k * 4)%nat.
Proof.
  intros v sp off k x. unfold ccol, lay, colour_fields. destruct sp; cbn [map List.concat]; rewrite ?app_length.
  - rewrite !(col_len 2) by reflexivity. cbn [List.length]. lia.
  - rewrite (col_len 4) by reflexivity. cbn [List.length]. lia.
Qed.
Lemma lay_app : forall fs gs bs, lay (fs ++ gs) bs = lay fs bs ++ lay gs bs.
Proof. intros. unfold lay. rewrite map_app, concat_app. reflexivity. Qed.
Lemma lay_one : forall f bs, lay [f] bs = List.concat (map f bs).
Proof. intros. unfold lay. cbn [map List.concat]. apply app_nil_r. Qed.

Lemma bc1_moved : forall v sp x r, (List.length x mod 8 = 0)%nat ->
  slice (bc1_layout v sp x ++ r) (zlen x / 2) (zlen x / 2) = List.concat (map (raw 4 4) (blocks 8 x)).
Proof.
  intros v sp x r Hm. unfold bc1_layout, bc1_fields. rewrite lay_app, lay_one, <- app_assoc.
  pose proof (ccol_len v sp 0 8 x) as L. pose proof (cat_len 4 4 8 x ltac:(lia) Hm ltac:(lia)) as L4. unfold ccol in L. unfold zlen.
  apply slice_mid; rewrite ?L, ?L4; lia.
Qed.
Lemma bc2_moved : forall v sp x r, (List.length x mod 16 = 0)%nat ->
  slice (bc2_layout v sp x ++ r) 0 (zlen x / 2) = List.concat (map (raw 0 8) (blocks 16 x)) /\
  slice (bc2_layout v sp x ++ r) (zlen x / 2 + zlen x / 4) (zlen x / 4) = List.concat (map (raw 12 4) (blocks 16 x)).
Proof.
  intros v sp x r Hm. unfold bc2_layout, bc2_fields. rewrite !lay_app, !lay_one, <- !app_assoc.
  pose proof (ccol_len v sp 8 16 x) as L. pose proof (cat_len 4 12 16 x ltac:(lia) Hm ltac:(lia)) as L4.
  pose proof (cat_len 8 0 16 x ltac:(lia) Hm ltac:(lia)) as L8. unfold ccol in L. unfold zlen.
  split.
  - apply (slice_mid []); cbn [List.length]; rewrite ?L8; lia.
  - rewrite (app_assoc (List.concat (map (raw 0 8) _))). apply slice_mid; rewrite ?app_length, ?L, ?L4, ?L8; lia.
Qed.
Lemma perm_interleave : forall bs : list (list byte),
  Permutation (List.concat (map (raw 0 1) bs) ++ List.concat (map (raw 1 1) bs)) (List.concat (map (raw 0 2) bs)).
Proof.
  induction bs as [|b bs IH]; [constructor|]. cbn [map List.concat]. rewrite <- IH.
  transitivity ((raw 0 1 b ++ raw 1 1 b) ++ List.concat (map (raw 0 1) bs) ++ List.concat (map (raw 1 1) bs)).
  - rewrite <- !app_assoc. apply Permutation_app_head. rewrite !app_assoc. apply Permutation_app_tail. apply Permutation_app_comm.
  - apply Permutation_app_tail. unfold raw. destruct b as [|a [|c b]]; reflexivity.
Qed.
Lemma bc3_moved : forall v sa sp x r, (List.length x mod 16 = 0)%nat ->
  slice (bc3_layout v sa sp x ++ r) (zlen x / 8) (6 * (zlen x / 16)) = List.concat (map (raw 2 6) (blocks 16 x)) /\
  slice (bc3_layout v sa sp x ++ r) (zlen x / 2 + zlen x / 4) (zlen x / 4) = List.concat (map (raw 12 4) (blocks 16 x)) /\
  Permutation (slice (bc3_layout v sa sp x ++ r) 0 (zlen x / 8)) (List.concat (map (raw 0 2) (blocks 16 x))).
Proof.
  intros v sa sp x r Hm. unfold bc3_layout, bc3_fields. rewrite !lay_app, !lay_one, <- !app_assoc.
  set (al := lay (if sa then _ else _) _).
  pose proof (ccol_len v sp 8 16 x) as L. pose proof (cat_len 4 12 16 x ltac:(lia) Hm ltac:(lia)) as L4.
  pose proof (cat_len 6 2 16 x ltac:(lia) Hm ltac:(lia)) as L6.
  assert (P : Permutation al (List.concat (map (raw 0 2) (blocks 16 x)))).
  { subst al. destruct sa; [rewrite lay_cons|]; rewrite lay_one; [apply perm_interleave|reflexivity]. }
  assert (LA : List.length al = (List.length x / 16 * 2)%nat)
    by (rewrite (Permutation_length P); apply cat_len; first [lia|exact Hm]).
  unfold ccol in L. unfold zlen. repeat apply conj.
  - apply slice_mid; rewrite ?LA, ?L6; lia.
  - rewrite !app_assoc, <- (app_assoc _ _ r). apply slice_mid; rewrite ?app_length, ?L, ?L4, ?LA, ?L6; lia.
  - match goal with |- Permutation (slice (al ++ ?r) _ ?n) _ => pose proof (slice_mid [] al r 0 n) as S end.
    cbn [app] in S. rewrite S; [exact P|lia|reflexivity|rewrite LA; lia].
Qed.

Lemma lC01_bc1_lossless : forall (c1 c2 : cfg) (s : settings) (x out1 out2 : list byte),
  cpu_ok c1 -> cpu_ok c2 -> (c_debug c1 = true \/ c_debug c2 = true -> split_colour_endpoints s = true -> x <> []) ->
  zlen x mod 8 = 0 -> zlen x <= zlen out1 -> zlen x <= zlen out2 ->
  exists y z, transform_bc1 c1 s x out1 = Ok (ROk tt, y) /\
    untransform_bc1 c2 s (firstn (List.length x) y) out2 = Ok (ROk tt, z) /\
    firstn (List.length x) z = x.
Proof.
  intros c1 c2 s x out1 out2 K1 K2  HD Hm H1 H2.
  destruct (bc1_fam (decorrelation_mode s) (split_colour_endpoints s)) as (sht & shu & FM).
  assert (LL : List.length (bc1_layout (decorrelation_mode s) (split_colour_endpoints s) x) = List.length x)
    by (apply (fam_len _ _ _ _ _ _ FM); unfold zlen in Hm; lia).
  pose proof (bc1_slice c1 s x out1 K1 ltac:(intros; apply HD; auto) Hm H1) as T.
  destruct (unbc1_slice c2 s (bc1_layout (decorrelation_mode s) (split_colour_endpoints s) x) out2 K2 ltac:(intros D E Q; refine (HD (or_intror D) E _); apply length_zero_iff_nil; rewrite <- LL, Q; reflexivity)
    ltac:(unfold zlen in *; rewrite LL; exact Hm) ltac:(unfold zlen in *; rewrite LL; exact H2)) as (y & U & Ly & Ey).
  do 2 eexists. split; [exact T|]. rewrite firstn_app, <- LL, firstn_all, Nat.sub_diag, app_nil_r. split; [exact U|].
  rewrite <- Ly, firstn_app, firstn_all, Nat.sub_diag, app_nil_r.
  apply (fam_inj _ _ _ _ _ _ FM); [lia|rewrite Ly, LL; unfold zlen in Hm; lia|rewrite Ly; exact LL|exact Ey].
Qed.

Lemma lC06_bc1_cpu_independent : forall (c1 c2 : cfg) (s : settings) (inp aux out : list byte) (a b len : Z),
  cpu_ok c1 -> cpu_ok c2 -> (c_debug c1 = true \/ c_debug c2 = true -> split_colour_endpoints s = true -> 0 < len) ->
  len mod 8 = 0 -> 0 <= len -> 0 <= a -> 0 <= b -> a + len <= zlen inp -> b + len <= zlen out ->
  exists mt mu,
    (transform_bc1_with_settings c1 (Ptr BIn a) (Ptr BOut b) len s (Mem inp aux out) = Ok mt /\
     transform_bc1_with_settings c2 (Ptr BIn a) (Ptr BOut b) len s (Mem inp aux out) = Ok mt) /\
    (untransform_bc1_with_settings c1 (Ptr BIn a) (Ptr BOut b) len s (Mem inp aux out) = Ok mu /\
     untransform_bc1_with_settings c2 (Ptr BIn a) (Ptr BOut b) len s (Mem inp aux out) = Ok mu).
Proof.
  intros c1 c2 s inp aux out a b len K1 K2  HD Hm Hl Ha Hb Hi Ho.
  destruct (bc1_fam (decorrelation_mode s) (split_colour_endpoints s)) as (sht & shu & FM).
  destruct (unbc1_call c1 s inp aux out a b len K1 ltac:(intros; apply HD; auto) Hm Hl Ha Hb Hi Ho) as (y & E & L & Y).
  destruct (unbc1_call c2 s inp aux out a b len K2 ltac:(intros; apply HD; auto) Hm Hl Ha Hb Hi Ho) as (y' & E' & L' & Y').
  assert (y = y').
  { apply (fam_inj _ _ _ _ _ _ FM); [lia|unfold zlen in L; lia|unfold zlen in *; lia|].
    fold (bc1_layout (decorrelation_mode s) (split_colour_endpoints s) y) (bc1_layout (decorrelation_mode s) (split_colour_endpoints s) y'). congruence. }
  subst y'. do 2 eexists. repeat apply conj;
    [apply bc1_call; auto|apply bc1_call; auto|exact E|exact E'].
Qed.

Lemma lC06_bc1_slice_cpu_independent : forall (c1 c2 : cfg) (s : settings) (x out : list byte),
  cpu_ok c1 -> cpu_ok c2 -> (c_debug c1 = true \/ c_debug c2 = true -> split_colour_endpoints s = true -> x <> []) ->
  transform_bc1 c1 s x out = transform_bc1 c2 s x out /\
  untransform_bc1 c1 s x out = untransform_bc1 c2 s x out.
Proof.
  intros c1 c2 s x out K1 K2  HD.
  destruct (zlen x mod 8 =? 0) eqn:Hm; [|unfold transform_bc1, untransform_bc1, checked; rewrite Hm; auto].
  destruct (zlen out <? zlen x) eqn:Ho; [unfold transform_bc1, untransform_bc1, checked; rewrite Hm, Ho; auto|].
  destruct (bc1_fam (decorrelation_mode s) (split_colour_endpoints s)) as (sht & shu & FM).
  assert (Hm' : zlen x mod 8 = 0) by lia. assert (Ho' : zlen x <= zlen out) by lia.
  destruct (unbc1_slice c1 s x out K1 ltac:(intros; apply HD; auto) Hm' Ho') as (y & E & L & Y).
  destruct (unbc1_slice c2 s x out K2 ltac:(intros; apply HD; auto) Hm' Ho') as (y' & E' & L' & Y').
  split.
  - rewrite !bc1_slice by auto. reflexivity.
  - rewrite E, E'. do 3 f_equal. apply (fam_inj _ _ _ _ _ _ FM); [lia|unfold zlen in *; lia|lia|].
    fold (bc1_layout (decorrelation_mode s) (split_colour_endpoints s) y) (bc1_layout (decorrelation_mode s) (split_colour_endpoints s) y'). congruence.
Qed.

Lemma lC09_bc1_transform_stays_inside : forall (c : cfg) (s : settings) (inp aux out : list byte) (a b len : Z),
  cpu_ok c -> (c_debug c = true -> split_colour_endpoints s = true -> 0 < len) ->
  len mod 8 = 0 -> 0 <= len -> 0 <= a -> 0 <= b -> a + len <= zlen inp -> b + len <= zlen out ->
  exists out', transform_bc1_with_settings c (Ptr BIn a) (Ptr BOut b) len s (Mem inp aux out) = Ok (Mem inp aux out') /\
    zlen out' = zlen out /\
    forall i, 0 <= i < b \/ b + len <= i < zlen out -> znth out' i = znth out i.
Proof.
  intros c s inp aux out a b len K  HD Hm Hl Ha Hb Hi Ho.
  destruct (bc1_fam (decorrelation_mode s) (split_colour_endpoints s)) as (sht & shu & FM).
  assert (L : zlen (bc1_layout (decorrelation_mode s) (split_colour_endpoints s) (slice inp a len)) = len).
  { unfold bc1_layout. rewrite (lay_zlen _ _ _ _ _ _ _ FM); rewrite ?zlen_slice by lia; cbn; lia. }
  eexists. split; [apply bc1_call; assumption|]. split.
  - apply (splice_len _ _ _ len); assumption.
  - intros i Hx. apply (splice_frame _ _ _ len); assumption.
Qed.

Lemma lC09_bc1_untransform_stays_inside : forall (c : cfg) (s : settings) (inp aux out : list byte) (a b len : Z),
  cpu_ok c -> (c_debug c = true -> split_colour_endpoints s = true -> 0 < len) ->
  len mod 8 = 0 -> 0 <= len -> 0 <= a -> 0 <= b -> a + len <= zlen inp -> b + len <= zlen out ->
  exists out', untransform_bc1_with_settings c (Ptr BIn a) (Ptr BOut b) len s (Mem inp aux out) = Ok (Mem inp aux out') /\
    zlen out' = zlen out /\
    forall i, 0 <= i < b \/ b + len <= i < zlen out -> znth out' i = znth out i.
Proof.
  intros c s inp aux out a b len K HD Hm Hl Ha Hb Hi Ho.
  destruct (unbc1_call c s inp aux out a b len K HD Hm Hl Ha Hb Hi Ho) as (y & E & L & Y).
  eexists. split; [exact E|]. split.
  - apply (splice_len _ _ _ len); assumption.
  - intros i Hx. apply (splice_frame _ _ _ len); assumption.
Qed.

Lemma lC12_bc1_layout : forall (c : cfg) (s : settings) (inp aux out : list byte) (a b len : Z),
  cpu_ok c -> (c_debug c = true -> split_colour_endpoints s = true -> 0 < len) ->
  len mod 8 = 0 -> 0 <= len -> 0 <= a -> 0 <= b -> a + len <= zlen inp -> b + len <= zlen out ->
  exists out', transform_bc1_with_settings c (Ptr BIn a) (Ptr BOut b) len s (Mem inp aux out) = Ok (Mem inp aux out') /\
    slice out' b len = bc1_layout (decorrelation_mode s) (split_colour_endpoints s) (slice inp a len).
Proof.
  intros c s inp aux out a b len K  HD Hm Hl Ha Hb Hi Ho.
  destruct (bc1_fam (decorrelation_mode s) (split_colour_endpoints s)) as (sht & shu & FM).
  assert (L : zlen (bc1_layout (decorrelation_mode s) (split_colour_endpoints s) (slice inp a len)) = len).
  { unfold bc1_layout. rewrite (lay_zlen _ _ _ _ _ _ _ FM); rewrite ?zlen_slice by lia; cbn; lia. }
  eexists. split; [apply bc1_call; assumption|]. apply slice_splice; assumption.
Qed.

Lemma lC15_bc1_transform_validation : forall (c : cfg) (s : settings) (x out : list byte),
  (zlen x mod 8 <> 0 -> transform_bc1 c s x out = Ok (RErr (InvalidLength (zlen x)), out)) /\
  (zlen x mod 8 = 0 -> zlen out < zlen x ->
     transform_bc1 c s x out = Ok (RErr (OutputBufferTooSmall (zlen x) (zlen out)), out)) /\
  (zlen x mod 8 = 0 -> zlen x <= zlen out -> cpu_ok c -> (c_debug c = true -> split_colour_endpoints s = true -> x <> []) ->
     exists out', transform_bc1 c s x out = Ok (ROk tt, out')).
Proof.
  intros c s x out. repeat apply conj.
  - intros Hm. unfold transform_bc1, checked. replace (zlen x mod 8 =? 0) with false by lia. reflexivity.
  - intros Hm Ho. unfold transform_bc1, checked. replace (zlen x mod 8 =? 0) with true by lia.
    replace (zlen out <? zlen x) with true by lia. reflexivity.
  - intros Hm Ho K  HD. eexists. apply bc1_slice; assumption.
Qed.

Lemma lC15_bc1_untransform_validation : forall (c : cfg) (s : settings) (x out : list byte),
  (zlen x mod 8 <> 0 -> untransform_bc1 c s x out = Ok (RErr (InvalidLength (zlen x)), out)) /\
  (zlen x mod 8 = 0 -> zlen out < zlen x ->
     untransform_bc1 c s x out = Ok (RErr (OutputBufferTooSmall (zlen x) (zlen out)), out)) /\
  (zlen x mod 8 = 0 -> zlen x <= zlen out -> cpu_ok c -> (c_debug c = true -> split_colour_endpoints s = true -> x <> []) ->
     exists out', untransform_bc1 c s x out = Ok (ROk tt, out')).
Proof.
  intros c s x out. repeat apply conj.
  - intros Hm. unfold untransform_bc1, checked. replace (zlen x mod 8 =? 0) with false by lia. reflexivity.
  - intros Hm Ho. unfold untransform_bc1, checked. replace (zlen x mod 8 =? 0) with true by lia.
    replace (zlen out <? zlen x) with true by lia. reflexivity.
  - intros Hm Ho K  HD. destruct (unbc1_slice c s x out K HD Hm Ho) as (y & E & _). eexists. exact E.
Qed.

Lemma lC22_bc1_onto : forall (c1 c2 : cfg) (s : settings) (y out1 out2 : list byte),
  cpu_ok c1 -> cpu_ok c2 -> (c_debug c1 = true \/ c_debug c2 = true -> split_colour_endpoints s = true -> y <> []) ->
  zlen y mod 8 = 0 -> zlen y <= zlen out1 -> zlen y <= zlen out2 ->
  exists x z, untransform_bc1 c1 s y out1 = Ok (ROk tt, x) /\
    transform_bc1 c2 s (firstn (List.length y) x) out2 = Ok (ROk tt, z) /\
    firstn (List.length y) z = y.
Proof.
  intros c1 c2 s y out1 out2 K1 K2  HD Hm H1 H2.
  destruct (unbc1_slice c1 s y out1 K1 ltac:(intros; apply HD; auto) Hm H1) as (x & U & Lx & Ex).
  pose proof (bc1_slice c2 s x out2 K2 ltac:(intros D E Q; refine (HD (or_intror D) E _); apply length_zero_iff_nil; rewrite <- Lx, Q; reflexivity)
    ltac:(unfold zlen in *; rewrite Lx; exact Hm) ltac:(unfold zlen in *; rewrite Lx; exact H2)) as T.
  do 2 eexists. split; [exact U|]. rewrite <- Lx, firstn_app, firstn_all, Nat.sub_diag, app_nil_r. split; [exact T|].
  rewrite Ex, Lx, firstn_app, firstn_all, Nat.sub_diag, app_nil_r. reflexivity.
Qed.

Lemma lC22_bc1_one_to_one : forall (c1 c2 : cfg) (s : settings) (x1 x2 out1 out2 y1 y2 : list byte),
  cpu_ok c1 -> cpu_ok c2 -> (c_debug c1 = true -> split_colour_endpoints s = true -> x1 <> []) -> (c_debug c2 = true -> split_colour_endpoints s = true -> x2 <> []) ->
  transform_bc1 c1 s x1 out1 = Ok (ROk tt, y1) -> transform_bc1 c2 s x2 out2 = Ok (ROk tt, y2) ->
  firstn (List.length x1) y1 = firstn (List.length x2) y2 -> x1 = x2.
Proof.
  intros c1 c2 s x1 x2 out1 out2 y1 y2 K1 K2  HD1 HD2 T1 T2 E.
  destruct (bc1_fam (decorrelation_mode s) (split_colour_endpoints s)) as (sht & shu & FM).
  assert (A : forall c x out y, cpu_ok c -> (c_debug c = true -> split_colour_endpoints s = true -> x <> []) -> transform_bc1 c s x out = Ok (ROk tt, y) ->
     zlen x mod 8 = 0 /\ firstn (List.length x) y = bc1_layout (decorrelation_mode s) (split_colour_endpoints s) x).
  { intros c x out y K  HD T.
    destruct (zlen x mod 8 =? 0) eqn:Hm; [|unfold transform_bc1, checked in T; rewrite Hm in T; discriminate T].
    destruct (zlen out <? zlen x) eqn:Ho; [unfold transform_bc1, checked in T; rewrite Hm, Ho in T; discriminate T|].
    split; [lia|]. rewrite bc1_slice in T by first [assumption | lia]. injection T as <-.
    rewrite <- (fam_len _ _ _ _ _ _ FM ltac:(lia) x) by (unfold zlen in Hm; lia).
    rewrite firstn_app, firstn_all, Nat.sub_diag, app_nil_r. reflexivity. }
  apply A in T1; [|assumption..]. apply A in T2; [|assumption..]. destruct T1 as [M1 F1], T2 as [M2 F2].
  rewrite F1, F2 in E. apply (fam_inj _ _ _ _ _ _ FM); [lia|unfold zlen in M1; lia| |exact E].
  apply (f_equal (@List.length byte)) in E. unfold bc1_layout in E.
  rewrite !(fam_len _ _ _ _ _ _ FM) in E by first [lia | unfold zlen in *; lia]. exact E.
Qed.

Lemma lC44_bc1_empty_release_partial : forall (c : cfg) (s : settings) (out : list byte), cpu_ok c -> c_debug c = false ->
  transform_bc1 c s [] out = Ok (ROk tt, out) /\ untransform_bc1 c s [] out = Ok (ROk tt, out).
Proof.
  intros c s out K  HR.
  assert (Ho : zlen (@nil byte) <= zlen out) by (pose proof (zlen_nonneg _ out); unfold zlen at 1; cbn [List.length]; lia).
  split.
  - rewrite bc1_slice; [unfold bc1_layout, bc1_fields, colour_fields; repeat match goal with |- context[if ?b then _ else _] => destruct b end; reflexivity|first [assumption | intros; congruence | reflexivity]..].
  - destruct (unbc1_slice c s [] out K ltac:(intros; congruence) eq_refl Ho) as (y & E & L & _).
    rewrite E. destruct y; [reflexivity|discriminate L].
Qed.

Lemma lC44_bc1_empty_debug_refuted : exists (c : cfg) (s : settings) (out : list byte) why, cpu_ok c /\ transform_bc1 c s [] out = Panic why.
Proof.
  exists (Cfg true X86_64 false true true true true true true true x00), (Settings V1 true), [x00].
  eexists. split; [constructor; intros; reflexivity|]. vm_compute. reflexivity.
Qed.

Lemma lC46_bc1_permutation : forall (c : cfg) (s : settings) (x out : list byte),
  cpu_ok c -> (c_debug c = true -> split_colour_endpoints s = true -> x <> []) -> decorrelation_mode s = VNone -> zlen x mod 8 = 0 -> zlen x <= zlen out ->
  exists y, transform_bc1 c s x out = Ok (ROk tt, y) /\ Permutation (firstn (List.length x) y) x.
Proof.
  intros c s x out K  HD HV Hm Ho.
  destruct (bc1_fam (decorrelation_mode s) (split_colour_endpoints s)) as (sht & shu & FM).
  eexists. split; [apply bc1_slice; assumption|].
  pose proof (fam_div 8 ltac:(lia) x ltac:(unfold zlen in Hm; lia)) as D.
  rewrite <- (fam_len _ _ _ _ _ _ FM ltac:(lia) x) by (unfold zlen in Hm; lia).
  fold (bc1_layout (decorrelation_mode s) (split_colour_endpoints s) x). rewrite firstn_app, firstn_all, Nat.sub_diag, app_nil_r.
  unfold bc1_layout. rewrite HV. rewrite lay_perm.
  - unfold blocks. rewrite concat_chunks by lia. reflexivity.
  - intros b Hb. apply bc1_none. apply (chunks_in 8 (List.length x / 8) x); [lia|exact Hb].
Qed.

Lemma lC46_bc1_only_colours_change : forall (c : cfg) (s : settings) (x out : list byte),
  cpu_ok c -> (c_debug c = true -> split_colour_endpoints s = true -> x <> []) -> zlen x mod 8 = 0 -> zlen x <= zlen out ->
  exists y, transform_bc1 c s x out = Ok (ROk tt, y) /\
    slice y (zlen x / 2) (zlen x / 2) = List.concat (map (raw 4 4) (blocks 8 x)).
Proof.
  intros c s x out K  HD Hm Ho.
  eexists. split; [apply bc1_slice; assumption|].
  apply bc1_moved; unfold zlen in Hm; lia.
Qed.

Lemma lC47_bc1_transform_local : forall (c : cfg) (s : settings) (x x' out out' : list byte),
  cpu_ok c -> (c_debug c = true -> split_colour_endpoints s = true -> x <> []) -> zlen x mod 8 = 0 -> List.length x = List.length x' ->
  zlen x <= zlen out -> zlen x <= zlen out' ->
  let n := (List.length x / 8)%nat in let ws := bc1_widths (split_colour_endpoints s) in
  exists y y', transform_bc1 c s x out = Ok (ROk tt, y) /\ transform_bc1 c s x' out' = Ok (ROk tt, y') /\
    (forall p, (p < List.length x)%nat ->
       nth (owner ws n p) (blocks 8 x) [] = nth (owner ws n p) (blocks 8 x') [] -> nth p y x00 = nth p y' x00) /\
    (forall i, (i < n)%nat -> List.length (filter (fun p => (owner ws n p =? i)%nat) (seq 0 (List.length x))) = 8%nat).
Proof.
  intros c s x x' out out' K  HD Hm HL Ho Ho' n ws.
  assert (Lz : zlen x = zlen x') by (unfold zlen; lia).
  destruct (bc1_fam (decorrelation_mode s) (split_colour_endpoints s)) as (sht & shu & FM).
  exists (bc1_layout (decorrelation_mode s) (split_colour_endpoints s) x ++ skipn (List.length x) out), (bc1_layout (decorrelation_mode s) (split_colour_endpoints s) x' ++ skipn (List.length x') out').
  split; [apply bc1_slice; assumption|]. split; [apply bc1_slice; [assumption|intros D1 D2 Q; apply (HD D1 D2); apply length_zero_iff_nil; rewrite HL, Q; reflexivity|rewrite <- Lz; assumption..]|].
  assert (M : (List.length x mod 8 = 0)%nat) by (unfold zlen in Hm; lia).
  split.
  - intros p Hp E. rewrite !app_nth1 by (unfold bc1_layout; rewrite (fam_len _ _ _ _ _ _ FM) by lia; lia).
    apply (fam_local _ _ _ _ _ _ FM ltac:(lia) (bc1_wpos (split_colour_endpoints s)) x x' p); assumption.
  - intros i Hn. pose proof (fam_div 8 ltac:(lia) x M) as D. pose proof (owner_count ws n i (bc1_wpos (split_colour_endpoints s)) Hn) as Q.
    unfold ws in Q. rewrite (fam_sum _ _ _ _ _ _ FM) in Q. unfold ws, n in *. rewrite <- D in Q. exact Q.
Qed.

Lemma lC47_bc1_untransform_local : forall (c : cfg) (s : settings) (x x' out out' : list byte) (i : nat),
  cpu_ok c -> (c_debug c = true -> split_colour_endpoints s = true -> x <> []) -> zlen x mod 8 = 0 -> List.length x = List.length x' ->
  zlen x <= zlen out -> zlen x <= zlen out' ->
  let n := (List.length x / 8)%nat in let ws := bc1_widths (split_colour_endpoints s) in
  (i < n)%nat -> (forall p, (p < List.length x)%nat -> owner ws n p = i -> nth p x x00 = nth p x' x00) ->
  exists y y', untransform_bc1 c s x out = Ok (ROk tt, y) /\ untransform_bc1 c s x' out' = Ok (ROk tt, y') /\
    nth i (blocks 8 (firstn (List.length x) y)) [] = nth i (blocks 8 (firstn (List.length x) y')) [].
Proof.
  intros c s x x' out out' i K HD Hm HL Ho Ho' n ws Hn E.
  assert (Lz : zlen x = zlen x') by (unfold zlen; lia).
  destruct (bc1_fam (decorrelation_mode s) (split_colour_endpoints s)) as (sht & shu & FM).
  destruct (unbc1_slice c s x out K HD Hm Ho) as (y & U & Ly & Ey).
  destruct (unbc1_slice c s x' out' K ltac:(intros D1 D2 Q; apply (HD D1 D2); apply length_zero_iff_nil; rewrite HL, Q; reflexivity) ltac:(rewrite <- Lz; exact Hm) ltac:(rewrite <- Lz; exact Ho')) as (y' & U' & Ly' & Ey').
  do 2 eexists. split; [exact U|]. split; [exact U'|].
  rewrite <- Ly at 1. rewrite HL, <- Ly'. rewrite !firstn_app, !firstn_all, !Nat.sub_diag, !app_nil_r.
  apply (fam_unlocal _ _ _ _ _ _ FM ltac:(lia) (bc1_wpos (split_colour_endpoints s))).
  - rewrite Ly. unfold zlen in Hm. lia.
  - lia.
  - rewrite Ly. exact Hn.
  - rewrite Ly. intros p Hp Hx. fold (bc1_layout (decorrelation_mode s) (split_colour_endpoints s) y) (bc1_layout (decorrelation_mode s) (split_colour_endpoints s) y').
    rewrite Ey, Ey'. apply E; assumption.
Qed.

Lemma lC48_bc1_untransform_total : forall (c : cfg) (s : settings) (x out : list byte),
  cpu_ok c -> (c_debug c = true -> split_colour_endpoints s = true -> x <> []) -> zlen x mod 8 = 0 -> zlen x <= zlen out ->
  exists y, untransform_bc1 c s x out = Ok (ROk tt, y) /\ zlen y = zlen out.
Proof.
  intros c s x out K HD Hm Ho.
  destruct (unbc1_slice c s x out K HD Hm Ho) as (y & E & L & _). eexists. split; [exact E|].
  unfold zlen in *. rewrite app_length, skipn_length. lia.
Qed.

Lemma lC02_bc2_lossless : forall (c1 c2 : cfg) (s : settings) (x out1 out2 : list byte),
  cpu_ok c1 -> cpu_ok c2 -> (c_avx512bw c1 = true -> c_avx512vl c1 = true) ->
  zlen x mod 16 = 0 -> zlen x <= zlen out1 -> zlen x <= zlen out2 ->
  exists y z, transform_bc2 c1 s x out1 = Ok (ROk tt, y) /\
    untransform_bc2 c2 s (firstn (List.length x) y) out2 = Ok (ROk tt, z) /\
    firstn (List.length x) z = x.
Proof.
  intros c1 c2 s x out1 out2 K1 K2 VL  Hm H1 H2.
  destruct (bc2_fam (decorrelation_mode s) (split_colour_endpoints s)) as (sht & shu & FM).
  assert (LL : List.length (bc2_layout (decorrelation_mode s) (split_colour_endpoints s) x) = List.length x)
    by (apply (fam_len _ _ _ _ _ _ FM); unfold zlen in Hm; lia).
  pose proof (bc2_slice c1 s x out1 K1 VL Hm H1) as T.
  destruct (unbc2_slice c2 s (bc2_layout (decorrelation_mode s) (split_colour_endpoints s) x) out2 K2
    ltac:(unfold zlen in *; rewrite LL; exact Hm) ltac:(unfold zlen in *; rewrite LL; exact H2)) as (y & U & Ly & Ey).
  do 2 eexists. split; [exact T|]. rewrite firstn_app, <- LL, firstn_all, Nat.sub_diag, app_nil_r. split; [exact U|].
  rewrite <- Ly, firstn_app, firstn_all, Nat.sub_diag, app_nil_r.
  apply (fam_inj _ _ _ _ _ _ FM); [lia|rewrite Ly, LL; unfold zlen in Hm; lia|rewrite Ly; exact LL|exact Ey].
Qed.

Lemma lC07_bc2_cpu_independent : forall (c1 c2 : cfg) (s : settings) (inp aux out : list byte) (a b len : Z),
  cpu_ok c1 -> cpu_ok c2 -> (c_avx512bw c1 = true -> c_avx512vl c1 = true) -> (c_avx512bw c2 = true -> c_avx512vl c2 = true) ->
  len mod 16 = 0 -> 0 <= len -> 0 <= a -> 0 <= b -> a + len <= zlen inp -> b + len <= zlen out ->
  exists mt mu,
    (transform_bc2_with_settings c1 (Ptr BIn a) (Ptr BOut b) len s (Mem inp aux out) = Ok mt /\
     transform_bc2_with_settings c2 (Ptr BIn a) (Ptr BOut b) len s (Mem inp aux out) = Ok mt) /\
    (untransform_bc2_with_settings c1 (Ptr BIn a) (Ptr BOut b) len s (Mem inp aux out) = Ok mu /\
     untransform_bc2_with_settings c2 (Ptr BIn a) (Ptr BOut b) len s (Mem inp aux out) = Ok mu).
Proof.
  intros c1 c2 s inp aux out a b len K1 K2 VL1 VL2  Hm Hl Ha Hb Hi Ho.
  destruct (bc2_fam (decorrelation_mode s) (split_colour_endpoints s)) as (sht & shu & FM).
  destruct (unbc2_call c1 s inp aux out a b len K1  Hm Hl Ha Hb Hi Ho) as (y & E & L & Y).
  destruct (unbc2_call c2 s inp aux out a b len K2  Hm Hl Ha Hb Hi Ho) as (y' & E' & L' & Y').
  assert (y = y').
  { apply (fam_inj _ _ _ _ _ _ FM); [lia|unfold zlen in L; lia|unfold zlen in *; lia|].
    fold (bc2_layout (decorrelation_mode s) (split_colour_endpoints s) y) (bc2_layout (decorrelation_mode s) (split_colour_endpoints s) y'). congruence. }
  subst y'. do 2 eexists. repeat apply conj;
    [apply bc2_call; assumption|apply bc2_call; assumption|exact E|exact E'].
Qed.

Lemma lC07_bc2_slice_cpu_independent : forall (c1 c2 : cfg) (s : settings) (x out : list byte),
  cpu_ok c1 -> cpu_ok c2 -> (c_avx512bw c1 = true -> c_avx512vl c1 = true) -> (c_avx512bw c2 = true -> c_avx512vl c2 = true) ->
  transform_bc2 c1 s x out = transform_bc2 c2 s x out /\
  untransform_bc2 c1 s x out = untransform_bc2 c2 s x out.
Proof.
  intros c1 c2 s x out K1 K2 VL1 VL2 .
  destruct (zlen x mod 16 =? 0) eqn:Hm; [|unfold transform_bc2, untransform_bc2, checked; rewrite Hm; auto].
  destruct (zlen out <? zlen x) eqn:Ho; [unfold transform_bc2, untransform_bc2, checked; rewrite Hm, Ho; auto|].
  destruct (bc2_fam (decorrelation_mode s) (split_colour_endpoints s)) as (sht & shu & FM).
  assert (Hm' : zlen x mod 16 = 0) by lia. assert (Ho' : zlen x <= zlen out) by lia.
  destruct (unbc2_slice c1 s x out K1 Hm' Ho') as (y & E & L & Y).
  destruct (unbc2_slice c2 s x out K2 Hm' Ho') as (y' & E' & L' & Y').
  split.
  - rewrite !bc2_slice by auto. reflexivity.
  - rewrite E, E'. do 3 f_equal. apply (fam_inj _ _ _ _ _ _ FM); [lia|unfold zlen in *; lia|lia|].
    fold (bc2_layout (decorrelation_mode s) (split_colour_endpoints s) y) (bc2_layout (decorrelation_mode s) (split_colour_endpoints s) y'). congruence.
Qed.

Lemma lC10_bc2_transform_stays_inside : forall (c : cfg) (s : settings) (inp aux out : list byte) (a b len : Z),
  cpu_ok c -> (c_avx512bw c = true -> c_avx512vl c = true) ->
  len mod 16 = 0 -> 0 <= len -> 0 <= a -> 0 <= b -> a + len <= zlen inp -> b + len <= zlen out ->
  exists out', transform_bc2_with_settings c (Ptr BIn a) (Ptr BOut b) len s (Mem inp aux out) = Ok (Mem inp aux out') /\
    zlen out' = zlen out /\
    forall i, 0 <= i < b \/ b + len <= i < zlen out -> znth out' i = znth out i.
Proof.
  intros c s inp aux out a b len K VL  Hm Hl Ha Hb Hi Ho.
  destruct (bc2_fam (decorrelation_mode s) (split_colour_endpoints s)) as (sht & shu & FM).
  assert (L : zlen (bc2_layout (decorrelation_mode s) (split_colour_endpoints s) (slice inp a len)) = len).
  { unfold bc2_layout. rewrite (lay_zlen _ _ _ _ _ _ _ FM); rewrite ?zlen_slice by lia; cbn; lia. }
  eexists. split; [apply bc2_call; assumption|]. split.
  - apply (splice_len _ _ _ len); assumption.
  - intros i Hx. apply (splice_frame _ _ _ len); assumption.
Qed.

Lemma lC10_bc2_untransform_stays_inside : forall (c : cfg) (s : settings) (inp aux out : list byte) (a b len : Z),
  cpu_ok c -> 
  len mod 16 = 0 -> 0 <= len -> 0 <= a -> 0 <= b -> a + len <= zlen inp -> b + len <= zlen out ->
  exists out', untransform_bc2_with_settings c (Ptr BIn a) (Ptr BOut b) len s (Mem inp aux out) = Ok (Mem inp aux out') /\
    zlen out' = zlen out /\
    forall i, 0 <= i < b \/ b + len <= i < zlen out -> znth out' i = znth out i.
Proof.
  intros c s inp aux out a b len K  Hm Hl Ha Hb Hi Ho.
  destruct (unbc2_call c s inp aux out a b len K  Hm Hl Ha Hb Hi Ho) as (y & E & L & Y).
  eexists. split; [exact E|]. split.
  - apply (splice_len _ _ _ len); assumption.
  - intros i Hx. apply (splice_frame _ _ _ len); assumption.
Qed.

Lemma lC10_bc2_avx512vl_refuted : exists (c : cfg) (s : settings) (x out : list byte),
  cpu_ok c /\ c_avx512bw c = true /\ c_avx512vl c = false /\ zlen x mod 16 = 0 /\ zlen x <= zlen out /\
  exists why, transform_bc2 c s x out = Ub why.
Proof.
  exists (Cfg false X86_64 false true true true true true false false x00), (Settings V1 false), (List.repeat x00 256), (List.repeat x00 256).
  split; [constructor; intros; reflexivity|]. do 3 (split; [reflexivity|]). split; [vm_compute; discriminate|]. eexists. vm_compute. reflexivity.
Qed.

Lemma lC13_bc2_layout : forall (c : cfg) (s : settings) (inp aux out : list byte) (a b len : Z),
  cpu_ok c -> (c_avx512bw c = true -> c_avx512vl c = true) ->
  len mod 16 = 0 -> 0 <= len -> 0 <= a -> 0 <= b -> a + len <= zlen inp -> b + len <= zlen out ->
  exists out', transform_bc2_with_settings c (Ptr BIn a) (Ptr BOut b) len s (Mem inp aux out) = Ok (Mem inp aux out') /\
    slice out' b len = bc2_layout (decorrelation_mode s) (split_colour_endpoints s) (slice inp a len).
Proof.
  intros c s inp aux out a b len K VL  Hm Hl Ha Hb Hi Ho.
  destruct (bc2_fam (decorrelation_mode s) (split_colour_endpoints s)) as (sht & shu & FM).
  assert (L : zlen (bc2_layout (decorrelation_mode s) (split_colour_endpoints s) (slice inp a len)) = len).
  { unfold bc2_layout. rewrite (lay_zlen _ _ _ _ _ _ _ FM); rewrite ?zlen_slice by lia; cbn; lia. }
  eexists. split; [apply bc2_call; assumption|]. apply slice_splice; assumption.
Qed.

Lemma lC15_bc2_transform_validation : forall (c : cfg) (s : settings) (x out : list byte),
  (zlen x mod 16 <> 0 -> transform_bc2 c s x out = Ok (RErr (InvalidLength (zlen x)), out)) /\
  (zlen x mod 16 = 0 -> zlen out < zlen x ->
     transform_bc2 c s x out = Ok (RErr (OutputBufferTooSmall (zlen x) (zlen out)), out)) /\
  (zlen x mod 16 = 0 -> zlen x <= zlen out -> cpu_ok c -> (c_avx512bw c = true -> c_avx512vl c = true) ->
     exists out', transform_bc2 c s x out = Ok (ROk tt, out')).
Proof.
  intros c s x out. repeat apply conj.
  - intros Hm. unfold transform_bc2, checked. replace (zlen x mod 16 =? 0) with false by lia. reflexivity.
  - intros Hm Ho. unfold transform_bc2, checked. replace (zlen x mod 16 =? 0) with true by lia.
    replace (zlen out <? zlen x) with true by lia. reflexivity.
  - intros Hm Ho K VL . eexists. apply bc2_slice; assumption.
Qed.

Lemma lC15_bc2_untransform_validation : forall (c : cfg) (s : settings) (x out : list byte),
  (zlen x mod 16 <> 0 -> untransform_bc2 c s x out = Ok (RErr (InvalidLength (zlen x)), out)) /\
  (zlen x mod 16 = 0 -> zlen out < zlen x ->
     untransform_bc2 c s x out = Ok (RErr (OutputBufferTooSmall (zlen x) (zlen out)), out)) /\
  (zlen x mod 16 = 0 -> zlen x <= zlen out -> cpu_ok c -> 
     exists out', untransform_bc2 c s x out = Ok (ROk tt, out')).
Proof.
  intros c s x out. repeat apply conj.
  - intros Hm. unfold untransform_bc2, checked. replace (zlen x mod 16 =? 0) with false by lia. reflexivity.
  - intros Hm Ho. unfold untransform_bc2, checked. replace (zlen x mod 16 =? 0) with true by lia.
    replace (zlen out <? zlen x) with true by lia. reflexivity.
  - intros Hm Ho K  . destruct (unbc2_slice c s x out K  Hm Ho) as (y & E & _). eexists. exact E.
Qed.

Lemma lC22_bc2_onto : forall (c1 c2 : cfg) (s : settings) (y out1 out2 : list byte),
  cpu_ok c1 -> cpu_ok c2 -> (c_avx512bw c2 = true -> c_avx512vl c2 = true) ->
  zlen y mod 16 = 0 -> zlen y <= zlen out1 -> zlen y <= zlen out2 ->
  exists x z, untransform_bc2 c1 s y out1 = Ok (ROk tt, x) /\
    transform_bc2 c2 s (firstn (List.length y) x) out2 = Ok (ROk tt, z) /\
    firstn (List.length y) z = y.
Proof.
  intros c1 c2 s y out1 out2 K1 K2 VL  Hm H1 H2.
  destruct (unbc2_slice c1 s y out1 K1 Hm H1) as (x & U & Lx & Ex).
  pose proof (bc2_slice c2 s x out2 K2 VL
    ltac:(unfold zlen in *; rewrite Lx; exact Hm) ltac:(unfold zlen in *; rewrite Lx; exact H2)) as T.
  do 2 eexists. split; [exact U|]. rewrite <- Lx, firstn_app, firstn_all, Nat.sub_diag, app_nil_r. split; [exact T|].
  rewrite Ex, Lx, firstn_app, firstn_all, Nat.sub_diag, app_nil_r. reflexivity.
Qed.

Lemma lC22_bc2_one_to_one : forall (c1 c2 : cfg) (s : settings) (x1 x2 out1 out2 y1 y2 : list byte),
  cpu_ok c1 -> cpu_ok c2 -> (c_avx512bw c1 = true -> c_avx512vl c1 = true) -> (c_avx512bw c2 = true -> c_avx512vl c2 = true) ->
  transform_bc2 c1 s x1 out1 = Ok (ROk tt, y1) -> transform_bc2 c2 s x2 out2 = Ok (ROk tt, y2) ->
  firstn (List.length x1) y1 = firstn (List.length x2) y2 -> x1 = x2.
Proof.
  intros c1 c2 s x1 x2 out1 out2 y1 y2 K1 K2 VL1 VL2  T1 T2 E.
  destruct (bc2_fam (decorrelation_mode s) (split_colour_endpoints s)) as (sht & shu & FM).
  assert (A : forall c x out y, cpu_ok c -> (c_avx512bw c = true -> c_avx512vl c = true) -> transform_bc2 c s x out = Ok (ROk tt, y) ->
     zlen x mod 16 = 0 /\ firstn (List.length x) y = bc2_layout (decorrelation_mode s) (split_colour_endpoints s) x).
  { intros c x out y K VL  T.
    destruct (zlen x mod 16 =? 0) eqn:Hm; [|unfold transform_bc2, checked in T; rewrite Hm in T; discriminate T].
    destruct (zlen out <? zlen x) eqn:Ho; [unfold transform_bc2, checked in T; rewrite Hm, Ho in T; discriminate T|].
    split; [lia|]. rewrite bc2_slice in T by first [assumption | lia]. injection T as <-.
    rewrite <- (fam_len _ _ _ _ _ _ FM ltac:(lia) x) by (unfold zlen in Hm; lia).
    rewrite firstn_app, firstn_all, Nat.sub_diag, app_nil_r. reflexivity. }
  apply A in T1; [|assumption..]. apply A in T2; [|assumption..]. destruct T1 as [M1 F1], T2 as [M2 F2].
  rewrite F1, F2 in E. apply (fam_inj _ _ _ _ _ _ FM); [lia|unfold zlen in M1; lia| |exact E].
  apply (f_equal (@List.length byte)) in E. unfold bc2_layout in E.
  rewrite !(fam_len _ _ _ _ _ _ FM) in E by first [lia | unfold zlen in *; lia]. exact E.
Qed.

Lemma lC44_bc2_empty : forall (c : cfg) (s : settings) (out : list byte), cpu_ok c -> (c_avx512bw c = true -> c_avx512vl c = true) ->
  transform_bc2 c s [] out = Ok (ROk tt, out) /\ untransform_bc2 c s [] out = Ok (ROk tt, out).
Proof.
  intros c s out K VL .
  assert (Ho : zlen (@nil byte) <= zlen out) by (pose proof (zlen_nonneg _ out); unfold zlen at 1; cbn [List.length]; lia).
  split.
  - rewrite bc2_slice; [unfold bc2_layout, bc2_fields, colour_fields; repeat match goal with |- context[if ?b then _ else _] => destruct b end; reflexivity|first [assumption | intros; congruence | reflexivity]..].
  - destruct (unbc2_slice c s [] out K eq_refl Ho) as (y & E & L & _).
    rewrite E. destruct y; [reflexivity|discriminate L].
Qed.

Lemma lC46_bc2_permutation : forall (c : cfg) (s : settings) (x out : list byte),
  cpu_ok c -> (c_avx512bw c = true -> c_avx512vl c = true) -> decorrelation_mode s = VNone -> zlen x mod 16 = 0 -> zlen x <= zlen out ->
  exists y, transform_bc2 c s x out = Ok (ROk tt, y) /\ Permutation (firstn (List.length x) y) x.
Proof.
  intros c s x out K VL  HV Hm Ho.
  destruct (bc2_fam (decorrelation_mode s) (split_colour_endpoints s)) as (sht & shu & FM).
  eexists. split; [apply bc2_slice; assumption|].
  pose proof (fam_div 16 ltac:(lia) x ltac:(unfold zlen in Hm; lia)) as D.
  rewrite <- (fam_len _ _ _ _ _ _ FM ltac:(lia) x) by (unfold zlen in Hm; lia).
  fold (bc2_layout (decorrelation_mode s) (split_colour_endpoints s) x). rewrite firstn_app, firstn_all, Nat.sub_diag, app_nil_r.
  unfold bc2_layout. rewrite HV. rewrite lay_perm.
  - unfold blocks. rewrite concat_chunks by lia. reflexivity.
  - intros b Hb. apply bc2_none. apply (chunks_in 16 (List.length x / 16) x); [lia|exact Hb].
Qed.

Lemma lC46_bc2_only_colours_change : forall (c : cfg) (s : settings) (x out : list byte),
  cpu_ok c -> (c_avx512bw c = true -> c_avx512vl c = true) -> zlen x mod 16 = 0 -> zlen x <= zlen out ->
  exists y, transform_bc2 c s x out = Ok (ROk tt, y) /\
    slice y 0 (zlen x / 2) = List.concat (map (raw 0 8) (blocks 16 x)) /\
    slice y (zlen x / 2 + zlen x / 4) (zlen x / 4) = List.concat (map (raw 12 4) (blocks 16 x)).
Proof.
  intros c s x out K VL  Hm Ho.
  eexists. split; [apply bc2_slice; assumption|].
  apply bc2_moved; unfold zlen in Hm; lia.
Qed.

Lemma lC47_bc2_transform_local : forall (c : cfg) (s : settings) (x x' out out' : list byte),
  cpu_ok c -> (c_avx512bw c = true -> c_avx512vl c = true) -> zlen x mod 16 = 0 -> List.length x = List.length x' ->
  zlen x <= zlen out -> zlen x <= zlen out' ->
  let n := (List.length x / 16)%nat in let ws := bc2_widths (split_colour_endpoints s) in
  exists y y', transform_bc2 c s x out = Ok (ROk tt, y) /\ transform_bc2 c s x' out' = Ok (ROk tt, y') /\
    (forall p, (p < List.length x)%nat ->
       nth (owner ws n p) (blocks 16 x) [] = nth (owner ws n p) (blocks 16 x') [] -> nth p y x00 = nth p y' x00) /\
    (forall i, (i < n)%nat -> List.length (filter (fun p => (owner ws n p =? i)%nat) (seq 0 (List.length x))) = 16%nat).
Proof.
  intros c s x x' out out' K VL  Hm HL Ho Ho' n ws.
  assert (Lz : zlen x = zlen x') by (unfold zlen; lia).
  destruct (bc2_fam (decorrelation_mode s) (split_colour_endpoints s)) as (sht & shu & FM).
  exists (bc2_layout (decorrelation_mode s) (split_colour_endpoints s) x ++ skipn (List.length x) out), (bc2_layout (decorrelation_mode s) (split_colour_endpoints s) x' ++ skipn (List.length x') out').
  split; [apply bc2_slice; assumption|]. split; [apply bc2_slice; [assumption|assumption|rewrite <- Lz; assumption..]|].
  assert (M : (List.length x mod 16 = 0)%nat) by (unfold zlen in Hm; lia).
  split.
  - intros p Hp E. rewrite !app_nth1 by (unfold bc2_layout; rewrite (fam_len _ _ _ _ _ _ FM) by lia; lia).
    apply (fam_local _ _ _ _ _ _ FM ltac:(lia) (bc2_wpos (split_colour_endpoints s)) x x' p); assumption.
  - intros i Hn. pose proof (fam_div 16 ltac:(lia) x M) as D. pose proof (owner_count ws n i (bc2_wpos (split_colour_endpoints s)) Hn) as Q.
    unfold ws in Q. rewrite (fam_sum _ _ _ _ _ _ FM) in Q. unfold ws, n in *. rewrite <- D in Q. exact Q.
Qed.

Lemma lC47_bc2_untransform_local : forall (c : cfg) (s : settings) (x x' out out' : list byte) (i : nat),
  cpu_ok c ->  zlen x mod 16 = 0 -> List.length x = List.length x' ->
  zlen x <= zlen out -> zlen x <= zlen out' ->
  let n := (List.length x / 16)%nat in let ws := bc2_widths (split_colour_endpoints s) in
  (i < n)%nat -> (forall p, (p < List.length x)%nat -> owner ws n p = i -> nth p x x00 = nth p x' x00) ->
  exists y y', untransform_bc2 c s x out = Ok (ROk tt, y) /\ untransform_bc2 c s x' out' = Ok (ROk tt, y') /\
    nth i (blocks 16 (firstn (List.length x) y)) [] = nth i (blocks 16 (firstn (List.length x) y')) [].
Proof.
  intros c s x x' out out' i K  Hm HL Ho Ho' n ws Hn E.
  assert (Lz : zlen x = zlen x') by (unfold zlen; lia).
  destruct (bc2_fam (decorrelation_mode s) (split_colour_endpoints s)) as (sht & shu & FM).
  destruct (unbc2_slice c s x out K Hm Ho) as (y & U & Ly & Ey).
  destruct (unbc2_slice c s x' out' K ltac:(rewrite <- Lz; exact Hm) ltac:(rewrite <- Lz; exact Ho')) as (y' & U' & Ly' & Ey').
  do 2 eexists. split; [exact U|]. split; [exact U'|].
  rewrite <- Ly at 1. rewrite HL, <- Ly'. rewrite !firstn_app, !firstn_all, !Nat.sub_diag, !app_nil_r.
  apply (fam_unlocal _ _ _ _ _ _ FM ltac:(lia) (bc2_wpos (split_colour_endpoints s))).
  - rewrite Ly. unfold zlen in Hm. lia.
  - lia.
  - rewrite Ly. exact Hn.
  - rewrite Ly. intros p Hp Hx. fold (bc2_layout (decorrelation_mode s) (split_colour_endpoints s) y) (bc2_layout (decorrelation_mode s) (split_colour_endpoints s) y').
    rewrite Ey, Ey'. apply E; assumption.
Qed.

Lemma lC48_bc2_untransform_total : forall (c : cfg) (s : settings) (x out : list byte),
  cpu_ok c ->  zlen x mod 16 = 0 -> zlen x <= zlen out ->
  exists y, untransform_bc2 c s x out = Ok (ROk tt, y) /\ zlen y = zlen out.
Proof.
  intros c s x out K  Hm Ho.
  destruct (unbc2_slice c s x out K  Hm Ho) as (y & E & L & _). eexists. split; [exact E|].
  unfold zlen in *. rewrite app_length, skipn_length. lia.
Qed.

Lemma lC03_bc3_lossless : forall (c1 c2 : cfg) (s : settings3) (x out1 out2 : list byte),
  cpu_ok c1 -> cpu_ok c2 -> (c_debug c1 = true \/ c_debug c2 = true -> split_alpha_endpoints s = true -> x <> []) ->
  zlen x mod 16 = 0 -> zlen x <= zlen out1 -> zlen x <= zlen out2 ->
  exists y z, transform_bc3 c1 s x out1 = Ok (ROk tt, y) /\
    untransform_bc3 c2 s (firstn (List.length x) y) out2 = Ok (ROk tt, z) /\
    firstn (List.length x) z = x.
Proof.
  intros c1 c2 s x out1 out2 K1 K2  HD Hm H1 H2.
  destruct (bc3_fam (decorrelation_mode3 s) (split_alpha_endpoints s) (split_colour_endpoints3 s)) as (sht & shu & FM).
  assert (LL : List.length (bc3_layout (decorrelation_mode3 s) (split_alpha_endpoints s) (split_colour_endpoints3 s) x) = List.length x)
    by (apply (fam_len _ _ _ _ _ _ FM); unfold zlen in Hm; lia).
  pose proof (bc3_slice c1 s x out1 K1 ltac:(intros; apply HD; auto) Hm H1) as T.
  destruct (unbc3_slice c2 s (bc3_layout (decorrelation_mode3 s) (split_alpha_endpoints s) (split_colour_endpoints3 s) x) out2 K2 ltac:(intros D E Q; refine (HD (or_intror D) E _); apply length_zero_iff_nil; rewrite <- LL, Q; reflexivity)
    ltac:(unfold zlen in *; rewrite LL; exact Hm) ltac:(unfold zlen in *; rewrite LL; exact H2)) as (y & U & Ly & Ey).
  do 2 eexists. split; [exact T|]. rewrite firstn_app, <- LL, firstn_all, Nat.sub_diag, app_nil_r. split; [exact U|].
  rewrite <- Ly, firstn_app, firstn_all, Nat.sub_diag, app_nil_r.
  apply (fam_inj _ _ _ _ _ _ FM); [lia|rewrite Ly, LL; unfold zlen in Hm; lia|rewrite Ly; exact LL|exact Ey].
Qed.

Lemma lC08_bc3_cpu_independent : forall (c1 c2 : cfg) (s : settings3) (inp aux out : list byte) (a b len : Z),
  cpu_ok c1 -> cpu_ok c2 -> (c_debug c1 = true \/ c_debug c2 = true -> split_alpha_endpoints s = true -> 0 < len) ->
  len mod 16 = 0 -> 0 <= len -> 0 <= a -> 0 <= b -> a + len <= zlen inp -> b + len <= zlen out ->
  exists mt mu,
    (transform_bc3_with_settings c1 (Ptr BIn a) (Ptr BOut b) len s (Mem inp aux out) = Ok mt /\
     transform_bc3_with_settings c2 (Ptr BIn a) (Ptr BOut b) len s (Mem inp aux out) = Ok mt) /\
    (untransform_bc3_with_settings c1 (Ptr BIn a) (Ptr BOut b) len s (Mem inp aux out) = Ok mu /\
     untransform_bc3_with_settings c2 (Ptr BIn a) (Ptr BOut b) len s (Mem inp aux out) = Ok mu).
Proof.
  intros c1 c2 s inp aux out a b len K1 K2  HD Hm Hl Ha Hb Hi Ho.
  destruct (bc3_fam (decorrelation_mode3 s) (split_alpha_endpoints s) (split_colour_endpoints3 s)) as (sht & shu & FM).
  destruct (unbc3_call c1 s inp aux out a b len K1 ltac:(intros; apply HD; auto) Hm Hl Ha Hb Hi Ho) as (y & E & L & Y).
  destruct (unbc3_call c2 s inp aux out a b len K2 ltac:(intros; apply HD; auto) Hm Hl Ha Hb Hi Ho) as (y' & E' & L' & Y').
  assert (y = y').
  { apply (fam_inj _ _ _ _ _ _ FM); [lia|unfold zlen in L; lia|unfold zlen in *; lia|].
    fold (bc3_layout (decorrelation_mode3 s) (split_alpha_endpoints s) (split_colour_endpoints3 s) y) (bc3_layout (decorrelation_mode3 s) (split_alpha_endpoints s) (split_colour_endpoints3 s) y'). congruence. }
  subst y'. do 2 eexists. repeat apply conj;
    [apply bc3_call; auto|apply bc3_call; auto|exact E|exact E'].
Qed.

Lemma lC08_bc3_slice_cpu_independent : forall (c1 c2 : cfg) (s : settings3) (x out : list byte),
  cpu_ok c1 -> cpu_ok c2 -> (c_debug c1 = true \/ c_debug c2 = true -> split_alpha_endpoints s = true -> x <> []) ->
  transform_bc3 c1 s x out = transform_bc3 c2 s x out /\
  untransform_bc3 c1 s x out = untransform_bc3 c2 s x out.
Proof.
  intros c1 c2 s x out K1 K2  HD.
  destruct (zlen x mod 16 =? 0) eqn:Hm; [|unfold transform_bc3, untransform_bc3, checked; rewrite Hm; auto].
  destruct (zlen out <? zlen x) eqn:Ho; [unfold transform_bc3, untransform_bc3, checked; rewrite Hm, Ho; auto|].
  destruct (bc3_fam (decorrelation_mode3 s) (split_alpha_endpoints s) (split_colour_endpoints3 s)) as (sht & shu & FM).
  assert (Hm' : zlen x mod 16 = 0) by lia. assert (Ho' : zlen x <= zlen out) by lia.
  destruct (unbc3_slice c1 s x out K1 ltac:(intros; apply HD; auto) Hm' Ho') as (y & E & L & Y).
  destruct (unbc3_slice c2 s x out K2 ltac:(intros; apply HD; auto) Hm' Ho') as (y' & E' & L' & Y').
  split.
  - rewrite !bc3_slice by auto. reflexivity.
  - rewrite E, E'. do 3 f_equal. apply (fam_inj _ _ _ _ _ _ FM); [lia|unfold zlen in *; lia|lia|].
    fold (bc3_layout (decorrelation_mode3 s) (split_alpha_endpoints s) (split_colour_endpoints3 s) y) (bc3_layout (decorrelation_mode3 s) (split_alpha_endpoints s) (split_colour_endpoints3 s) y'). congruence.
Qed.

Lemma lC11_bc3_transform_stays_inside : forall (c : cfg) (s : settings3) (inp aux out : list byte) (a b len : Z),
  cpu_ok c -> (c_debug c = true -> split_alpha_endpoints s = true -> 0 < len) ->
  len mod 16 = 0 -> 0 <= len -> 0 <= a -> 0 <= b -> a + len <= zlen inp -> b + len <= zlen out ->
  exists out', transform_bc3_with_settings c (Ptr BIn a) (Ptr BOut b) len s (Mem inp aux out) = Ok (Mem inp aux out') /\
    zlen out' = zlen out /\
    forall i, 0 <= i < b \/ b + len <= i < zlen out -> znth out' i = znth out i.
Proof.
  intros c s inp aux out a b len K  HD Hm Hl Ha Hb Hi Ho.
  destruct (bc3_fam (decorrelation_mode3 s) (split_alpha_endpoints s) (split_colour_endpoints3 s)) as (sht & shu & FM).
  assert (L : zlen (bc3_layout (decorrelation_mode3 s) (split_alpha_endpoints s) (split_colour_endpoints3 s) (slice inp a len)) = len).
  { unfold bc3_layout. rewrite (lay_zlen _ _ _ _ _ _ _ FM); rewrite ?zlen_slice by lia; cbn; lia. }
  eexists. split; [apply bc3_call; assumption|]. split.
  - apply (splice_len _ _ _ len); assumption.
  - intros i Hx. apply (splice_frame _ _ _ len); assumption.
Qed.

Lemma lC11_bc3_untransform_stays_inside : forall (c : cfg) (s : settings3) (inp aux out : list byte) (a b len : Z),
  cpu_ok c -> (c_debug c = true -> split_alpha_endpoints s = true -> 0 < len) ->
  len mod 16 = 0 -> 0 <= len -> 0 <= a -> 0 <= b -> a + len <= zlen inp -> b + len <= zlen out ->
  exists out', untransform_bc3_with_settings c (Ptr BIn a) (Ptr BOut b) len s (Mem inp aux out) = Ok (Mem inp aux out') /\
    zlen out' = zlen out /\
    forall i, 0 <= i < b \/ b + len <= i < zlen out -> znth out' i = znth out i.
Proof.
  intros c s inp aux out a b len K HD Hm Hl Ha Hb Hi Ho.
  destruct (unbc3_call c s inp aux out a b len K HD Hm Hl Ha Hb Hi Ho) as (y & E & L & Y).
  eexists. split; [exact E|]. split.
  - apply (splice_len _ _ _ len); assumption.
  - intros i Hx. apply (splice_frame _ _ _ len); assumption.
Qed.

Lemma lC14_bc3_layout : forall (c : cfg) (s : settings3) (inp aux out : list byte) (a b len : Z),
  cpu_ok c -> (c_debug c = true -> split_alpha_endpoints s = true -> 0 < len) ->
  len mod 16 = 0 -> 0 <= len -> 0 <= a -> 0 <= b -> a + len <= zlen inp -> b + len <= zlen out ->
  exists out', transform_bc3_with_settings c (Ptr BIn a) (Ptr BOut b) len s (Mem inp aux out) = Ok (Mem inp aux out') /\
    slice out' b len = bc3_layout (decorrelation_mode3 s) (split_alpha_endpoints s) (split_colour_endpoints3 s) (slice inp a len).
Proof.
  intros c s inp aux out a b len K  HD Hm Hl Ha Hb Hi Ho.
  destruct (bc3_fam (decorrelation_mode3 s) (split_alpha_endpoints s) (split_colour_endpoints3 s)) as (sht & shu & FM).
  assert (L : zlen (bc3_layout (decorrelation_mode3 s) (split_alpha_endpoints s) (split_colour_endpoints3 s) (slice inp a len)) = len).
  { unfold bc3_layout. rewrite (lay_zlen _ _ _ _ _ _ _ FM); rewrite ?zlen_slice by lia; cbn; lia. }
  eexists. split; [apply bc3_call; assumption|]. apply slice_splice; assumption.
Qed.

Lemma lC15_bc3_transform_validation : forall (c : cfg) (s : settings3) (x out : list byte),
  (zlen x mod 16 <> 0 -> transform_bc3 c s x out = Ok (RErr (InvalidLength (zlen x)), out)) /\
  (zlen x mod 16 = 0 -> zlen out < zlen x ->
     transform_bc3 c s x out = Ok (RErr (OutputBufferTooSmall (zlen x) (zlen out)), out)) /\
  (zlen x mod 16 = 0 -> zlen x <= zlen out -> cpu_ok c -> (c_debug c = true -> split_alpha_endpoints s = true -> x <> []) ->
     exists out', transform_bc3 c s x out = Ok (ROk tt, out')).
Proof.
  intros c s x out. repeat apply conj.
  - intros Hm. unfold transform_bc3, checked. replace (zlen x mod 16 =? 0) with false by lia. reflexivity.
  - intros Hm Ho. unfold transform_bc3, checked. replace (zlen x mod 16 =? 0) with true by lia.
    replace (zlen out <? zlen x) with true by lia. reflexivity.
  - intros Hm Ho K  HD. eexists. apply bc3_slice; assumption.
Qed.

Lemma lC15_bc3_untransform_validation : forall (c : cfg) (s : settings3) (x out : list byte),
  (zlen x mod 16 <> 0 -> untransform_bc3 c s x out = Ok (RErr (InvalidLength (zlen x)), out)) /\
  (zlen x mod 16 = 0 -> zlen out < zlen x ->
     untransform_bc3 c s x out = Ok (RErr (OutputBufferTooSmall (zlen x) (zlen out)), out)) /\
  (zlen x mod 16 = 0 -> zlen x <= zlen out -> cpu_ok c -> (c_debug c = true -> split_alpha_endpoints s = true -> x <> []) ->
     exists out', untransform_bc3 c s x out = Ok (ROk tt, out')).
Proof.
  intros c s x out. repeat apply conj.
  - intros Hm. unfold untransform_bc3, checked. replace (zlen x mod 16 =? 0) with false by lia. reflexivity.
  - intros Hm Ho. unfold untransform_bc3, checked. replace (zlen x mod 16 =? 0) with true by lia.
    replace (zlen out <? zlen x) with true by lia. reflexivity.
  - intros Hm Ho K  HD. destruct (unbc3_slice c s x out K HD Hm Ho) as (y & E & _). eexists. exact E.
Qed.

Lemma lC22_bc3_onto : forall (c1 c2 : cfg) (s : settings3) (y out1 out2 : list byte),
  cpu_ok c1 -> cpu_ok c2 -> (c_debug c1 = true \/ c_debug c2 = true -> split_alpha_endpoints s = true -> y <> []) ->
  zlen y mod 16 = 0 -> zlen y <= zlen out1 -> zlen y <= zlen out2 ->
  exists x z, untransform_bc3 c1 s y out1 = Ok (ROk tt, x) /\
    transform_bc3 c2 s (firstn (List.length y) x) out2 = Ok (ROk tt, z) /\
    firstn (List.length y) z = y.
Proof.
  intros c1 c2 s y out1 out2 K1 K2  HD Hm H1 H2.
  destruct (unbc3_slice c1 s y out1 K1 ltac:(intros; apply HD; auto) Hm H1) as (x & U & Lx & Ex).
  pose proof (bc3_slice c2 s x out2 K2 ltac:(intros D E Q; refine (HD (or_intror D) E _); apply length_zero_iff_nil; rewrite <- Lx, Q; reflexivity)
    ltac:(unfold zlen in *; rewrite Lx; exact Hm) ltac:(unfold zlen in *; rewrite Lx; exact H2)) as T.
  do 2 eexists. split; [exact U|]. rewrite <- Lx, firstn_app, firstn_all, Nat.sub_diag, app_nil_r. split; [exact T|].
  rewrite Ex, Lx, firstn_app, firstn_all, Nat.sub_diag, app_nil_r. reflexivity.
Qed.

Lemma lC22_bc3_one_to_one : forall (c1 c2 : cfg) (s : settings3) (x1 x2 out1 out2 y1 y2 : list byte),
  cpu_ok c1 -> cpu_ok c2 -> (c_debug c1 = true -> split_alpha_endpoints s = true -> x1 <> []) -> (c_debug c2 = true -> split_alpha_endpoints s = true -> x2 <> []) ->
  transform_bc3 c1 s x1 out1 = Ok (ROk tt, y1) -> transform_bc3 c2 s x2 out2 = Ok (ROk tt, y2) ->
  firstn (List.length x1) y1 = firstn (List.length x2) y2 -> x1 = x2.
Proof.
  intros c1 c2 s x1 x2 out1 out2 y1 y2 K1 K2  HD1 HD2 T1 T2 E.
  destruct (bc3_fam (decorrelation_mode3 s) (split_alpha_endpoints s) (split_colour_endpoints3 s)) as (sht & shu & FM).
  assert (A : forall c x out y, cpu_ok c -> (c_debug c = true -> split_alpha_endpoints s = true -> x <> []) -> transform_bc3 c s x out = Ok (ROk tt, y) ->
     zlen x mod 16 = 0 /\ firstn (List.length x) y = bc3_layout (decorrelation_mode3 s) (split_alpha_endpoints s) (split_colour_endpoints3 s) x).
  { intros c x out y K  HD T.
    destruct (zlen x mod 16 =? 0) eqn:Hm; [|unfold transform_bc3, checked in T; rewrite Hm in T; discriminate T].
    destruct (zlen out <? zlen x) eqn:Ho; [unfold transform_bc3, checked in T; rewrite Hm, Ho in T; discriminate T|].
    split; [lia|]. rewrite bc3_slice in T by first [assumption | lia]. injection T as <-.
    rewrite <- (fam_len _ _ _ _ _ _ FM ltac:(lia) x) by (unfold zlen in Hm; lia).
    rewrite firstn_app, firstn_all, Nat.sub_diag, app_nil_r. reflexivity. }
  apply A in T1; [|assumption..]. apply A in T2; [|assumption..]. destruct T1 as [M1 F1], T2 as [M2 F2].
  rewrite F1, F2 in E. apply (fam_inj _ _ _ _ _ _ FM); [lia|unfold zlen in M1; lia| |exact E].
  apply (f_equal (@List.length byte)) in E. unfold bc3_layout in E.
  rewrite !(fam_len _ _ _ _ _ _ FM) in E by first [lia | unfold zlen in *; lia]. exact E.
Qed.

Lemma lC44_bc3_empty_release_partial : forall (c : cfg) (s : settings3) (out : list byte), cpu_ok c -> c_debug c = false ->
  transform_bc3 c s [] out = Ok (ROk tt, out) /\ untransform_bc3 c s [] out = Ok (ROk tt, out).
Proof.
  intros c s out K  HR.
  assert (Ho : zlen (@nil byte) <= zlen out) by (pose proof (zlen_nonneg _ out); unfold zlen at 1; cbn [List.length]; lia).
  split.
  - rewrite bc3_slice; [unfold bc3_layout, bc3_fields, colour_fields; repeat match goal with |- context[if ?b then _ else _] => destruct b end; reflexivity|first [assumption | intros; congruence | reflexivity]..].
  - destruct (unbc3_slice c s [] out K ltac:(intros; congruence) eq_refl Ho) as (y & E & L & _).
    rewrite E. destruct y; [reflexivity|discriminate L].
Qed.

Lemma lC44_bc3_empty_debug_refuted : exists (c : cfg) (s : settings3) (out : list byte) why, cpu_ok c /\ transform_bc3 c s [] out = Panic why.
Proof.
  exists (Cfg true X86_64 false true true true true true true true x00), (Settings3 VNone true false), [x00].
  eexists. split; [constructor; intros; reflexivity|]. vm_compute. reflexivity.
Qed.

Lemma lC46_bc3_permutation : forall (c : cfg) (s : settings3) (x out : list byte),
  cpu_ok c -> (c_debug c = true -> split_alpha_endpoints s = true -> x <> []) -> decorrelation_mode3 s = VNone -> zlen x mod 16 = 0 -> zlen x <= zlen out ->
  exists y, transform_bc3 c s x out = Ok (ROk tt, y) /\ Permutation (firstn (List.length x) y) x.
Proof.
  intros c s x out K  HD HV Hm Ho.
  destruct (bc3_fam (decorrelation_mode3 s) (split_alpha_endpoints s) (split_colour_endpoints3 s)) as (sht & shu & FM).
  eexists. split; [apply bc3_slice; assumption|].
  pose proof (fam_div 16 ltac:(lia) x ltac:(unfold zlen in Hm; lia)) as D.
  rewrite <- (fam_len _ _ _ _ _ _ FM ltac:(lia) x) by (unfold zlen in Hm; lia).
  fold (bc3_layout (decorrelation_mode3 s) (split_alpha_endpoints s) (split_colour_endpoints3 s) x). rewrite firstn_app, firstn_all, Nat.sub_diag, app_nil_r.
  unfold bc3_layout. rewrite HV. rewrite lay_perm.
  - unfold blocks. rewrite concat_chunks by lia. reflexivity.
  - intros b Hb. apply bc3_none. apply (chunks_in 16 (List.length x / 16) x); [lia|exact Hb].
Qed.

Lemma lC46_bc3_only_colours_change : forall (c : cfg) (s : settings3) (x out : list byte),
  cpu_ok c -> (c_debug c = true -> split_alpha_endpoints s = true -> x <> []) -> zlen x mod 16 = 0 -> zlen x <= zlen out ->
  exists y, transform_bc3 c s x out = Ok (ROk tt, y) /\
    slice y (zlen x / 8) (6 * (zlen x / 16)) = List.concat (map (raw 2 6) (blocks 16 x)) /\
    slice y (zlen x / 2 + zlen x / 4) (zlen x / 4) = List.concat (map (raw 12 4) (blocks 16 x)) /\
    Permutation (slice y 0 (zlen x / 8)) (List.concat (map (raw 0 2) (blocks 16 x))).
Proof.
  intros c s x out K  HD Hm Ho.
  eexists. split; [apply bc3_slice; assumption|].
  apply bc3_moved; unfold zlen in Hm; lia.
Qed.

Lemma lC47_bc3_transform_local : forall (c : cfg) (s : settings3) (x x' out out' : list byte),
  cpu_ok c -> (c_debug c = true -> split_alpha_endpoints s = true -> x <> []) -> zlen x mod 16 = 0 -> List.length x = List.length x' ->
  zlen x <= zlen out -> zlen x <= zlen out' ->
  let n := (List.length x / 16)%nat in let ws := bc3_widths (split_alpha_endpoints s) (split_colour_endpoints3 s) in
  exists y y', transform_bc3 c s x out = Ok (ROk tt, y) /\ transform_bc3 c s x' out' = Ok (ROk tt, y') /\
    (forall p, (p < List.length x)%nat ->
       nth (owner ws n p) (blocks 16 x) [] = nth (owner ws n p) (blocks 16 x') [] -> nth p y x00 = nth p y' x00) /\
    (forall i, (i < n)%nat -> List.length (filter (fun p => (owner ws n p =? i)%nat) (seq 0 (List.length x))) = 16%nat).
Proof.
  intros c s x x' out out' K  HD Hm HL Ho Ho' n ws.
  assert (Lz : zlen x = zlen x') by (unfold zlen; lia).
  destruct (bc3_fam (decorrelation_mode3 s) (split_alpha_endpoints s) (split_colour_endpoints3 s)) as (sht & shu & FM).
  exists (bc3_layout (decorrelation_mode3 s) (split_alpha_endpoints s) (split_colour_endpoints3 s) x ++ skipn (List.length x) out), (bc3_layout (decorrelation_mode3 s) (split_alpha_endpoints s) (split_colour_endpoints3 s) x' ++ skipn (List.length x') out').
  split; [apply bc3_slice; assumption|]. split; [apply bc3_slice; [assumption|intros D1 D2 Q; apply (HD D1 D2); apply length_zero_iff_nil; rewrite HL, Q; reflexivity|rewrite <- Lz; assumption..]|].
  assert (M : (List.length x mod 16 = 0)%nat) by (unfold zlen in Hm; lia).
  split.
  - intros p Hp E. rewrite !app_nth1 by (unfold bc3_layout; rewrite (fam_len _ _ _ _ _ _ FM) by lia; lia).
    apply (fam_local _ _ _ _ _ _ FM ltac:(lia) (bc3_wpos (split_alpha_endpoints s) (split_colour_endpoints3 s)) x x' p); assumption.
  - intros i Hn. pose proof (fam_div 16 ltac:(lia) x M) as D. pose proof (owner_count ws n i (bc3_wpos (split_alpha_endpoints s) (split_colour_endpoints3 s)) Hn) as Q.
    unfold ws in Q. rewrite (fam_sum _ _ _ _ _ _ FM) in Q. unfold ws, n in *. rewrite <- D in Q. exact Q.
Qed.

Lemma lC47_bc3_untransform_local : forall (c : cfg) (s : settings3) (x x' out out' : list byte) (i : nat),
  cpu_ok c -> (c_debug c = true -> split_alpha_endpoints s = true -> x <> []) -> zlen x mod 16 = 0 -> List.length x = List.length x' ->
  zlen x <= zlen out -> zlen x <= zlen out' ->
  let n := (List.length x / 16)%nat in let ws := bc3_widths (split_alpha_endpoints s) (split_colour_endpoints3 s) in
  (i < n)%nat -> (forall p, (p < List.length x)%nat -> owner ws n p = i -> nth p x x00 = nth p x' x00) ->
  exists y y', untransform_bc3 c s x out = Ok (ROk tt, y) /\ untransform_bc3 c s x' out' = Ok (ROk tt, y') /\
    nth i (blocks 16 (firstn (List.length x) y)) [] = nth i (blocks 16 (firstn (List.length x) y')) [].
Proof.
  intros c s x x' out out' i K HD Hm HL Ho Ho' n ws Hn E.
  assert (Lz : zlen x = zlen x') by (unfold zlen; lia).
  destruct (bc3_fam (decorrelation_mode3 s) (split_alpha_endpoints s) (split_colour_endpoints3 s)) as (sht & shu & FM).
  destruct (unbc3_slice c s x out K HD Hm Ho) as (y & U & Ly & Ey).
  destruct (unbc3_slice c s x' out' K ltac:(intros D1 D2 Q; apply (HD D1 D2); apply length_zero_iff_nil; rewrite HL, Q; reflexivity) ltac:(rewrite <- Lz; exact Hm) ltac:(rewrite <- Lz; exact Ho')) as (y' & U' & Ly' & Ey').
  do 2 eexists. split; [exact U|]. split; [exact U'|].
  rewrite <- Ly at 1. rewrite HL, <- Ly'. rewrite !firstn_app, !firstn_all, !Nat.sub_diag, !app_nil_r.
  apply (fam_unlocal _ _ _ _ _ _ FM ltac:(lia) (bc3_wpos (split_alpha_endpoints s) (split_colour_endpoints3 s))).
  - rewrite Ly. unfold zlen in Hm. lia.
  - lia.
  - rewrite Ly. exact Hn.
  - rewrite Ly. intros p Hp Hx. fold (bc3_layout (decorrelation_mode3 s) (split_alpha_endpoints s) (split_colour_endpoints3 s) y) (bc3_layout (decorrelation_mode3 s) (split_alpha_endpoints s) (split_colour_endpoints3 s) y').
    rewrite Ey, Ey'. apply E; assumption.
Qed.

Lemma lC48_bc3_untransform_total : forall (c : cfg) (s : settings3) (x out : list byte),
  cpu_ok c -> (c_debug c = true -> split_alpha_endpoints s = true -> x <> []) -> zlen x mod 16 = 0 -> zlen x <= zlen out ->
  exists y, untransform_bc3 c s x out = Ok (ROk tt, y) /\ zlen y = zlen out.
Proof.
  intros c s x out K HD Hm Ho.
  destruct (unbc3_slice c s x out K HD Hm Ho) as (y & E & L & _). eexists. split; [exact E|].
  unfold zlen in *. rewrite app_length, skipn_length. lia.
Qed.

