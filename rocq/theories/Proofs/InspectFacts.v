(** Looking into files, and the round trip test of the debug commands. *)
From Verif Require Import Base.Bytes Base.Res Model.Color565 Model.Kernel Model.Transform Model.Auto Model.Embed Model.Bundle Model.Dds
  Model.Handlers Model.Cli Model.Decode Model.Inspect Spec.Layout Spec.Files Spec.Dds Spec.Pixels Spec.Inspect
  Proofs.SliceFacts Proofs.TransformProps Proofs.DdsFacts Proofs.DdsMore Proofs.DecodeFacts.
From Coq Require Import Ascii String.
Open Scope list_scope.
Open Scope Z_scope.

(** ** Comparing pictures *)
Lemma color_eqb_eq a b : color8888_eqb a b = true <-> a = b.
Proof.
  destruct a, b. unfold color8888_eqb. cbn. rewrite !Bool.andb_true_iff, !Z.eqb_eq. split.
  - intros (((-> & ->) & ->) & ->). reflexivity.
  - intros E. injection E as -> -> -> ->. auto.
Qed.
Lemma pixels_eqb_eq : forall a b, pixels_eqb a b = true <-> a = b.
Proof.
  induction a as [|x a IH]; intros [|y b]; cbn [pixels_eqb]; try (split; congruence).
  rewrite Bool.andb_true_iff, color_eqb_eq, IH. split; [intros [-> ->]; reflexivity|intros E; injection E as -> ->; auto].
Qed.

(** ** One texture *)
Section Roundtrip.
Context {S : Type}.
Variable v : env.
Variable fresh : Z -> list byte.
Variable k : Z.
Variables transform untransform : Z -> S -> mem -> res mem.
Variable decode : list byte -> res (list color8888).
Variable pixel : list byte -> nat -> color8888.
Hypothesis Hk : 0 < k.
Hypothesis Hd : forall b, k <= zlen b -> decode b = Ok (picture pixel b).

Lemma slice_len : forall (l : list byte) off, 0 <= off -> off + k <= zlen l -> zlen (slice l off k) = k.
Proof. intros l off H1 H2. unfold zlen, slice in *. rewrite firstn_length, skipn_length. lia. Qed.

Lemma same_pixels_ok : forall n off data restored, 0 <= off -> off + Z.of_nat n * k <= zlen data -> zlen restored = zlen data ->
  exists b, same_pixels k decode n off data restored = Ok b /\
    (b = true <-> forall i, 0 <= i < Z.of_nat n -> picture pixel (slice data (off + i * k) k) = picture pixel (slice restored (off + i * k) k)).
Proof.
  induction n as [|n IH]; intros off data restored Ho Hl Hr.
  - exists true. split; [reflexivity|]. split; [intros _ i Hi; lia|reflexivity].
  - cbn [same_pixels]. rewrite !Hd by (rewrite slice_len; lia). cbn [bind].
    destruct (pixels_eqb (picture pixel (slice data off k)) (picture pixel (slice restored off k))) eqn:E.
    + destruct (IH (off + k) data restored ltac:(lia) ltac:(lia) Hr) as (b & E1 & E2). exists b. split; [exact E1|]. rewrite E2.
      apply pixels_eqb_eq in E. split.
      * intros H i Hi. destruct (Z.eq_dec i 0) as [->|Ni].
        -- replace (off + 0 * k) with off by lia. exact E.
        -- specialize (H (i - 1) ltac:(lia)). replace (off + k + (i - 1) * k) with (off + i * k) in H by lia. exact H.
      * intros H i Hi. specialize (H (i + 1) ltac:(lia)). replace (off + (i + 1) * k) with (off + k + i * k) in H by lia. exact H.
    + exists false. split; [reflexivity|]. split; [discriminate|]. intros H. specialize (H 0 ltac:(lia)).
      replace (off + 0 * k) with off in H by lia. apply pixels_eqb_eq in H. congruence.
Qed.

(** What the test says, if transforming and restoring work on this data. *)
Definition works (data : list byte) (s : S) (y : list byte) : Prop :=
  exists m m2, transform (zlen data) s (Mem data [] (fresh (zlen data))) = Ok m /\
    untransform (zlen data) s (Mem (m_out m) [] (fresh (zlen data))) = Ok m2 /\ m_out m2 = y /\ zlen y = zlen data.

Lemma test_settings_ok : forall l data, (forall s, In s l -> exists y, works data s y) ->
  exists r, test_settings v fresh k transform untransform decode l data = Ok r /\
    (r = ROk tt <-> l = [] \/ alloc_ok v (zlen data) = true /\ forall s y, In s l -> works data s y ->
       forall i, 0 <= i < zlen data / k -> picture pixel (slice data (i * k) k) = picture pixel (slice y (i * k) k)).
Proof.
  induction l as [|s l IH]; intros data H.
  - exists (ROk tt). split; [reflexivity|]. split; auto.
  - cbn [test_settings]. destruct (alloc_ok v (zlen data)) eqn:A; cbn [negb].
    2:{ exists (RErr DAllocate). split; [reflexivity|]. split; [discriminate|]. intros [Q|[Q _]]; discriminate. }
    destruct (H s (or_introl eq_refl)) as (y & m & m2 & E1 & E2 & E3 & E4). rewrite E1. cbn [bind]. rewrite E2. cbn [bind]. rewrite E3.
    pose proof (zlen_nonneg _ data).
    destruct (same_pixels_ok (Z.to_nat (zlen data / k)) 0 data y ltac:(lia)
      ltac:(rewrite Z2Nat.id by (apply Z.div_pos; lia); nia) E4) as (b & E5 & E6).
    rewrite E5. cbn [bind]. rewrite Z2Nat.id in E6 by (apply Z.div_pos; lia). cbn [Z.add] in E6.
    destruct (IH data ltac:(intros s1 H1; apply H; right; exact H1)) as (r & E7 & E8).
    assert (U : forall y1, works data s y1 -> y1 = y).
    { intros y1 (n1 & n2 & F1 & F2 & F3 & _). rewrite E1 in F1. injection F1 as <-. rewrite E2 in F2. injection F2 as <-. congruence. }
    destruct b.
    + exists r. split; [exact E7|]. rewrite E8. split.
      * intros Q. right. split; [reflexivity|]. intros s1 y1 [->|H1] W i Hi.
        -- apply U in W. subst y1. apply E6; [reflexivity|exact Hi].
        -- destruct Q as [->|[_ Q]]; [destruct H1|]. exact (Q s1 y1 H1 W i Hi).
      * intros [Q|[_ Q]]; [discriminate|]. destruct l as [|s1 l1]; [left; reflexivity|right]. split; [exact A|]. intros s2 y1 H1. apply Q. right. exact H1.
    + exists (RErr DMessage). split; [reflexivity|]. split; [discriminate|]. intros [Q|[_ Q]]; [discriminate|].
      assert (false = true) by (apply E6; intros i Hi; apply (Q s y (or_introl eq_refl)); [exists m, m2; auto|exact Hi]). discriminate.
Qed.
Lemma test_passes : forall l data, (forall s, works data s data) -> alloc_ok v (zlen data) = true ->
  test_settings v fresh k transform untransform decode l data = Ok (ROk tt).
Proof.
  intros l data W A. destruct (test_settings_ok l data (fun s _ => ex_intro _ data (W s))) as (r & E & R). rewrite E. f_equal. apply R.
  right. split; [exact A|]. intros s y _ (m & m2 & E1 & E2 & E3 & _) i _. destruct (W s) as (n & n2 & G1 & G2 & G3 & _).
  rewrite G1 in E1. injection E1 as <-. rewrite G2 in E2. injection E2 as <-. rewrite <- E3, G3. reflexivity.
Qed.
End Roundtrip.

(** ** The three formats *)
Lemma whole_splice : forall (a b : list byte), List.length a = List.length b -> splice a 0 b = b.
Proof. intros a b H. unfold splice. cbn [Z.to_nat firstn app Nat.add]. rewrite <- H, skipn_all. apply app_nil_r. Qed.
Lemma whole_slice : forall x : list byte, slice x 0 (zlen x) = x.
Proof. intros x. unfold slice, zlen. cbn [Z.to_nat skipn]. rewrite Nat2Z.id. apply firstn_all. Qed.

Section Formats.
Variables (c : cfg) (fresh : Z -> list byte) (data : list byte).
Hypotheses (K : supported c) (F : forall n, 0 <= n -> zlen (fresh n) = n).

Lemma fresh_len : List.length (fresh (zlen data)) = List.length data.
Proof. pose proof (F (zlen data) (zlen_nonneg _ data)) as H. unfold zlen in *. lia. Qed.
Lemma mod_nat k : 0 < k -> zlen data mod k = 0 -> (List.length data mod Z.to_nat k = 0)%nat.
Proof. intros Hk H. unfold zlen in H. apply Nat2Z.inj. rewrite Nat2Z.inj_mod, Z2Nat.id by lia. exact H. Qed.

Lemma bc1_works s : zlen data mod 8 = 0 -> (c_debug c = true -> data <> []) ->
  works fresh (fun n s => transform_bc1_with_settings c (Ptr BIn 0) (Ptr BOut 0) n s)
    (fun n s => untransform_bc1_with_settings c (Ptr BIn 0) (Ptr BOut 0) n s) data s data.
Proof.
  intros Hm HD. destruct K as [K1 _]. pose proof (zlen_nonneg _ data) as P. pose proof (F (zlen data) P) as FL. pose proof fresh_len as FN.
  assert (HP : c_debug c = true -> split_colour_endpoints s = true -> 0 < zlen data).
  { intros D _. specialize (HD D). destruct data; [congruence|]. unfold zlen. cbn [List.length]. lia. }
  destruct (bc1_fam (decorrelation_mode s) (split_colour_endpoints s)) as (sht & shu & FM).
  pose proof (mod_nat 8 ltac:(lia) Hm) as Hn. change (Z.to_nat 8) with 8%nat in Hn.
  assert (LL : List.length (bc1_layout (decorrelation_mode s) (split_colour_endpoints s) data) = List.length data)
    by (apply (fam_len _ _ _ _ _ _ FM); first [exact Hn|lia]).
  pose proof (bc1_call c s data [] (fresh (zlen data)) 0 0 (zlen data) K1 HP Hm P ltac:(lia) ltac:(lia) ltac:(lia) ltac:(lia)) as T.
  rewrite whole_slice, whole_splice in T by congruence.
  assert (LZ : zlen (bc1_layout (decorrelation_mode s) (split_colour_endpoints s) data) = zlen data) by (unfold zlen; congruence).
  destruct (unbc1_call c s (bc1_layout (decorrelation_mode s) (split_colour_endpoints s) data) [] (fresh (zlen data)) 0 0 (zlen data) K1 HP Hm P
    ltac:(lia) ltac:(lia) ltac:(lia) ltac:(lia)) as (y & U & Ly & Ey).
  assert (LY : List.length y = List.length data) by (unfold zlen in Ly; lia).
  rewrite whole_splice in U by congruence. rewrite <- LZ, whole_slice in Ey.
  assert (y = data) as -> by (apply (fam_inj _ _ _ _ _ _ FM); [lia|rewrite LY; exact Hn|exact LY|exact Ey]).
  do 2 eexists. split; [exact T|]. cbn [m_out]. split; [exact U|]. cbn [m_out]. auto.
Qed.
Lemma bc2_works s : zlen data mod 16 = 0 ->
  works fresh (fun n s => transform_bc2_with_settings c (Ptr BIn 0) (Ptr BOut 0) n s)
    (fun n s => untransform_bc2_with_settings c (Ptr BIn 0) (Ptr BOut 0) n s) data s data.
Proof.
  intros Hm. destruct K as [K1 K2]. pose proof (zlen_nonneg _ data) as P. pose proof (F (zlen data) P) as FL. pose proof fresh_len as FN.
  destruct (bc2_fam (decorrelation_mode s) (split_colour_endpoints s)) as (sht & shu & FM).
  pose proof (mod_nat 16 ltac:(lia) Hm) as Hn. change (Z.to_nat 16) with 16%nat in Hn.
  assert (LL : List.length (bc2_layout (decorrelation_mode s) (split_colour_endpoints s) data) = List.length data)
    by (apply (fam_len _ _ _ _ _ _ FM); first [exact Hn|lia]).
  pose proof (bc2_call c s data [] (fresh (zlen data)) 0 0 (zlen data) K1 K2 Hm P ltac:(lia) ltac:(lia) ltac:(lia) ltac:(lia)) as T.
  rewrite whole_slice, whole_splice in T by congruence.
  assert (LZ : zlen (bc2_layout (decorrelation_mode s) (split_colour_endpoints s) data) = zlen data) by (unfold zlen; congruence).
  destruct (unbc2_call c s (bc2_layout (decorrelation_mode s) (split_colour_endpoints s) data) [] (fresh (zlen data)) 0 0 (zlen data) K1 Hm P
    ltac:(lia) ltac:(lia) ltac:(lia) ltac:(lia)) as (y & U & Ly & Ey).
  assert (LY : List.length y = List.length data) by (unfold zlen in Ly; lia).
  rewrite whole_splice in U by congruence. rewrite <- LZ, whole_slice in Ey.
  assert (y = data) as -> by (apply (fam_inj _ _ _ _ _ _ FM); [lia|rewrite LY; exact Hn|exact LY|exact Ey]).
  do 2 eexists. split; [exact T|]. cbn [m_out]. split; [exact U|]. cbn [m_out]. auto.
Qed.
Lemma bc3_works s : zlen data mod 16 = 0 -> (c_debug c = true -> data <> []) ->
  works fresh (fun n s => transform_bc3_with_settings c (Ptr BIn 0) (Ptr BOut 0) n s)
    (fun n s => untransform_bc3_with_settings c (Ptr BIn 0) (Ptr BOut 0) n s) data s data.
Proof.
  intros Hm HD. destruct K as [K1 _]. pose proof (zlen_nonneg _ data) as P. pose proof (F (zlen data) P) as FL. pose proof fresh_len as FN.
  assert (HP : c_debug c = true -> split_alpha_endpoints s = true -> 0 < zlen data).
  { intros D _. specialize (HD D). destruct data; [congruence|]. unfold zlen. cbn [List.length]. lia. }
  destruct (bc3_fam (decorrelation_mode3 s) (split_alpha_endpoints s) (split_colour_endpoints3 s)) as (sht & shu & FM).
  pose proof (mod_nat 16 ltac:(lia) Hm) as Hn. change (Z.to_nat 16) with 16%nat in Hn.
  assert (LL : List.length (bc3_layout (decorrelation_mode3 s) (split_alpha_endpoints s) (split_colour_endpoints3 s) data) = List.length data)
    by (apply (fam_len _ _ _ _ _ _ FM); first [exact Hn|lia]).
  pose proof (bc3_call c s data [] (fresh (zlen data)) 0 0 (zlen data) K1 HP Hm P ltac:(lia) ltac:(lia) ltac:(lia) ltac:(lia)) as T.
  rewrite whole_slice, whole_splice in T by congruence.
  assert (LZ : zlen (bc3_layout (decorrelation_mode3 s) (split_alpha_endpoints s) (split_colour_endpoints3 s) data) = zlen data) by (unfold zlen; congruence).
  destruct (unbc3_call c s (bc3_layout (decorrelation_mode3 s) (split_alpha_endpoints s) (split_colour_endpoints3 s) data) [] (fresh (zlen data)) 0 0 (zlen data) K1 HP Hm P
    ltac:(lia) ltac:(lia) ltac:(lia) ltac:(lia)) as (y & U & Ly & Ey).
  assert (LY : List.length y = List.length data) by (unfold zlen in Ly; lia).
  rewrite whole_splice in U by congruence. rewrite <- LZ, whole_slice in Ey.
  assert (y = data) as -> by (apply (fam_inj _ _ _ _ _ _ FM); [lia|rewrite LY; exact Hn|exact LY|exact Ey]).
  do 2 eexists. split; [exact T|]. cbn [m_out]. split; [exact U|]. cbn [m_out]. auto.
Qed.
End Formats.
