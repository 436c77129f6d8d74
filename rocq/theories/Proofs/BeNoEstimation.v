(** The same on a big-endian machine (Proofs/NoEstimation.v). *)
From Verif Require Import Base.Bytes Base.Res Model.Color565 Model.Kernel Model.Transform Model.Auto Model.BigEndian Model.BeTransform Model.BeFiles
  Spec.YCoCg Spec.Layout Spec.BigEndian Spec.Estimator Spec.BeFiles Proofs.AutoTheorems Proofs.BeAutoTheorems Proofs.NoEstimation.
Open Scope list_scope.
Open Scope Z_scope.

Lemma be_never1 : forall c v all x out e y st', be_transform_bc1_auto c v no_estimation all x out tt <> Ok (RErr (DetermineBestTransform e), y, st').
Proof. intros. apply checked_never_fails. intros. apply search_never_fails. intros z m0 st r st'0. apply est1. Qed.
Lemma be_never2 : forall c v all x out e y st', be_transform_bc2_auto c v no_estimation all x out tt <> Ok (RErr (DetermineBestTransform e), y, st').
Proof. intros. apply checked_never_fails. intros. apply search_never_fails. intros z m0 st r st'0. apply est2. Qed.
Lemma be_never3 : forall c v all x out e y st', be_transform_bc3_auto c v no_estimation all x out tt <> Ok (RErr (DetermineBestTransform e), y, st').
Proof. intros. apply checked_never_fails. intros. apply search_never_fails. intros z m0 st r st'0. apply est3. Qed.

Lemma be_no_estimation1 : forall c v (all : bool) x out, cpu_ok c -> 0 < usize_max v -> zlen x mod 8 = 0 -> zlen x <= zlen out ->
  let s := Settings (if all then V2 else VNone) false in
  exists y, be_transform_bc1_auto c v no_estimation all x out tt = Ok (ROk s, y, tt) /\ be_transform_bc1 c s x out = Ok (ROk tt, y).
Proof.
  intros c v all x out K V M L s.
  destruct (be_lC19_bc1_estimator_errors unit unit c (roomy_like v) no_estimation all x out tt K M L) as (r & y & [] & log & E & _ & C).
  assert (E' : be_transform_bc1_auto c v no_estimation all x out tt = Ok (r, y, tt)) by exact E.
  destruct r as [s1|e]; [|destruct e; try contradiction C; exfalso; exact (be_never1 _ _ _ _ _ _ _ _ E')].
  assert (SZ : forall (d : list byte) (n z : Z), zero_size d n = ROk z -> 0 <= z /\ z <= usize_max v) by (intros d n z Q; injection Q as <-; lia).
  assert (G : s1 = s).
  { destruct (be_lC16_bc1_auto_first unit c v zero_max zero_size all x out s1 y K SZ E') as (n & z & _ & T & F).
    assert (Z0 : z = 0) by (refine (total_zero _ _ _ _ T); reflexivity). subst z. destruct (F V) as (earlier & later & TR & EA).
    assert (H : hd default_settings (tried all) = s1).
    { eapply first_of; [exact TR|]. intros b B. destruct (EA b B) as (z' & T' & W). assert (Z1 : z' = 0) by (refine (total_zero _ _ _ _ T'); reflexivity). lia. }
    rewrite <- H. unfold s. destruct all; reflexivity. }
  subst s1. exists y. split; [exact E'|]. exact (proj1 (proj2 (be_lC16_bc1_auto_optimal unit c v zero_max zero_size all x out s y K SZ E'))).
Qed.
Lemma be_no_estimation2 : forall c v (all : bool) x out, cpu_ok c -> 0 < usize_max v -> zlen x mod 16 = 0 -> zlen x <= zlen out ->
  let s := Settings (if all then V2 else VNone) false in
  exists y, be_transform_bc2_auto c v no_estimation all x out tt = Ok (ROk s, y, tt) /\ be_transform_bc2 c s x out = Ok (ROk tt, y).
Proof.
  intros c v all x out K V M L s.
  destruct (be_lC19_bc2_estimator_errors unit unit c (roomy_like v) no_estimation all x out tt K M L) as (r & y & [] & log & E & _ & C).
  assert (E' : be_transform_bc2_auto c v no_estimation all x out tt = Ok (r, y, tt)) by exact E.
  destruct r as [s1|e]; [|destruct e; try contradiction C; exfalso; exact (be_never2 _ _ _ _ _ _ _ _ E')].
  assert (SZ : forall (d : list byte) (n z : Z), zero_size d n = ROk z -> 0 <= z /\ z <= usize_max v) by (intros d n z Q; injection Q as <-; lia).
  assert (G : s1 = s).
  { destruct (be_lC17_bc2_auto_first unit c v zero_max zero_size all x out s1 y K SZ E') as (n & z & _ & T & F).
    assert (Z0 : z = 0) by (refine (total_zero _ _ _ _ T); reflexivity). subst z. destruct (F V) as (earlier & later & TR & EA).
    assert (H : hd default_settings (tried all) = s1).
    { eapply first_of; [exact TR|]. intros b B. destruct (EA b B) as (z' & T' & W). assert (Z1 : z' = 0) by (refine (total_zero _ _ _ _ T'); reflexivity). lia. }
    rewrite <- H. unfold s. destruct all; reflexivity. }
  subst s1. exists y. split; [exact E'|]. exact (proj1 (proj2 (be_lC17_bc2_auto_optimal unit c v zero_max zero_size all x out s y K SZ E'))).
Qed.
Lemma be_no_estimation3 : forall c v (all : bool) x out, cpu_ok c -> 0 < usize_max v -> zlen x mod 16 = 0 -> zlen x <= zlen out ->
  let s := Settings3 (if all then V2 else V1) true false in
  exists y, be_transform_bc3_auto c v no_estimation all x out tt = Ok (ROk s, y, tt) /\ be_transform_bc3 c s x out = Ok (ROk tt, y).
Proof.
  intros c v all x out K V M L s.
  assert (ZE : forall (st : unit) (d : list byte) (n z : Z) (st' : unit), estimate_compressed_size no_estimation st d n = (ROk z, st') -> 2 * z <= usize_max (roomy_like v)).
  { intros st d n z st' Q. injection Q as <- _. cbn [roomy_like usize_max]. lia. }
  destruct (be_lC19_bc3_estimator_errors unit unit c (roomy_like v) no_estimation all x out tt K ZE M L) as (r & y & [] & log & E & _ & C).
  assert (E' : be_transform_bc3_auto c v no_estimation all x out tt = Ok (r, y, tt)) by exact E.
  destruct r as [s1|e]; [|destruct e; try contradiction C; exfalso; exact (be_never3 _ _ _ _ _ _ _ _ E')].
  assert (SZ : forall (d : list byte) (n z : Z), zero_size d n = ROk z -> 0 <= z /\ 2 * z <= usize_max v) by (intros d n z Q; injection Q as <-; lia).
  assert (G : s1 = s).
  { destruct (be_lC18_bc3_auto_first unit c v zero_max zero_size all x out s1 y K SZ E') as (n & z & _ & T & F).
    assert (Z0 : z = 0) by (refine (total_zero _ _ _ _ T); reflexivity). subst z. destruct (F V) as (earlier & later & TR & EA).
    assert (H : hd default_settings3 (tried3 all) = s1).
    { eapply first_of; [exact TR|]. intros b B. destruct (EA b B) as (z' & T' & W). assert (Z1 : z' = 0) by (refine (total_zero _ _ _ _ T'); reflexivity). lia. }
    rewrite <- H. unfold s. destruct all; reflexivity. }
  subst s1. exists y. split; [exact E'|]. exact (proj1 (proj2 (be_lC18_bc3_auto_optimal unit c v zero_max zero_size all x out s y K SZ E'))).
Qed.
