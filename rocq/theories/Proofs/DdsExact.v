(** Exactly when parsing panics in debug builds. *)
From Verif Require Import Base.Bytes Base.Res Model.Dds Spec.Dds Proofs.DdsFacts Proofs.DdsHandler.
From Coq Require Import ZifyBool ZifyNat.
Open Scope Z_scope.

Lemma mul_debug : forall a b p, u32_mul true a b = Ok p -> p = a * b /\ a * b < 2 ^ 32.
Proof. intros a b p. unfold u32_mul. destruct (Z.ltb_spec (a * b) (2 ^ 32)); intros E; [injection E as <-; lia|discriminate E]. Qed.
Lemma lvl_debug : forall k w h s, lvl true k w h = Ok s -> k * (w * h) < 2 ^ 32.
Proof.
  intros k w h s H. unfold lvl in H. destruct (u32_mul true w h) as [p| |] eqn:E; cbn [bind] in H; try discriminate H.
  apply mul_debug in E. destruct E as [-> _]. apply mul_debug in H. lia.
Qed.
Lemma mip_each : forall f w h n i total s, 0 <= w -> 0 <= h -> 0 <= i -> mip_levels n f (dim w i) (dim h i) total = Ok s ->
  forall j, i <= j < i + Z.of_nat n -> exists z, f (dim w j) (dim h j) = Ok z.
Proof.
  intros f w h n. induction n as [|n IH]; intros i total s Hw Hh Hi H j Hj; [lia|]. cbn [mip_levels] in H.
  destruct (f (dim w i) (dim h i)) as [z| |] eqn:E; cbn [bind] in H; try discriminate H.
  destruct (Z.eq_dec j i) as [->|N]; [exists z; exact E|]. rewrite !dim_step in H by lia.
  apply (IH (i + 1) _ _ Hw Hh ltac:(lia) H j). lia.
Qed.
Lemma run_length_fits : forall data s, run_length true data = Ok s -> levels_fit data.
Proof.
  intros data s H i n Hi L. unfold level in L. rewrite level_bytes_eq in L. unfold run_length in H.
  pose proof (word_bound data 16) as W. pose proof (word_bound data 12) as V.
  pose proof (dim_nonneg (word data 16) i ltac:(lia)). pose proof (dim_nonneg (word data 12) i ltac:(lia)).
  destruct (level_of data) as [|k|k]; [discriminate L|..];
    change (word data 16) with (dim (word data 16) 0) in H at 1; change (word data 12) with (dim (word data 12) 0) in H at 1;
    destruct (mip_each _ (word data 16) (word data 12) _ 0 _ _ ltac:(lia) ltac:(lia) ltac:(lia) H i ltac:(lia)) as (z & E); cbn [run_level] in E;
    injection L as <-.
  - unfold blvl in E. rewrite !div_ceil_spec in E by lia. exact (lvl_debug k _ _ _ E).
  - exact (lvl_debug k _ _ _ E).
Qed.
Lemma debug_exactly : forall data, has_magic data = true -> complete_headers data = true ->
  ((exists why, parse_dds true data = Panic why) <-> ~ levels_fit data).
Proof.
  intros data M C. rewrite parse_eq, M, C. cbn [andb]. destruct (run_length true data) as [n|y|y] eqn:R; cbn [bind].
  - split; [intros (why & E); discriminate E|intros F; destruct (F (run_length_fits _ _ R))].
  - split; [|intros _; exists y; reflexivity]. intros _ F. rewrite (run_length_chain true data F) in R. discriminate R.
  - destruct (run_length_no_ub _ _ _ R).
Qed.
