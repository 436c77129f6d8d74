(** The BC1 transform with normalisation on textures too short for the endpoint splitter. *)
From Verif Require Import Base.Bytes Base.Res Model.Color565 Model.Ycc Model.Kernel Model.GenBc1Std Model.GenSplit565
  Model.ColorSlices Model.Transform Model.Auto Model.Decode Model.Normalize Model.NormTransform
  Spec.YCoCg Spec.Layout Spec.Pixels Spec.Normalize Spec.NormTransform
  Proofs.KernelCheck Proofs.KernelLoop Proofs.KernelFun Proofs.Shapes Proofs.LayoutFacts
  Proofs.Families Proofs.TransformFacts Proofs.SliceFacts Proofs.Split565Facts Proofs.SplitExact
  Proofs.NormLoop Proofs.NormPixels Proofs.NormalizeFacts Proofs.NormSplit Proofs.NormDerived Proofs.NormTransformFacts.
From Coq Require Import ZifyBool ZifyNat.

Lemma split_at_short : forall c m src dst n, cpu_ok c -> is_x86 c = true -> c_avx512vbmi c = false -> has_sse2 c = true \/ c_avx2 c = true ->
  (c_debug c = true -> 0 < n) -> 0 <= n -> within m src (4 * n) -> within m dst (4 * n) ->
  apartb src (4 * n) dst (4 * n) = true -> src + 4 * n < 64 ->
  split_at c src dst (4 * n) m = Ub "pointer arithmetic out of bounds".
Proof.
  intros c m src dst n K X V H D N [H1 [H2 H3]] [D1 [D2 D3]] A S. unfold split_at, kernel_at. rewrite A.
  rewrite split_exactly by (assumption || lia). rewrite X, V. replace (src + 4 * n <? 64) with true by lia.
  destruct H as [->| ->]; [|rewrite Bool.orb_true_r]; reflexivity.
Qed.

Lemma lC51_short : forall c even m inp out work len d, cpu_ok c -> len mod 8 = 0 ->
  within m inp len -> within m out len -> within m work (len / 2) ->
  inp + len <= out \/ out + len <= inp -> inp + len <= work \/ work + len / 2 <= inp -> work + len / 2 <= out \/ out + len <= work ->
  (c_debug c = true -> 0 < len) -> d_split d = true ->
  is_x86 c = true -> c_avx512vbmi c = false -> has_sse2 c = true \/ c_avx2 c = true -> work + len / 2 < 64 ->
  transform_bc1_with_normalize_blocks c even inp out work len d m = Ub "pointer arithmetic out of bounds".
Proof.
  intros c even m inp out work len d K M [I1 [I2 I3]] [O1 [O2 O3]] [W1 [W2 W3]] A1 A2 A3 D SP X V H S.
  assert (EN : exists n, len = 8 * Z.of_nat n) by (exists (Z.to_nat (len / 8)); lia). destruct EN as [n ->].
  unfold transform_bc1_with_normalize_blocks.
  replace (8 * Z.of_nat n mod 8 =? 0) with true by lia. rewrite debug_assert_t. cbn [bind].
  replace (8 * Z.of_nat n / 2) with (4 * Z.of_nat n) in * by lia.
  replace (8 * Z.of_nat n / 8) with (Z.of_nat n) in * by lia. rewrite Nat2Z.id. rewrite SP.
  set (x := slice m inp (8 * Z.of_nat n)). assert (Hx : zlen x = 8 * Z.of_nat n) by (apply zlen_slice; lia).
  assert (SEP : transform_separate_at c inp work (out + 4 * Z.of_nat n) (8 * Z.of_nat n) m = Ok (splice (splice m work (sec 0 x)) (out + 4 * Z.of_nat n) (sec 4 x))).
  { apply separate_ok; unfold within, apartb; try assumption; try lia. }
  assert (L0 : forall y, zlen y = 8 * Z.of_nat n -> zlen (sec 0 y) = 4 * Z.of_nat n) by (intros y Hy; apply sec_len; [lia|exact Hy]).
  assert (L4 : forall y, zlen y = 8 * Z.of_nat n -> zlen (sec 4 y) = 4 * Z.of_nat n) by (intros y Hy; apply sec_len; [lia|exact Hy]).
  assert (LN : zlen (normalised (d_norm d) x) = 8 * Z.of_nat n) by (apply normalised_len; exact Hx).
  destruct (two_slices m work (sec 0 x) (out + 4 * Z.of_nat n) (sec 4 x) (4 * Z.of_nat n)) as (Z1 & S1 & S2 & _); try lia; try (apply L0; exact Hx); try (apply L4; exact Hx).
  set (m1 := splice (splice m work (sec 0 x)) (out + 4 * Z.of_nat n) (sec 4 x)) in *.
  assert (FIN : forall m2, zlen m2 = zlen m -> split_at c work out (4 * Z.of_nat n) m2 = Ub "pointer arithmetic out of bounds").
  { intros m2 Z2. apply split_at_short; unfold within, apartb; try assumption; try lia. }
  assert (NORMS : exists m2, bc1_normalize_split_blocks_in_place work (out + 4 * Z.of_nat n) n (d_norm d) m1 = Ok m2 /\ zlen m2 = zlen m).
  { rewrite (normalize_ok m1 work (out + 4 * Z.of_nat n) n (d_norm d) x); unfold within, apartb; try assumption; try lia.
    destruct (two_slices m1 work (sec 0 (normalised (d_norm d) x)) (out + 4 * Z.of_nat n) (sec 4 (normalised (d_norm d) x)) (4 * Z.of_nat n)) as (Z2 & _); try lia;
      try (apply L0; exact LN); try (apply L4; exact LN).
    eexists. split; [reflexivity|]. lia. }
  destruct NORMS as (m2 & E2 & Z2).
  rewrite Bool.andb_true_r. destruct (d_norm d) eqn:N; rewrite SEP; cbn [bind]; try (rewrite E2; cbn [bind]); rewrite FIN by lia; reflexivity.
Qed.
