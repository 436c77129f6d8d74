(** Debug builds do what release builds do, or panic. *)
From Verif Require Import Base.Bytes Base.Res Model.Color565 Model.Ycc Model.Kernel Model.Transform Model.Auto Model.Builders Model.Embed Model.Bundle Model.Dds
  Proofs.KernelCheck Proofs.KernelLoop Proofs.KernelFun Proofs.Shapes Spec.YCoCg Spec.Layout Spec.Files Spec.Release
  Proofs.LayoutFacts Proofs.ShapeLayout Proofs.Families Proofs.TransformFacts Proofs.SliceFacts Proofs.TransformProps Proofs.EmptyExact.
From Coq Require Import ZifyBool ZifyNat.

Notation agree := same_or_panics.
Lemma agree_refl : forall A (a : res A), agree a a. Proof. intros. left. reflexivity. Qed.
Lemma agree_panic : forall A w (a : res A), agree (Panic w) a. Proof. intros. right. exists w. reflexivity. Qed.
Lemma agree_bind : forall A B (a a' : res A) (f f' : A -> res B), agree a a' -> (forall x, a' = Ok x -> agree (f x) (f' x)) -> agree (bind a f) (bind a' f').
Proof.
  intros A B a a' f f' [->|(w & ->)] H; [|apply agree_panic].
  destruct a' as [x|w|w]; cbn [bind]; [apply H; reflexivity|apply agree_refl..].
Qed.
Lemma agree_ok : forall A (a b : res A) x, agree a b -> b = Ok x -> a = Ok x \/ exists w, a = Panic w.
Proof. intros A a b x [->|H] ->; auto. Qed.

Lemma ok_inj : forall A (a b : A), Ok a = Ok b -> a = b. Proof. congruence. Qed.

(** ** One call through pointers *)
Lemma release_ok : forall c, cpu_ok c -> cpu_ok (release_build c).
Proof. intros c [A1 A2 A3 A4 A5 A6 A7]. constructor; assumption. Qed.
Lemma release_supported : forall c, supported c -> supported (release_build c).
Proof. intros c [K V]. split; [exact (release_ok c K)|exact V]. Qed.
Lemma p_any : forall m b, ptr_add m (Ptr b 0) 0 = Ok (Ptr b 0).
Proof. intros m b. pose proof (zlen_nonneg _ (buf_of m b)). rewrite ptr_add_in; [reflexivity|]. cbn [p_off p_buf]. lia. Qed.

Lemma whole_blocks : forall k z (l : list byte) N, (0 < k)%nat -> z = Z.of_nat k -> 0 <= N -> z * N <= zlen l -> (List.length (slice l 0 (z * N)) mod k = 0)%nat.
Proof.
  intros k z l N Hk -> HN Hl. assert (0 <= Z.of_nat k * N) by (apply Z.mul_nonneg_nonneg; lia).
  pose proof (zlen_slice _ l 0 (Z.of_nat k * N) ltac:(lia) ltac:(lia) ltac:(lia)) as L.
  unfold zlen in L at 1. apply Nat2Z.inj. rewrite Nat2Z.inj_mod, L. rewrite Z.mul_comm. apply Z.mod_mul. lia.
Qed.

Section Ptr.
Variables (c : cfg) (m : mem) (N : Z).
Hypotheses (K : cpu_ok c) (HN : 0 <= N).
Let r := release_build c.

Lemma loud1 : forall s, b_t1 c s = true -> exists w, transform_bc1_with_settings c (Ptr BIn 0) (Ptr BOut 0) (8 * 0) s m = Panic w.
Proof.
  intros [v sp] H. unfold b_t1 in H. cbn [split_colour_endpoints] in H. ksplit. subst sp.
  unfold transform_bc1_with_settings. cbn [split_colour_endpoints decorrelation_mode]. change (8 * 0) with 0.
  rewrite debug_assert_t. cbn [bind]. rewrite !p_any. cbn [bind].
  destruct (variant_cases v) as [->|(V & NV)].
  - cbn [variant_eqb]. exact (sc_t_loud c K ltac:(assumption) ltac:(assumption) ltac:(assumption) _ _ _ _ m).
  - rewrite NV. exact (scr_t_loud c K ltac:(assumption) ltac:(assumption) ltac:(assumption) v _ _ _ _ m V).
Qed.
Lemma unloud1 : forall s, b_u1 c s = true -> exists w, untransform_bc1_with_settings c (Ptr BIn 0) (Ptr BOut 0) (8 * 0) s m = Panic w.
Proof.
  intros [v sp] H. unfold b_u1 in H. cbn [split_colour_endpoints] in H. ksplit. subst sp.
  unfold untransform_bc1_with_settings. cbn [split_colour_endpoints decorrelation_mode]. change (8 * 0) with 0.
  rewrite debug_assert_t. cbn [bind]. rewrite !p_any. cbn [bind].
  destruct (variant_cases v) as [->|(V & NV)].
  - cbn [variant_eqb]. exact (sc_u_loud c K ltac:(assumption) ltac:(assumption) ltac:(assumption) _ _ _ _ m).
  - rewrite NV. exact (scr_u_loud c K ltac:(assumption) ltac:(assumption) ltac:(assumption) v _ _ _ _ m V).
Qed.
Lemma loud3 : forall s, b_t3 c s = true -> exists w, transform_bc3_with_settings c (Ptr BIn 0) (Ptr BOut 0) (16 * 0) s m = Panic w.
Proof.
  intros [v sa sp] H. unfold b_t3 in H. cbn [split_alpha_endpoints split_colour_endpoints3 decorrelation_mode3] in H. ksplit. subst sa.
  destruct sp; [discriminate|]. destruct v; try discriminate.
  unfold transform_bc3_with_settings. cbn [split_alpha_endpoints split_colour_endpoints3 decorrelation_mode3]. change (16 * 0) with 0.
  rewrite debug_assert_t. cbn [bind variant_eqb negb]. rewrite !p_any. cbn [bind].
  exact (sa_t_loud c K ltac:(assumption) ltac:(assumption) ltac:(assumption) _ _ _ _ _ _ m).
Qed.

(** what a release build does *)
Lemma release1 : forall s, 8 * N <= zlen (m_in m) -> 8 * N <= zlen (m_out m) ->
  transform_bc1_with_settings r (Ptr BIn 0) (Ptr BOut 0) (8 * N) s m =
  Ok (Mem (m_in m) (m_aux m) (splice (m_out m) 0 (bc1_layout (decorrelation_mode s) (split_colour_endpoints s) (slice (m_in m) 0 (8 * N))))).
Proof. intros s Hi Ho. apply transform_bc1_ptr; first [exact (release_ok c K) | lia | intros _ D; discriminate D]. Qed.
Lemma release2 : forall s, vl_ok c = true -> 16 * N <= zlen (m_in m) -> 16 * N <= zlen (m_out m) ->
  transform_bc2_with_settings r (Ptr BIn 0) (Ptr BOut 0) (16 * N) s m =
  Ok (Mem (m_in m) (m_aux m) (splice (m_out m) 0 (bc2_layout (decorrelation_mode s) (split_colour_endpoints s) (slice (m_in m) 0 (16 * N))))).
Proof. intros s V Hi Ho. apply transform_bc2_ptr; first [exact (release_ok c K) | exact V | lia]. Qed.
Lemma release3 : forall s, 16 * N <= zlen (m_in m) -> 16 * N <= zlen (m_out m) ->
  transform_bc3_with_settings r (Ptr BIn 0) (Ptr BOut 0) (16 * N) s m =
  Ok (Mem (m_in m) (m_aux m) (splice (m_out m) 0 (bc3_layout (decorrelation_mode3 s) (split_alpha_endpoints s) (split_colour_endpoints3 s) (slice (m_in m) 0 (16 * N))))).
Proof. intros s Hi Ho. apply transform_bc3_ptr; first [exact (release_ok c K) | lia | intros _ D; discriminate D]. Qed.

Lemma agree1 : forall s, 8 * N <= zlen (m_in m) -> 8 * N <= zlen (m_out m) ->
  agree (transform_bc1_with_settings c (Ptr BIn 0) (Ptr BOut 0) (8 * N) s m) (transform_bc1_with_settings r (Ptr BIn 0) (Ptr BOut 0) (8 * N) s m).
Proof.
  intros s Hi Ho. rewrite release1 by assumption.
  destruct (Z.eq_dec N 0) as [->|NZ].
  - destruct (b_t1 c s) eqn:B; [right; exact (loud1 s B)|]. left.
    destruct (c_debug c) eqn:D, (split_colour_endpoints s) eqn:SP; [rewrite bc1_quiet by assumption; rewrite SP; reflexivity|..];
      (rewrite <- SP; apply transform_bc1_ptr; [exact K|intros Q D'; congruence|lia..]).
  - left. apply transform_bc1_ptr; [exact K|intros _ _; lia|lia..].
Qed.
Lemma agree2 : forall s, vl_ok c = true -> 16 * N <= zlen (m_in m) -> 16 * N <= zlen (m_out m) ->
  agree (transform_bc2_with_settings c (Ptr BIn 0) (Ptr BOut 0) (16 * N) s m) (transform_bc2_with_settings r (Ptr BIn 0) (Ptr BOut 0) (16 * N) s m).
Proof. intros s V Hi Ho. left. rewrite release2 by assumption. apply transform_bc2_ptr; first [exact K | exact V | lia]. Qed.
Lemma agree3 : forall s, 16 * N <= zlen (m_in m) -> 16 * N <= zlen (m_out m) ->
  agree (transform_bc3_with_settings c (Ptr BIn 0) (Ptr BOut 0) (16 * N) s m) (transform_bc3_with_settings r (Ptr BIn 0) (Ptr BOut 0) (16 * N) s m).
Proof.
  intros s Hi Ho. rewrite release3 by assumption.
  destruct (Z.eq_dec N 0) as [->|NZ].
  - destruct (b_t3 c s) eqn:B; [right; exact (loud3 s B)|]. left.
    destruct (c_debug c) eqn:D, (split_alpha_endpoints s) eqn:SP; [rewrite bc3_quiet by assumption; rewrite SP; reflexivity|..];
      (rewrite <- SP; apply transform_bc3_ptr; [exact K|intros Q D'; congruence|lia..]).
  - left. apply transform_bc3_ptr; [exact K|intros _ _; lia|lia..].
Qed.

(** untransforming: the layout of the answer determines it *)
Lemma same_inverse : forall v sht shu k fs ws x y y', FAM v sht shu k fs ws -> (0 < k)%nat -> (List.length x mod k = 0)%nat ->
  inverse_of k fs x y -> inverse_of k fs x y' -> y = y'.
Proof.
  intros v sht shu k fs ws x y y' FM Hk Hm (L & E) (L' & E').
  apply (fam_inj _ _ _ _ _ _ FM Hk); [rewrite L; exact Hm|congruence|congruence].
Qed.
Lemma agree_u1 : forall s, 8 * N <= zlen (m_in m) -> 8 * N <= zlen (m_out m) ->
  agree (untransform_bc1_with_settings c (Ptr BIn 0) (Ptr BOut 0) (8 * N) s m) (untransform_bc1_with_settings r (Ptr BIn 0) (Ptr BOut 0) (8 * N) s m).
Proof.
  intros s Hi Ho.
  destruct (untransform_bc1_ptr r s 0 0 N m (release_ok c K)) as (y & -> & Y); [intros _ D; discriminate D|lia..|].
  assert (G : (exists y', untransform_bc1_with_settings c (Ptr BIn 0) (Ptr BOut 0) (8 * N) s m = Ok (Mem (m_in m) (m_aux m) (splice (m_out m) 0 y')) /\
     inverse_of 8 (bc1_fields (decorrelation_mode s) (split_colour_endpoints s)) (slice (m_in m) 0 (8 * N)) y') ->
     agree (untransform_bc1_with_settings c (Ptr BIn 0) (Ptr BOut 0) (8 * N) s m) (Ok (Mem (m_in m) (m_aux m) (splice (m_out m) 0 y)))).
  { intros (y' & -> & Y'). left. destruct (bc1_fam (decorrelation_mode s) (split_colour_endpoints s)) as (sht & shu & FM).
    rewrite (same_inverse _ _ _ _ _ _ _ y' y FM ltac:(lia) (whole_blocks 8 _ (m_in m) N ltac:(lia) eq_refl HN Hi) Y' Y).
    reflexivity. }
  destruct (Z.eq_dec N 0) as [->|NZ].
  - destruct (b_u1 c s) eqn:B; [right; exact (unloud1 s B)|]. apply G.
    destruct (c_debug c) eqn:D, (split_colour_endpoints s) eqn:SP; [rewrite <- SP; apply unbc1_quiet; assumption|..];
      (rewrite <- SP; apply untransform_bc1_ptr; [exact K|intros Q D'; congruence|lia..]).
  - apply G. apply untransform_bc1_ptr; [exact K|intros _ _; lia|lia..].
Qed.
Lemma agree_u2 : forall s, 16 * N <= zlen (m_in m) -> 16 * N <= zlen (m_out m) ->
  agree (untransform_bc2_with_settings c (Ptr BIn 0) (Ptr BOut 0) (16 * N) s m) (untransform_bc2_with_settings r (Ptr BIn 0) (Ptr BOut 0) (16 * N) s m).
Proof.
  intros s Hi Ho.
  destruct (untransform_bc2_ptr r s 0 0 N m (release_ok c K)) as (y & -> & Y); [lia..|].
  destruct (untransform_bc2_ptr c s 0 0 N m K) as (y' & -> & Y'); [lia..|].
  left. destruct (bc2_fam (decorrelation_mode s) (split_colour_endpoints s)) as (sht & shu & FM).
  rewrite (same_inverse _ _ _ _ _ _ _ y' y FM ltac:(lia) (whole_blocks 16 _ (m_in m) N ltac:(lia) eq_refl HN Hi) Y' Y).
  reflexivity.
Qed.
Lemma agree_u3 : forall s, 16 * N <= zlen (m_in m) -> 16 * N <= zlen (m_out m) ->
  untransform_bc3_with_settings c (Ptr BIn 0) (Ptr BOut 0) (16 * N) s m = untransform_bc3_with_settings r (Ptr BIn 0) (Ptr BOut 0) (16 * N) s m.
Proof.
  intros s Hi Ho.
  destruct (untransform_bc3_ptr r s 0 0 N m (release_ok c K)) as (y & -> & Y); [intros _ D; discriminate D|lia..|].
  assert (G : (exists y', untransform_bc3_with_settings c (Ptr BIn 0) (Ptr BOut 0) (16 * N) s m = Ok (Mem (m_in m) (m_aux m) (splice (m_out m) 0 y')) /\
     inverse_of 16 (bc3_fields (decorrelation_mode3 s) (split_alpha_endpoints s) (split_colour_endpoints3 s)) (slice (m_in m) 0 (16 * N)) y') ->
     untransform_bc3_with_settings c (Ptr BIn 0) (Ptr BOut 0) (16 * N) s m = Ok (Mem (m_in m) (m_aux m) (splice (m_out m) 0 y))).
  { intros (y' & -> & Y'). destruct (bc3_fam (decorrelation_mode3 s) (split_alpha_endpoints s) (split_colour_endpoints3 s)) as (sht & shu & FM).
    rewrite (same_inverse _ _ _ _ _ _ _ y' y FM ltac:(lia) (whole_blocks 16 _ (m_in m) N ltac:(lia) eq_refl HN Hi) Y' Y).
    reflexivity. }
  apply G. destruct (Z.eq_dec N 0) as [->|NZ].
  - destruct (split_alpha_endpoints s) eqn:SP; rewrite <- SP.
    + apply unbc3_quiet; assumption.
    + apply untransform_bc3_ptr; [exact K|intros Q D'; congruence|lia..].
  - apply untransform_bc3_ptr; [exact K|intros _ _; lia|lia..].
Qed.
End Ptr.

(** ** Slices *)
Ltac slices L A := intros; unfold L, checked; apply A.
Lemma checked_agree : forall blk run run' x out, 0 < blk ->
  (forall N, 0 <= N -> zlen x = blk * N -> zlen x <= zlen out ->
     agree (run (Ptr BIn 0) (Ptr BOut 0) (blk * N) (Mem x [] out)) (run' (Ptr BIn 0) (Ptr BOut 0) (blk * N) (Mem x [] out))) ->
  agree (checked blk run x out) (checked blk run' x out).
Proof.
  intros blk run run' x out Hb H. unfold checked.
  destruct (zlen x mod blk =? 0) eqn:M; cbn [negb]; [|apply agree_refl].
  destruct (zlen out <? zlen x) eqn:L; [apply agree_refl|].
  pose proof (zlen_nonneg _ x). assert (E : zlen x = blk * (zlen x / blk)) by (pose proof (Z.div_mod (zlen x) blk ltac:(lia)); lia).
  apply agree_bind; [|intros; apply agree_refl]. rewrite E. apply H; [apply Z.div_pos; lia|exact E|lia].
Qed.
Lemma slice1 : forall c s x out, cpu_ok c -> agree (transform_bc1 c s x out) (transform_bc1 (release_build c) s x out).
Proof. intros c s x out K. apply checked_agree; [lia|]. intros N HN E L. apply agree1; cbn [m_in m_out]; first [exact K | lia]. Qed.
Lemma unslice1 : forall c s x out, cpu_ok c -> agree (untransform_bc1 c s x out) (untransform_bc1 (release_build c) s x out).
Proof. intros c s x out K. apply checked_agree; [lia|]. intros N HN E L. apply agree_u1; cbn [m_in m_out]; first [exact K | lia]. Qed.
Lemma vl_of : forall c, supported c -> vl_ok c = true.
Proof. intros c [K V]. unfold vl_ok. destruct (c_avx512bw c); [exact (V eq_refl)|reflexivity]. Qed.
Lemma slice2 : forall c s x out, supported c -> transform_bc2 c s x out = transform_bc2 (release_build c) s x out.
Proof.
  intros c s x out K. unfold transform_bc2, checked. destruct (zlen x mod 16 =? 0) eqn:M; cbn [negb]; [|reflexivity].
  destruct (zlen out <? zlen x) eqn:L; [reflexivity|]. pose proof (zlen_nonneg _ x).
  assert (E : zlen x = 16 * (zlen x / 16)) by (pose proof (Z.div_mod (zlen x) 16 ltac:(lia)); lia).
  f_equal. rewrite E. rewrite (release2 c (Mem x [] out) (zlen x / 16)) by first [exact (proj1 K) | exact (vl_of c K) | cbn [m_in m_out]; lia].
  apply transform_bc2_ptr; first [exact (proj1 K) | exact (vl_of c K) | cbn [m_in m_out]; lia].
Qed.
Lemma unslice2 : forall c s x out, cpu_ok c -> agree (untransform_bc2 c s x out) (untransform_bc2 (release_build c) s x out).
Proof. intros c s x out K. apply checked_agree; [lia|]. intros N HN E L. apply agree_u2; cbn [m_in m_out]; first [exact K | lia]. Qed.
Lemma slice3 : forall c s x out, cpu_ok c -> agree (transform_bc3 c s x out) (transform_bc3 (release_build c) s x out).
Proof. intros c s x out K. apply checked_agree; [lia|]. intros N HN E L. apply agree3; cbn [m_in m_out]; first [exact K | lia]. Qed.
Lemma unslice3 : forall c s x out, cpu_ok c -> untransform_bc3 c s x out = untransform_bc3 (release_build c) s x out.
Proof.
  intros c s x out K. unfold untransform_bc3, checked. destruct (zlen x mod 16 =? 0) eqn:M; cbn [negb]; [|reflexivity].
  destruct (zlen out <? zlen x) eqn:L; [reflexivity|]. pose proof (zlen_nonneg _ x).
  assert (E : zlen x = 16 * (zlen x / 16)) by (pose proof (Z.div_mod (zlen x) 16 ltac:(lia)); lia).
  f_equal. rewrite E. apply agree_u3; first [exact K | cbn [m_in m_out]; lia].
Qed.

(** ** The automatic transforms *)
Definition sized (a b : Z) (m : mem) : Prop := a <= zlen (m_in m) /\ b <= zlen (m_out m).

Section Search.
Context {St Er S : Type}.
Variables (t t' : S -> mem -> res mem) (e e' : mem -> St -> res (result Z Er * St)) (P : mem -> Prop).
Hypotheses (T : forall s m, P m -> agree (t s m) (t' s m)) (TP : forall s m m', P m -> t' s m = Ok m' -> P m')
  (E : forall m st, P m -> agree (e m st) (e' m st)).
Lemma loop_agree : forall order best size last m st, P m ->
  agree (search_loop t e order best size last m st) (search_loop t' e' order best size last m st) /\
  (forall r m' st', search_loop t' e' order best size last m st = Ok (r, m', st') -> P m').
Proof.
  induction order as [|s rest IH]; intros best size last m st H; cbn [search_loop].
  - split; [apply agree_refl|]. intros r m' st' Q. congruence.
  - split.
    + apply agree_bind; [exact (T s m H)|]. intros m1 Q1. pose proof (TP s m m1 H Q1) as H1.
      apply agree_bind; [exact (E m1 st H1)|]. intros [[z|er] st1] _; [|apply agree_refl].
      destruct (z <? size); apply IH; exact H1.
    + intros r m' st'. destruct (t' s m) as [m1|w|w] eqn:Q1; cbn [bind]; try congruence. pose proof (TP s m m1 H Q1) as H1.
      destruct (e' m1 st) as [[[z|er] st1]|w|w] eqn:Q2; cbn [bind]; try congruence.
      destruct (z <? size); apply IH; exact H1.
Qed.
End Search.

Section AutoAgree.
Context {St Er : Type}.
Variables (c : cfg) (v : Auto.env) (e : estimator St Er).
Lemma search_agree : forall S n (t t' : S -> mem -> res mem) (es es' : Z -> mem -> St -> res (result Z Er * St)) same default order (P : mem -> Prop) m st,
  (forall s m, P m -> agree (t s m) (t' s m)) -> (forall s m m', P m -> t' s m = Ok m' -> P m') ->
  (forall z m st, P m -> agree (es z m st) (es' z m st)) -> P m ->
  agree (search v e n t es same default order m st) (search v e n t' es' same default order m st).
Proof.
  intros S n t t' es es' same default order P m st T TP E H. unfold search.
  destruct (max_compressed_size e st n) as [[z|er] st1]; [|apply agree_refl].
  destruct (negb (z =? 0) && negb (alloc_ok v z)); [apply agree_refl|].
  destruct (loop_agree t t' (es z) (es' z) P T TP (E z) order default (usize_max v) default m st1 H) as (L & LP).
  apply agree_bind; [exact L|]. intros [[[[best last]|er] m1] st2] Q; [|apply agree_refl].
  destruct (same best last); [apply agree_refl|].
  apply agree_bind; [|intros; apply agree_refl]. apply T. exact (LP _ _ _ Q).
Qed.

Lemma auto_checked_agree : forall S blk (run run' : ptr -> ptr -> Z -> mem -> St -> res (result S (determine_error Er) * mem * St)) x out st, 0 < blk ->
  (forall N, 0 <= N -> zlen x = blk * N -> zlen x <= zlen out ->
     agree (run (Ptr BIn 0) (Ptr BOut 0) (blk * N) (Mem x [] out) st) (run' (Ptr BIn 0) (Ptr BOut 0) (blk * N) (Mem x [] out) st)) ->
  agree (auto_checked blk run x out st) (auto_checked blk run' x out st).
Proof.
  intros S blk run run' x out st Hb H. unfold auto_checked.
  destruct (zlen x mod blk =? 0) eqn:M; cbn [negb]; [|apply agree_refl].
  destruct (zlen out <? zlen x) eqn:L; [apply agree_refl|].
  pose proof (zlen_nonneg _ x). assert (E : zlen x = blk * (zlen x / blk)) by (pose proof (Z.div_mod (zlen x) blk ltac:(lia)); lia).
  apply agree_bind; [|intros; apply agree_refl]. rewrite E. apply H; [apply Z.div_pos; lia|exact E|lia].
Qed.

Lemma len_kept : forall m (y : list byte) n k, sized n k m -> zlen y <= k -> sized n k (Mem (m_in m) (m_aux m) (splice (m_out m) 0 y)).
Proof.
  intros m y n k (A & B) L. split; cbn [m_in m_out]; [exact A|].
  rewrite zlen_splice; [exact B|lia|lia].
Qed.

Lemma auto1 : forall all x out st, cpu_ok c -> agree (transform_bc1_auto c v e all x out st) (transform_bc1_auto (release_build c) v e all x out st).
Proof.
  intros all x out st K. apply auto_checked_agree; [lia|]. intros N HN E L. unfold transform_bc1_auto_ptr.
  apply (search_agree _ _ _ _ _ _ _ _ _ (sized (8 * N) (8 * N))).
  - intros s m (A & B). apply agree1; assumption.
  - intros s m m' (A & B) Q. rewrite (release1 c m N K HN s A B) in Q. apply ok_inj in Q. subst m'. apply len_kept; [split; assumption|].
    destruct (bc1_fam (decorrelation_mode s) (split_colour_endpoints s)) as (sht & shu & FM).
    unfold bc1_layout, zlen. rewrite (fam_len _ _ _ _ _ _ FM ltac:(lia)) by (apply (whole_blocks 8); [lia|reflexivity|lia..]).
    pose proof (zlen_slice _ (m_in m) 0 (8 * N)) as Z. unfold zlen in Z at 2. lia.
  - intros. apply agree_refl.
  - split; cbn [m_in m_out]; lia.
Qed.
Lemma auto2 : forall all x out st, supported c -> agree (transform_bc2_auto c v e all x out st) (transform_bc2_auto (release_build c) v e all x out st).
Proof.
  intros all x out st KS. pose proof (vl_of c KS) as V. pose proof (proj1 KS) as K. apply auto_checked_agree; [lia|]. intros N HN E L. unfold transform_bc2_auto_ptr.
  apply (search_agree _ _ _ _ _ _ _ _ _ (sized (16 * N) (16 * N))).
  - intros s m (A & B). apply agree2; assumption.
  - intros s m m' (A & B) Q. rewrite (release2 c m N K HN s V A B) in Q. apply ok_inj in Q. subst m'. apply len_kept; [split; assumption|].
    destruct (bc2_fam (decorrelation_mode s) (split_colour_endpoints s)) as (sht & shu & FM).
    unfold bc2_layout, zlen. rewrite (fam_len _ _ _ _ _ _ FM ltac:(lia)) by (apply (whole_blocks 16); [lia|reflexivity|lia..]).
    pose proof (zlen_slice _ (m_in m) 0 (16 * N)) as Z. unfold zlen in Z at 2. lia.
  - intros. apply agree_refl.
  - split; cbn [m_in m_out]; lia.
Qed.
Lemma auto3 : forall all x out st, cpu_ok c -> agree (transform_bc3_auto c v e all x out st) (transform_bc3_auto (release_build c) v e all x out st).
Proof.
  intros all x out st K. apply auto_checked_agree; [lia|]. intros N HN E L. unfold transform_bc3_auto_ptr.
  apply (search_agree _ _ _ _ _ _ _ _ _ (sized (16 * N) (16 * N))).
  - intros s m (A & B). apply agree3; assumption.
  - intros s m m' (A & B) Q. rewrite (release3 c m N K HN s A B) in Q. apply ok_inj in Q. subst m'. apply len_kept; [split; assumption|].
    destruct (bc3_fam (decorrelation_mode3 s) (split_alpha_endpoints s) (split_colour_endpoints3 s)) as (sht & shu & FM).
    unfold bc3_layout, zlen. rewrite (fam_len _ _ _ _ _ _ FM ltac:(lia)) by (apply (whole_blocks 16); [lia|reflexivity|lia..]).
    pose proof (zlen_slice _ (m_in m) 0 (16 * N)) as Z. unfold zlen in Z at 2. lia.
  - intros z m st' _. unfold estimate_bc3. apply agree_bind; [apply agree_refl|]. intros [[a|er] st1] _; [|apply agree_refl].
    apply agree_bind; [apply agree_refl|]. intros p _. apply agree_bind; [apply agree_refl|]. intros [[b|er] st2] _; [|apply agree_refl].
    cbv zeta. destruct (a + b <=? usize_max v); [apply agree_refl|]. destruct (c_debug c); [apply agree_panic|apply agree_refl].
  - split; cbn [m_in m_out]; lia.
Qed.
End AutoAgree.

(** ** Files *)
Lemma mul_agree : forall d a b, agree (u32_mul d a b) (u32_mul false a b).
Proof. intros d a b. unfold u32_mul. destruct (a * b <? 2 ^ 32); [apply agree_refl|]. destruct d; [apply agree_panic|apply agree_refl]. Qed.
Lemma add_agree : forall d v a b, agree (usize_add d v a b) (usize_add false v a b).
Proof. intros d v a b. unfold usize_add. destruct (a + b <=? usize_max v); [apply agree_refl|]. destruct d; [apply agree_panic|apply agree_refl]. Qed.
Lemma mips_agree : forall f f', (forall w h, agree (f w h) (f' w h)) -> forall n w h t, agree (mip_levels n f w h t) (mip_levels n f' w h t).
Proof.
  intros f f' H n. induction n as [|n IH]; intros w h t; cbn [mip_levels]; [apply agree_refl|].
  apply agree_bind; [apply H|]. intros; apply IH.
Qed.
Lemma pixels_agree : forall d w h n b, agree (calculate_data_length_for_pixel_formats d w h n b) (calculate_data_length_for_pixel_formats false w h n b).
Proof.
  intros d w h n b. unfold calculate_data_length_for_pixel_formats. destruct (b =? 0); [apply agree_refl|].
  apply agree_bind; [|intros; apply agree_refl]. apply mips_agree. intros. apply agree_bind; [apply mul_agree|]. intros; apply mul_agree.
Qed.
Lemma blocks_agree : forall d f w h n, agree (calculate_data_length_for_block_compression d f w h n) (calculate_data_length_for_block_compression false f w h n).
Proof.
  intros d f w h n. unfold calculate_data_length_for_block_compression.
  destruct f; cbn [block_size_of]; try apply agree_refl; try apply pixels_agree;
    (apply agree_bind; [|intros; apply agree_refl]; apply mips_agree; intros; apply agree_bind; [apply mul_agree|]; intros; apply mul_agree).
Qed.
Lemma length_agree : forall d f x, agree (calculate_data_length d f x) (calculate_data_length false f x).
Proof.
  intros d f x. unfold calculate_data_length. do 4 (apply agree_bind; [apply agree_refl|intros ? _]). cbv zeta.
  destruct f; try apply blocks_agree; try apply pixels_agree; try apply agree_refl.
  unfold calculate_uncompressed_data_length. do 2 (apply agree_bind; [apply agree_refl|intros ? _]).
  destruct (Z.land _ _ =? 0); [apply agree_refl|]. destruct (negb _); [apply agree_refl|]. apply pixels_agree.
Qed.
Lemma parse_ignore_agree : forall d x, agree (parse_dds_ignore_magic d x) (parse_dds_ignore_magic false x).
Proof.
  intros d x. unfold parse_dds_ignore_magic. destruct (zlen x <? DDS_HEADER_SIZE); [apply agree_refl|].
  apply agree_bind; [apply agree_refl|]. intros four _. apply agree_bind; [apply agree_refl|]. intros [[f o]|] _; [|apply agree_refl].
  apply agree_bind; [apply length_agree|]. intros; apply agree_refl.
Qed.
Lemma parse_agree : forall d x, agree (parse_dds d x) (parse_dds false x).
Proof. intros d x. unfold parse_dds. destruct (negb (likely_dds x)); [apply agree_refl|apply parse_ignore_agree]. Qed.
Lemma extract_agree : forall d v x fl, agree (dds_extract_blocks d v x fl) (dds_extract_blocks false v x fl).
Proof.
  intros d v x fl. unfold dds_extract_blocks. apply agree_bind; [apply parse_agree|]. intros [i|] _; [|apply agree_refl].
  destruct (dds_format_to_transform_format (i_format i) true); [|apply agree_refl]. destruct (negb _); [apply agree_refl|]. cbv zeta.
  apply agree_bind; [apply add_agree|]. intros t _. destruct (zlen x <? t); [apply agree_refl|].
  apply agree_bind; [apply add_agree|]. intros; apply agree_refl.
Qed.
Lemma can_agree : forall d x ext, agree (dds_can_handle d x ext) (dds_can_handle false x ext).
Proof.
  intros d x [e|]; unfold dds_can_handle; [destruct (negb _); [apply agree_refl|]|]; (apply agree_bind; [apply parse_agree|]; intros; apply agree_refl).
Qed.
Lemma can_un_agree : forall d x ext, agree (dds_can_handle_untransform d x ext) (dds_can_handle_untransform false x ext).
Proof.
  intros d x [e|]; unfold dds_can_handle_untransform; cbv zeta; [destruct (negb _); [apply agree_refl|]|];
    (destruct (zlen x <? 4); [apply agree_refl|]; apply agree_bind; [apply parse_ignore_agree|]; intros; apply agree_refl).
Qed.

Lemma core_agree : forall k c s x out, supported c -> agree (core_transform k c s x out) (core_transform k (release_build c) s x out).
Proof. intros [] c s x out K; [apply slice1; exact (proj1 K)|left; apply slice2; exact K]. Qed.
Lemma core_auto_agree : forall St Er k c v (e : estimator St Er) all x out st, supported c ->
  agree (core_auto k c v e all x out st) (core_auto k (release_build c) v e all x out st).
Proof. intros St Er [] c v e all x out st K; [apply auto1; exact (proj1 K)|apply auto2; exact K]. Qed.
Lemma dispatch_agree : forall St Er (show : Er -> string) c v (t : bundle St Er) f x out st, supported c ->
  agree (dispatch_transform show c v t f x out st) (dispatch_transform show (release_build c) v t f x out st).
Proof.
  intros St Er show c v t f x out st K. unfold dispatch_transform. destruct (zlen out <? zlen x); [apply agree_refl|]. cbv zeta.
  assert (D : forall k b, agree (transform_slice_with_details show k c v b x out st) (transform_slice_with_details show k (release_build c) v b x out st)).
  { intros k [b|b]; unfold transform_slice_with_details; cbv zeta.
    - apply agree_bind; [|intros; apply agree_refl]. unfold manual_transform. apply agree_bind; [apply core_agree; exact K|intros; apply agree_refl].
    - apply agree_bind; [|intros; apply agree_refl]. unfold auto_transform. apply agree_bind; [apply core_auto_agree; exact K|intros; apply agree_refl]. }
  destruct f; try apply agree_refl; [destruct (b_bc1 t)|destruct (b_bc2 t)]; try apply agree_refl; (apply agree_bind; [apply D|intros; apply agree_refl]).
Qed.
Lemma undispatch_agree : forall c h x out, cpu_ok c -> agree (dispatch_untransform c h x out) (dispatch_untransform (release_build c) h x out).
Proof.
  intros c h x out K. unfold dispatch_untransform. destruct (zlen out <? zlen x) eqn:L; [apply agree_refl|]. cbv zeta.
  pose proof (zlen_nonneg _ x).
  destruct (header_format h) as [[]|]; try apply agree_refl.
  - destruct (from_header bc1_details h); [|apply agree_refl]. cbn [codec_block]. destruct (zlen x mod 8 =? 0) eqn:M; cbn [negb]; [|apply agree_refl].
    apply agree_bind; [|intros; apply agree_refl]. cbn [core_untransform_ptr].
    assert (E : zlen x = 8 * (zlen x / 8)) by (pose proof (Z.div_mod (zlen x) 8 ltac:(lia)); lia). rewrite E.
    apply agree_u1; cbn [m_in m_out]; first [exact K | lia].
  - destruct (from_header bc2_details h); [|apply agree_refl]. cbn [codec_block]. destruct (zlen x mod 16 =? 0) eqn:M; cbn [negb]; [|apply agree_refl].
    apply agree_bind; [|intros; apply agree_refl]. cbn [core_untransform_ptr].
    assert (E : zlen x = 16 * (zlen x / 16)) by (pose proof (Z.div_mod (zlen x) 16 ltac:(lia)); lia). rewrite E.
    apply agree_u2; cbn [m_in m_out]; first [exact K | lia].
Qed.
Lemma dds_agree : forall St Er (show : Er -> string) c v (t : bundle St Er) x out st, supported c ->
  agree (dds_transform_bundle show c v t x out st) (dds_transform_bundle show (release_build c) v t x out st).
Proof.
  intros St Er show c v t x out st K. unfold dds_transform_bundle. destruct (zlen out <? zlen x); [apply agree_refl|].
  apply agree_bind; [apply parse_agree|]. intros [i|] _; [|apply agree_refl]. cbv zeta.
  apply agree_bind; [apply add_agree|]. intros n _. destruct (zlen x <? n); [apply agree_refl|].
  apply agree_bind; [apply agree_refl|]. intros hd _. apply agree_bind; [apply agree_refl|]. intros o _.
  destruct (dds_format_to_transform_format (i_format i) false); [|apply agree_refl].
  apply agree_bind; [apply add_agree|]. intros n2 _. do 2 (apply agree_bind; [apply agree_refl|]; intros ? _).
  apply agree_bind; [apply dispatch_agree; exact K|]. intros; apply agree_refl.
Qed.
Lemma undds_agree : forall c v x out, cpu_ok c -> agree (dds_untransform c v x out) (dds_untransform (release_build c) v x out).
Proof.
  intros c v x out K. unfold dds_untransform. destruct (zlen x <? 4); [apply agree_refl|]. destruct (zlen out <? zlen x); [apply agree_refl|]. cbv zeta.
  apply agree_bind; [apply parse_ignore_agree|]. intros [i|] _; [|apply agree_refl].
  apply agree_bind; [apply add_agree|]. intros n _. destruct (zlen x <? n); [apply agree_refl|].
  do 3 (apply agree_bind; [apply agree_refl|]; intros ? _). apply agree_bind; [apply add_agree|]. intros n2 _.
  do 2 (apply agree_bind; [apply agree_refl|]; intros ? _).
  apply agree_bind; [apply undispatch_agree; exact K|]. intros; apply agree_refl.
Qed.

(** ** Through the file functions, with the DDS handler *)
From Verif Require Import Model.Handlers.
Lemma new_file_agree : forall W o run run' ip n op fs w, (forall out w, agree (run out w) (run' out w)) ->
  agree (@into_new_file W o run ip n op fs w) (@into_new_file W o run' ip n op fs w).
Proof.
  intros W o run run' ip n op fs w H. unfold into_new_file. destruct (create_preallocated o fs op n) as [fs1|]; [|apply agree_refl].
  destruct (negb (map_ok o op)); [apply agree_refl|]. destruct (match ip with Some p => String.eqb p op | None => false end); [apply agree_refl|].
  destruct (fs1 op); [|apply agree_refl]. apply agree_bind; [apply H|intros; apply agree_refl].
Qed.
Lemma prefix_agree : forall W run run' n out (w : W), (forall out w, agree (run out w) (run' out w)) -> agree (into_prefix run n out w) (into_prefix run' n out w).
Proof.
  intros W run run' n out w H. unfold into_prefix. destruct (zlen out <? n); [apply agree_refl|].
  apply agree_bind; [apply agree_refl|]. intros t _. apply agree_bind; [apply H|intros; apply agree_refl].
Qed.
Section FilesAgree.
Context {St Er : Type}.
Variables (show : Er -> string) (c : cfg) (v : Auto.env).
Hypothesis (K : supported c).
Let h := @dds_handler St Er show c v.
Let h' := @dds_handler St Er show (release_build c) v.
Lemma h_slice : forall x out b w, agree (transform_slice_with_bundle h x out b w) (transform_slice_with_bundle h' x out b w).
Proof. intros x out b w. unfold transform_slice_with_bundle. destruct (zlen out <? zlen x); [apply agree_refl|]. exact (dds_agree St Er show c v b x out w K). Qed.
Lemma h_unslice : forall x out w, agree (untransform_slice h x out w) (untransform_slice h' x out w).
Proof.
  intros x out w. unfold untransform_slice. destruct (zlen out <? zlen x); [apply agree_refl|]. cbn [h_untransform h h' dds_handler].
  apply agree_bind; [exact (undds_agree c v x out (proj1 K))|intros; apply agree_refl].
Qed.
Lemma h_files : forall o ip op b fs w,
  agree (transform_file_with_handler o h ip op b fs w) (transform_file_with_handler o h' ip op b fs w) /\
  agree (untransform_file_with_handler o h ip op fs w) (untransform_file_with_handler o h' ip op fs w).
Proof.
  intros o ip op b fs w. unfold transform_file_with_handler, untransform_file_with_handler.
  destruct (map_input o fs ip); [|split; apply agree_refl]. split; apply new_file_agree; intros; [apply h_slice|apply h_unslice].
Qed.
Lemma h_to_slice : forall o ip out b fs w,
  agree (transform_file_to_slice_with_handler o h ip out b fs w) (transform_file_to_slice_with_handler o h' ip out b fs w) /\
  agree (untransform_file_to_slice_with_handler o h ip out fs w) (untransform_file_to_slice_with_handler o h' ip out fs w).
Proof.
  intros o ip out b fs w. unfold transform_file_to_slice_with_handler, untransform_file_to_slice_with_handler.
  destruct (map_input o fs ip); [|split; apply agree_refl]. split; apply prefix_agree; intros; [apply h_slice|apply h_unslice].
Qed.
Lemma h_from_slice : forall o x op b fs w,
  agree (transform_slice_to_file_with_handler o h x op b fs w) (transform_slice_to_file_with_handler o h' x op b fs w) /\
  agree (untransform_slice_to_file_with_handler o h x op fs w) (untransform_slice_to_file_with_handler o h' x op fs w).
Proof.
  intros o x op b fs w. unfold transform_slice_to_file_with_handler, untransform_slice_to_file_with_handler.
  split; apply new_file_agree; intros; [apply h_slice|apply h_unslice].
Qed.
End FilesAgree.

(** ** Never undefined *)
From Verif Require Import Proofs.DdsHandler.
Lemma agree_no_ub : forall A (a b : res A), agree a b -> (forall w, b <> Ub w) -> forall w, a <> Ub w.
Proof. intros A a b [->|(y & ->)] H w; [apply H|discriminate]. Qed.
Lemma undds_safe : forall c v x out, supported c -> 2 ^ 32 - 1 <= usize_max v -> forall why, dds_untransform c v x out <> Ub why.
Proof.
  intros c v x out K U. apply (agree_no_ub _ _ _ (undds_agree c v x out (proj1 K))).
  apply untransform_safe; [exact (release_supported c K)|exact U|intros D; discriminate D].
Qed.
Lemma dds_safe : forall St Er (show : Er -> string) c v (t : bundle St Er) x out st, supported c -> 2 ^ 32 - 1 <= usize_max v ->
  forall why, dds_transform_bundle show c v t x out st <> Ub why.
Proof.
  intros St Er show c v t x out st K U. apply (agree_no_ub _ _ _ (dds_agree St Er show c v t x out st K)).
  apply transform_safe; [exact (release_supported c K)|exact U|intros D; discriminate D].
Qed.
