(** Facts about the statistics command and the benchmarks. *)
From Verif Require Import Base.Bytes Base.Res Model.Color565 Model.Ycc Model.Kernel Model.Transform Model.Auto Model.Decode Model.Normalize Model.NormTransform
  Model.Handlers Model.Inspect Model.Zstd Model.Caches Model.Stats Spec.Layout Spec.Files Spec.Caches Spec.Compressed Spec.Stats
  Proofs.SliceFacts Proofs.TransformProps Proofs.InspectFacts Proofs.InspectFiles Proofs.CachesFacts Proofs.CompressedFacts Proofs.SearchKeeps.
From Coq Require Import String ZifyBool ZifyNat.
Open Scope list_scope.
Open Scope Z_scope.

(** ** The best result *)
Section Best.
Context {S : Type}.
Variables (v : env) (default : S) (same : S -> S -> bool).

Lemma best_fold : forall (l : list (transform_result S)) z b,
  let '(z', b') := fold_left (fun '(best_size, best_result) result =>
         if t_size result <? best_size then (t_size result, result) else (best_size, best_result)) l (z, b) in
  (z' = z /\ b' = b /\ forall t, In t l -> z <= t_size t) \/
  (z' < z /\ z' = t_size b' /\ first_smallest l b').
Proof.
  induction l as [|t l IH]; intros z b; [left; split; [reflexivity|split; [reflexivity|intros t []]]|]. cbn [fold_left].
  destruct (t_size t <? z) eqn:E.
  - specialize (IH (t_size t) t). destruct (fold_left _ l _) as [z' b']. right. destruct IH as [(-> & -> & H)|(H1 & H2 & (p & q & -> & P & Q))].
    + split; [lia|]. split; [reflexivity|]. exists [], l. split; [reflexivity|]. split; [intros x []|exact H].
    + split; [lia|]. split; [exact H2|]. exists (t :: p), q. split; [reflexivity|]. split; [|exact Q].
      intros x [<-|I]; [lia|exact (P x I)].
  - specialize (IH z b). destruct (fold_left _ l _) as [z' b']. destruct IH as [(-> & -> & H)|(H1 & H2 & (p & q & -> & P & Q))].
    + left. split; [reflexivity|]. split; [reflexivity|]. intros x [<-|I]; [lia|exact (H x I)].
    + right. split; [exact H1|]. split; [exact H2|]. exists (t :: p), q. split; [reflexivity|]. split; [|exact Q].
      intros x [<-|I]; [lia|exact (P x I)].
Qed.
Theorem best_first_smallest : forall r, (exists t, In t (all_results r) /\ t_size t < usize_max v) ->
  first_smallest (all_results r) (find_best_result v default r).
Proof.
  intros r (t & I & H). unfold find_best_result. pose proof (best_fold (all_results r) (usize_max v) (TransformResult default 0)) as B.
  destruct (fold_left _ _ _) as [z b]. cbn [snd]. destruct B as [(_ & _ & B)|(_ & _ & B)]; [specialize (B t I); lia|exact B].
Qed.
Lemma smallest_le : forall (l : list (transform_result S)) b, first_smallest l b -> In b l /\ forall t, In t l -> t_size b <= t_size t.
Proof.
  intros l b (p & q & -> & P & Q). split; [apply in_or_app; right; left; reflexivity|].
  intros t I. apply in_app_or in I. destruct I as [I|[<-|I]]; [specialize (P t I); lia|lia|exact (Q t I)].
Qed.
Hypothesis same_spec : forall a b, same a b = true <-> a = b.
Theorem default_found : forall r, In default (map t_options (all_results r)) ->
  exists t, find_default_result default same r = Ok t /\ In t (all_results r) /\ t_options t = default.
Proof.
  intros r H. unfold find_default_result. apply in_map_iff in H. destruct H as (t & E & I).
  destruct (find (fun x => same (t_options x) default) (all_results r)) as [x|] eqn:F.
  - apply find_some in F. exists x. split; [reflexivity|]. split; [exact (proj1 F)|]. apply same_spec. exact (proj2 F).
  - pose proof (find_none _ _ F t I) as N. cbn beta in N. rewrite (proj2 (same_spec _ _) E) in N. discriminate.
Qed.
(** the same settings have the same size in a report *)
Definition consistent (r : stats_result S) : Prop :=
  In default (map t_options (all_results r)) /\
  exists t, In t (all_results r) /\ t_size t = t_size (api_recommended_result r) /\ t_size t < usize_max v.
Theorem totals_ordered : forall rs, (forall r, In r rs -> consistent r) ->
  exists o b d p, totals v default same rs = Ok (o, b, d, p) /\ b <= d /\ b <= p.
Proof.
  induction rs as [|r rs IH]; intros C.
  - exists 0, 0, 0, 0. split; [reflexivity|lia].
  - destruct (IH (fun x H => C x (or_intror H))) as (o & b & d & p & E & Hd & Hp). unfold totals in *. cbn [default_sizes map sum_of fold_right].
    destruct (C r (or_introl eq_refl)) as (D & t & I & Es & Lt). destruct (default_found r D) as (td & Ed & Id & _). rewrite Ed. cbn [bind].
    destruct (default_sizes default same rs) as [ds|w|w]; try discriminate. cbn [bind] in *. injection E as <- <- <- <-.
    destruct (smallest_le _ _ (best_first_smallest r (ex_intro _ t (conj I Lt)))) as (_ & B).
    do 4 eexists. split; [reflexivity|]. pose proof (B td Id). pose proof (B t I). unfold sum_of in *. cbn [fold_right]. lia.
Qed.
(** what each of the totals adds up *)
Theorem totals_sums : forall rs,
  (forall r, In r rs -> In default (map t_options (all_results r)) /\ exists t, In t (all_results r) /\ t_size t < usize_max v) ->
  exists best defaults,
    Forall2 (fun r t => first_smallest (all_results r) t) rs best /\
    Forall2 (fun r t => In t (all_results r) /\ t_options t = default) rs defaults /\
    totals v default same rs =
      Ok (fold_right Z.add 0 (map original_compressed_size rs), fold_right Z.add 0 (map t_size best), fold_right Z.add 0 (map t_size defaults),
          fold_right Z.add 0 (map (fun r => t_size (api_recommended_result r)) rs)).
Proof.
  induction rs as [|r rs IH]; intros C.
  - exists [], []. split; [constructor|]. split; [constructor|reflexivity].
  - destruct (IH (fun x H => C x (or_intror H))) as (best & defaults & Fb & Fd & E). unfold totals in *. cbn [default_sizes map sum_of fold_right].
    destruct (C r (or_introl eq_refl)) as (D & X). destruct (default_found r D) as (td & Ed & Id & Od). rewrite Ed. cbn [bind].
    destruct (default_sizes default same rs) as [ds|w|w]; try discriminate. cbn [bind] in *. injection E as E1 E2.
    exists (find_best_result v default r :: best), (td :: defaults).
    split; [constructor; [exact (best_first_smallest r X)|exact Fb]|]. split; [constructor; [exact (conj Id Od)|exact Fd]|].
    unfold sum_of in *. cbn [map fold_right]. rewrite E1, E2. reflexivity.
Qed.
End Best.

(** ** The cache is only added to *)
Definition grows (m m' : size_cache) : Prop := forall k n, cache_get m k = Some n -> cache_get m' k = Some n.
Lemma grows_refl m : grows m m.
Proof. intros k n H. exact H. Qed.
Lemma grows_trans a b c : grows a b -> grows b c -> grows a c.
Proof. intros H1 H2 k n H. exact (H2 _ _ (H1 _ _ H)). Qed.
Lemma grows_insert m k n : cache_get m k = None -> grows m (cache_insert m k n).
Proof. intros H k' n' G. rewrite get_insert. destruct (size_key_eqb k' k) eqn:E; [|exact G]. apply size_key_eqb_eq in E. subst. congruence. Qed.

Section Cache.
Context {L : Type}.
Variables (v : env) (hash : list byte -> Z) (lib : zstd_lib L) (matches : list byte -> Z).
Notation measured_all := (all_measured hash lib matches).
Definition growing (s s' : size_cache * L) : Prop := grows (fst s) (fst s') /\ (measured_all (fst s) -> measured_all (fst s')).
Lemma growing_refl s : growing s s. Proof. split; [apply grows_refl|auto]. Qed.
Lemma growing_trans x y z : growing x y -> growing y z -> growing x z.
Proof. intros [H1 M1] [H2 M2]. split; [exact (grows_trans _ _ _ H1 H2)|auto]. Qed.
Lemma growing_insert : forall level a m (s s' : L) d n e st scratch, cache_get m (hash d, level, a) = None -> create_size_estimator lib matches a level = ROk e ->
  fst (estimate_compressed_size e st d scratch) = ROk n -> growing (m, s) (cache_insert m (hash d, level, a) n, s').
Proof.
  intros level a m s s' d n e st scratch G C E. split; [apply grows_insert; exact G|]. cbn [fst]. intros M h lv al n' H. rewrite get_insert in H.
  destruct (size_key_eqb (h, lv, al) (hash d, level, a)) eqn:K; [|exact (M _ _ _ _ H)]. apply size_key_eqb_eq in K. injection K as -> -> ->. injection H as <-. eauto 8.
Qed.
Lemma growing_lib : forall m (s s' : L), growing (m, s) (m, s').
Proof. intros. split; [apply grows_refl|auto]. Qed.

Variables (level : Z) (a : algorithm).
Lemma calc_growing : forall d st r st', calc v hash lib matches level a d st = (r, st') ->
  growing st st' /\ forall n, r = ROk n -> cache_get (fst st') (hash d, level, a) = Some n.
Proof.
  intros d [m s] r st' H. unfold calc, calc_size_with_cache_and_estimation_algorithm in H. cbn [fst snd] in *.
  destruct (cache_get m (hash d, level, a)) as [n|] eqn:G.
  - injection H as <- <-. cbn [fst]. split; [apply growing_refl|]. intros n' E. injection E as <-. exact G.
  - unfold calc_size_with_estimation_algorithm in H. destruct (create_size_estimator lib matches a level) as [e|er] eqn:C;
      [|injection H as <- <-; split; [apply growing_lib|discriminate]].
    destruct (max_compressed_size e s (zlen d)) as [[z|er] s1]; [|injection H as <- <-; split; [apply growing_lib|discriminate]].
    destruct (negb (z =? 0) && negb (alloc_ok v z)) eqn:A; [injection H as <- <-; split; [apply growing_lib|discriminate]|].
    destruct (estimate_compressed_size e s1 d z) as [[n|er] s2] eqn:E; injection H as <- <-; cbn [fst]; [|split; [apply growing_lib|discriminate]].
    split; [apply (growing_insert level a m s s2 d n e s1 z G C); rewrite E; reflexivity|].
    intros n' X. injection X as <-. rewrite get_insert, size_key_eqb_refl. reflexivity.
Qed.
Lemma cached_growing : forall inner s d n, create_size_estimator lib matches a level = ROk inner ->
  growing s (snd (estimate_compressed_size (cached hash inner a level) s d n)).
Proof.
  intros inner [m s] d n C. cbn [cached estimate_compressed_size fst snd]. destruct (cache_get m (hash d, level, a)) eqn:G; [apply growing_refl|].
  destruct (estimate_compressed_size inner s d n) as [[z|er] s1] eqn:E; cbn [snd]; [|apply growing_lib].
  apply (growing_insert level a m s s1 d z inner s n G C). rewrite E. reflexivity.
Qed.
Lemma cached_growing_max : forall (inner : estimator L debug_error) s n, growing s (snd (max_compressed_size (cached hash inner a level) s n)).
Proof. intros inner [m s] n. cbn [cached max_compressed_size fst snd]. destruct (max_compressed_size inner s n). apply growing_lib. Qed.

Lemma recommend_growing : forall {S} (determine : estimator (size_cache * L) debug_error -> list byte -> size_cache * L -> res (result S debug_error * (size_cache * L))) d st r st',
  (forall e, (forall s n, growing s (snd (max_compressed_size e s n))) -> (forall s x n, growing s (snd (estimate_compressed_size e s x n))) ->
     determine e d st = Ok (r, st') -> growing st st') ->
  with_cached_estimator hash lib matches level a determine d st = Ok (r, st') -> growing st st'.
Proof.
  intros S determine d st r st' K H. unfold with_cached_estimator, cached_new in H. destruct (create_size_estimator lib matches a level) as [inner|er] eqn:C.
  - apply (K (cached hash inner a level)); [intros; apply cached_growing_max|intros; apply cached_growing; exact C|exact H].
  - injection H as _ <-. apply growing_refl.
Qed.
End Cache.

Section Determine.
Context {L : Type}.
Notation St := (size_cache * L)%type.
Variables (hash : list byte -> Z) (lib : zstd_lib L) (matches : list byte -> Z).
Notation growing := (growing hash lib matches).
Notation growing_refl := (growing_refl hash lib matches).
Notation growing_trans := (growing_trans hash lib matches).
Variables (c : cfg) (v : env) (use_all : bool) (fresh : Z -> byte) (e : estimator St debug_error).
Hypotheses (K1 : forall s n, growing s (snd (max_compressed_size e s n))) (K2 : forall s d n, growing s (snd (estimate_compressed_size e s d n))).

Lemma determine_bc1_growing : forall norm d st r st', determine_bc1 c v e use_all fresh norm d st = Ok (r, st') -> growing st st'.
Proof.
  intros norm d st r st' H. unfold determine_bc1 in H. destruct (negb (alloc_ok v (zlen d))); [injection H as _ <-; apply growing_refl|]. destruct norm.
  - destruct (transform_bc1_auto_with_normalization _ _ _ _ _ _ _ _ _ _ _) as [[[x m] s]|w|w] eqn:E; try discriminate. cbn [bind] in H. injection H as _ <-.
    exact (keeps_norm e growing growing_refl growing_trans K1 K2 _ _ _ _ _ _ _ _ _ _ _ _ _ E).
  - destruct (transform_bc1_auto_ptr _ _ _ _ _ _ _ _ _) as [[[x m] s]|w|w] eqn:E; try discriminate. cbn [bind] in H. injection H as _ <-.
    exact (keeps_bc1 e growing growing_refl growing_trans K1 K2 _ _ _ _ _ _ _ _ _ _ _ E).
Qed.
Lemma determine_bc2_growing : forall d st r st', determine_bc2 c v e use_all fresh d st = Ok (r, st') -> growing st st'.
Proof.
  intros d st r st' H. unfold determine_bc2 in H. destruct (negb (alloc_ok v (zlen d))); [injection H as _ <-; apply growing_refl|].
  destruct (transform_bc2_auto_ptr _ _ _ _ _ _ _ _ _) as [[[x m] s]|w|w] eqn:E; try discriminate. cbn [bind] in H. injection H as _ <-.
  exact (keeps_bc2 e growing growing_refl growing_trans K1 K2 _ _ _ _ _ _ _ _ _ _ _ E).
Qed.
Lemma determine_bc3_growing : forall d st r st', determine_bc3 c v e use_all fresh d st = Ok (r, st') -> growing st st'.
Proof.
  intros d st r st' H. unfold determine_bc3 in H. destruct (negb (alloc_ok v (zlen d))); [injection H as _ <-; apply growing_refl|].
  destruct (transform_bc3_auto_ptr _ _ _ _ _ _ _ _ _) as [[[x m] s]|w|w] eqn:E; try discriminate. cbn [bind] in H. injection H as _ <-.
  exact (keeps_bc3 e growing growing_refl growing_trans K1 K2 _ _ _ _ _ _ _ _ _ _ _ E).
Qed.
End Determine.

(** ** Transforming a buffer of the same length *)
Lemma grow_length : forall fresh (n : Z), 0 <= n -> zlen (grow fresh [] n) = n.
Proof.
  intros fresh n H. unfold grow, zlen. cbn [app]. rewrite map_length.
  assert (Z : forall k i, List.length (zseq i k) = k) by (induction k as [|k IH]; intros i; [reflexivity|cbn; rewrite IH; reflexivity]).
  rewrite Z. lia.
Qed.
(** [transform] writes [lay], and [untransform] takes it back *)
Definition pair_ok {S} (transform untransform : Z -> S -> mem -> res mem) (lay : S -> list byte -> list byte) (data : list byte) : Prop :=
  forall s out, zlen out = zlen data ->
    transform (zlen data) s (Mem data [] out) = Ok (Mem data [] (lay s data)) /\ zlen (lay s data) = zlen data /\
    untransform (zlen data) s (Mem (lay s data) [] out) = Ok (Mem (lay s data) [] data).

Definition lay1 (s : settings) := bc1_layout (decorrelation_mode s) (split_colour_endpoints s).
Definition lay2 (s : settings) := bc2_layout (decorrelation_mode s) (split_colour_endpoints s).
Definition lay3 (s : settings3) := bc3_layout (decorrelation_mode3 s) (split_alpha_endpoints s) (split_colour_endpoints3 s).

Lemma len_mod : forall (data : list byte) k, 0 < k -> zlen data mod k = 0 -> (List.length data mod Z.to_nat k = 0)%nat.
Proof. intros data k Hk H. unfold zlen in H. apply Nat2Z.inj. rewrite Nat2Z.inj_mod, Z2Nat.id by lia. exact H. Qed.
Lemma bc1_pair : forall c data, supported c -> zlen data mod 8 = 0 -> (c_debug c = true -> data <> []) ->
  pair_ok (fun n s => transform_bc1_with_settings c (Ptr BIn 0) (Ptr BOut 0) n s) (fun n s => untransform_bc1_with_settings c (Ptr BIn 0) (Ptr BOut 0) n s) lay1 data.
Proof.
  intros c data [K1 _] Hm HD s out LO. unfold lay1. pose proof (zlen_nonneg _ data) as P. assert (FN : List.length out = List.length data) by (unfold zlen in LO; lia).
  assert (HP : c_debug c = true -> split_colour_endpoints s = true -> 0 < zlen data).
  { intros D _. specialize (HD D). destruct data; [congruence|]. unfold zlen. cbn [List.length]. lia. }
  destruct (bc1_fam (decorrelation_mode s) (split_colour_endpoints s)) as (sht & shu & FM).
  pose proof (len_mod data 8 ltac:(lia) Hm) as Hn. change (Z.to_nat 8) with 8%nat in Hn.
  assert (LL : List.length (bc1_layout (decorrelation_mode s) (split_colour_endpoints s) data) = List.length data)
    by (apply (fam_len _ _ _ _ _ _ FM); first [exact Hn|lia]).
  pose proof (bc1_call c s data [] out 0 0 (zlen data) K1 HP Hm P ltac:(lia) ltac:(lia) ltac:(lia) ltac:(lia)) as T.
  rewrite whole_slice, whole_splice in T by congruence.
  assert (LZ : zlen (bc1_layout (decorrelation_mode s) (split_colour_endpoints s) data) = zlen data) by (unfold zlen; congruence).
  destruct (unbc1_call c s (bc1_layout (decorrelation_mode s) (split_colour_endpoints s) data) [] out 0 0 (zlen data) K1 HP Hm P
    ltac:(lia) ltac:(lia) ltac:(lia) ltac:(lia)) as (y & U & Ly & Ey).
  assert (LY : List.length y = List.length data) by (unfold zlen in Ly; lia).
  rewrite whole_splice in U by congruence. rewrite <- LZ, whole_slice in Ey.
  assert (y = data) as -> by (apply (fam_inj _ _ _ _ _ _ FM); [lia|rewrite LY; exact Hn|exact LY|exact Ey]).
  split; [exact T|]. split; [exact LZ|exact U].
Qed.
Lemma bc2_pair : forall c data, supported c -> zlen data mod 16 = 0 ->
  pair_ok (fun n s => transform_bc2_with_settings c (Ptr BIn 0) (Ptr BOut 0) n s) (fun n s => untransform_bc2_with_settings c (Ptr BIn 0) (Ptr BOut 0) n s) lay2 data.
Proof.
  intros c data [K1 K2] Hm s out LO. unfold lay2. pose proof (zlen_nonneg _ data) as P. assert (FN : List.length out = List.length data) by (unfold zlen in LO; lia).
  destruct (bc2_fam (decorrelation_mode s) (split_colour_endpoints s)) as (sht & shu & FM).
  pose proof (len_mod data 16 ltac:(lia) Hm) as Hn. change (Z.to_nat 16) with 16%nat in Hn.
  assert (LL : List.length (bc2_layout (decorrelation_mode s) (split_colour_endpoints s) data) = List.length data)
    by (apply (fam_len _ _ _ _ _ _ FM); first [exact Hn|lia]).
  pose proof (bc2_call c s data [] out 0 0 (zlen data) K1 K2 Hm P ltac:(lia) ltac:(lia) ltac:(lia) ltac:(lia)) as T.
  rewrite whole_slice, whole_splice in T by congruence.
  assert (LZ : zlen (bc2_layout (decorrelation_mode s) (split_colour_endpoints s) data) = zlen data) by (unfold zlen; congruence).
  destruct (unbc2_call c s (bc2_layout (decorrelation_mode s) (split_colour_endpoints s) data) [] out 0 0 (zlen data) K1 Hm P
    ltac:(lia) ltac:(lia) ltac:(lia) ltac:(lia)) as (y & U & Ly & Ey).
  assert (LY : List.length y = List.length data) by (unfold zlen in Ly; lia).
  rewrite whole_splice in U by congruence. rewrite <- LZ, whole_slice in Ey.
  assert (y = data) as -> by (apply (fam_inj _ _ _ _ _ _ FM); [lia|rewrite LY; exact Hn|exact LY|exact Ey]).
  split; [exact T|]. split; [exact LZ|exact U].
Qed.
Lemma bc3_pair : forall c data, supported c -> zlen data mod 16 = 0 -> (c_debug c = true -> data <> []) ->
  pair_ok (fun n s => transform_bc3_with_settings c (Ptr BIn 0) (Ptr BOut 0) n s) (fun n s => untransform_bc3_with_settings c (Ptr BIn 0) (Ptr BOut 0) n s) lay3 data.
Proof.
  intros c data [K1 _] Hm HD s out LO. unfold lay3. pose proof (zlen_nonneg _ data) as P. assert (FN : List.length out = List.length data) by (unfold zlen in LO; lia).
  assert (HP : c_debug c = true -> split_alpha_endpoints s = true -> 0 < zlen data).
  { intros D _. specialize (HD D). destruct data; [congruence|]. unfold zlen. cbn [List.length]. lia. }
  destruct (bc3_fam (decorrelation_mode3 s) (split_alpha_endpoints s) (split_colour_endpoints3 s)) as (sht & shu & FM).
  pose proof (len_mod data 16 ltac:(lia) Hm) as Hn. change (Z.to_nat 16) with 16%nat in Hn.
  assert (LL : List.length (bc3_layout (decorrelation_mode3 s) (split_alpha_endpoints s) (split_colour_endpoints3 s) data) = List.length data)
    by (apply (fam_len _ _ _ _ _ _ FM); first [exact Hn|lia]).
  pose proof (bc3_call c s data [] out 0 0 (zlen data) K1 HP Hm P ltac:(lia) ltac:(lia) ltac:(lia) ltac:(lia)) as T.
  rewrite whole_slice, whole_splice in T by congruence.
  assert (LZ : zlen (bc3_layout (decorrelation_mode3 s) (split_alpha_endpoints s) (split_colour_endpoints3 s) data) = zlen data) by (unfold zlen; congruence).
  destruct (unbc3_call c s (bc3_layout (decorrelation_mode3 s) (split_alpha_endpoints s) (split_colour_endpoints3 s) data) [] out 0 0 (zlen data) K1 HP Hm P
    ltac:(lia) ltac:(lia) ltac:(lia) ltac:(lia)) as (y & U & Ly & Ey).
  assert (LY : List.length y = List.length data) by (unfold zlen in Ly; lia).
  rewrite whole_splice in U by congruence. rewrite <- LZ, whole_slice in Ey.
  assert (y = data) as -> by (apply (fam_inj _ _ _ _ _ _ FM); [lia|rewrite LY; exact Hn|exact LY|exact Ey]).
  split; [exact T|]. split; [exact LZ|exact U].
Qed.

(** ** Reports *)
Section Reports.
Context {S L : Type}.
Variables (v : env) (hash : list byte -> Z) (lib : zstd_lib L) (matches : list byte -> Z) (fresh : Z -> byte) (level : Z) (a : algorithm).
Variables (transform untransform : Z -> S -> mem -> res mem) (lay : S -> list byte -> list byte) (data : list byte).
Hypothesis T : pair_ok transform untransform lay data.
Notation looked m := (fun d n => cache_get m (hash d, level, a) = Some n).

Notation growing := (growing hash lib matches).
Notation growing_refl := (growing_refl hash lib matches).
Notation growing_trans := (growing_trans hash lib matches).
Lemma loop_reports : forall l out st rs st', zlen out = zlen data ->
  analyze_loop v hash lib matches transform level a l data out st = Ok (ROk rs, st') ->
  growing st st' /\ map t_options rs = l /\ forall t, In t rs -> looked (fst st') (lay (t_options t) data) (t_size t).
Proof.
  induction l as [|s l IH]; intros out st rs st' LO H; cbn [analyze_loop] in H.
  - injection H as <- <-. split; [apply growing_refl|]. split; [reflexivity|]. intros t [].
  - destruct (T s out LO) as (E & LL & _). rewrite E in H. cbn [bind m_out] in H.
    destruct (calc v hash lib matches level a (lay s data) st) as [[n|er] st1] eqn:C; [|discriminate].
    destruct (calc_growing _ _ _ _ _ _ _ _ _ _ C) as (G1 & N).
    destruct (analyze_loop _ _ _ _ _ _ _ l data (lay s data) st1) as [[[rs1|er] st2]|w|w] eqn:A; try discriminate. cbn [bind] in H. injection H as <- <-.
    destruct (IH _ _ _ _ LL A) as (G2 & M & N2). split; [exact (growing_trans _ _ _ G1 G2)|]. split; [cbn [map t_options]; rewrite M; reflexivity|].
    intros t [<-|I]; [cbn [t_options t_size]; exact (proj1 G2 _ _ (N n eq_refl))|exact (N2 t I)].
Qed.

Variables (all : list S) (recommend : list byte -> size_cache * L -> res (result S debug_error * (size_cache * L))).
Hypothesis GR : forall st r st', recommend data st = Ok (r, st') -> growing st st'.

Theorem analyze_reports : forall st r st', analyze v hash lib matches fresh transform all level a recommend data st = Ok (ROk r, st') ->
  (exists api st1 st2, recommend data st1 = Ok (ROk api, st2) /\ reports (looked (fst st')) lay all api data r) /\ growing st st'.
Proof.
  intros st r st' H. unfold analyze, analyze_transforms in H. destruct (negb (alloc_ok v (zlen data))); [discriminate|].
  pose proof (grow_length fresh (zlen data) (zlen_nonneg _ data)) as LO.
  destruct (analyze_loop _ _ _ _ _ _ _ _ _ _ _) as [[[rs|er] st1]|w|w] eqn:A; try discriminate. cbn [bind] in H.
  destruct (loop_reports _ _ _ _ _ LO A) as (G1 & M & N1).
  destruct (calc v hash lib matches level a data st1) as [[o|er] st2] eqn:C; [|discriminate]. destruct (calc_growing _ _ _ _ _ _ _ _ _ _ C) as (G2 & N2).
  unfold analyze_api_recommendation in H. destruct (recommend data st2) as [[[api|er] st3]|w|w] eqn:R; try discriminate. cbn [bind] in H.
  pose proof (GR _ _ _ R) as G3. destruct (negb (alloc_ok v (zlen data))); [discriminate|].
  destruct (T api _ LO) as (E & _). rewrite E in H. cbn [bind m_out] in H.
  destruct (calc v hash lib matches level a (lay api data) st3) as [[n|er] st4] eqn:C2; [|discriminate]. destruct (calc_growing _ _ _ _ _ _ _ _ _ _ C2) as (G4 & N3).
  injection H as <- <-. assert (G : growing st2 st4) by exact (growing_trans _ _ _ G3 G4).
  split; [|exact (growing_trans _ _ _ G1 (growing_trans _ _ _ G2 G))]. exists api, st2, st3. split; [exact R|].
  unfold reports. cbn [original_uncompressed_size original_compressed_size all_results api_recommended_result t_options t_size].
  split; [reflexivity|]. split; [exact (proj1 G _ _ (N2 o eq_refl))|]. split; [exact M|]. split; [intros t I; exact (proj1 G _ _ (proj1 G2 _ _ (N1 t I)))|].
  split; [reflexivity|]. exact (N3 n eq_refl).
Qed.
End Reports.

(** What follows from a report. *)
Section Follows.
Context {S : Type}.
Variables (v : env) (default : S) (same : S -> S -> bool) (hash : list byte -> Z) (level : Z) (a : algorithm) (m : size_cache).
Variables (lay : S -> list byte -> list byte) (all : list S) (api : S) (data : list byte) (r : stats_result S).
Hypotheses (same_spec : forall x y, same x y = true <-> x = y) (ALL : forall s, In s all).
Hypothesis R : reports (fun d n => cache_get m (hash d, level, a) = Some n) lay all api data r.

Theorem report_follows :
  (exists t, In t (all_results r) /\ t = api_recommended_result r) /\
  (exists t, find_default_result default same r = Ok t /\ In t (all_results r) /\ t_options t = default) /\
  ((exists t, In t (all_results r) /\ t_size t < usize_max v) -> first_smallest (all_results r) (find_best_result v default r)).
Proof.
  destruct R as (_ & _ & M & N & E & N2). split; [|split].
  - assert (I : In api (map t_options (all_results r))) by (rewrite M; apply ALL). apply in_map_iff in I. destruct I as (t & Et & I).
    exists t. split; [exact I|]. specialize (N t I). rewrite Et in N. rewrite N in N2. injection N2 as N2.
    destruct t as [o z], (api_recommended_result r) as [o2 z2]. cbn [t_options t_size] in *. congruence.
  - apply default_found; [exact same_spec|]. rewrite M. apply ALL.
  - exact (best_first_smallest v default same r).
Qed.
End Follows.

(** ** Benchmarks *)
Section Benchmark.
Context {S L : Type}.
Variables (y : zstd_codec L) (frame : parameters -> list byte -> list byte).
Hypothesis B : behaves y frame.
Variables (v : env) (hash : list byte -> Z) (fresh : Z -> byte).
Variables (transform untransform : Z -> S -> mem -> res mem) (lay : S -> list byte -> list byte) (data : list byte).
Hypothesis T : pair_ok transform untransform lay data.
Variables (iterations warmups : nat) (level : Z) (dry_run : bool).
Hypothesis IT : (0 < iterations)%nat.

Lemma decompress_frame : forall ps d out st, ps ZFormat = 1 -> zlen d = zlen out ->
  exists st', decompress_with_algorithm y (frame ps d) out ZStandard st = Ok (ROk (zlen d), d, st').
Proof.
  intros ps d out st F H. destruct (raw_decompress_frame y frame B ps d (zlen out) st F ltac:(lia)) as (st' & E).
  exists st'. unfold decompress_with_algorithm. rewrite E. rewrite skipn_all2 by (unfold zlen in H; lia). rewrite app_nil_r. reflexivity.
Qed.
Lemma warmup_ok : forall n s ps dec fin st, ps ZFormat = 1 -> zlen dec = zlen data -> zlen fin = zlen data ->
  exists dec' fin' st', warmup y untransform ZStandard n (frame ps (lay s data)) (zlen data) s dec fin st = Ok (ROk (dec', fin'), st') /\
    zlen dec' = zlen data /\ zlen fin' = zlen data.
Proof.
  induction n as [|n IH]; intros s ps dec fin st F H1 H2; cbn [warmup]; [do 3 eexists; split; [reflexivity|auto]|].
  destruct (T s fin H2) as (_ & LL & U). destruct (decompress_frame ps (lay s data) dec st F ltac:(lia)) as (st1 & E). rewrite E. cbn [bind].
  rewrite U. cbn [bind m_out]. apply IH; auto.
Qed.
Lemma bench_decompress_ok : forall n d ps dec st, ps ZFormat = 1 -> zlen dec = zlen d ->
  exists dec' st', bench_decompress y ZStandard n (frame ps d) dec st = Ok (dec', st') /\ dec' = match n with O => dec | _ => d end.
Proof.
  induction n as [|n IH]; intros d ps dec st F H; cbn [bench_decompress]; [do 2 eexists; split; reflexivity|].
  destruct (decompress_frame ps d dec st F ltac:(lia)) as (st1 & E). rewrite E. cbn [bind].
  destruct (IH d ps d st1 F eq_refl) as (dec' & st' & E' & D). exists dec', st'. split; [exact E'|]. rewrite D. destruct n; reflexivity.
Qed.
Lemma bench_untransform_ok : forall n s fin, zlen fin = zlen data ->
  bench_untransform untransform n (zlen data) s (lay s data) fin = Ok (match n with O => fin | _ => data end).
Proof.
  induction n as [|n IH]; intros s fin H; cbn [bench_untransform]; [reflexivity|].
  destruct (T s fin H) as (_ & _ & U). rewrite U. cbn [bind m_out]. rewrite IH by reflexivity. destruct n; reflexivity.
Qed.
Lemma warmup_untransformed_ok : forall n ps dec st, ps ZFormat = 1 -> zlen dec = zlen data ->
  exists dec' st', warmup_untransformed y ZStandard n (frame ps data) dec st = Ok (ROk dec', st') /\ zlen dec' = zlen data.
Proof.
  induction n as [|n IH]; intros ps dec st F H; cbn [warmup_untransformed]; [do 2 eexists; split; [reflexivity|exact H]|].
  destruct (decompress_frame ps data dec st F ltac:(lia)) as (st1 & E). rewrite E. cbn [bind]. apply IH; auto.
Qed.
Lemma average_ok : average iterations = Ok tt.
Proof. unfold average. destruct iterations; [lia|reflexivity]. Qed.

Lemma one_use_total : forall reads fate d sizes dc st, exists r, compress_data_cached y hash reads fate d level ZStandard sizes dc st = Ok r.
Proof.
  intros reads fate d sizes dc st. unfold compress_data_cached, load_compressed_data. destruct (dc _); [destruct reads; eexists; reflexivity|].
  cbn [compress_with_algorithm bind]. unfold compress_with_algorithm. cbn [bind].
  repeat match goal with |- context [match ?x with _ => _ end] => destruct x; cbn [bind] end; eexists; reflexivity.
Qed.

Variable ds : list (list byte).
Hypothesis COL : no_collision hash ds.
Notation expected := (if dry_run then None else Some data).


Lemma compressed_ok : forall reads fate d sizes dc st, (forall n, fate <> StopsAfter n) -> In d ds -> genuine frame hash ds dc ->
  exists r sizes' dc' st', compress_data_cached y hash reads fate d level ZStandard sizes dc st = Ok (r, (sizes', dc', st')) /\ genuine frame hash ds dc' /\
    forall buf n, r = ROk (buf, n) -> exists ps, ps ZFormat = 1 /\ firstn (Z.to_nat n) buf = frame ps d.
Proof.
  intros reads fate d sizes dc st NC I G. destruct (one_use_total reads fate d sizes dc st) as ([r [[s1 c1] st1]] & E).
  destruct (one_use_genuine y frame B hash ds (Use d level ZStandard reads fate st) sizes dc r s1 c1 st1 G I NC COL E) as (G' & K).
  exists r, s1, c1, st1. split; [exact E|]. split; [exact G'|]. intros buf n H. destruct (K buf n H) as (ps & F & Ef & _). eauto.
Qed.
Lemma scenario_ok : forall reads fate s sizes dc st, (forall n, fate <> StopsAfter n) -> In (lay s data) ds -> genuine frame hash ds dc ->
  exists r sizes' dc' st', process_scenario v y hash fresh transform untransform iterations warmups level ZStandard dry_run reads fate data s sizes dc st
    = Ok (r, (sizes', dc', st')) /\ genuine frame hash ds dc' /\ forall o, r = ROk o -> o = expected.
Proof.
  intros reads fate s sizes dc st NC I G. unfold process_scenario. cbv zeta.
  destruct (negb (alloc_ok v (zlen data))); [do 4 eexists; split; [reflexivity|split; [exact G|discriminate]]|].
  pose proof (grow_length fresh (zlen data) (zlen_nonneg _ data)) as LO. destruct (T s _ LO) as (E & LL & _). rewrite E. cbn [bind m_out].
  destruct (compressed_ok reads fate (lay s data) sizes dc st NC I G) as (r & s1 & c1 & st1 & C & G' & K). rewrite C. cbn [bind].
  destruct r as [[buf n]|er]; [|do 4 eexists; split; [reflexivity|split; [exact G'|discriminate]]].
  destruct (K buf n eq_refl) as (ps & F & Ef). rewrite Ef.
  destruct dry_run; [do 4 eexists; split; [reflexivity|split; [exact G'|intros o H; injection H as <-; reflexivity]]|].
  destruct (warmup_ok warmups s ps _ _ st1 F LO LO) as (dec & fin & st2 & W & H1 & H2). rewrite W. cbn [bind].
  destruct (bench_decompress_ok iterations (lay s data) ps dec st2 F ltac:(lia)) as (dec' & st3 & D & Ed). rewrite D. cbn [bind].
  assert (dec' = lay s data) as -> by (rewrite Ed; destruct iterations; [lia|reflexivity]).
  rewrite (bench_untransform_ok iterations s fin H2). cbn [bind]. rewrite average_ok. cbn [bind].
  do 4 eexists. split; [reflexivity|]. split; [exact G'|]. intros o H. injection H as <-. destruct iterations; [lia|reflexivity].
Qed.
Lemma untransformed_ok : forall reads fate sizes dc st, (forall n, fate <> StopsAfter n) -> In data ds -> genuine frame hash ds dc ->
  exists r sizes' dc' st', process_untransformed_scenario v y hash fresh iterations warmups level ZStandard dry_run reads fate data sizes dc st
    = Ok (r, (sizes', dc', st')) /\ genuine frame hash ds dc' /\ forall o, r = ROk o -> o = expected.
Proof.
  intros reads fate sizes dc st NC I G. unfold process_untransformed_scenario.
  destruct (compressed_ok reads fate data sizes dc st NC I G) as (r & s1 & c1 & st1 & C & G' & K). rewrite C. cbn [bind].
  destruct r as [[buf n]|er]; [|do 4 eexists; split; [reflexivity|split; [exact G'|discriminate]]].
  destruct (K buf n eq_refl) as (ps & F & Ef). rewrite Ef.
  destruct dry_run; [do 4 eexists; split; [reflexivity|split; [exact G'|intros o H; injection H as <-; reflexivity]]|].
  destruct (negb (alloc_ok v (zlen data))); [do 4 eexists; split; [reflexivity|split; [exact G'|discriminate]]|].
  pose proof (grow_length fresh (zlen data) (zlen_nonneg _ data)) as LO.
  destruct (warmup_untransformed_ok warmups ps _ st1 F LO) as (dec & st2 & W & H1). cbv zeta. rewrite W. cbn [bind].
  destruct (bench_decompress_ok iterations data ps dec st2 F ltac:(lia)) as (dec' & st3 & D & Ed). rewrite D. cbn [bind].
  rewrite average_ok. cbn [bind]. do 4 eexists. split; [reflexivity|]. split; [exact G'|]. intros o H. injection H as <-. rewrite Ed. destruct iterations; [lia|reflexivity].
Qed.
Lemma scenarios_ok : forall l sizes dc st, (forall s reads fate, In (s, (reads, fate)) l -> (forall n, fate <> StopsAfter n) /\ In (lay s data) ds) ->
  genuine frame hash ds dc ->
  exists r sizes' dc' st', process_scenarios v y hash fresh transform untransform iterations warmups level ZStandard dry_run l data sizes dc st
    = Ok (r, (sizes', dc', st')) /\ genuine frame hash ds dc' /\ forall os, r = ROk os -> os = repeat expected (List.length l).
Proof.
  induction l as [|[s [reads fate]] l IH]; intros sizes dc st H G; cbn [process_scenarios].
  - do 4 eexists. split; [reflexivity|]. split; [exact G|]. intros os E. injection E as <-. reflexivity.
  - destruct (H s reads fate (or_introl eq_refl)) as (NC & I).
    destruct (scenario_ok reads fate s sizes dc st NC I G) as (r & s1 & c1 & st1 & E & G1 & K). rewrite E. cbn [bind].
    destruct r as [o|er]; [|do 4 eexists; split; [reflexivity|split; [exact G1|discriminate]]].
    destruct (IH s1 c1 st1 (fun s r f J => H s r f (or_intror J)) G1) as (r & s2 & c2 & st2 & E2 & G2 & K2). rewrite E2. cbn [bind].
    do 4 eexists. split; [reflexivity|]. split; [exact G2|]. intros os X. destruct r as [os1|er]; [|discriminate]. injection X as <-.
    rewrite (K o eq_refl), (K2 os1 eq_refl). reflexivity.
Qed.
End Benchmark.

Theorem benchmark_genuine : forall {S L} (y : zstd_codec L) frame v hash fresh (transform untransform : Z -> S -> mem -> res mem) lay data
    (iterations warmups : nat) level (dry_run : bool) recommend fixed fates last ds c sizes0 st best sizes1 st1,
  behaves y frame -> pair_ok transform untransform lay data -> (0 < iterations)%nat ->
  genuine frame hash ds c ->
  List.length fates = Datatypes.S (List.length fixed) -> (forall f n, In f (last :: fates) -> snd f <> StopsAfter n) ->
  recommend data (sizes0, st) = Ok (ROk best, (sizes1, st1)) ->
  no_collision hash ds -> (forall d, In d (data :: map (fun s => lay s data) (best :: fixed)) -> In d ds) ->
  exists r sizes2 c2 st2, benchmark_blocks v y hash fresh transform untransform iterations warmups level ZStandard dry_run recommend fixed fates last data sizes0 c st
    = Ok (r, (sizes2, c2, st2)) /\ genuine frame hash ds c2 /\
  forall os, r = ROk os -> os = repeat (if dry_run then None else Some data) (List.length fixed + 2).
Proof.
  intros S L y frame v hash fresh transform untransform lay data iterations warmups level dry_run recommend fixed fates last ds c sizes0 st best sizes1 st1
    B T IT G LF NF RC COL IN.
  unfold benchmark_blocks. rewrite RC. cbn [bind].
  destruct (scenarios_ok y frame B v hash fresh transform untransform lay data T iterations warmups level dry_run IT ds COL (combine (best :: fixed) fates) sizes1 c st1)
    as (r & s2 & c2 & st2 & E & G2 & K); [|exact G|].
  { intros s reads fate I. split; [intros n; exact (NF (reads, fate) n (or_intror (in_combine_r _ _ _ _ I)))|].
    apply IN. right. apply in_map_iff. exists s. split; [reflexivity|exact (in_combine_l _ _ _ _ I)]. }
  rewrite E. cbn [bind]. destruct r as [os|er]; [|do 4 eexists; split; [reflexivity|split; [exact G2|discriminate]]].
  destruct (untransformed_ok y frame B v hash fresh data iterations warmups level dry_run IT ds COL (fst last) (snd last) s2 c2 st2)
    as (r & s3 & c3 & st3 & E3 & G3 & K3); [intros n; exact (NF last n (or_introl eq_refl))|apply IN; left; reflexivity|exact G2|].
  rewrite E3. cbn [bind]. do 4 eexists. split; [reflexivity|]. split; [exact G3|]. intros os' X. destruct r as [o|er]; [|discriminate]. injection X as <-.
  rewrite (K os eq_refl), (K3 o eq_refl). rewrite combine_length, LF. cbn [List.length]. rewrite Nat.min_id.
  replace (List.length fixed + 2)%nat with (Datatypes.S (List.length fixed) + 1)%nat by lia. rewrite repeat_app. reflexivity.
Qed.
Theorem benchmark_restores : forall {S L} (y : zstd_codec L) frame v hash fresh (transform untransform : Z -> S -> mem -> res mem) lay data
    (iterations warmups : nat) level (dry_run : bool) recommend fixed fates last us sizes c sizes0 st best sizes1 st1,
  behaves y frame -> pair_ok transform untransform lay data -> (0 < iterations)%nat ->
  (forall u, In u us -> not_cut u) -> uses y hash us [] no_files = (sizes, c) ->
  List.length fates = Datatypes.S (List.length fixed) -> (forall f n, In f (last :: fates) -> snd f <> StopsAfter n) ->
  recommend data (sizes0, st) = Ok (ROk best, (sizes1, st1)) ->
  no_collision hash (map u_data us ++ data :: map (fun s => lay s data) (best :: fixed)) ->
  exists r after, benchmark_blocks v y hash fresh transform untransform iterations warmups level ZStandard dry_run recommend fixed fates last data sizes0 c st
    = Ok (r, after) /\
  forall os, r = ROk os -> os = repeat (if dry_run then None else Some data) (List.length fixed + 2).
Proof.
  intros S L y frame v hash fresh transform untransform lay data iterations warmups level dry_run recommend fixed fates last us sizes c sizes0 st best sizes1 st1
    B T IT NC U LF NF RC COL.
  set (ds := map u_data us ++ data :: map (fun s => lay s data) (best :: fixed)) in *.
  assert (G : genuine frame hash ds c).
  { replace c with (snd (uses y hash us [] no_files)) by (rewrite U; reflexivity). apply (uses_genuine y frame B hash ds us [] no_files); [intros n b E; discriminate| |exact COL].
    intros u I. split; [apply in_or_app; left; apply in_map; exact I|exact (NC u I)]. }
  destruct (benchmark_genuine y frame v hash fresh transform untransform lay data iterations warmups level dry_run recommend fixed fates last ds c sizes0 st best sizes1 st1
    B T IT G LF NF RC COL (fun d I => in_or_app _ _ _ (or_intror I))) as (r & s2 & c2 & st2 & E & _ & K).
  do 2 eexists. split; [exact E|exact K].
Qed.


(** The reports of the three commands. *)
Lemma settings_eqb_spec : forall x y, settings_eqb x y = true <-> x = y.
Proof.
  intros [v1 s1] [v2 s2]. unfold settings_eqb. cbn. rewrite Bool.andb_true_iff. split.
  - intros [A B]. apply Bool.eqb_prop in B. subst. destruct v1, v2; try discriminate; reflexivity.
  - intros E. injection E as -> ->. split; [destruct v2; reflexivity|apply Bool.eqb_reflx].
Qed.
Lemma settings3_eqb_spec : forall x y, settings3_eqb x y = true <-> x = y.
Proof.
  intros [v1 a1 s1] [v2 a2 s2]. unfold settings3_eqb. cbn. rewrite !Bool.andb_true_iff. split.
  - intros [[A C] B]. apply Bool.eqb_prop in B, C. subst. destruct v1, v2; try discriminate; reflexivity.
  - intros E. injection E as -> -> ->. split; [split; [destruct v2; reflexivity|apply Bool.eqb_reflx]|apply Bool.eqb_reflx].
Qed.

Section Three.
Context {L : Type}.
Variables (c : cfg) (v : env) (hash : list byte -> Z) (lib : zstd_lib L) (matches : list byte -> Z) (fresh : Z -> byte).
Variables (level : Z) (a : algorithm) (elevel : Z) (ea : algorithm) (normalize use_all : bool).
Variables (data : list byte) (m : size_cache) (st : L) (m' : size_cache) (st' : L).
Hypothesis K : supported c.

Definition good_report {S} (default : S) (same : S -> S -> bool) (r : stats_result S) : Prop :=
  In (api_recommended_result r) (all_results r) /\
  (exists t, find_default_result default same r = Ok t /\ In t (all_results r) /\ t_options t = default) /\
  ((exists t, In t (all_results r) /\ t_size t < usize_max v) -> first_smallest (all_results r) (find_best_result v default r)).
Lemma good_follows : forall {S} (default : S) same lay all api r, (forall x y, same x y = true <-> x = y) -> (forall s, In s all) ->
  reports (fun d n => cache_get m' (hash d, level, a) = Some n) lay all api data r -> good_report default same r.
Proof.
  intros S default same lay all api r E A R. destruct (report_follows v default same hash level a m' lay all api data r E A R) as ((t & I & ->) & D & F).
  split; [exact I|]. split; [exact D|exact F].
Qed.

Theorem bc1_reports : forall r, zlen data mod 8 = 0 -> (c_debug c = true -> data <> []) ->
  analyze_bc1 c v hash lib matches fresh level a elevel ea normalize use_all data (m, st) = Ok (ROk r, (m', st')) ->
  (exists api s1 s2,
     with_cached_estimator hash lib matches elevel ea (fun e => determine_bc1 c v e use_all fresh normalize) data s1 = Ok (ROk api, s2) /\
     reports (fun d n => cache_get m' (hash d, level, a) = Some n) lay1 all_settings api data r) /\
  good_report default_settings settings_eqb r /\ (all_measured hash lib matches m -> all_measured hash lib matches m').
Proof.
  intros r Hm HD H. unfold analyze_bc1 in H.
  assert (GR : forall s x s', with_cached_estimator hash lib matches elevel ea (fun e => determine_bc1 c v e use_all fresh normalize) data s = Ok (x, s') ->
    growing hash lib matches s s').
  { intros s x s'. apply recommend_growing. intros e K1 K2. exact (determine_bc1_growing hash lib matches c v use_all fresh e K1 K2 normalize data s x s'). }
  destruct (analyze_reports v hash lib matches fresh level a _ _ lay1 data (bc1_pair c data K Hm HD) all_settings _ GR _ _ _ H) as ((api & s1 & s2 & E & R) & _ & M).
  cbn [fst] in *. split; [exists api, s1, s2; split; [exact E|exact R]|]. split; [|exact M].
  exact (good_follows _ _ _ _ _ _ settings_eqb_spec all_settings_in R).
Qed.
Theorem bc2_reports : forall r, zlen data mod 16 = 0 ->
  analyze_bc2 c v hash lib matches fresh level a elevel ea use_all data (m, st) = Ok (ROk r, (m', st')) ->
  (exists api s1 s2,
     with_cached_estimator hash lib matches elevel ea (fun e => determine_bc2 c v e use_all fresh) data s1 = Ok (ROk api, s2) /\
     reports (fun d n => cache_get m' (hash d, level, a) = Some n) lay2 all_settings api data r) /\
  good_report default_settings settings_eqb r /\ (all_measured hash lib matches m -> all_measured hash lib matches m').
Proof.
  intros r Hm H. unfold analyze_bc2 in H.
  assert (GR : forall s x s', with_cached_estimator hash lib matches elevel ea (fun e => determine_bc2 c v e use_all fresh) data s = Ok (x, s') ->
    growing hash lib matches s s').
  { intros s x s'. apply recommend_growing. intros e K1 K2. exact (determine_bc2_growing hash lib matches c v use_all fresh e K1 K2 data s x s'). }
  destruct (analyze_reports v hash lib matches fresh level a _ _ lay2 data (bc2_pair c data K Hm) all_settings _ GR _ _ _ H) as ((api & s1 & s2 & E & R) & _ & M).
  cbn [fst] in *. split; [exists api, s1, s2; split; [exact E|exact R]|]. split; [|exact M].
  exact (good_follows _ _ _ _ _ _ settings_eqb_spec all_settings_in R).
Qed.
Theorem bc3_reports : forall r, zlen data mod 16 = 0 -> (c_debug c = true -> data <> []) ->
  analyze_bc3 c v hash lib matches fresh level a elevel ea use_all data (m, st) = Ok (ROk r, (m', st')) ->
  (exists api s1 s2,
     with_cached_estimator hash lib matches elevel ea (fun e => determine_bc3 c v e use_all fresh) data s1 = Ok (ROk api, s2) /\
     reports (fun d n => cache_get m' (hash d, level, a) = Some n) lay3 all_settings3 api data r) /\
  good_report default_settings3 settings3_eqb r /\ (all_measured hash lib matches m -> all_measured hash lib matches m').
Proof.
  intros r Hm HD H. unfold analyze_bc3 in H.
  assert (GR : forall s x s', with_cached_estimator hash lib matches elevel ea (fun e => determine_bc3 c v e use_all fresh) data s = Ok (x, s') ->
    growing hash lib matches s s').
  { intros s x s'. apply recommend_growing. intros e K1 K2. exact (determine_bc3_growing hash lib matches c v use_all fresh e K1 K2 data s x s'). }
  destruct (analyze_reports v hash lib matches fresh level a _ _ lay3 data (bc3_pair c data K Hm HD) all_settings3 _ GR _ _ _ H) as ((api & s1 & s2 & E & R) & _ & M).
  cbn [fst] in *. split; [exists api, s1, s2; split; [exact E|exact R]|]. split; [|exact M].
  exact (good_follows _ _ _ _ _ _ settings3_eqb_spec all_settings3_in R).
Qed.
End Three.

(** Without iterations there is no average. *)
Theorem no_iterations : forall {S L} (y : zstd_codec L) v hash fresh (transform untransform : Z -> S -> mem -> res mem) data warmups level a reads fate s sizes dc st o rest,
  process_scenario v y hash fresh transform untransform 0 warmups level a false reads fate data s sizes dc st <> Ok (ROk o, rest).
Proof.
  intros S L y v hash fresh transform untransform data warmups level a reads fate s sizes dc st o rest H. unfold process_scenario in H. cbv zeta in H.
  destruct (negb (alloc_ok v (zlen data))); [discriminate|]. destruct (transform (zlen data) s _) as [m|w|w]; try discriminate. cbn [bind] in H.
  destruct (compress_data_cached _ _ _ _ _ _ _ _ _ _) as [[[[buf n]|er] [[s1 c1] st1]]|w|w]; try discriminate. cbn [bind] in H.
  destruct (warmup _ _ _ _ _ _ _ _ _ _) as [[[[dec fin]|er] st2]|w|w]; try discriminate.
Qed.
