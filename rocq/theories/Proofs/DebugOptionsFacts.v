(** Facts about the options of the debug commands, and what follows from them. *)
From Verif Require Import Base.Bytes Base.Res Model.Color565 Model.Ycc Model.Kernel Model.Transform Model.Auto Model.Decode Model.Normalize Model.NormTransform
  Model.Handlers Model.Inspect Model.Cli Model.Ltu Model.Zstd Model.Caches Model.Stats Spec.Layout Spec.Files Spec.Cli Spec.Zstd Spec.DebugOptions
  Proofs.CliFacts Proofs.CachesFacts Proofs.StatsFacts Proofs.AutoProps.
From Coq Require Import String ZifyBool ZifyNat.
Open Scope string_scope.
Open Scope list_scope.
Open Scope Z_scope.

Lemma algorithm_names : forall s a,
  algorithm_from_str s = ROk a <->
  In (lower s, a) [("zstd", ZStandard); ("zstandard", ZStandard); ("ltu", LosslessTransformUtils); ("lossless-transform-utils", LosslessTransformUtils)].
Proof.
  intros s a. rewrite <- to_lowercase_lower. unfold algorithm_from_str. generalize (to_lowercase s). clear s. intros s. split.
  - intros H. repeat match type of H with
      | (match ?x with EmptyString => _ | String _ _ => _ end) = _ => destruct x; try discriminate H
      | (match ?x with Ascii.Ascii _ _ _ _ _ _ _ _ => _ end) = _ => destruct x; try discriminate H
      | (match ?x with true => _ | false => _ end) = _ => destruct x; try discriminate H
      end; injection H as <-; cbn [In]; tauto.
  - intros [E|[E|[E|[E|[]]]]]; injection E as <- <-; reflexivity.
Qed.

Lemma refuses_iff : forall a, validate_compression_algorithm a <> ROk tt <->
  forall (L : Type) (y : zstd_codec L) data level out st,
    (exists why, compress_with_algorithm y data a level st = Panic why) /\ (exists why, decompress_with_algorithm y data out a st = Panic why).
Proof.
  intros []; split.
  - intros H. exfalso. apply H. reflexivity.
  - intros H _. destruct (H unit (ZstdCodec (fun n => n) (fun s => (None, s)) (fun _ _ _ s => s) (fun _ _ _ s => (0, [], s)) (fun _ s => s)
      (fun s => (None, s)) (fun _ _ _ s => s) (fun _ _ _ s => (0, [], s)) (fun _ s => s) (fun _ => true)) [] 0 [] tt) as ((why & E) & _). discriminate E.
  - intros _ L y data level out st. split; eexists; reflexivity.
  - intros _. discriminate.
Qed.
Lemma accepted_never_panics : forall a, validate_compression_algorithm a = ROk tt ->
  forall (L : Type) (y : zstd_codec L) data level out st,
    (exists r, compress_with_algorithm y data a level st = Ok r) /\ (exists r, decompress_with_algorithm y data out a st = Ok r).
Proof. intros [] H L y data level out st; [split; eexists; reflexivity|discriminate H]. Qed.

(** ** Estimators *)

Lemma zstd_estimator : forall (L : Type) (lib : zstd_lib L) matches level,
  (1 <= level <= 22 -> exists e, create_size_estimator lib matches ZStandard level = ROk e /\
     (forall st n, hides_error (fst (max_compressed_size (zstd lib level) st n)) (fst (max_compressed_size e st n)) /\
        snd (max_compressed_size e st n) = snd (max_compressed_size (zstd lib level) st n)) /\
     (forall st d n, hides_error (fst (estimate_compressed_size (zstd lib level) st d n)) (fst (estimate_compressed_size e st d n)) /\
        snd (estimate_compressed_size e st d n) = snd (estimate_compressed_size (zstd lib level) st d n))) /\
  (~ 1 <= level <= 22 -> create_size_estimator lib matches ZStandard level = RErr DMessage).
Proof.
  intros L lib matches level. unfold create_size_estimator, zstd_new. destruct ((1 <=? level) && (level <=? 22)) eqn:E; cbn [negb]; split; intros H; try lia; [|reflexivity].
  eexists. split; [reflexivity|]. split.
  - intros st n. unfold with_message. cbn [max_compressed_size]. destruct (max_compressed_size (zstd lib level) st n) as [[z|x] s]; split; reflexivity.
  - intros st d n. unfold with_message. cbn [estimate_compressed_size]. destruct (estimate_compressed_size (zstd lib level) st d n) as [[z|x] s]; split; reflexivity.
Qed.
Lemma ltu_estimator : forall (L : Type) (lib : zstd_lib L) matches level,
  exists e, create_size_estimator lib matches LosslessTransformUtils level = ROk e /\
    (forall st n, hides_error (fst (max_compressed_size (ltu matches) tt n)) (fst (max_compressed_size e st n))) /\
    (forall st d n, hides_error (fst (estimate_compressed_size (ltu matches) tt d n)) (fst (estimate_compressed_size e st d n))).
Proof.
  intros L lib matches level. eexists. split; [reflexivity|]. split.
  - intros st n. unfold with_message, beside. cbn [max_compressed_size fst]. destruct (fst (max_compressed_size (ltu matches) tt n)); reflexivity.
  - intros st d n. unfold with_message, beside. cbn [estimate_compressed_size fst]. destruct (fst (estimate_compressed_size (ltu matches) tt d n)); reflexivity.
Qed.

Lemma zstd_sizes : forall (L : Type) (lib : zstd_lib L) matches v data level st, keeps_promise lib -> 1 <= level <= 22 ->
  (data = [] \/ z_compress_bound lib (zlen data) = 0 \/ alloc_ok v (z_compress_bound lib (zlen data)) = true) ->
  exists n st', calc_size_with_estimation_algorithm lib matches v data level ZStandard st = (ROk n, st') /\
    (data = [] -> n = 0) /\
    (data <> [] -> exists cctx st1, n = fst (z_compress2 lib cctx (z_compress_bound lib (zlen data)) data st1)).
Proof.
  intros L lib matches v data level st (PC & PE & _) HL A. unfold calc_size_with_estimation_algorithm, create_size_estimator, zstd_new.
  replace ((1 <=? level) && (level <=? 22)) with true by lia. cbn [negb with_message max_compressed_size estimate_compressed_size zstd].
  unfold zstd_max, zstd_estimate. destruct (zlen data =? 0) eqn:E0.
  - rewrite Z.eqb_refl. cbn [negb andb]. eexists. eexists. split; [reflexivity|]. split; [reflexivity|].
    intros N. exfalso. apply N. destruct data; [reflexivity|]. unfold zlen in E0. cbn [List.length] in E0. lia.
  - assert (N : data <> []) by (intros ->; discriminate E0).
    replace (negb (z_compress_bound lib (zlen data) =? 0) && negb (alloc_ok v (z_compress_bound lib (zlen data)))) with false.
    2:{ destruct A as [A|[A|A]]; [contradiction|rewrite A; reflexivity|rewrite A; destruct (negb _); reflexivity]. }
    unfold zstd_compress. pose proof (PC st) as C. destruct (z_create_cctx lib st) as [[cctx|] st1]; [|exfalso; apply C; reflexivity]. clear C.
    set (st2 := zstd_setcommoncompressparams lib cctx (Some level) st1).
    pose proof (PE cctx (z_compress_bound lib (zlen data)) data st2 (Z.le_refl _)) as P.
    destruct (z_compress2 lib cctx (z_compress_bound lib (zlen data)) data st2) as [n st3] eqn:E2. cbn [fst] in P. rewrite P. cbn [negb].
    eexists. eexists. split; [reflexivity|]. split; [contradiction|]. intros _. exists cctx, st2. rewrite E2. reflexivity.
Qed.

(** ** What the commands recommend *)
Lemma recommends_auto : forall (St Er S : Type) k (run : ptr -> ptr -> Z -> mem -> St -> res (result S (determine_error Er) * mem * St)) data out st s st',
  zlen data mod k = 0 -> zlen data <= zlen out ->
  (do r <- run (Ptr BIn 0) (Ptr BOut 0) (zlen data) (Mem data [] out) st ;; let '(r, _, st) := r in Ok (or_message r, st)) = Ok (ROk s, st') ->
  exists y, auto_checked k run data out st = Ok (ROk s, y, st').
Proof.
  intros St Er S k run data out st s st' HM HO H. unfold auto_checked. rewrite HM, Z.eqb_refl. cbn [negb].
  replace (zlen out <? zlen data) with false by lia.
  destruct (run (Ptr BIn 0) (Ptr BOut 0) (zlen data) (Mem data [] out) st) as [[[r m] s1]| |]; try discriminate H. cbn [bind] in *.
  destruct r as [s2|]; cbn [or_message] in H; [|discriminate H]. injection H as -> ->. eexists. reflexivity.
Qed.

Section Recommend.
Context {St Er : Type}.
Variables (c : cfg) (v : env) (e : estimator St Er) (use_all : bool) (fresh : Z -> byte).
Lemma bc1_recommends : forall data st s st', zlen data mod 8 = 0 -> determine_bc1 c v e use_all fresh false data st = Ok (ROk s, st') ->
  exists y, transform_bc1_auto c v e use_all data (grow fresh [] (zlen data)) st = Ok (ROk s, y, st').
Proof.
  intros data st s st' HM H. unfold determine_bc1 in H. destruct (negb _) in H; [discriminate H|].
  apply (recommends_auto _ _ _ 8); [exact HM|rewrite grow_length by apply zlen_nonneg; lia|exact H].
Qed.
Lemma bc2_recommends : forall data st s st', zlen data mod 16 = 0 -> determine_bc2 c v e use_all fresh data st = Ok (ROk s, st') ->
  exists y, transform_bc2_auto c v e use_all data (grow fresh [] (zlen data)) st = Ok (ROk s, y, st').
Proof.
  intros data st s st' HM H. unfold determine_bc2 in H. destruct (negb _) in H; [discriminate H|].
  apply (recommends_auto _ _ _ 16); [exact HM|rewrite grow_length by apply zlen_nonneg; lia|exact H].
Qed.
Lemma bc3_recommends : forall data st s st', zlen data mod 16 = 0 -> determine_bc3 c v e use_all fresh data st = Ok (ROk s, st') ->
  exists y, transform_bc3_auto c v e use_all data (grow fresh [] (zlen data)) st = Ok (ROk s, y, st').
Proof.
  intros data st s st' HM H. unfold determine_bc3 in H. destruct (negb _) in H; [discriminate H|].
  apply (recommends_auto _ _ _ 16); [exact HM|rewrite grow_length by apply zlen_nonneg; lia|exact H].
Qed.
Lemma bc1_normalizing_recommends : forall data st s st', determine_bc1 c v e use_all fresh true data st = Ok (ROk s, st') ->
  exists d m, transform_bc1_auto_with_normalization c v e use_all fresh true 0 (zlen data) (zlen data) (grow fresh data (zlen data)) st = Ok (ROk d, m, st') /\
    decorrelation_mode s = d_decorr d /\ split_colour_endpoints s = d_split d.
Proof.
  intros data st s st' H. unfold determine_bc1 in H. destruct (negb _) in H; [discriminate H|].
  destruct (transform_bc1_auto_with_normalization c v e use_all fresh true 0 (zlen data) (zlen data) (grow fresh data (zlen data)) st) as [[[r m] s1]| |]; try discriminate H.
  cbn [bind] in H. destruct r as [d|]; cbn [or_message] in H; [|discriminate H]. injection H as <- ->. exists d, m. auto.
Qed.
End Recommend.

(** ** The benchmark of the recommendation *)
Section Best.
Context {St S : Type}.
Variable once : list byte -> St -> res (result S debug_error * St).

Lemma times_ok : forall data n st, (forall st, exists s st', once data st = Ok (ROk s, st')) ->
  exists st', determine_times n (once data) st = Ok (ROk tt, st').
Proof.
  intros data n st H. revert st. induction n as [|n IH]; intros st; [eexists; reflexivity|]. cbn [determine_times].
  destruct (H st) as (s & st1 & E). rewrite E. cbn [bind]. apply IH.
Qed.
Lemma best_runs : forall data iterations warmups st, (forall st, exists s st', once data st = Ok (ROk s, st')) ->
  (0 < iterations)%nat -> exists st', process_determine_best_scenario iterations warmups once data st = Ok (ROk (zlen data), st').
Proof.
  intros data iterations warmups st H HI. unfold process_determine_best_scenario.
  destruct (times_ok data warmups st H) as (st1 & E). rewrite E. cbn [bind].
  destruct (times_ok data iterations st1 H) as (st2 & E2). rewrite E2. cbn [bind].
  destruct iterations; [lia|]. eexists. reflexivity.
Qed.
Lemma best_zero : forall data warmups st, (forall st, exists s st', once data st = Ok (ROk s, st')) ->
  exists why, process_determine_best_scenario 0 warmups once data st = Panic why.
Proof.
  intros data warmups st H. unfold process_determine_best_scenario.
  destruct (times_ok data warmups st H) as (st1 & E). rewrite E. eexists. reflexivity.
Qed.
End Best.

Lemma counting_times : forall {St S} (once : list byte -> St -> res (result S debug_error * St)) data n st k r st' k',
  determine_times n (counting once data) (st, k) = Ok (ROk r, (st', k')) -> k' = (n + k)%nat.
Proof.
  intros St S once data n. induction n as [|n IH]; intros st k r st' k' H; cbn [determine_times] in H; [injection H as _ _ ->; reflexivity|].
  unfold counting in H at 1. cbn [fst snd] in H. destruct (once data st) as [[[s|] st1]| |]; try discriminate H. cbn [bind fst snd] in H.
  apply IH in H. lia.
Qed.
Lemma best_count : forall {St S} (once : list byte -> St -> res (result S debug_error * St)) data iterations warmups st z st' k,
  process_determine_best_scenario iterations warmups (counting once) data (st, 0%nat) = Ok (ROk z, (st', k)) -> k = (warmups + iterations)%nat.
Proof.
  intros St S once data iterations warmups st z st' k H. unfold process_determine_best_scenario in H.
  destruct (determine_times warmups (counting once data) (st, 0%nat)) as [[[u|] [s1 k1]]| |] eqn:E; try discriminate H. cbn [bind] in H.
  destruct (determine_times iterations (counting once data) (s1, k1)) as [[[u1|] [s2 k2]]| |] eqn:E2; try discriminate H. cbn [bind] in H.
  destruct (average iterations); try discriminate H. cbn [bind] in H. injection H as _ _ ->.
  apply counting_times in E, E2. lia.
Qed.

(** ** Caches *)
Lemma size_key_refl : forall k, size_key_eqb k k = true.
Proof. intros [[h l] []]; unfold size_key_eqb; cbn; rewrite !Z.eqb_refl; reflexivity. Qed.
Lemma compressed_size_remembered : forall (L : Type) (y : zstd_codec L) hash reads fate data level a sizes c st buf n sizes' c' st',
  c (cache_key (hash data) level a) = None ->
  compress_data_cached y hash reads fate data level a sizes c st = Ok (ROk (buf, n), (sizes', c', st')) ->
  cache_get sizes' (hash data, level, a) = Some n /\ forall k, k <> (hash data, level, a) -> cache_get sizes' k = cache_get sizes k.
Proof.
  intros L y hash reads fate data level a sizes c st buf n sizes' c' st' HC H. unfold compress_data_cached, load_compressed_data in H. cbv zeta in H. rewrite HC in H.
  destruct (compress_with_algorithm y data a level st) as [[[[b m]|] s]| |]; try discriminate H. cbn [bind] in H.
  destruct (save_compressed_data fate c (hash data) level a (firstn (Z.to_nat m) b)) as [u c1]. injection H as <- <- <- <- <-.
  rewrite get_insert, size_key_refl. split; [reflexivity|]. intros k Hk. rewrite get_insert.
  destruct (size_key_eqb k (hash data, level, a)) eqn:E; [|reflexivity]. exfalso. apply Hk.
  destruct k as [[h l] b1]. unfold size_key_eqb in E. cbn [fst snd] in E. apply andb_prop in E as (E & E3). apply andb_prop in E as (E1 & E2).
  apply Z.eqb_eq in E1, E2. subst. destruct b1, a; try discriminate E3; reflexivity.
Qed.
Lemma unreadable_reported : forall (L : Type) (y : zstd_codec L) hash fate data level a sizes c st x,
  c (cache_key (hash data) level a) = Some x ->
  exists e, compress_data_cached y hash false fate data level a sizes c st = Ok (RErr e, (sizes, c, st)).
Proof.
  intros L y hash fate data level a sizes c st x HC. unfold compress_data_cached, load_compressed_data. cbv zeta. rewrite HC. eexists. reflexivity.
Qed.

(** Where the error of a statistics command comes from. *)
Section Errors.
Context {S L : Type}.
Variables (v : env) (hash : list byte -> Z) (lib : zstd_lib L) (matches : list byte -> Z) (fresh : Z -> byte) (level : Z) (a : algorithm).
Variables (transform untransform : Z -> S -> mem -> res mem) (lay : S -> list byte -> list byte) (data : list byte).
Hypothesis T : pair_ok transform untransform lay data.
Variables (all : list S) (recommend : list byte -> size_cache * L -> res (result S debug_error * (size_cache * L))).
Definition measuring_failed (e : debug_error) : Prop :=
  exists d s1 s2, (d = data \/ exists s, d = lay s data) /\ calc_size_with_cache_and_estimation_algorithm hash lib matches v d level a s1 = (RErr e, s2).

Lemma loop_errors : forall l out st e st', zlen out = zlen data ->
  analyze_loop v hash lib matches transform level a l data out st = Ok (RErr e, st') -> measuring_failed e.
Proof.
  induction l as [|s l IH]; intros out st e st' LO H; cbn [analyze_loop] in H; [discriminate|].
  destruct (T s out LO) as (E & LL & _). rewrite E in H. cbn [bind m_out] in H.
  destruct (calc v hash lib matches level a (lay s data) st) as [[n|er] st1] eqn:C.
  - destruct (analyze_loop _ _ _ _ _ _ _ l data (lay s data) st1) as [[[rs1|er] st2]|w|w] eqn:A; try discriminate. cbn [bind] in H. injection H as <- <-. exact (IH _ _ _ _ LL A).
  - injection H as <- <-. exists (lay s data), st, st1. split; [right; exists s; reflexivity|exact C].
Qed.
Theorem analyze_errors : forall st e st', analyze v hash lib matches fresh transform all level a recommend data st = Ok (RErr e, st') ->
  (e = DAllocate /\ alloc_ok v (zlen data) = false) \/ measuring_failed e \/ exists s1 s2, recommend data s1 = Ok (RErr e, s2).
Proof.
  intros st e st' H. unfold analyze, analyze_transforms in H. destruct (alloc_ok v (zlen data)) eqn:EA; cbn [negb] in H; [|injection H as <- <-; left; auto].
  right. pose proof (grow_length fresh (zlen data) (zlen_nonneg _ data)) as LO.
  destruct (analyze_loop _ _ _ _ _ _ _ _ _ _ _) as [[[rs|er] st1]|w|w] eqn:A; try discriminate; cbn [bind] in H; [|injection H as <- <-; left; exact (loop_errors _ _ _ _ _ LO A)].
  destruct (calc v hash lib matches level a data st1) as [[n|er] st2] eqn:C; [|injection H as <- <-; left; exists data, st1, st2; split; [left; reflexivity|exact C]].
  unfold analyze_api_recommendation in H. destruct (recommend data st2) as [[[api|er] st3]|w|w] eqn:R; try discriminate; cbn [bind] in H; [|injection H as <- <-; right; exists st2, st3; exact R].
  rewrite EA in H. cbn [negb] in H. destruct (T api _ LO) as (E & _). rewrite E in H. cbn [bind m_out] in H.
  destruct (calc v hash lib matches level a (lay api data) st3) as [[n2|er] st4] eqn:C2; [discriminate|]. injection H as <- <-.
  left. exists (lay api data), st3, st4. split; [right; exists api; reflexivity|exact C2].
Qed.
(** and it never panics of its own accord *)
Lemma loop_total : forall l out st, zlen out = zlen data -> exists r, analyze_loop v hash lib matches transform level a l data out st = Ok r.
Proof.
  induction l as [|s l IH]; intros out st LO; cbn [analyze_loop]; [eexists; reflexivity|].
  destruct (T s out LO) as (E & LL & _). rewrite E. cbn [bind m_out].
  destruct (calc v hash lib matches level a (lay s data) st) as [[n|er] st1]; [|eexists; reflexivity].
  destruct (IH (lay s data) st1 LL) as ([[rs|er] st2] & A); rewrite A; cbn [bind]; eexists; reflexivity.
Qed.
Theorem analyze_total : (forall st, exists r, recommend data st = Ok r) -> forall st, exists r, analyze v hash lib matches fresh transform all level a recommend data st = Ok r.
Proof.
  intros HR st. unfold analyze, analyze_transforms. destruct (alloc_ok v (zlen data)) eqn:EA; cbn [negb]; [|eexists; reflexivity].
  pose proof (grow_length fresh (zlen data) (zlen_nonneg _ data)) as LO.
  destruct (loop_total all (grow fresh [] (zlen data)) st LO) as ([[rs|er] st1] & A); rewrite A; cbn [bind]; [|eexists; reflexivity].
  destruct (calc v hash lib matches level a data st1) as [[n|er] st2]; [|eexists; reflexivity].
  unfold analyze_api_recommendation. destruct (HR st2) as ([[api|er] st3] & R); rewrite R; cbn [bind]; [|eexists; reflexivity].
  rewrite EA. cbn [negb]. destruct (T api _ LO) as (E & _). rewrite E. cbn [bind m_out].
  destruct (calc v hash lib matches level a (lay api data) st3) as [[n2|er] st4]; cbn [bind]; eexists; reflexivity.
Qed.
End Errors.

Section ErrorsOf.
Context {L : Type}.
Variables (c : cfg) (v : env) (hash : list byte -> Z) (lib : zstd_lib L) (matches : list byte -> Z) (fresh : Z -> byte).
Variables (level : Z) (a : algorithm) (elevel : Z) (ea : algorithm) (normalize use_all : bool) (data : list byte).
Hypothesis K : supported c.
Lemma bc1_errors : zlen data mod 8 = 0 -> (c_debug c = true -> data <> []) -> forall st e st',
  analyze_bc1 c v hash lib matches fresh level a elevel ea normalize use_all data st = Ok (RErr e, st') ->
  (e = DAllocate /\ alloc_ok v (zlen data) = false) \/
  (exists d s1 s2, (d = data \/ exists s, d = bc1_layout (decorrelation_mode s) (split_colour_endpoints s) data) /\
     calc_size_with_cache_and_estimation_algorithm hash lib matches v d level a s1 = (RErr e, s2)) \/
  exists s1 s2, with_cached_estimator hash lib matches elevel ea (fun e => determine_bc1 c v e use_all fresh normalize) data s1 = Ok (RErr e, s2).
Proof. intros Hm HD. exact (analyze_errors v hash lib matches fresh level a _ _ lay1 data (bc1_pair c data K Hm HD) all_settings _). Qed.
Lemma bc2_errors : zlen data mod 16 = 0 -> forall st e st',
  analyze_bc2 c v hash lib matches fresh level a elevel ea use_all data st = Ok (RErr e, st') ->
  (e = DAllocate /\ alloc_ok v (zlen data) = false) \/
  (exists d s1 s2, (d = data \/ exists s, d = bc2_layout (decorrelation_mode s) (split_colour_endpoints s) data) /\
     calc_size_with_cache_and_estimation_algorithm hash lib matches v d level a s1 = (RErr e, s2)) \/
  exists s1 s2, with_cached_estimator hash lib matches elevel ea (fun e => determine_bc2 c v e use_all fresh) data s1 = Ok (RErr e, s2).
Proof. intros Hm. exact (analyze_errors v hash lib matches fresh level a _ _ lay2 data (bc2_pair c data K Hm) all_settings _). Qed.
Lemma bc3_errors : zlen data mod 16 = 0 -> (c_debug c = true -> data <> []) -> forall st e st',
  analyze_bc3 c v hash lib matches fresh level a elevel ea use_all data st = Ok (RErr e, st') ->
  (e = DAllocate /\ alloc_ok v (zlen data) = false) \/
  (exists d s1 s2, (d = data \/ exists s, d = bc3_layout (decorrelation_mode3 s) (split_alpha_endpoints s) (split_colour_endpoints3 s) data) /\
     calc_size_with_cache_and_estimation_algorithm hash lib matches v d level a s1 = (RErr e, s2)) \/
  exists s1 s2, with_cached_estimator hash lib matches elevel ea (fun e => determine_bc3 c v e use_all fresh) data s1 = Ok (RErr e, s2).
Proof. intros Hm HD. exact (analyze_errors v hash lib matches fresh level a _ _ lay3 data (bc3_pair c data K Hm HD) all_settings3 _). Qed.
End ErrorsOf.
