(** C61 and C62: what the debug commands remember. [hash] is any hash function,
    [b] is any serialisation of the size cache, [y] is any compression library. *)
From Verif Require Import Base.Bytes Base.Res Model.Color565 Model.Kernel Model.Transform Model.Auto Model.Decode Model.Normalize Model.NormTransform
  Model.Handlers Model.Inspect Model.Ltu Model.Zstd Model.Caches Spec.Estimator Spec.Bincode Spec.Caches Spec.Compressed
  Proofs.CachesFacts Proofs.BincodeFacts Proofs.CachedSearch Proofs.CompressedFacts Props.PZstd.
From Coq Require Import Ascii String.
Open Scope string_scope.
Open Scope list_scope.
Open Scope Z_scope.

(** ** The size cache *)

(** Any number of runs of the tool one after another, each with any number of
    threads that look sizes up and work them out in any order, each run ending in
    any way (saved, not saved, stopped while writing, cache file not readable or
    cut short): if no two questions with different answers have the same key,
    every answer is the one that working it out gives. *)
Theorem C61_answers : forall hash size b l answers file,
  reads_back b ->
  (forall q q', In q (asked l) -> In q' (asked l) -> request_key hash q = request_key hash q' -> size q = size q') ->
  (forall q n, In q (asked l) -> size q = ROk n -> in_range (request_key hash q) n) ->
  zlen (asked l) < 2 ^ 64 ->
  runs hash size b l None = (answers, file) -> forall q a, In (q, a) answers -> a = size q.
Proof. exact runs_answers. Qed.
Print Assumptions C61_answers.

(** After a run that saved its cache, the next run has the answers at once. *)
Theorem C61_remembered : forall hash size b l r answers file q n,
  reads_back b ->
  (forall q q', In q (asked (l ++ [r])) -> In q' (asked (l ++ [r])) -> request_key hash q = request_key hash q' -> size q = size q') ->
  (forall q n, In q (asked (l ++ [r])) -> size q = ROk n -> in_range (request_key hash q) n) ->
  zlen (asked (l ++ [r])) < 2 ^ 64 ->
  runs hash size b l None = (answers, file) -> r_saving r = Some Completes ->
  In (q, ROk n) (fst (one_run hash size b r file)) ->
  exists m, load_from_disk b true (snd (one_run hash size b r file)) [] = (ROk tt, m) /\ cache_get m (request_key hash q) = Some n.
Proof. exact run_remembers. Qed.
Print Assumptions C61_remembered.

(** The documented format of bincode does what is asked of [b] here. *)
Theorem C61_bincode : reads_back standard.
Proof. exact standard_reads_back. Qed.
Print Assumptions C61_bincode.

(** What one thread does in those runs is what the estimator with the cache does. *)
Theorem C61_steps : forall hash mx size m a level d n,
  let q := Request a level d n in
  let s := acts hash size m [Looks 0 q; Works 0] in
  let '(r, (m', _)) := estimate_compressed_size (cached hash (pure mx (fun d n => size (Request a level d n))) a level) (m, tt) d n in
  s_cache s = m' /\ s_answers s = [(q, r)].
Proof.
  intros hash mx size m a level d n. cbv zeta. cbn [cached estimate_compressed_size pure fst snd]. unfold acts. cbn [fold_left act s_waiting s_cache].
  unfold request_key. cbn [q_data q_level q_algorithm]. destruct (cache_get m (hash d, level, a)); cbn [s_waiting]; [split; reflexivity|].
  cbn [waits Nat.eqb]. unfold waits. cbn [Nat.eqb]. destruct (size (Request a level d n)); cbn [s_cache s_answers]; split; reflexivity.
Qed.
Print Assumptions C61_steps.

(** An automatic search with the cache does what it does without: same result,
    same bytes, for any cache whose contents were measured earlier ([past]), if no
    two measured byte sequences have the same hash but different sizes. Then the
    contents of the cache are again measured sizes. *)
Theorem C61_bc1_search : forall (St : Type) hash a level past (e : estimator St debug_error), steady e ->
  forall c v use_all i o len mem0 st x st' log,
  transform_bc1_auto_ptr c v (logging e) use_all i o len mem0 (st, []) = Ok (x, (st', log)) ->
  forall m s2, remembers hash m past -> no_clash hash (past ++ measured a level log) ->
  exists m' s2', transform_bc1_auto_ptr c v (cached hash e a level) use_all i o len mem0 (m, s2) = Ok (x, (m', s2')) /\
    remembers hash m' (past ++ measured a level log).
Proof.
  intros St hash a level past e S c v use_all i o len mem0 st x st' log H.
  exact (cached_search hash a level past _ _ st x st' log (SIM_bc1 hash a level past e S c v use_all i o len mem0) H).
Qed.
Print Assumptions C61_bc1_search.
Theorem C61_bc2_search : forall (St : Type) hash a level past (e : estimator St debug_error), steady e ->
  forall c v use_all i o len mem0 st x st' log,
  transform_bc2_auto_ptr c v (logging e) use_all i o len mem0 (st, []) = Ok (x, (st', log)) ->
  forall m s2, remembers hash m past -> no_clash hash (past ++ measured a level log) ->
  exists m' s2', transform_bc2_auto_ptr c v (cached hash e a level) use_all i o len mem0 (m, s2) = Ok (x, (m', s2')) /\
    remembers hash m' (past ++ measured a level log).
Proof.
  intros St hash a level past e S c v use_all i o len mem0 st x st' log H.
  exact (cached_search hash a level past _ _ st x st' log (SIM_bc2 hash a level past e S c v use_all i o len mem0) H).
Qed.
Print Assumptions C61_bc2_search.
Theorem C61_bc3_search : forall (St : Type) hash a level past (e : estimator St debug_error), steady e ->
  forall c v use_all i o len mem0 st x st' log,
  transform_bc3_auto_ptr c v (logging e) use_all i o len mem0 (st, []) = Ok (x, (st', log)) ->
  forall m s2, remembers hash m past -> no_clash hash (past ++ measured a level log) ->
  exists m' s2', transform_bc3_auto_ptr c v (cached hash e a level) use_all i o len mem0 (m, s2) = Ok (x, (m', s2')) /\
    remembers hash m' (past ++ measured a level log).
Proof.
  intros St hash a level past e S c v use_all i o len mem0 st x st' log H.
  exact (cached_search hash a level past _ _ st x st' log (SIM_bc3 hash a level past e S c v use_all i o len mem0) H).
Qed.
Print Assumptions C61_bc3_search.
Theorem C61_bc1_normalizing_search : forall (St : Type) hash a level past (e : estimator St debug_error), steady e ->
  forall c v use_all fresh even i o len mem0 st x st' log,
  transform_bc1_auto_with_normalization c v (logging e) use_all fresh even i o len mem0 (st, []) = Ok (x, (st', log)) ->
  forall m s2, remembers hash m past -> no_clash hash (past ++ measured a level log) ->
  exists m' s2', transform_bc1_auto_with_normalization c v (cached hash e a level) use_all fresh even i o len mem0 (m, s2) = Ok (x, (m', s2')) /\
    remembers hash m' (past ++ measured a level log).
Proof.
  intros St hash a level past e S c v use_all fresh even i o len mem0 st x st' log H.
  exact (cached_search hash a level past _ _ st x st' log (SIM_norm hash a level past e S c v use_all fresh even i o len mem0) H).
Qed.
Print Assumptions C61_bc1_normalizing_search.

(** The size of some bytes, asked for with the cache, is the size without it. *)
Theorem C61_calc_size : forall (L : Type) hash (lib : zstd_lib L) matches v data level a past m st st2,
  let calc := calc_size_with_estimation_algorithm lib matches v data level a in
  (forall s s', fst (calc s) = fst (calc s')) ->
  remembers hash m past -> no_clash hash (past ++ [(level, a, data, fst (calc st))]) ->
  let '(r, (m', _)) := calc_size_with_cache_and_estimation_algorithm hash lib matches v data level a (m, st2) in
  r = fst (calc st) /\ remembers hash m' (past ++ [(level, a, data, fst (calc st))]).
Proof.
  intros L hash lib matches v data level a past m st st2 calc D R NC. unfold calc_size_with_cache_and_estimation_algorithm. cbn [fst snd].
  destruct (cache_get m (hash data, level, a)) as [n|] eqn:G.
  - split; [|apply remembers_app; exact R]. destruct (R _ _ _ _ G) as (d & E & I).
    apply (NC level a d (ROk n) data (fst (calc st))); [apply in_or_app; left; exact I|apply in_or_app; right; left; reflexivity|symmetry; exact E].
  - fold calc. pose proof (D st st2) as E. rewrite E. destruct (calc st2) as [[n|er] s3]; cbn [fst]; [|split; [reflexivity|apply remembers_app; exact R]].
    split; [reflexivity|]. intros h lv al n' G'. rewrite get_insert in G'. destruct (size_key_eqb (h, lv, al) (hash data, level, a)) eqn:K.
    + apply size_key_eqb_eq in K. injection K as -> -> ->. injection G' as <-. exists data. split; [reflexivity|]. apply in_or_app. right. left. reflexivity.
    + destruct (R _ _ _ _ G') as (d' & E' & I'). exists d'. split; [exact E'|]. apply in_or_app. left. exact I'.
Qed.
Print Assumptions C61_calc_size.

(** The lossless-transform-utils estimator is steady, at every level. *)
Theorem C61_ltu_steady : forall (L : Type) (lib : zstd_lib L) matches level,
  exists e, create_size_estimator lib matches LosslessTransformUtils level = ROk e /\ steady e.
Proof. intros L lib matches level. eexists. split; [reflexivity|]. split; reflexivity. Qed.
Print Assumptions C61_ltu_steady.

(** Two runs. In the first, two threads ask for the same size at the same time,
    one more size is asked for, and the cache is saved. In the second, the answers
    are there at once, and the process ends while writing the file; a third run
    starts again. *)
Definition sum (d : list byte) : Z := fold_left (fun h b => h * 257 + b2z b + 1) d 7 mod 2 ^ 128.
Definition three_runs : list run :=
  let q1 := Request ZStandard 3 [x01; x02] 10 in let q2 := Request LosslessTransformUtils (-1) [x01; x02] 10 in
  [Run true [Looks 0 q1; Looks 1 q1; Works 1; Looks 1 q2; Works 0; Works 1] (Some Completes);
   Run true [Looks 0 q1; Looks 0 q2; Works 0] (Some (StopsAfter 5));
   Run true [Looks 7 q2; Works 7] None].
Definition size_of (q : request) : result Z debug_error := ROk (zlen (q_data q) * 100 + q_level q).
Example C61_case :
  map snd (fst (runs sum size_of standard three_runs None)) = [ROk 203; ROk 203; ROk 199; ROk 203; ROk 199; ROk 199] /\
  (exists bytes, snd (runs sum size_of standard three_runs None) = Some bytes /\ zlen bytes = 5 /\ decode standard bytes = None) /\
  (forall q q', In q (asked three_runs) -> In q' (asked three_runs) -> request_key sum q = request_key sum q' -> size_of q = size_of q') /\
  (forall q n, In q (asked three_runs) -> size_of q = ROk n -> in_range (request_key sum q) n) /\ zlen (asked three_runs) < 2 ^ 64.
Proof.
  split; [vm_compute; reflexivity|]. split; [eexists; split; [vm_compute; reflexivity|split; vm_compute; reflexivity]|].
  split; [|split; [|reflexivity]].
  - intros q q' H H' E. assert (T : forall q, In q (asked three_runs) -> size_of q = ROk (match q_algorithm q with ZStandard => 203 | _ => 199 end)).
    { apply Forall_forall. repeat (constructor; [reflexivity|]). constructor. }
    rewrite (T q H), (T q' H'). apply (f_equal snd) in E. cbn [request_key snd] in E. rewrite E. reflexivity.
  - intros q n H. revert n. revert q H.
    apply (proj1 (Forall_forall (fun q => forall n, size_of q = ROk n -> in_range (request_key sum q) n) (asked three_runs))).
    repeat (constructor; [intros n E; injection E as <-; vm_compute; intuition discriminate|]). constructor.
Qed.
(** A decision of [no_clash]. *)
Definition answer_eqb (r r' : result Z debug_error) : bool := match r, r' with ROk a, ROk b => a =? b | _, _ => false end.
Definition no_clash_b (hash : list byte -> Z) (past : list measurement) : bool :=
  forallb (fun '(level, a, d, r) => forallb (fun '(level', a', d', r') =>
    negb ((level =? level') && algorithm_eqb a a' && (hash d =? hash d')) || answer_eqb r r') past) past.
Lemma no_clash_check : forall hash past, no_clash_b hash past = true -> no_clash hash past.
Proof.
  intros hash past H level a d r d' r' I I' E. unfold no_clash_b in H. rewrite forallb_forall in H. specialize (H _ I). cbv beta iota in H.
  rewrite forallb_forall in H. specialize (H _ I'). cbv beta iota in H. rewrite Z.eqb_refl, (proj2 (algorithm_eqb_eq a a) eq_refl), (proj2 (Z.eqb_eq _ _) E) in H.
  cbn [andb negb orb] in H. destruct r, r'; cbn [answer_eqb] in H; try discriminate. apply Z.eqb_eq in H. subst. reflexivity.
Qed.
(** A search with the toy library of C53, first with an empty cache, then again. *)
Example C61_search_case : let x := map (fun i => lo8 (i / 3 * 37)) (zseq 0 32) in
  let c := Cfg true X86_64 false true true true true true true true x00 in let v := Env (2 ^ 64 - 1) (fun n => n <=? 1000) in
  let e := with_message (zstd toy 3) in let mem0 := Mem x [] x in let i := Ptr BIn 0 in let o := Ptr BOut 0 in
  steady e /\ remembers sum [] [] /\
  exists s y k log m, transform_bc1_auto_ptr c v (logging e) true i o 32 mem0 (0, []) = Ok (ROk s, y, (k, log)) /\ zlen log = 9 /\ k = 8 /\
    no_clash sum ([] ++ measured ZStandard 3 log) /\
    transform_bc1_auto_ptr c v (cached sum e ZStandard 3) true i o 32 mem0 ([], 100) = Ok (ROk s, y, (m, 108)) /\ zlen m = 8 /\
    transform_bc1_auto_ptr c v (cached sum e ZStandard 3) true i o 32 mem0 (m, 100) = Ok (ROk s, y, (m, 100)).
Proof.
  cbv zeta. split; [|split].
  - split; [reflexivity|]. intros st st' d n. cbn. destruct (zlen d =? 0); [reflexivity|]. cbn. destruct (negb _); reflexivity.
  - intros h level a n H. discriminate.
  - do 5 eexists. split; [vm_compute; reflexivity|]. split; [vm_compute; reflexivity|]. split; [vm_compute; reflexivity|]. split.
    + apply no_clash_check. vm_compute. reflexivity.
    + split; [vm_compute; reflexivity|]. split; vm_compute; reflexivity.
Qed.

(** ** The compressed data cache *)

(** Files of the cache have different names for different hashes, levels or
    algorithms. *)
Theorem C62_names : forall h l a h' l' a', cache_key h l a = cache_key h' l' a' -> h = h' /\ l = l' /\ a = a'.
Proof. exact cache_key_inj. Qed.
Print Assumptions C62_names.

(** After any uses of the cache with nothing cut short while writing a file, what
    it gives for some bytes decompresses to those bytes, if no two byte sequences
    it was used for have the same hash. *)
Theorem C62_round_trip : forall (L : Type) (y : zstd_codec L) frame, behaves y frame ->
  forall hash us u sizes c buf n sizes' c' st' out st2,
  (forall u, In u us -> not_cut u) -> not_cut u -> no_collision hash (map u_data (us ++ [u])) ->
  uses y hash us [] no_files = (sizes, c) -> one_use y hash u sizes c = Ok (ROk (buf, n), (sizes', c', st')) -> zlen (u_data u) <= zlen out ->
  exists st3, decompress_with_algorithm y (firstn (Z.to_nat n) buf) out (u_algorithm u) st2 =
    Ok (ROk (zlen (u_data u)), u_data u ++ skipn (List.length (u_data u)) out, st3).
Proof. intros L y frame B hash. exact (cached_round_trip y frame B hash). Qed.
Print Assumptions C62_round_trip.

(** Once written, the file is used and the library is not. *)
Theorem C62_used : forall (L : Type) (y : zstd_codec L) hash u sizes c buf n sizes' c' st',
  one_use y hash u sizes c = Ok (ROk (buf, n), (sizes', c', st')) -> u_fate u = Completes -> 0 <= n <= zlen buf ->
  forall v sizes2, u_data v = u_data u -> u_level v = u_level u -> u_algorithm v = u_algorithm u -> u_reads v = true ->
  one_use y hash v sizes2 c' = Ok (ROk (firstn (Z.to_nat n) buf, n), (sizes2, c', u_lib v)).
Proof. exact (@saved_is_used). Qed.
Print Assumptions C62_used.

(** Compressing and decompressing make one context each, set it up for the same
    format, use it once and free it, also when it fails. *)
Theorem C62_contexts : forall (L : Type) (y : zstd_codec L) (st : L),
  (forall level d n, exists c r st', raw_compress (watched_codec y) level d n (st, []) = (r, (st', life_c level c)) /\ raw_compress y level d n st = (r, st')) /\
  (forall d n, exists c r st', raw_decompress (watched_codec y) d n (st, []) = (r, (st', life_d c)) /\ raw_decompress y d n st = (r, st')).
Proof. exact (@codec_life). Qed.
Print Assumptions C62_contexts.

(** A library that keeps the bytes as they are, after one byte for the format. Its
    state: the next context, and the parameters of the contexts. *)
Definition plain_state : Type := Z * (Z -> option parameters) * (Z -> option Z).
Definition put {A} (f : Z -> option A) (c : Z) (x : A) : Z -> option A := fun k => if k =? c then Some x else f k.
Definition plain_frame (ps : parameters) (d : list byte) : list byte := z2b (ps ZFormat) :: d.
Definition plain : zstd_codec plain_state := {|
  y_compress_bound := fun n => n + 1;
  y_create_cctx := fun '(k, cs, ds) => (Some k, (k + 1, put cs k (fun _ => 0), ds));
  y_set_parameter := fun c p x '(k, cs, ds) =>
    match cs c with Some ps => (k, put cs c (fun q => if parameter_eqb q p then x else ps q), ds) | None => (k, cs, ds) end;
  y_compress2 := fun c n d '(k, cs, ds) =>
    match cs c with
    | Some ps => if zlen d + 1 <=? n then ((zlen (plain_frame ps d), plain_frame ps d), (k, cs, ds)) else ((-70, []), (k, cs, ds))
    | None => ((-1, []), (k, cs, ds))
    end;
  y_free_cctx := fun c '(k, cs, ds) => (k, (fun z => if z =? c then None else cs z), ds);
  y_create_dctx := fun '(k, cs, ds) => (Some k, (k + 1, cs, put ds k 0));
  y_set_d_parameter := fun c p x '(k, cs, ds) => match ds c with Some _ => (k, cs, put ds c x) | None => (k, cs, ds) end;
  y_decompress := fun c n d st =>
    match snd st c, d with
    | Some f, b :: d => if Byte.eqb b (z2b f) && (zlen d <=? n) then ((zlen d, d), st) else ((-70, []), st)
    | _, _ => ((-1, []), st)
    end;
  y_free_dctx := fun c '(k, cs, ds) => (k, cs, (fun z => if z =? c then None else ds z));
  y_is_error := fun r => r <? 0 |}.
Lemma plain_behaves : behaves plain plain_frame.
Proof.
  exists (fun st => snd (fst st)), (fun st => snd st), (fun _ => 0). cbn [plain y_create_cctx y_set_parameter y_compress2 y_create_dctx y_set_d_parameter y_decompress y_is_error].
  repeat apply conj.
  - intros [[k cs] ds] c st' H. injection H as <- <-. cbn. unfold put. rewrite Z.eqb_refl. reflexivity.
  - intros [[k cs] ds] c p x ps H. cbn [fst snd] in *. rewrite H. cbn [fst snd]. unfold put. rewrite Z.eqb_refl. reflexivity.
  - intros [[k cs] ds] c ps n d H. cbn [fst snd] in *. rewrite H. destruct (zlen d + 1 <=? n); cbn [fst]; auto.
  - intros [[k cs] ds]. eexists. eexists. split; [reflexivity|]. cbn. unfold put. rewrite Z.eqb_refl. reflexivity.
  - intros [[k cs] ds] c x f H. cbn [fst snd] in *. rewrite H. cbn [fst snd]. unfold put. rewrite Z.eqb_refl. reflexivity.
  - intros [[k cs] ds] c ps n d H E. cbn [fst snd plain_frame] in *. rewrite H. rewrite Byte.byte_dec_lb by reflexivity.
    replace (zlen d <=? n) with true by (symmetry; apply Z.leb_le; exact E). reflexivity.
  - intros d. apply Z.ltb_ge. unfold zlen. lia.
Qed.

(** If writing a file stops in the middle, what is there is later given out as if
    it were everything. *)
Theorem C62_cut_refuted : exists (L : Type) (y : zstd_codec L) frame hash u v,
  behaves y frame /\ no_collision hash [u_data u; u_data v] /\ not_cut v /\
  let '(sizes, c) := uses y hash [u] [] no_files in
  exists buf n sizes' c' st', one_use y hash v sizes c = Ok (ROk (buf, n), (sizes', c', st')) /\
  exists z out st3, decompress_with_algorithm y (firstn (Z.to_nat n) buf) (u_data v) (u_algorithm v) (u_lib v) = Ok (z, out, st3) /\
    z <> ROk (zlen (u_data v)).
Proof.
  set (st := (0, (fun _ => None), (fun _ => None)) : plain_state).
  exists plain_state, plain, plain_frame, sum, (Use [x0a; x0b; x0c] 16 ZStandard true (StopsAfter 2) st), (Use [x0a; x0b; x0c] 16 ZStandard true Completes st).
  split; [exact plain_behaves|]. split; [intros d d' [<-|[<-|[]]] [<-|[<-|[]]] _; reflexivity|]. split; [intros n H; discriminate|].
  cbn -[cache_key decompress_with_algorithm]. unfold one_use, compress_data_cached, load_compressed_data. cbn [u_data u_level u_algorithm u_reads u_fate u_lib].
  unfold set_file. rewrite String.eqb_refl. do 5 eexists. split; [reflexivity|]. do 3 eexists. split; [reflexivity|]. discriminate.
Qed.
Print Assumptions C62_cut_refuted.

(** The same bytes at two levels, other bytes in between, a directory that cannot
    be made at first; then the bytes come out of the file. *)
Example C62_case :
  let st := (0, (fun _ => None), (fun _ => None)) : plain_state in let d := [x0a; x0b; x0c] in let d' := [x0a] in
  let us := [Use d 16 ZStandard true NoDirectory st; Use d 3 ZStandard true Completes st; Use d' 16 ZStandard true Completes st; Use d 16 ZStandard true Completes st] in
  let u := Use d 16 ZStandard true CannotOpen st in
  (forall u, In u us -> not_cut u) /\ not_cut u /\ no_collision sum (map u_data (us ++ [u])) /\
  match one_use plain sum u (fst (uses plain sum us [] no_files)) (snd (uses plain sum us [] no_files)) with
  | Ok (ROk (buf, n), (sizes, _, st')) =>
      buf = [x01; x0a; x0b; x0c] /\ n = 4 /\ zlen sizes = 3 /\ fst (fst st') = 0 /\
      match decompress_with_algorithm plain (firstn (Z.to_nat n) buf) [x00; x00; x00; x00] ZStandard st with
      | Ok (r, out, _) => r = ROk 3 /\ out = [x0a; x0b; x0c; x00]
      | _ => False
      end
  | _ => False
  end /\
  cache_key (sum d') 16 ZStandard = "                             712_16.zst".
Proof.
  cbv zeta. split; [|split; [|split; [|split]]].
  - intros u [<-|[<-|[<-|[<-|[]]]]] n; discriminate.
  - intros n. discriminate.
  - intros d d' H H' E. cbn in H, H'. intuition (subst; try reflexivity; vm_compute in E; discriminate).
  - vm_compute. repeat split.
  - vm_compute. reflexivity.
Qed.
