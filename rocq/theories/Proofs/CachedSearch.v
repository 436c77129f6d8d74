(** A search with the size cache finds what the search without it finds. *)
From Verif Require Import Base.Bytes Base.Res Model.Color565 Model.Ycc Model.Kernel Model.Transform Model.Auto Model.Decode Model.Normalize Model.NormTransform
  Model.Handlers Model.Inspect Model.Zstd Model.Caches Spec.Estimator Spec.Caches Proofs.CachesFacts.
From Coq Require Import ZifyBool ZifyNat.
Open Scope list_scope.
Open Scope Z_scope.

Section Sim.
Context {St : Type}.
Variables (hash : list byte -> Z) (a : algorithm) (level : Z) (past : list measurement).

Definition all (log : list (call debug_error)) : list measurement := past ++ measured a level log.
Lemma all_app : forall l1 l2, all (l1 ++ l2) = all l1 ++ measured a level l2.
Proof. intros. unfold all, measured. rewrite flat_map_app, app_assoc. reflexivity. Qed.
Lemma no_clash_app : forall p q, no_clash hash (p ++ q) -> no_clash hash p.
Proof. intros p q H lv al d r d' r' H1 H2. apply (H lv al); apply in_or_app; auto. Qed.
Lemma remembers_app : forall m p q, remembers hash m p -> remembers hash m (p ++ q).
Proof. intros m p q H h lv al n G. destruct (H _ _ _ _ G) as (d & E & I). exists d. split; [exact E|]. apply in_or_app. auto. Qed.

(** [f] is run with the log, [g] with the cache. *)
Definition SIM {B : Type} (f : St * list (call debug_error) -> res (B * (St * list (call debug_error))))
    (g : size_cache * St -> res (B * (size_cache * St))) : Prop :=
  forall st lg x st' lg', f (st, lg) = Ok (x, (st', lg')) ->
    exists calls, lg' = lg ++ calls /\
      forall m s2, no_clash hash (all lg') -> remembers hash m (all lg) ->
        exists m' s2', g (m, s2) = Ok (x, (m', s2')) /\ remembers hash m' (all lg').

Lemma SIM_ret : forall {B} (x : B), SIM (fun s => Ok (x, s)) (fun s => Ok (x, s)).
Proof.
  intros B x st lg y st' lg' H. injection H as <- <- <-. exists []. rewrite app_nil_r. split; [reflexivity|].
  intros m s2 _ R. exists m, s2. auto.
Qed.
Lemma SIM_fail : forall {B} f (g : size_cache * St -> res (B * (size_cache * St))), (forall s x, f s <> Ok x) -> SIM f g.
Proof. intros B f g H st lg x st' lg' E. destruct (H _ _ E). Qed.
Lemma SIM_pure : forall {X B} (p : res X) (f : X -> _ -> _) (g : X -> _ -> res (B * _)),
  (forall x, SIM (f x) (g x)) -> SIM (fun s => do x <- p ;; f x s) (fun s => do x <- p ;; g x s).
Proof. intros X B [x|w|w] f g H; [exact (H x)| |]; apply SIM_fail; discriminate. Qed.
Lemma SIM_bind : forall {X B} f g (k : X -> _ -> _) (k' : X -> _ -> res (B * _)),
  SIM f g -> (forall x, SIM (k x) (k' x)) ->
  SIM (fun s => do r <- f s ;; let '(x, s) := r in k x s) (fun s => do r <- g s ;; let '(x, s) := r in k' x s).
Proof.
  intros X B f g k k' F K st lg y st' lg' H. cbn beta in H. destruct (f (st, lg)) as [[x [st1 lg1]]|w|w] eqn:E; try discriminate. cbn [bind] in H.
  destruct (F _ _ _ _ _ E) as (c1 & -> & G1). destruct (K x _ _ _ _ _ H) as (c2 & -> & G2).
  exists (c1 ++ c2). rewrite app_assoc. split; [reflexivity|]. intros m s2 NC R.
  assert (NC1 : no_clash hash (all (lg ++ c1))) by (rewrite all_app in NC; exact (no_clash_app _ _ NC)).
  destruct (G1 m s2 NC1 R) as (m1 & s3 & E1 & R1). destruct (G2 m1 s3 NC R1) as (m2 & s4 & E2 & R2).
  exists m2, s4. rewrite E1. cbn [bind]. auto.
Qed.
Lemma SIM_ext : forall {B} (f f' : _ -> _) (g g' : _ -> res (B * _)), (forall s, f s = f' s) -> (forall s, g s = g' s) -> SIM f' g' -> SIM f g.
Proof. intros B f f' g g' F G H st lg x st' lg' E. rewrite F in E. destruct (H _ _ _ _ _ E) as (c & Ec & K). exists c. split; [exact Ec|]. intros m s2. rewrite G. apply K. Qed.

Variable e : estimator St debug_error.
Hypothesis ST : steady e.
Notation el := (logging e).
Notation ec := (cached hash e a level).

Lemma SIM_max : forall n, SIM (fun s => Ok (max_compressed_size el s n)) (fun s => Ok (max_compressed_size ec s n)).
Proof.
  intros n st lg x st' lg' H. injection H as H. cbn [logging max_compressed_size fst snd] in H.
  destruct (max_compressed_size e st n) as [r s] eqn:E. injection H as <- <- <-. exists [AskedMax n r]. split; [reflexivity|].
  intros m s2 _ R. cbn [cached max_compressed_size fst snd]. pose proof (proj1 ST st s2 n) as S. rewrite E in S. cbn [fst] in S.
  destruct (max_compressed_size e s2 n) as [r2 s3]. cbn [fst] in S. subst r2. exists m, s3. split; [reflexivity|]. rewrite all_app. apply remembers_app. exact R.
Qed.
Lemma SIM_size : forall d n, SIM (fun s => Ok (estimate_compressed_size el s d n)) (fun s => Ok (estimate_compressed_size ec s d n)).
Proof.
  intros d n st lg x st' lg' H. injection H as H. cbn [logging estimate_compressed_size fst snd] in H.
  destruct (estimate_compressed_size e st d n) as [r s] eqn:E. injection H as <- <- <-. exists [AskedSize d n r]. split; [reflexivity|].
  intros m s2 NC R. cbn [cached estimate_compressed_size fst snd].
  assert (IN : In (level, a, d, r) (all (lg ++ [AskedSize d n r]))).
  { rewrite all_app. apply in_or_app. right. left. reflexivity. }
  destruct (cache_get m (hash d, level, a)) as [n1|] eqn:G.
  - destruct (R _ _ _ _ G) as (d1 & Hd & I1). assert (r = ROk n1) as ->.
    { apply (NC level a d r d1 (ROk n1)); [exact IN| |exact Hd]. rewrite all_app. apply in_or_app. left. exact I1. }
    exists m, s2. split; [reflexivity|]. rewrite all_app. apply remembers_app. exact R.
  - pose proof (proj2 ST st s2 d n) as S. rewrite E in S. cbn [fst] in S.
    destruct (estimate_compressed_size e s2 d n) as [r2 s3]. cbn [fst] in S. subst r2.
    destruct r as [z|er].
    + exists (cache_insert m (hash d, level, a) z), s3. split; [reflexivity|].
      intros h lv al n' G'. rewrite get_insert in G'. destruct (size_key_eqb (h, lv, al) (hash d, level, a)) eqn:K.
      * apply size_key_eqb_eq in K. injection K as -> -> ->. injection G' as <-. exists d. auto.
      * destruct (R _ _ _ _ G') as (d' & E' & I'). exists d'. split; [exact E'|]. rewrite all_app. apply in_or_app. auto.
    + exists m, s3. split; [reflexivity|]. rewrite all_app. apply remembers_app. exact R.
Qed.

(** ** Model/Auto.v *)
Lemma SIM_estimate_at : forall p n scratch m, SIM (estimate_at el p n scratch m) (estimate_at ec p n scratch m).
Proof. intros p n scratch m. unfold estimate_at. apply SIM_pure. intros d. apply SIM_size. Qed.

Lemma SIM_loop : forall {S} (transform : S -> mem -> res mem)
    (estl : mem -> _ -> res (result Z debug_error * _)) (estc : mem -> _ -> res (result Z debug_error * _)),
  (forall m, SIM (estl m) (estc m)) ->
  forall order best bs last m, SIM (search_loop transform estl order best bs last m) (search_loop transform estc order best bs last m).
Proof.
  intros S transform estl estc H. induction order as [|cur rest IH]; intros best bs last m.
  - exact (SIM_ret _).
  - cbn [search_loop]. apply SIM_pure. intros m1.
    refine (SIM_ext _ _ _ _ _ _ (SIM_bind (estl m1) (estc m1)
      (fun r s => match r with RErr e => Ok (RErr e, m1, s)
                  | ROk size => if size <? bs then search_loop transform estl rest cur size cur m1 s else search_loop transform estl rest best bs cur m1 s end)
      (fun r s => match r with RErr e => Ok (RErr e, m1, s)
                  | ROk size => if size <? bs then search_loop transform estc rest cur size cur m1 s else search_loop transform estc rest best bs cur m1 s end)
      (H m1) _)).
    + intros s. destruct (estl m1 s) as [[[z|er] s1]|w|w]; reflexivity.
    + intros s. destruct (estc m1 s) as [[[z|er] s1]|w|w]; reflexivity.
    + intros [z|er]; [destruct (z <? bs); apply IH|exact (SIM_ret _)].
Qed.

Lemma SIM_search : forall v {S} n (transform : S -> mem -> res mem)
    (estl : Z -> mem -> _ -> res (result Z debug_error * _)) (estc : Z -> mem -> _ -> res (result Z debug_error * _)) same default order,
  (forall z m, SIM (estl z m) (estc z m)) ->
  forall m, SIM (search v el n transform estl same default order m) (search v ec n transform estc same default order m).
Proof.
  intros v S n transform estl estc same default order H m. unfold search.
  refine (SIM_ext _ _ _ _ _ _ (SIM_bind _ _ _ _ (SIM_max n) _)); [|  |].
  - intros s. cbn [bind]. instantiate (1 := fun r s => match r with
    | RErr e1 => Ok (RErr (SizeEstimationError e1), m, s)
    | ROk z => if negb (z =? 0) && negb (alloc_ok v z) then Ok (RErr AllocateError, m, s)
               else do r <- search_loop transform (estl z) order default (usize_max v) default m s ;;
                    let '(x, s) := r in
                    match x with
                    | (RErr e1, m1) => Ok (RErr (SizeEstimationError e1), m1, s)
                    | (ROk (best, last), m1) => if same best last then Ok (ROk best, m1, s) else do m2 <- transform best m1 ;; Ok (ROk best, m2, s)
                    end end).
    cbn beta. destruct (max_compressed_size el s n) as [[z|er] s1]; [|reflexivity].
    destruct (negb (z =? 0) && negb (alloc_ok v z)); [reflexivity|]. destruct (search_loop _ _ _ _ _ _ _ _) as [[[[[b l]|er] m1] s2]|w|w]; reflexivity.
  - intros s. cbn [bind]. instantiate (1 := fun r s => match r with
    | RErr e1 => Ok (RErr (SizeEstimationError e1), m, s)
    | ROk z => if negb (z =? 0) && negb (alloc_ok v z) then Ok (RErr AllocateError, m, s)
               else do r <- search_loop transform (estc z) order default (usize_max v) default m s ;;
                    let '(x, s) := r in
                    match x with
                    | (RErr e1, m1) => Ok (RErr (SizeEstimationError e1), m1, s)
                    | (ROk (best, last), m1) => if same best last then Ok (ROk best, m1, s) else do m2 <- transform best m1 ;; Ok (ROk best, m2, s)
                    end end).
    cbn beta. destruct (max_compressed_size ec s n) as [[z|er] s1]; [|reflexivity].
    destruct (negb (z =? 0) && negb (alloc_ok v z)); [reflexivity|]. destruct (search_loop _ _ _ _ _ _ _ _) as [[[[[b l]|er] m1] s2]|w|w]; reflexivity.
  - cbn beta. intros [z|er]; [|exact (SIM_ret _)]. destruct (negb (z =? 0) && negb (alloc_ok v z)); [exact (SIM_ret _)|].
    apply SIM_bind; [apply SIM_loop; intros m1; apply H|].
    intros [[[b l]|er] m1]; [|exact (SIM_ret _)]. destruct (same b l); [exact (SIM_ret _)|]. apply (SIM_pure (transform b m1)). intros m2. exact (SIM_ret _).
Qed.

Lemma SIM_estimate_bc3 : forall c v p len scratch m, SIM (estimate_bc3 c v el p len scratch m) (estimate_bc3 c v ec p len scratch m).
Proof.
  intros c v p len scratch m.
  set (K2 := fun {S : Type} (za : Z) (r : result Z debug_error) (s : S) =>
     match r with RErr e1 => Ok (RErr e1, s)
     | ROk zc => if za + zc <=? usize_max v then Ok (ROk (za + zc), s)
                 else if c_debug c then Panic "attempt to add with overflow" else Ok (ROk ((za + zc) mod (usize_max v + 1)), s) end).
  set (K := fun {S : Type} (est : estimator S debug_error) (r : result Z debug_error) (s : S) =>
     match r with RErr e1 => Ok (RErr e1, s)
     | ROk za => do p2 <- ptr_add m p (len / 2) ;; do rc <- estimate_at est p2 (len / 16 * 4) scratch m s ;; let '(r, s) := rc in K2 _ za r s end).
  refine (SIM_ext _ (fun s => do r <- estimate_at el p (len / 16 * 2) scratch m s ;; let '(x, s) := r in K _ el x s) _
                    (fun s => do r <- estimate_at ec p (len / 16 * 2) scratch m s ;; let '(x, s) := r in K _ ec x s) _ _ _).
  - intros s. unfold estimate_bc3, K, K2. destruct (estimate_at el p _ scratch m s) as [[[z|er] s1]|w|w]; [|reflexivity|reflexivity|reflexivity]. cbn [bind].
    destruct (ptr_add m p (len / 2)) as [p2|w|w]; [|reflexivity|reflexivity]. cbn [bind]. destruct (estimate_at _ _ _ _ _ _) as [[[z2|er] s2]|w|w]; reflexivity.
  - intros s. unfold estimate_bc3, K, K2. destruct (estimate_at ec p _ scratch m s) as [[[z|er] s1]|w|w]; [|reflexivity|reflexivity|reflexivity]. cbn [bind].
    destruct (ptr_add m p (len / 2)) as [p2|w|w]; [|reflexivity|reflexivity]. cbn [bind]. destruct (estimate_at _ _ _ _ _ _) as [[[z2|er] s2]|w|w]; reflexivity.
  - apply SIM_bind; [apply SIM_estimate_at|]. intros [za|er]; unfold K; [|exact (SIM_ret _)].
    apply SIM_pure. intros p2. apply SIM_bind; [apply SIM_estimate_at|]. intros [zc|er]; unfold K2; [|exact (SIM_ret _)].
    destruct (za + zc <=? usize_max v); [exact (SIM_ret _)|]. destruct (c_debug c); [|exact (SIM_ret _)]. apply SIM_fail. discriminate.
Qed.

Lemma SIM_bc1 : forall c v all i o len m, SIM (transform_bc1_auto_ptr c v el all i o len m) (transform_bc1_auto_ptr c v ec all i o len m).
Proof. intros. unfold transform_bc1_auto_ptr. apply SIM_search. intros z m1. apply SIM_estimate_at. Qed.
Lemma SIM_bc2 : forall c v all i o len m, SIM (transform_bc2_auto_ptr c v el all i o len m) (transform_bc2_auto_ptr c v ec all i o len m).
Proof. intros. unfold transform_bc2_auto_ptr. apply SIM_search. intros z m1. apply SIM_pure. intros p. apply SIM_estimate_at. Qed.
Lemma SIM_bc3 : forall c v all i o len m, SIM (transform_bc3_auto_ptr c v el all i o len m) (transform_bc3_auto_ptr c v ec all i o len m).
Proof. intros. unfold transform_bc3_auto_ptr. apply SIM_search. intros z m1. apply SIM_estimate_bc3. Qed.

(** ** Model/NormTransform.v *)
Definition flat {S} (r : res (search_state (St := S))) : res ((details * Z * list byte) * S) :=
  do s <- r ;; Ok (best s, best_size s, s_mem s, s_est s).
Definition unflat {S} (x : details * Z * list byte) (s : S) : search_state := Search (fst (fst x)) (snd (fst x)) (snd x) s.

Lemma flat_bind : forall {S} (r : res (search_state (St := S))) (k : search_state (St := S) -> res (search_state (St := S))),
  flat (do s <- r ;; k s) = (do x <- flat r ;; let '(x, s) := x in flat (k (unflat x s))).
Proof. intros S [[b z m s]|w|w] k; reflexivity. Qed.

Lemma SIM_variant : forall c i o len comp cur x,
  SIM (fun s => flat (test_variant c el i o len comp cur (unflat x s))) (fun s => flat (test_variant c ec i o len comp cur (unflat x s))).
Proof.
  intros c i o len comp cur [[b z] m]. unfold unflat. cbn [fst snd].
  set (Q := do m <- (if d_split cur then do m <- split_at c i o (len / 2) m ;; decorrelate_at true o (len / 2 / 2) (d_decorr cur) m
             else decorrelate_slice_at (c_debug c) i o (len / 2 / 2) (d_decorr cur) m) ;; do d <- load m o (len / 2) ;; Ok (m, d)).
  set (K := fun {S : Type} (m1 : list byte) (r : result Z debug_error) (s : S) => match r return res ((details * Z * list byte) * S) with
     | RErr _ => Ok (b, z, m1, s)
     | ROk size => if size <? z then Ok (cur, size, m1, s) else Ok (b, z, m1, s) end).
  refine (SIM_ext _ (fun s => do md <- Q ;; do r <- Ok (estimate_compressed_size el s (snd md) comp) ;; let '(r, s) := r in K _ (fst md) r s) _
                    (fun s => do md <- Q ;; do r <- Ok (estimate_compressed_size ec s (snd md) comp) ;; let '(r, s) := r in K _ (fst md) r s) _ _ _).
  - intros s. unfold test_variant, flat, Q, K. cbn [s_mem s_est best best_size]. destruct (if d_split cur then _ else _) as [m1|w|w]; try reflexivity. cbn [bind].
    destruct (load m1 o (len / 2)) as [d|w|w]; try reflexivity. cbn [bind fst snd].
    destruct (estimate_compressed_size el s d comp) as [[size|er] s1]; [destruct (size <? z)|]; reflexivity.
  - intros s. unfold test_variant, flat, Q, K. cbn [s_mem s_est best best_size]. destruct (if d_split cur then _ else _) as [m1|w|w]; try reflexivity. cbn [bind].
    destruct (load m1 o (len / 2)) as [d|w|w]; try reflexivity. cbn [bind fst snd].
    destruct (estimate_compressed_size ec s d comp) as [[size|er] s1]; [destruct (size <? z)|]; reflexivity.
  - apply SIM_pure. intros [m1 d]. apply (SIM_bind (fun s => Ok (estimate_compressed_size el s d comp)) (fun s => Ok (estimate_compressed_size ec s d comp))); [apply SIM_size|].
    intros [size|er]; unfold K; cbn [fst]; [destruct (size <? z)|]; exact (SIM_ret _).
Qed.
Lemma SIM_order : forall c i o len comp norm order x,
  SIM (fun s => flat (test_order c el i o len comp norm order (unflat x s))) (fun s => flat (test_order c ec i o len comp norm order (unflat x s))).
Proof.
  intros c i o len comp norm. induction order as [|cur order IH]; intros x.
  - destruct x as [[b z] m]. exact (SIM_ret (b, z, m)).
  - cbn [test_order]. refine (SIM_ext _ _ _ _ (fun s => flat_bind _ _) (fun s => flat_bind _ _) _).
    apply SIM_bind; [apply SIM_variant|]. intros y. apply IH.
Qed.
Lemma SIM_norms : forall c o len comp order norms inputs x,
  SIM (fun s => flat (test_norms c el norms inputs o len comp order (unflat x s))) (fun s => flat (test_norms c ec norms inputs o len comp order (unflat x s))).
Proof.
  intros c o len comp order. induction norms as [|norm norms IH]; intros inputs x.
  - destruct x as [[b z] m]. exact (SIM_ret (b, z, m)).
  - destruct inputs as [|i inputs]; [destruct x as [[b z] m]; exact (SIM_ret (b, z, m))|].
    cbn [test_norms]. refine (SIM_ext _ _ _ _ (fun s => flat_bind _ _) (fun s => flat_bind _ _) _).
    apply SIM_bind; [apply SIM_order|]. intros y. apply IH.
Qed.

Section Norm.
Variables (c : cfg) (v : env) (use_all : bool) (fresh : Z -> byte) (even : bool) (i o len : Z) (m0 : list byte).

(** the parts of the function that do not use the estimator *)
Definition after_norms {S} (w : Z) (x : details * Z * list byte) (s : S) : res (result details (determine_error debug_error) * list byte * S) :=
  do m <- transform_bc1_with_normalize_blocks c even i o w len (fst (fst x)) (snd x) ;;
  Ok (ROk (fst (fst x)), firstn (List.length m0) m, s).
Definition after_plain {S} (x : result settings (determine_error debug_error) * mem) (s : S) : res (result details (determine_error debug_error) * list byte * S) :=
  match x with
  | (ROk t, m) => Ok (ROk (details_of_settings t), firstn (List.length m0) (m_out m), s)
  | (RErr err, m) => Ok (RErr err, firstn (List.length m0) (m_out m), s)
  end.
Definition with_size {S} (es : estimator S debug_error) (z : Z) (s : S) : res (result details (determine_error debug_error) * list byte * S) :=
  if negb (z =? 0) && negb (alloc_ok v z) then Ok (RErr AllocateError, m0, s)
  else
    do r <- bc1_normalize_blocks_all_modes (c_debug c) i (three m0 len) len (grow fresh m0 (3 * len)) ;;
    let '(any_normalized, m) := r in
    if any_normalized then
      if negb (alloc_ok v len) then Ok (RErr AllocateError, m0, s)
      else
        do m1 <- for_dsts (three m0 len) (three m len) (fun src dst => transform_at c src dst len) (grow fresh m (3 * len)) ;;
        if negb (alloc_ok v (len / 2)) then Ok (RErr AllocateError, m0, s)
        else
          do x <- flat (test_norms c es all_color_norms (three m len) (zlen m1) len z (if use_all then comprehensive_test_order else fast_test_order)
                          (unflat (default_details, usize_max v, grow fresh m1 (len / 2)) s)) ;;
          let '(x, s) := x in after_norms (zlen m1) x s
    else if apartb i len o len then
      do r <- transform_bc1_auto_ptr c v es use_all (Ptr BIn i) (Ptr BOut o) len (Mem m [] m) s ;; let '(x, s) := r in after_plain x s
    else Ub "overlapping buffers".
Definition whole {S} (es : estimator S debug_error) (s : S) : res (result details (determine_error debug_error) * list byte * S) :=
  if negb (alloc_ok v len) then Ok (RErr AllocateError, m0, s)
  else do r <- Ok (max_compressed_size es s (len / 2)) ;;
       let '(r, s) := r in
       match r with RErr e1 => Ok (RErr (SizeEstimationError e1), m0, s) | ROk z => with_size es z s end.

Lemma whole_eq : forall {S} (es : estimator S debug_error) s, transform_bc1_auto_with_normalization c v es use_all fresh even i o len m0 s = whole es s.
Proof.
  intros S es s. unfold transform_bc1_auto_with_normalization, whole. unfold with_size. destruct (negb (alloc_ok v len)); [reflexivity|]. cbn [bind].
  destruct (max_compressed_size es s (len / 2)) as [[z|er] s1]; [|reflexivity].
  destruct (negb (z =? 0) && negb (alloc_ok v z)); [reflexivity|].
  destruct (bc1_normalize_blocks_all_modes _ _ _ _ _) as [[[] m]|w|w]; [| |reflexivity|reflexivity]; cbn [bind]; [|destruct (apartb i len o len); [|reflexivity];
    destruct (transform_bc1_auto_ptr _ _ _ _ _ _ _ _ _) as [[[[t|er] m1] s2]|w|w]; reflexivity].
  - destruct (for_dsts _ _ _ _) as [m1|w|w]; try reflexivity; cbn [bind].
    destruct (negb (alloc_ok v (len / 2))); [reflexivity|]. unfold unflat. cbn [fst snd].
    destruct (test_norms _ _ _ _ _ _ _ _ _) as [[b bz mm st]|w|w]; reflexivity.
Qed.

Lemma SIM_whole : SIM (whole el) (whole ec).
Proof.
  unfold whole. destruct (negb (alloc_ok v len)); [exact (SIM_ret _)|].
  apply (SIM_bind (fun s => Ok (max_compressed_size el s (len / 2))) (fun s => Ok (max_compressed_size ec s (len / 2)))
    (fun r s => match r with RErr e1 => Ok (RErr (SizeEstimationError e1), m0, s) | ROk z => with_size el z s end)
    (fun r s => match r with RErr e1 => Ok (RErr (SizeEstimationError e1), m0, s) | ROk z => with_size ec z s end)); [apply SIM_max|].
  intros [z|er]; [|exact (SIM_ret _)]. unfold with_size. destruct (negb (z =? 0) && negb (alloc_ok v z)); [exact (SIM_ret _)|].
  apply SIM_pure. intros [[] m].
  - destruct (negb (alloc_ok v len)); [exact (SIM_ret _)|]. apply SIM_pure. intros m1. destruct (negb (alloc_ok v (len / 2))); [exact (SIM_ret _)|].
    apply SIM_bind; [apply SIM_norms|]. intros x. unfold after_norms. apply SIM_pure. intros m2. exact (SIM_ret _).
  - destruct (apartb i len o len); [|apply SIM_fail; discriminate]. apply SIM_bind; [apply SIM_bc1|].
    intros [[t|er] m1]; unfold after_plain; exact (SIM_ret _).
Qed.
Lemma SIM_norm : SIM (transform_bc1_auto_with_normalization c v el use_all fresh even i o len m0) (transform_bc1_auto_with_normalization c v ec use_all fresh even i o len m0).
Proof. exact (SIM_ext _ _ _ _ (whole_eq el) (whole_eq ec) SIM_whole). Qed.
End Norm.
End Sim.

(** From the start: an empty log. *)
Theorem cached_search : forall {St B} hash a level past (f : St * list (call debug_error) -> res (B * _)) g st x st' log,
  SIM hash a level past f g -> f (st, []) = Ok (x, (st', log)) ->
  forall m s2, remembers hash m past -> no_clash hash (past ++ measured a level log) ->
  exists m' s2', g (m, s2) = Ok (x, (m', s2')) /\ remembers hash m' (past ++ measured a level log).
Proof.
  intros St B hash a level past f g st x st' log S E m s2 R NC. destruct (S _ _ _ _ _ E) as (c & _ & K). apply K; [exact NC|].
  unfold all, measured. cbn [flat_map]. rewrite app_nil_r. exact R.
Qed.
