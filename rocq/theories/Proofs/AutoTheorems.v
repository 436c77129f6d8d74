(** Properties of the automatic searches. Written by tools/gen_aprops.py. *)
From Verif Require Import Base.Bytes Base.Res Model.Color565 Model.Kernel Model.Transform Model.Auto Spec.YCoCg Spec.Layout Spec.Estimator
  Proofs.SliceFacts Proofs.TransformProps Proofs.AutoFacts Proofs.AutoProps.
From Coq Require Import ZifyBool ZifyNat.

Lemma valid_auto : forall {St Er S} blk (run : ptr -> ptr -> Z -> mem -> St -> res (result S (determine_error Er) * mem * St)) x out st s y st',
  auto_checked blk run x out st = Ok (ROk s, y, st') -> zlen x mod blk = 0 /\ zlen x <= zlen out.
Proof.
  intros St Er S blk run x out st s y st' H. unfold auto_checked in H.
  destruct (zlen x mod blk =? 0) eqn:E1; [|discriminate]. cbn [negb] in H. destruct (zlen out <? zlen x) eqn:E2; [discriminate|]. lia.
Qed.
Arguments valid_auto {St Er S}.

(** forgetting the log *)
Definition forget {A St L} (r : res (A * (St * L))) : res (A * St) :=
  match r with Ok (a, (st, _)) => Ok (a, st) | Panic w => Panic w | Ub w => Ub w end.

Lemma loop_forget : forall {St Er S} transform (est : mem -> St -> res (result Z Er * St)) est' (order : list S) best bs last m st (lg : list (call Er)),
  (forall m st lg, forget (est' m (st, lg)) = est m st) ->
  forget (search_loop transform est' order best bs last m (st, lg)) = search_loop transform est order best bs last m st.
Proof.
  intros St Er S transform est est' order. induction order as [|a r IH]; intros best bs last m st lg H; [reflexivity|].
  cbn [search_loop]. destruct (transform a m) as [m1|w|w]; cbn [bind]; [|reflexivity..].
  rewrite <- (H m1 st lg). destruct (est' m1 (st, lg)) as [[[z|e1] [st1 lg1]]|w|w]; cbn [bind forget]; try reflexivity.
  destruct (z <? bs); apply IH; exact H.
Qed.

Lemma search_forget : forall {St Er S} v (e : estimator St Er) n transform est est' same (dflt : S) order m st lg,
  (forall k m st lg, forget (est' k m (st, lg)) = est k m st) ->
  forget (search v (logging e) n transform est' same dflt order m (st, lg)) = search v e n transform est same dflt order m st.
Proof.
  intros St Er S v e n transform est est' same dflt order m st lg H. unfold search. cbn [logging max_compressed_size fst snd].
  destruct (max_compressed_size e st n) as [[k|e1] st1]; [|reflexivity].
  destruct (negb (k =? 0) && negb (alloc_ok v k)); [reflexivity|].
  rewrite <- (loop_forget transform (est k) (est' k) order dflt (usize_max v) dflt m st1 (lg ++ [AskedMax n (ROk k)]) (H k)).
  destruct (search_loop _ _ _ _ _ _ _ _) as [[[[[b l]|e1] m1] [st2 lg2]]|w|w]; cbn [bind forget]; try reflexivity.
  destruct (same b l); [reflexivity|]. destruct (transform b m1); reflexivity.
Qed.

Lemma checked_forget : forall {St Er S L} blk (run : ptr -> ptr -> Z -> mem -> St -> res (result S (determine_error Er) * mem * St))
  (run' : ptr -> ptr -> Z -> mem -> St * L -> res (result S (determine_error Er) * mem * (St * L))) x out st lg,
  (forall a b l m st lg, forget (run' a b l m (st, lg)) = run a b l m st) ->
  forget (auto_checked blk run' x out (st, lg)) = auto_checked blk run x out st.
Proof.
  intros St Er S L blk run run' x out st lg H. unfold auto_checked. destruct (negb _); [reflexivity|]. destruct (_ <? _); [reflexivity|].
  rewrite <- (H (Ptr BIn 0) (Ptr BOut 0) (zlen x) (Mem x [] out) st lg).
  destruct (run' _ _ _ _ _) as [[[[s|e1] m1] [st1 lg1]]|w|w]; reflexivity.
Qed.

Lemma at_forget : forall {St Er} (e : estimator St Er) p n k m st lg, forget (estimate_at (logging e) p n k m (st, lg)) = estimate_at e p n k m st.
Proof.
  intros. unfold estimate_at. destruct (mload m p n) as [d|w|w]; [|reflexivity..]. cbn [bind logging estimate_compressed_size fst snd].
  destruct (estimate_compressed_size e st d k) as [a s]. reflexivity.
Qed.

Lemma bc1_log_same : forall {St Er} c v (e : estimator St Er) all x out st lg,
  forget (transform_bc1_auto c v (logging e) all x out (st, lg)) = transform_bc1_auto c v e all x out st.
Proof. intros. apply checked_forget. intros. apply search_forget. intros. apply at_forget. Qed.
Lemma bc2_log_same : forall {St Er} c v (e : estimator St Er) all x out st lg,
  forget (transform_bc2_auto c v (logging e) all x out (st, lg)) = transform_bc2_auto c v e all x out st.
Proof.
  intros. apply checked_forget. intros. apply search_forget. intros. cbn beta.
  destruct (ptr_add _ _ _); [|reflexivity..]. apply at_forget.
Qed.
Lemma bc3_log_same : forall {St Er} c v (e : estimator St Er) all x out st lg,
  forget (transform_bc3_auto c v (logging e) all x out (st, lg)) = transform_bc3_auto c v e all x out st.
Proof.
  intros. apply checked_forget. intros. apply search_forget. intros. unfold estimate_bc3.
  rewrite <- (at_forget e b (l / 16 * 2) k m0 st1 lg1). destruct (estimate_at (logging e) b _ _ _ _) as [[[z|e1] [st2 lg2]]|w|w]; cbn [bind forget]; try reflexivity.
  destruct (ptr_add _ _ _) as [p|w|w]; cbn [bind forget]; try reflexivity.
  rewrite <- (at_forget e p (l / 16 * 4) k m0 st2 lg2). destruct (estimate_at (logging e) p _ _ _ _) as [[[z'|e1] [st3 lg3]]|w|w]; cbn [bind forget]; try reflexivity.
  destruct (_ <=? _); [reflexivity|]. destruct (c_debug c); reflexivity.
Qed.

Lemma lC16_bc1_auto_optimal : forall (Er : Type) (c : cfg) (v : env) (mx : Z -> result Z Er) (size : list byte -> Z -> result Z Er)
    (all : bool) (x out : list byte) (s : settings) (y : list byte),
  cpu_ok c -> (c_debug c = true -> x <> []) -> (forall d n z, size d n = ROk z -> 0 <= z /\ z <= usize_max v) ->
  transform_bc1_auto c v (pure mx size) all x out tt = Ok (ROk s, y, tt) ->
  candidate all (decorrelation_mode s) /\ transform_bc1 c s x out = Ok (ROk tt, y) /\
  exists scratch z, mx (zlen x / 2) = ROk scratch /\ total_size (fun d => size d scratch) (bc1_shown x s) = ROk z /\
    forall s', candidate all (decorrelation_mode s') -> exists z', total_size (fun d => size d scratch) (bc1_shown x s') = ROk z' /\ z <= z'.
Proof.
  intros Er c v mx size all x out s y K HD SZ R.
  destruct (valid_auto _ _ _ _ _ _ _ _ R) as (Hm & Ho).
  assert (TL : forall n s' z, total_size (fun d => size d n) (bc1_shown x s') = ROk z -> z <= usize_max v).
  { intros n s' z. unfold bc1_shown. cbn [total_size].
    destruct (size _ n) as [a|] eqn:E1; [|discriminate]. intros Q. injection Q as <-. apply SZ in E1. lia. }
  destruct (AUTO_ok _ _ _ _ _ _ _ _ _ _ _ _ (bc1_AUTO c v (pure mx size) all x out K HD  Hm Ho) ltac:(apply order1_in; unfold candidate; auto) R) as (I & Y).
  destruct (AUTO_pure _ _ _ _ _ _ _ _ _ _ _ _ (bc1_AUTO c v (pure mx size) all x out K HD  Hm Ho) ltac:(apply order1_in; unfold candidate; auto) TL R) as (n & z & N1 & N2 & N3 & _).
  split; [apply order1_in; exact I|]. split.
  - rewrite Y. apply bc1_slice; [exact K|intros D _; exact (HD D)|exact Hm|exact Ho].
  - exists n, z. split; [exact N1|]. split; [exact N2|]. intros s' C. apply N3. apply order1_in. exact C.
Qed.

Lemma lC16_bc1_auto_first : forall (Er : Type) (c : cfg) (v : env) (mx : Z -> result Z Er) (size : list byte -> Z -> result Z Er)
    (all : bool) (x out : list byte) (s : settings) (y : list byte),
  cpu_ok c -> (c_debug c = true -> x <> []) -> (forall d n z, size d n = ROk z -> 0 <= z /\ z <= usize_max v) ->
  transform_bc1_auto c v (pure mx size) all x out tt = Ok (ROk s, y, tt) ->
  exists scratch z, mx (zlen x / 2) = ROk scratch /\ total_size (fun d => size d scratch) (bc1_shown x s) = ROk z /\
    (z < usize_max v -> exists earlier later, (if all then comprehensive_test_order else fast_test_order) = earlier ++ s :: later /\
      forall s', In s' earlier -> exists z', total_size (fun d => size d scratch) (bc1_shown x s') = ROk z' /\ z < z').
Proof.
  intros Er c v mx size all x out s y K HD SZ R.
  destruct (valid_auto _ _ _ _ _ _ _ _ R) as (Hm & Ho).
  assert (TL : forall n s' z, total_size (fun d => size d n) (bc1_shown x s') = ROk z -> z <= usize_max v).
  { intros n s' z. unfold bc1_shown. cbn [total_size].
    destruct (size _ n) as [a|] eqn:E1; [|discriminate]. intros Q. injection Q as <-. apply SZ in E1. lia. }
  destruct (AUTO_pure _ _ _ _ _ _ _ _ _ _ _ _ (bc1_AUTO c v (pure mx size) all x out K HD  Hm Ho) ltac:(apply order1_in; unfold candidate; auto) TL R) as (n & z & N1 & N2 & _ & N4).
  exists n, z. split; [exact N1|]. split; [exact N2|]. exact N4.
Qed.

Lemma lC20_bc1_ultra_never_worse : forall (Er : Type) (c : cfg) (v : env) (mx : Z -> result Z Er) (size : list byte -> Z -> result Z Er)
    (x out1 out2 : list byte) (s1 s2 : settings) (y1 y2 : list byte),
  cpu_ok c -> (c_debug c = true -> x <> []) -> (forall d n z, size d n = ROk z -> 0 <= z /\ z <= usize_max v) ->
  transform_bc1_auto c v (pure mx size) false x out1 tt = Ok (ROk s1, y1, tt) ->
  transform_bc1_auto c v (pure mx size) true x out2 tt = Ok (ROk s2, y2, tt) ->
  exists scratch z1 z2, mx (zlen x / 2) = ROk scratch /\
    total_size (fun d => size d scratch) (bc1_shown x s1) = ROk z1 /\ total_size (fun d => size d scratch) (bc1_shown x s2) = ROk z2 /\ z2 <= z1.
Proof.
  intros Er c v mx size x out1 out2 s1 s2 y1 y2 K HD SZ R1 R2.
  destruct (lC16_bc1_auto_optimal Er c v mx size false x out1 s1 y1 K HD SZ R1) as (C1 & _ & n1 & z1 & M1 & T1 & _).
  destruct (lC16_bc1_auto_optimal Er c v mx size true x out2 s2 y2 K HD SZ R2) as (C2 & _ & n2 & z2 & M2 & T2 & O2).
  rewrite M1 in M2. injection M2 as <-. exists n1, z1, z2. split; [exact M1|]. split; [exact T1|]. split; [exact T2|].
  destruct (O2 s1) as (z' & E & L); [unfold candidate; auto|]. rewrite T1 in E. injection E as <-. exact L.
Qed.

Lemma lC21_bc1_auto_lossless : forall (St Er : Type) (c1 c2 : cfg) (v : env) (e : estimator St Er) (all : bool) (x out out2 : list byte) (st st' : St) (s : settings) (y : list byte),
  cpu_ok c1 -> cpu_ok c2 -> (c_debug c1 = true -> x <> []) -> (c_debug c2 = true -> x <> []) -> 
  transform_bc1_auto c1 v e all x out st = Ok (ROk s, y, st') -> zlen x <= zlen out2 ->
  exists z, untransform_bc1 c2 s (firstn (List.length x) y) out2 = Ok (ROk tt, z) /\ firstn (List.length x) z = x.
Proof.
  intros St Er c1 c2 v e all x out out2 st st' s y K1 K2 HD HD2  R H2.
  destruct (valid_auto _ _ _ _ _ _ _ _ R) as (Hm & Ho).
  destruct (AUTO_ok _ _ _ _ _ _ _ _ _ _ _ _ (bc1_AUTO c1 v e all x out K1 HD  Hm Ho) ltac:(apply order1_in; unfold candidate; auto) R) as (I & ->).
  assert (T : transform_bc1 c1 s x out = Ok (ROk tt, bc1_layout (decorrelation_mode s) (split_colour_endpoints s) x ++ skipn (List.length x) out))
    by (apply bc1_slice; [exact K1|intros D _; exact (HD D)|exact Hm|exact Ho]).
  destruct (lC01_bc1_lossless c1 c2 s x out out2 K1 K2 ltac:(intros [D|D] _; auto) Hm Ho H2) as (y & z & T' & U & E).
  rewrite T in T'. injection T' as <-. exists z. split; assumption.
Qed.

Lemma lC19_bc1_estimator_errors : forall (St Er : Type) (c : cfg) (v : env) (e : estimator St Er) (all : bool) (x out : list byte) (st : St),
  cpu_ok c -> (c_debug c = true -> x <> []) ->  zlen x mod 8 = 0 -> zlen x <= zlen out ->
  exists r y st' log, transform_bc1_auto c v e all x out st = Ok (r, y, st') /\
    transform_bc1_auto c v (logging e) all x out (st, []) = Ok (r, y, (st', log)) /\
    match r with
    | ROk _ => Forall (fun q => exists z, answer q = ROk z) log
    | RErr (DetermineBestTransform (SizeEstimationError e1)) =>
        exists before q, log = before ++ [q] /\ answer q = RErr e1 /\ Forall (fun q => exists z, answer q = ROk z) before
    | RErr (DetermineBestTransform AllocateError) => exists n, log = [AskedMax (zlen x / 2) (ROk n)] /\ alloc_ok v n = false
    | RErr _ => False
    end.
Proof.
  intros St Er c v e all x out st K HD  Hm Ho.
  destruct (AUTO_log v e _ _ _ _ _ _ st (bc1_AUTO c v (logging e) all x out K HD  Hm Ho)) as (r & y & st' & lg & R & A & _).
  exists r, y, st', lg. split; [|split; [exact R|exact A]].
  pose proof (bc1_log_same c v e all x out st []) as S. rewrite R in S. symmetry. exact S.
Qed.

Lemma lC50_bc1_estimator_calls : forall (St Er : Type) (c : cfg) (v : env) (e : estimator St Er) (all : bool) (x out : list byte) (st : St),
  cpu_ok c -> (c_debug c = true -> x <> []) ->  zlen x mod 8 = 0 -> zlen x <= zlen out ->
  exists r y st' a rest, transform_bc1_auto c v (logging e) all x out (st, []) = Ok (r, y, (st', AskedMax (zlen x / 2) a :: rest)) /\
    match a with
    | RErr _ => rest = []
    | ROk scratch => exists seen, Forall2 (fun d q => exists ans, q = AskedSize d scratch ans) seen rest /\
        exists unseen, flat_map (bc1_shown x) (if all then comprehensive_test_order else fast_test_order) = seen ++ unseen /\
          ((exists s, r = ROk s) -> unseen = [])
    end.
Proof.
  intros St Er c v e all x out st K HD  Hm Ho.
  destruct (AUTO_log v e _ _ _ _ _ _ st (bc1_AUTO c v (logging e) all x out K HD  Hm Ho)) as (r & y & st' & lg & R & _ & a & rest & -> & B).
  exists r, y, st', a, rest. split; [exact R|exact B].
Qed.

Lemma lC17_bc2_auto_optimal : forall (Er : Type) (c : cfg) (v : env) (mx : Z -> result Z Er) (size : list byte -> Z -> result Z Er)
    (all : bool) (x out : list byte) (s : settings) (y : list byte),
  cpu_ok c -> (c_avx512bw c = true -> c_avx512vl c = true) -> (forall d n z, size d n = ROk z -> 0 <= z /\ z <= usize_max v) ->
  transform_bc2_auto c v (pure mx size) all x out tt = Ok (ROk s, y, tt) ->
  candidate all (decorrelation_mode s) /\ transform_bc2 c s x out = Ok (ROk tt, y) /\
  exists scratch z, mx (zlen x / 4) = ROk scratch /\ total_size (fun d => size d scratch) (bc2_shown x s) = ROk z /\
    forall s', candidate all (decorrelation_mode s') -> exists z', total_size (fun d => size d scratch) (bc2_shown x s') = ROk z' /\ z <= z'.
Proof.
  intros Er c v mx size all x out s y K HD SZ R.
  destruct (valid_auto _ _ _ _ _ _ _ _ R) as (Hm & Ho).
  assert (TL : forall n s' z, total_size (fun d => size d n) (bc2_shown x s') = ROk z -> z <= usize_max v).
  { intros n s' z. unfold bc2_shown. cbn [total_size].
    destruct (size _ n) as [a|] eqn:E1; [|discriminate]. intros Q. injection Q as <-. apply SZ in E1. lia. }
  destruct (AUTO_ok _ _ _ _ _ _ _ _ _ _ _ _ (bc2_AUTO c v (pure mx size) all x out K HD  Hm Ho) ltac:(apply order1_in; unfold candidate; auto) R) as (I & Y).
  destruct (AUTO_pure _ _ _ _ _ _ _ _ _ _ _ _ (bc2_AUTO c v (pure mx size) all x out K HD  Hm Ho) ltac:(apply order1_in; unfold candidate; auto) TL R) as (n & z & N1 & N2 & N3 & _).
  split; [apply order1_in; exact I|]. split.
  - rewrite Y. apply bc2_slice; [exact K|exact HD|exact Hm|exact Ho].
  - exists n, z. split; [exact N1|]. split; [exact N2|]. intros s' C. apply N3. apply order1_in. exact C.
Qed.

Lemma lC17_bc2_auto_first : forall (Er : Type) (c : cfg) (v : env) (mx : Z -> result Z Er) (size : list byte -> Z -> result Z Er)
    (all : bool) (x out : list byte) (s : settings) (y : list byte),
  cpu_ok c -> (c_avx512bw c = true -> c_avx512vl c = true) -> (forall d n z, size d n = ROk z -> 0 <= z /\ z <= usize_max v) ->
  transform_bc2_auto c v (pure mx size) all x out tt = Ok (ROk s, y, tt) ->
  exists scratch z, mx (zlen x / 4) = ROk scratch /\ total_size (fun d => size d scratch) (bc2_shown x s) = ROk z /\
    (z < usize_max v -> exists earlier later, (if all then comprehensive_test_order else fast_test_order) = earlier ++ s :: later /\
      forall s', In s' earlier -> exists z', total_size (fun d => size d scratch) (bc2_shown x s') = ROk z' /\ z < z').
Proof.
  intros Er c v mx size all x out s y K HD SZ R.
  destruct (valid_auto _ _ _ _ _ _ _ _ R) as (Hm & Ho).
  assert (TL : forall n s' z, total_size (fun d => size d n) (bc2_shown x s') = ROk z -> z <= usize_max v).
  { intros n s' z. unfold bc2_shown. cbn [total_size].
    destruct (size _ n) as [a|] eqn:E1; [|discriminate]. intros Q. injection Q as <-. apply SZ in E1. lia. }
  destruct (AUTO_pure _ _ _ _ _ _ _ _ _ _ _ _ (bc2_AUTO c v (pure mx size) all x out K HD  Hm Ho) ltac:(apply order1_in; unfold candidate; auto) TL R) as (n & z & N1 & N2 & _ & N4).
  exists n, z. split; [exact N1|]. split; [exact N2|]. exact N4.
Qed.

Lemma lC20_bc2_ultra_never_worse : forall (Er : Type) (c : cfg) (v : env) (mx : Z -> result Z Er) (size : list byte -> Z -> result Z Er)
    (x out1 out2 : list byte) (s1 s2 : settings) (y1 y2 : list byte),
  cpu_ok c -> (c_avx512bw c = true -> c_avx512vl c = true) -> (forall d n z, size d n = ROk z -> 0 <= z /\ z <= usize_max v) ->
  transform_bc2_auto c v (pure mx size) false x out1 tt = Ok (ROk s1, y1, tt) ->
  transform_bc2_auto c v (pure mx size) true x out2 tt = Ok (ROk s2, y2, tt) ->
  exists scratch z1 z2, mx (zlen x / 4) = ROk scratch /\
    total_size (fun d => size d scratch) (bc2_shown x s1) = ROk z1 /\ total_size (fun d => size d scratch) (bc2_shown x s2) = ROk z2 /\ z2 <= z1.
Proof.
  intros Er c v mx size x out1 out2 s1 s2 y1 y2 K HD SZ R1 R2.
  destruct (lC17_bc2_auto_optimal Er c v mx size false x out1 s1 y1 K HD SZ R1) as (C1 & _ & n1 & z1 & M1 & T1 & _).
  destruct (lC17_bc2_auto_optimal Er c v mx size true x out2 s2 y2 K HD SZ R2) as (C2 & _ & n2 & z2 & M2 & T2 & O2).
  rewrite M1 in M2. injection M2 as <-. exists n1, z1, z2. split; [exact M1|]. split; [exact T1|]. split; [exact T2|].
  destruct (O2 s1) as (z' & E & L); [unfold candidate; auto|]. rewrite T1 in E. injection E as <-. exact L.
Qed.

Lemma lC21_bc2_auto_lossless : forall (St Er : Type) (c1 c2 : cfg) (v : env) (e : estimator St Er) (all : bool) (x out out2 : list byte) (st st' : St) (s : settings) (y : list byte),
  cpu_ok c1 -> cpu_ok c2 -> (c_avx512bw c1 = true -> c_avx512vl c1 = true) ->  
  transform_bc2_auto c1 v e all x out st = Ok (ROk s, y, st') -> zlen x <= zlen out2 ->
  exists z, untransform_bc2 c2 s (firstn (List.length x) y) out2 = Ok (ROk tt, z) /\ firstn (List.length x) z = x.
Proof.
  intros St Er c1 c2 v e all x out out2 st st' s y K1 K2 HD   R H2.
  destruct (valid_auto _ _ _ _ _ _ _ _ R) as (Hm & Ho).
  destruct (AUTO_ok _ _ _ _ _ _ _ _ _ _ _ _ (bc2_AUTO c1 v e all x out K1 HD  Hm Ho) ltac:(apply order1_in; unfold candidate; auto) R) as (I & ->).
  assert (T : transform_bc2 c1 s x out = Ok (ROk tt, bc2_layout (decorrelation_mode s) (split_colour_endpoints s) x ++ skipn (List.length x) out))
    by (apply bc2_slice; [exact K1|exact HD|exact Hm|exact Ho]).
  destruct (lC02_bc2_lossless c1 c2 s x out out2 K1 K2 HD Hm Ho H2) as (y & z & T' & U & E).
  rewrite T in T'. injection T' as <-. exists z. split; assumption.
Qed.

Lemma lC19_bc2_estimator_errors : forall (St Er : Type) (c : cfg) (v : env) (e : estimator St Er) (all : bool) (x out : list byte) (st : St),
  cpu_ok c -> (c_avx512bw c = true -> c_avx512vl c = true) ->  zlen x mod 16 = 0 -> zlen x <= zlen out ->
  exists r y st' log, transform_bc2_auto c v e all x out st = Ok (r, y, st') /\
    transform_bc2_auto c v (logging e) all x out (st, []) = Ok (r, y, (st', log)) /\
    match r with
    | ROk _ => Forall (fun q => exists z, answer q = ROk z) log
    | RErr (DetermineBestTransform (SizeEstimationError e1)) =>
        exists before q, log = before ++ [q] /\ answer q = RErr e1 /\ Forall (fun q => exists z, answer q = ROk z) before
    | RErr (DetermineBestTransform AllocateError) => exists n, log = [AskedMax (zlen x / 4) (ROk n)] /\ alloc_ok v n = false
    | RErr _ => False
    end.
Proof.
  intros St Er c v e all x out st K HD  Hm Ho.
  destruct (AUTO_log v e _ _ _ _ _ _ st (bc2_AUTO c v (logging e) all x out K HD  Hm Ho)) as (r & y & st' & lg & R & A & _).
  exists r, y, st', lg. split; [|split; [exact R|exact A]].
  pose proof (bc2_log_same c v e all x out st []) as S. rewrite R in S. symmetry. exact S.
Qed.

Lemma lC50_bc2_estimator_calls : forall (St Er : Type) (c : cfg) (v : env) (e : estimator St Er) (all : bool) (x out : list byte) (st : St),
  cpu_ok c -> (c_avx512bw c = true -> c_avx512vl c = true) ->  zlen x mod 16 = 0 -> zlen x <= zlen out ->
  exists r y st' a rest, transform_bc2_auto c v (logging e) all x out (st, []) = Ok (r, y, (st', AskedMax (zlen x / 4) a :: rest)) /\
    match a with
    | RErr _ => rest = []
    | ROk scratch => exists seen, Forall2 (fun d q => exists ans, q = AskedSize d scratch ans) seen rest /\
        exists unseen, flat_map (bc2_shown x) (if all then comprehensive_test_order else fast_test_order) = seen ++ unseen /\
          ((exists s, r = ROk s) -> unseen = [])
    end.
Proof.
  intros St Er c v e all x out st K HD  Hm Ho.
  destruct (AUTO_log v e _ _ _ _ _ _ st (bc2_AUTO c v (logging e) all x out K HD  Hm Ho)) as (r & y & st' & lg & R & _ & a & rest & -> & B).
  exists r, y, st', a, rest. split; [exact R|exact B].
Qed.

Lemma lC18_bc3_auto_optimal : forall (Er : Type) (c : cfg) (v : env) (mx : Z -> result Z Er) (size : list byte -> Z -> result Z Er)
    (all : bool) (x out : list byte) (s : settings3) (y : list byte),
  cpu_ok c -> (c_debug c = true -> x <> []) -> (forall d n z, size d n = ROk z -> 0 <= z /\ 2 * z <= usize_max v) ->
  transform_bc3_auto c v (pure mx size) all x out tt = Ok (ROk s, y, tt) ->
  candidate all (decorrelation_mode3 s) /\ transform_bc3 c s x out = Ok (ROk tt, y) /\
  exists scratch z, mx (zlen x / 4) = ROk scratch /\ total_size (fun d => size d scratch) (bc3_shown x s) = ROk z /\
    forall s', candidate all (decorrelation_mode3 s') -> exists z', total_size (fun d => size d scratch) (bc3_shown x s') = ROk z' /\ z <= z'.
Proof.
  intros Er c v mx size all x out s y K HD SZ R.
  destruct (valid_auto _ _ _ _ _ _ _ _ R) as (Hm & Ho).
  assert (TL : forall n s' z, total_size (fun d => size d n) (bc3_shown x s') = ROk z -> z <= usize_max v).
  { intros n s' z. unfold bc3_shown. cbn [total_size].
    destruct (size _ n) as [a|] eqn:E1; [|discriminate]. destruct (size (lay (colour_fields _ _ _) _) n) as [b|] eqn:E2; [|discriminate].
    intros Q. injection Q as <-. apply SZ in E1. apply SZ in E2. lia. }
  destruct (AUTO_ok _ _ _ _ _ _ _ _ _ _ _ _ (bc3_AUTO c v (pure mx size) all x out K HD ltac:(intros st d n z st' E; cbn [pure estimate_compressed_size] in E; injection E as E _; apply SZ in E; lia) Hm Ho) ltac:(apply order3_in; unfold candidate; auto) R) as (I & Y).
  destruct (AUTO_pure _ _ _ _ _ _ _ _ _ _ _ _ (bc3_AUTO c v (pure mx size) all x out K HD ltac:(intros st d n z st' E; cbn [pure estimate_compressed_size] in E; injection E as E _; apply SZ in E; lia) Hm Ho) ltac:(apply order3_in; unfold candidate; auto) TL R) as (n & z & N1 & N2 & N3 & _).
  split; [apply order3_in; exact I|]. split.
  - rewrite Y. apply bc3_slice; [exact K|intros D _; exact (HD D)|exact Hm|exact Ho].
  - exists n, z. split; [exact N1|]. split; [exact N2|]. intros s' C. apply N3. apply order3_in. exact C.
Qed.

Lemma lC18_bc3_auto_first : forall (Er : Type) (c : cfg) (v : env) (mx : Z -> result Z Er) (size : list byte -> Z -> result Z Er)
    (all : bool) (x out : list byte) (s : settings3) (y : list byte),
  cpu_ok c -> (c_debug c = true -> x <> []) -> (forall d n z, size d n = ROk z -> 0 <= z /\ 2 * z <= usize_max v) ->
  transform_bc3_auto c v (pure mx size) all x out tt = Ok (ROk s, y, tt) ->
  exists scratch z, mx (zlen x / 4) = ROk scratch /\ total_size (fun d => size d scratch) (bc3_shown x s) = ROk z /\
    (z < usize_max v -> exists earlier later, (if all then comprehensive_test_order3 else fast_test_order3) = earlier ++ s :: later /\
      forall s', In s' earlier -> exists z', total_size (fun d => size d scratch) (bc3_shown x s') = ROk z' /\ z < z').
Proof.
  intros Er c v mx size all x out s y K HD SZ R.
  destruct (valid_auto _ _ _ _ _ _ _ _ R) as (Hm & Ho).
  assert (TL : forall n s' z, total_size (fun d => size d n) (bc3_shown x s') = ROk z -> z <= usize_max v).
  { intros n s' z. unfold bc3_shown. cbn [total_size].
    destruct (size _ n) as [a|] eqn:E1; [|discriminate]. destruct (size (lay (colour_fields _ _ _) _) n) as [b|] eqn:E2; [|discriminate].
    intros Q. injection Q as <-. apply SZ in E1. apply SZ in E2. lia. }
  destruct (AUTO_pure _ _ _ _ _ _ _ _ _ _ _ _ (bc3_AUTO c v (pure mx size) all x out K HD ltac:(intros st d n z st' E; cbn [pure estimate_compressed_size] in E; injection E as E _; apply SZ in E; lia) Hm Ho) ltac:(apply order3_in; unfold candidate; auto) TL R) as (n & z & N1 & N2 & _ & N4).
  exists n, z. split; [exact N1|]. split; [exact N2|]. exact N4.
Qed.

Lemma lC20_bc3_ultra_never_worse : forall (Er : Type) (c : cfg) (v : env) (mx : Z -> result Z Er) (size : list byte -> Z -> result Z Er)
    (x out1 out2 : list byte) (s1 s2 : settings3) (y1 y2 : list byte),
  cpu_ok c -> (c_debug c = true -> x <> []) -> (forall d n z, size d n = ROk z -> 0 <= z /\ 2 * z <= usize_max v) ->
  transform_bc3_auto c v (pure mx size) false x out1 tt = Ok (ROk s1, y1, tt) ->
  transform_bc3_auto c v (pure mx size) true x out2 tt = Ok (ROk s2, y2, tt) ->
  exists scratch z1 z2, mx (zlen x / 4) = ROk scratch /\
    total_size (fun d => size d scratch) (bc3_shown x s1) = ROk z1 /\ total_size (fun d => size d scratch) (bc3_shown x s2) = ROk z2 /\ z2 <= z1.
Proof.
  intros Er c v mx size x out1 out2 s1 s2 y1 y2 K HD SZ R1 R2.
  destruct (lC18_bc3_auto_optimal Er c v mx size false x out1 s1 y1 K HD SZ R1) as (C1 & _ & n1 & z1 & M1 & T1 & _).
  destruct (lC18_bc3_auto_optimal Er c v mx size true x out2 s2 y2 K HD SZ R2) as (C2 & _ & n2 & z2 & M2 & T2 & O2).
  rewrite M1 in M2. injection M2 as <-. exists n1, z1, z2. split; [exact M1|]. split; [exact T1|]. split; [exact T2|].
  destruct (O2 s1) as (z' & E & L); [unfold candidate; auto|]. rewrite T1 in E. injection E as <-. exact L.
Qed.

Lemma lC21_bc3_auto_lossless : forall (St Er : Type) (c1 c2 : cfg) (v : env) (e : estimator St Er) (all : bool) (x out out2 : list byte) (st st' : St) (s : settings3) (y : list byte),
  cpu_ok c1 -> cpu_ok c2 -> (c_debug c1 = true -> x <> []) -> (c_debug c2 = true -> x <> []) -> (forall st d n z st', estimate_compressed_size e st d n = (ROk z, st') -> 2 * z <= usize_max v) ->
  transform_bc3_auto c1 v e all x out st = Ok (ROk s, y, st') -> zlen x <= zlen out2 ->
  exists z, untransform_bc3 c2 s (firstn (List.length x) y) out2 = Ok (ROk tt, z) /\ firstn (List.length x) z = x.
Proof.
  intros St Er c1 c2 v e all x out out2 st st' s y K1 K2 HD HD2 HS R H2.
  destruct (valid_auto _ _ _ _ _ _ _ _ R) as (Hm & Ho).
  destruct (AUTO_ok _ _ _ _ _ _ _ _ _ _ _ _ (bc3_AUTO c1 v e all x out K1 HD HS Hm Ho) ltac:(apply order3_in; unfold candidate; auto) R) as (I & ->).
  assert (T : transform_bc3 c1 s x out = Ok (ROk tt, bc3_layout (decorrelation_mode3 s) (split_alpha_endpoints s) (split_colour_endpoints3 s) x ++ skipn (List.length x) out))
    by (apply bc3_slice; [exact K1|intros D _; exact (HD D)|exact Hm|exact Ho]).
  destruct (lC03_bc3_lossless c1 c2 s x out out2 K1 K2 ltac:(intros [D|D] _; auto) Hm Ho H2) as (y & z & T' & U & E).
  rewrite T in T'. injection T' as <-. exists z. split; assumption.
Qed.

Lemma lC19_bc3_estimator_errors : forall (St Er : Type) (c : cfg) (v : env) (e : estimator St Er) (all : bool) (x out : list byte) (st : St),
  cpu_ok c -> (c_debug c = true -> x <> []) -> (forall st d n z st', estimate_compressed_size e st d n = (ROk z, st') -> 2 * z <= usize_max v) -> zlen x mod 16 = 0 -> zlen x <= zlen out ->
  exists r y st' log, transform_bc3_auto c v e all x out st = Ok (r, y, st') /\
    transform_bc3_auto c v (logging e) all x out (st, []) = Ok (r, y, (st', log)) /\
    match r with
    | ROk _ => Forall (fun q => exists z, answer q = ROk z) log
    | RErr (DetermineBestTransform (SizeEstimationError e1)) =>
        exists before q, log = before ++ [q] /\ answer q = RErr e1 /\ Forall (fun q => exists z, answer q = ROk z) before
    | RErr (DetermineBestTransform AllocateError) => exists n, log = [AskedMax (zlen x / 4) (ROk n)] /\ alloc_ok v n = false
    | RErr _ => False
    end.
Proof.
  intros St Er c v e all x out st K HD HS Hm Ho.
  destruct (AUTO_log v e _ _ _ _ _ _ st (bc3_AUTO c v (logging e) all x out K HD ltac:(intros st0 d n z st' E; cbn [logging estimate_compressed_size] in E; destruct (estimate_compressed_size e (fst st0) d n) as [a s0] eqn:E0; injection E as -> _; exact (HS _ _ _ _ _ E0)) Hm Ho)) as (r & y & st' & lg & R & A & _).
  exists r, y, st', lg. split; [|split; [exact R|exact A]].
  pose proof (bc3_log_same c v e all x out st []) as S. rewrite R in S. symmetry. exact S.
Qed.

Lemma lC50_bc3_estimator_calls : forall (St Er : Type) (c : cfg) (v : env) (e : estimator St Er) (all : bool) (x out : list byte) (st : St),
  cpu_ok c -> (c_debug c = true -> x <> []) -> (forall st d n z st', estimate_compressed_size e st d n = (ROk z, st') -> 2 * z <= usize_max v) -> zlen x mod 16 = 0 -> zlen x <= zlen out ->
  exists r y st' a rest, transform_bc3_auto c v (logging e) all x out (st, []) = Ok (r, y, (st', AskedMax (zlen x / 4) a :: rest)) /\
    match a with
    | RErr _ => rest = []
    | ROk scratch => exists seen, Forall2 (fun d q => exists ans, q = AskedSize d scratch ans) seen rest /\
        exists unseen, flat_map (bc3_shown x) (if all then comprehensive_test_order3 else fast_test_order3) = seen ++ unseen /\
          ((exists s, r = ROk s) -> unseen = [])
    end.
Proof.
  intros St Er c v e all x out st K HD HS Hm Ho.
  destruct (AUTO_log v e _ _ _ _ _ _ st (bc3_AUTO c v (logging e) all x out K HD ltac:(intros st0 d n z st' E; cbn [logging estimate_compressed_size] in E; destruct (estimate_compressed_size e (fst st0) d n) as [a s0] eqn:E0; injection E as -> _; exact (HS _ _ _ _ _ E0)) Hm Ho)) as (r & y & st' & lg & R & _ & a & rest & -> & B).
  exists r, y, st', a, rest. split; [exact R|exact B].
Qed.

Lemma lC18_bc3_overflow_refuted : exists (v : env) (size : list byte -> Z -> result Z unit) (x out : list byte) (s best : settings3) (y : list byte) (z z' : Z),
  (forall d n k, size d n = ROk k -> 0 <= k <= usize_max v) /\ zlen x mod 16 = 0 /\ zlen x <= zlen out /\
  transform_bc3_auto (Cfg false X86_64 false true true true true true true true x00) v (pure (fun n => ROk n) size) true x out tt = Ok (ROk s, y, tt) /\
  total_size (fun d => size d (zlen x / 4)) (bc3_shown x s) = ROk z /\
  total_size (fun d => size d (zlen x / 4)) (bc3_shown x best) = ROk z' /\ z' < z /\
  exists why, transform_bc3_auto (Cfg true X86_64 false true true true true true true true x00) v (pure (fun n => ROk n) size) true x out tt = Panic why.
Proof.
  exists (Env (2 ^ 64 - 1) (fun _ => true)).
  exists (fun d _ => ROk (if zlen d =? 2 then 2 ^ 63 else if Byte.eqb (hd x00 d) xff then 2 ^ 63 else 1)).
  exists (List.repeat xff 16), (List.repeat x00 16), (Settings3 VNone true false), (Settings3 V1 true true).
  do 3 eexists. split; [|split; [reflexivity|split; [vm_compute; discriminate|split; [vm_compute; reflexivity|split; [vm_compute; reflexivity|split; [vm_compute; reflexivity|split; [reflexivity|eexists; vm_compute; reflexivity]]]]]]].
  intros d n k E. injection E as <-. cbn [usize_max]. destruct (zlen d =? 2); [lia|]. destruct (Byte.eqb _ _); lia.
Qed.

Lemma auto_checked_errors {St Er S} (n : Z) run (x out : list byte) (st : St) :
  (zlen x mod n <> 0 -> @auto_checked St Er S n run x out st = Ok (RErr (AutoInvalidLength (zlen x)), out, st)) /\
  (zlen x mod n = 0 -> zlen out < zlen x -> @auto_checked St Er S n run x out st = Ok (RErr (AutoOutputBufferTooSmall (zlen x) (zlen out)), out, st)) /\
  (zlen x mod n = 0 -> zlen x <= zlen out -> forall r y st', @auto_checked St Er S n run x out st = Ok (RErr r, y, st') -> exists d, r = DetermineBestTransform d).
Proof.
  unfold auto_checked. split; [|split].
  - intros H. destruct (Z.eqb_spec (zlen x mod n) 0) as [K|K]; [contradiction|reflexivity].
  - intros H H1. destruct (Z.eqb_spec (zlen x mod n) 0) as [K|K]; [|contradiction].
    cbn [negb]. destruct (Z.ltb_spec (zlen out) (zlen x)) as [L|L]; [reflexivity|lia].
  - intros H H1 r y st'. destruct (Z.eqb_spec (zlen x mod n) 0) as [K|K]; [|contradiction].
    cbn [negb]. destruct (Z.ltb_spec (zlen out) (zlen x)) as [L|L]; [lia|].
    destruct (run _ _ _ _ _) as [[[[s|e0] m] st1]| |]; cbn [bind]; intros I; try discriminate I.
    exists e0. congruence.
Qed.

Lemma lC15_bc1_auto_validation : forall (St Er : Type) (c : cfg) (v : env) (e : estimator St Er) (all : bool) (x out : list byte) (st : St),
  (zlen x mod 8 <> 0 -> transform_bc1_auto c v e all x out st = Ok (RErr (AutoInvalidLength (zlen x)), out, st)) /\
  (zlen x mod 8 = 0 -> zlen out < zlen x -> transform_bc1_auto c v e all x out st = Ok (RErr (AutoOutputBufferTooSmall (zlen x) (zlen out)), out, st)) /\
  (zlen x mod 8 = 0 -> zlen x <= zlen out -> forall r y st', transform_bc1_auto c v e all x out st = Ok (RErr r, y, st') -> exists d, r = DetermineBestTransform d).
Proof. intros. apply auto_checked_errors. Qed.

Lemma lC15_bc2_auto_validation : forall (St Er : Type) (c : cfg) (v : env) (e : estimator St Er) (all : bool) (x out : list byte) (st : St),
  (zlen x mod 16 <> 0 -> transform_bc2_auto c v e all x out st = Ok (RErr (AutoInvalidLength (zlen x)), out, st)) /\
  (zlen x mod 16 = 0 -> zlen out < zlen x -> transform_bc2_auto c v e all x out st = Ok (RErr (AutoOutputBufferTooSmall (zlen x) (zlen out)), out, st)) /\
  (zlen x mod 16 = 0 -> zlen x <= zlen out -> forall r y st', transform_bc2_auto c v e all x out st = Ok (RErr r, y, st') -> exists d, r = DetermineBestTransform d).
Proof. intros. apply auto_checked_errors. Qed.

Lemma lC15_bc3_auto_validation : forall (St Er : Type) (c : cfg) (v : env) (e : estimator St Er) (all : bool) (x out : list byte) (st : St),
  (zlen x mod 16 <> 0 -> transform_bc3_auto c v e all x out st = Ok (RErr (AutoInvalidLength (zlen x)), out, st)) /\
  (zlen x mod 16 = 0 -> zlen out < zlen x -> transform_bc3_auto c v e all x out st = Ok (RErr (AutoOutputBufferTooSmall (zlen x) (zlen out)), out, st)) /\
  (zlen x mod 16 = 0 -> zlen x <= zlen out -> forall r y st', transform_bc3_auto c v e all x out st = Ok (RErr r, y, st') -> exists d, r = DetermineBestTransform d).
Proof. intros. apply auto_checked_errors. Qed.
