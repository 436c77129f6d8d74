(** Properties of the automatic searches on a big-endian machine (generated by
    tools/gen_be.py from Proofs/AutoTheorems.v). *)
From Verif Require Import Base.Bytes Base.Res Model.Color565 Model.Kernel Model.Transform Model.Auto Model.BigEndian Model.BeTransform Model.BeFiles
  Spec.YCoCg Spec.Layout Spec.BigEndian Spec.Estimator Spec.BeFiles
  Proofs.SliceFacts Proofs.BeSliceFacts Proofs.TransformProps Proofs.AutoFacts Proofs.AutoProps Proofs.AutoTheorems Proofs.BeAutoProps
  Proofs.BigEndianFacts Proofs.BigEndianProps.
From Coq Require Import ZifyBool ZifyNat.

Lemma be_lC16_bc1_auto_optimal : forall (Er : Type) (c : cfg) (v : env) (mx : Z -> result Z Er) (size : list byte -> Z -> result Z Er)
    (all : bool) (x out : list byte) (s : settings) (y : list byte),
  cpu_ok c ->  (forall d n z, size d n = ROk z -> 0 <= z /\ z <= usize_max v) ->
  be_transform_bc1_auto c v (pure mx size) all x out tt = Ok (ROk s, y, tt) ->
  candidate all (decorrelation_mode s) /\ be_transform_bc1 c s x out = Ok (ROk tt, y) /\
  exists scratch z, mx (zlen x / 2) = ROk scratch /\ total_size (fun d => size d scratch) (be_bc1_shown x s) = ROk z /\
    forall s', candidate all (decorrelation_mode s') -> exists z', total_size (fun d => size d scratch) (be_bc1_shown x s') = ROk z' /\ z <= z'.
Proof.
  intros Er c v mx size all x out s y K SZ R.
  destruct (valid_auto _ _ _ _ _ _ _ _ R) as (Hm & Ho).
  assert (TL : forall n s' z, total_size (fun d => size d n) (be_bc1_shown x s') = ROk z -> z <= usize_max v).
  { intros n s' z. unfold be_bc1_shown. cbn [total_size].
    destruct (size _ n) as [a|] eqn:E1; [|discriminate]. intros Q. injection Q as <-. apply SZ in E1. lia. }
  destruct (AUTO_ok _ _ _ _ _ _ _ _ _ _ _ _ (be_bc1_AUTO c v (pure mx size) all x out K  Hm Ho) ltac:(apply order1_in; unfold candidate; auto) R) as (I & Y).
  destruct (AUTO_pure _ _ _ _ _ _ _ _ _ _ _ _ (be_bc1_AUTO c v (pure mx size) all x out K  Hm Ho) ltac:(apply order1_in; unfold candidate; auto) TL R) as (n & z & N1 & N2 & N3 & _).
  split; [apply order1_in; exact I|]. split.
  - rewrite Y. apply be_bc1_slice; [exact K|exact Hm|exact Ho].
  - exists n, z. split; [exact N1|]. split; [exact N2|]. intros s' C. apply N3. apply order1_in. exact C.
Qed.

Lemma be_lC16_bc1_auto_first : forall (Er : Type) (c : cfg) (v : env) (mx : Z -> result Z Er) (size : list byte -> Z -> result Z Er)
    (all : bool) (x out : list byte) (s : settings) (y : list byte),
  cpu_ok c ->  (forall d n z, size d n = ROk z -> 0 <= z /\ z <= usize_max v) ->
  be_transform_bc1_auto c v (pure mx size) all x out tt = Ok (ROk s, y, tt) ->
  exists scratch z, mx (zlen x / 2) = ROk scratch /\ total_size (fun d => size d scratch) (be_bc1_shown x s) = ROk z /\
    (z < usize_max v -> exists earlier later, (if all then comprehensive_test_order else fast_test_order) = earlier ++ s :: later /\
      forall s', In s' earlier -> exists z', total_size (fun d => size d scratch) (be_bc1_shown x s') = ROk z' /\ z < z').
Proof.
  intros Er c v mx size all x out s y K SZ R.
  destruct (valid_auto _ _ _ _ _ _ _ _ R) as (Hm & Ho).
  assert (TL : forall n s' z, total_size (fun d => size d n) (be_bc1_shown x s') = ROk z -> z <= usize_max v).
  { intros n s' z. unfold be_bc1_shown. cbn [total_size].
    destruct (size _ n) as [a|] eqn:E1; [|discriminate]. intros Q. injection Q as <-. apply SZ in E1. lia. }
  destruct (AUTO_pure _ _ _ _ _ _ _ _ _ _ _ _ (be_bc1_AUTO c v (pure mx size) all x out K  Hm Ho) ltac:(apply order1_in; unfold candidate; auto) TL R) as (n & z & N1 & N2 & _ & N4).
  exists n, z. split; [exact N1|]. split; [exact N2|]. exact N4.
Qed.

Lemma be_lC20_bc1_ultra_never_worse : forall (Er : Type) (c : cfg) (v : env) (mx : Z -> result Z Er) (size : list byte -> Z -> result Z Er)
    (x out1 out2 : list byte) (s1 s2 : settings) (y1 y2 : list byte),
  cpu_ok c ->  (forall d n z, size d n = ROk z -> 0 <= z /\ z <= usize_max v) ->
  be_transform_bc1_auto c v (pure mx size) false x out1 tt = Ok (ROk s1, y1, tt) ->
  be_transform_bc1_auto c v (pure mx size) true x out2 tt = Ok (ROk s2, y2, tt) ->
  exists scratch z1 z2, mx (zlen x / 2) = ROk scratch /\
    total_size (fun d => size d scratch) (be_bc1_shown x s1) = ROk z1 /\ total_size (fun d => size d scratch) (be_bc1_shown x s2) = ROk z2 /\ z2 <= z1.
Proof.
  intros Er c v mx size x out1 out2 s1 s2 y1 y2 K SZ R1 R2.
  destruct (be_lC16_bc1_auto_optimal Er c v mx size false x out1 s1 y1 K SZ R1) as (C1 & _ & n1 & z1 & M1 & T1 & _).
  destruct (be_lC16_bc1_auto_optimal Er c v mx size true x out2 s2 y2 K SZ R2) as (C2 & _ & n2 & z2 & M2 & T2 & O2).
  rewrite M1 in M2. injection M2 as <-. exists n1, z1, z2. split; [exact M1|]. split; [exact T1|]. split; [exact T2|].
  destruct (O2 s1) as (z' & E & L); [unfold candidate; auto|]. rewrite T1 in E. injection E as <-. exact L.
Qed.

Lemma be_lC19_bc1_estimator_errors : forall (St Er : Type) (c : cfg) (v : env) (e : estimator St Er) (all : bool) (x out : list byte) (st : St),
  cpu_ok c ->   zlen x mod 8 = 0 -> zlen x <= zlen out ->
  exists r y st' log, be_transform_bc1_auto c v e all x out st = Ok (r, y, st') /\
    be_transform_bc1_auto c v (logging e) all x out (st, []) = Ok (r, y, (st', log)) /\
    match r with
    | ROk _ => Forall (fun q => exists z, answer q = ROk z) log
    | RErr (DetermineBestTransform (SizeEstimationError e1)) =>
        exists before q, log = before ++ [q] /\ answer q = RErr e1 /\ Forall (fun q => exists z, answer q = ROk z) before
    | RErr (DetermineBestTransform AllocateError) => exists n, log = [AskedMax (zlen x / 2) (ROk n)] /\ alloc_ok v n = false
    | RErr _ => False
    end.
Proof.
  intros St Er c v e all x out st K  Hm Ho.
  destruct (AUTO_log v e _ _ _ _ _ _ st (be_bc1_AUTO c v (logging e) all x out K  Hm Ho)) as (r & y & st' & lg & R & A & _).
  exists r, y, st', lg. split; [|split; [exact R|exact A]].
  pose proof (be_bc1_log_same c v e all x out st []) as S. rewrite R in S. symmetry. exact S.
Qed.

Lemma be_lC50_bc1_estimator_calls : forall (St Er : Type) (c : cfg) (v : env) (e : estimator St Er) (all : bool) (x out : list byte) (st : St),
  cpu_ok c ->   zlen x mod 8 = 0 -> zlen x <= zlen out ->
  exists r y st' a rest, be_transform_bc1_auto c v (logging e) all x out (st, []) = Ok (r, y, (st', AskedMax (zlen x / 2) a :: rest)) /\
    match a with
    | RErr _ => rest = []
    | ROk scratch => exists seen, Forall2 (fun d q => exists ans, q = AskedSize d scratch ans) seen rest /\
        exists unseen, flat_map (be_bc1_shown x) (if all then comprehensive_test_order else fast_test_order) = seen ++ unseen /\
          ((exists s, r = ROk s) -> unseen = [])
    end.
Proof.
  intros St Er c v e all x out st K  Hm Ho.
  destruct (AUTO_log v e _ _ _ _ _ _ st (be_bc1_AUTO c v (logging e) all x out K  Hm Ho)) as (r & y & st' & lg & R & _ & a & rest & -> & B).
  exists r, y, st', a, rest. split; [exact R|exact B].
Qed.

Lemma be_lC17_bc2_auto_optimal : forall (Er : Type) (c : cfg) (v : env) (mx : Z -> result Z Er) (size : list byte -> Z -> result Z Er)
    (all : bool) (x out : list byte) (s : settings) (y : list byte),
  cpu_ok c ->  (forall d n z, size d n = ROk z -> 0 <= z /\ z <= usize_max v) ->
  be_transform_bc2_auto c v (pure mx size) all x out tt = Ok (ROk s, y, tt) ->
  candidate all (decorrelation_mode s) /\ be_transform_bc2 c s x out = Ok (ROk tt, y) /\
  exists scratch z, mx (zlen x / 4) = ROk scratch /\ total_size (fun d => size d scratch) (be_bc2_shown x s) = ROk z /\
    forall s', candidate all (decorrelation_mode s') -> exists z', total_size (fun d => size d scratch) (be_bc2_shown x s') = ROk z' /\ z <= z'.
Proof.
  intros Er c v mx size all x out s y K SZ R.
  destruct (valid_auto _ _ _ _ _ _ _ _ R) as (Hm & Ho).
  assert (TL : forall n s' z, total_size (fun d => size d n) (be_bc2_shown x s') = ROk z -> z <= usize_max v).
  { intros n s' z. unfold be_bc2_shown. cbn [total_size].
    destruct (size _ n) as [a|] eqn:E1; [|discriminate]. intros Q. injection Q as <-. apply SZ in E1. lia. }
  destruct (AUTO_ok _ _ _ _ _ _ _ _ _ _ _ _ (be_bc2_AUTO c v (pure mx size) all x out K  Hm Ho) ltac:(apply order1_in; unfold candidate; auto) R) as (I & Y).
  destruct (AUTO_pure _ _ _ _ _ _ _ _ _ _ _ _ (be_bc2_AUTO c v (pure mx size) all x out K  Hm Ho) ltac:(apply order1_in; unfold candidate; auto) TL R) as (n & z & N1 & N2 & N3 & _).
  split; [apply order1_in; exact I|]. split.
  - rewrite Y. apply be_bc2_slice; [exact K|exact Hm|exact Ho].
  - exists n, z. split; [exact N1|]. split; [exact N2|]. intros s' C. apply N3. apply order1_in. exact C.
Qed.

Lemma be_lC17_bc2_auto_first : forall (Er : Type) (c : cfg) (v : env) (mx : Z -> result Z Er) (size : list byte -> Z -> result Z Er)
    (all : bool) (x out : list byte) (s : settings) (y : list byte),
  cpu_ok c ->  (forall d n z, size d n = ROk z -> 0 <= z /\ z <= usize_max v) ->
  be_transform_bc2_auto c v (pure mx size) all x out tt = Ok (ROk s, y, tt) ->
  exists scratch z, mx (zlen x / 4) = ROk scratch /\ total_size (fun d => size d scratch) (be_bc2_shown x s) = ROk z /\
    (z < usize_max v -> exists earlier later, (if all then comprehensive_test_order else fast_test_order) = earlier ++ s :: later /\
      forall s', In s' earlier -> exists z', total_size (fun d => size d scratch) (be_bc2_shown x s') = ROk z' /\ z < z').
Proof.
  intros Er c v mx size all x out s y K SZ R.
  destruct (valid_auto _ _ _ _ _ _ _ _ R) as (Hm & Ho).
  assert (TL : forall n s' z, total_size (fun d => size d n) (be_bc2_shown x s') = ROk z -> z <= usize_max v).
  { intros n s' z. unfold be_bc2_shown. cbn [total_size].
    destruct (size _ n) as [a|] eqn:E1; [|discriminate]. intros Q. injection Q as <-. apply SZ in E1. lia. }
  destruct (AUTO_pure _ _ _ _ _ _ _ _ _ _ _ _ (be_bc2_AUTO c v (pure mx size) all x out K  Hm Ho) ltac:(apply order1_in; unfold candidate; auto) TL R) as (n & z & N1 & N2 & _ & N4).
  exists n, z. split; [exact N1|]. split; [exact N2|]. exact N4.
Qed.

Lemma be_lC20_bc2_ultra_never_worse : forall (Er : Type) (c : cfg) (v : env) (mx : Z -> result Z Er) (size : list byte -> Z -> result Z Er)
    (x out1 out2 : list byte) (s1 s2 : settings) (y1 y2 : list byte),
  cpu_ok c ->  (forall d n z, size d n = ROk z -> 0 <= z /\ z <= usize_max v) ->
  be_transform_bc2_auto c v (pure mx size) false x out1 tt = Ok (ROk s1, y1, tt) ->
  be_transform_bc2_auto c v (pure mx size) true x out2 tt = Ok (ROk s2, y2, tt) ->
  exists scratch z1 z2, mx (zlen x / 4) = ROk scratch /\
    total_size (fun d => size d scratch) (be_bc2_shown x s1) = ROk z1 /\ total_size (fun d => size d scratch) (be_bc2_shown x s2) = ROk z2 /\ z2 <= z1.
Proof.
  intros Er c v mx size x out1 out2 s1 s2 y1 y2 K SZ R1 R2.
  destruct (be_lC17_bc2_auto_optimal Er c v mx size false x out1 s1 y1 K SZ R1) as (C1 & _ & n1 & z1 & M1 & T1 & _).
  destruct (be_lC17_bc2_auto_optimal Er c v mx size true x out2 s2 y2 K SZ R2) as (C2 & _ & n2 & z2 & M2 & T2 & O2).
  rewrite M1 in M2. injection M2 as <-. exists n1, z1, z2. split; [exact M1|]. split; [exact T1|]. split; [exact T2|].
  destruct (O2 s1) as (z' & E & L); [unfold candidate; auto|]. rewrite T1 in E. injection E as <-. exact L.
Qed.

Lemma be_lC19_bc2_estimator_errors : forall (St Er : Type) (c : cfg) (v : env) (e : estimator St Er) (all : bool) (x out : list byte) (st : St),
  cpu_ok c ->   zlen x mod 16 = 0 -> zlen x <= zlen out ->
  exists r y st' log, be_transform_bc2_auto c v e all x out st = Ok (r, y, st') /\
    be_transform_bc2_auto c v (logging e) all x out (st, []) = Ok (r, y, (st', log)) /\
    match r with
    | ROk _ => Forall (fun q => exists z, answer q = ROk z) log
    | RErr (DetermineBestTransform (SizeEstimationError e1)) =>
        exists before q, log = before ++ [q] /\ answer q = RErr e1 /\ Forall (fun q => exists z, answer q = ROk z) before
    | RErr (DetermineBestTransform AllocateError) => exists n, log = [AskedMax (zlen x / 4) (ROk n)] /\ alloc_ok v n = false
    | RErr _ => False
    end.
Proof.
  intros St Er c v e all x out st K  Hm Ho.
  destruct (AUTO_log v e _ _ _ _ _ _ st (be_bc2_AUTO c v (logging e) all x out K  Hm Ho)) as (r & y & st' & lg & R & A & _).
  exists r, y, st', lg. split; [|split; [exact R|exact A]].
  pose proof (be_bc2_log_same c v e all x out st []) as S. rewrite R in S. symmetry. exact S.
Qed.

Lemma be_lC50_bc2_estimator_calls : forall (St Er : Type) (c : cfg) (v : env) (e : estimator St Er) (all : bool) (x out : list byte) (st : St),
  cpu_ok c ->   zlen x mod 16 = 0 -> zlen x <= zlen out ->
  exists r y st' a rest, be_transform_bc2_auto c v (logging e) all x out (st, []) = Ok (r, y, (st', AskedMax (zlen x / 4) a :: rest)) /\
    match a with
    | RErr _ => rest = []
    | ROk scratch => exists seen, Forall2 (fun d q => exists ans, q = AskedSize d scratch ans) seen rest /\
        exists unseen, flat_map (be_bc2_shown x) (if all then comprehensive_test_order else fast_test_order) = seen ++ unseen /\
          ((exists s, r = ROk s) -> unseen = [])
    end.
Proof.
  intros St Er c v e all x out st K  Hm Ho.
  destruct (AUTO_log v e _ _ _ _ _ _ st (be_bc2_AUTO c v (logging e) all x out K  Hm Ho)) as (r & y & st' & lg & R & _ & a & rest & -> & B).
  exists r, y, st', a, rest. split; [exact R|exact B].
Qed.

Lemma be_lC18_bc3_auto_optimal : forall (Er : Type) (c : cfg) (v : env) (mx : Z -> result Z Er) (size : list byte -> Z -> result Z Er)
    (all : bool) (x out : list byte) (s : settings3) (y : list byte),
  cpu_ok c ->  (forall d n z, size d n = ROk z -> 0 <= z /\ 2 * z <= usize_max v) ->
  be_transform_bc3_auto c v (pure mx size) all x out tt = Ok (ROk s, y, tt) ->
  candidate all (decorrelation_mode3 s) /\ be_transform_bc3 c s x out = Ok (ROk tt, y) /\
  exists scratch z, mx (zlen x / 4) = ROk scratch /\ total_size (fun d => size d scratch) (be_bc3_shown x s) = ROk z /\
    forall s', candidate all (decorrelation_mode3 s') -> exists z', total_size (fun d => size d scratch) (be_bc3_shown x s') = ROk z' /\ z <= z'.
Proof.
  intros Er c v mx size all x out s y K SZ R.
  destruct (valid_auto _ _ _ _ _ _ _ _ R) as (Hm & Ho).
  assert (TL : forall n s' z, total_size (fun d => size d n) (be_bc3_shown x s') = ROk z -> z <= usize_max v).
  { intros n s' z. unfold be_bc3_shown. cbn [total_size].
    destruct (size _ n) as [a|] eqn:E1; [|discriminate]. destruct (size (lay (be_colour_fields _ _ _) _) n) as [b|] eqn:E2; [|discriminate].
    intros Q. injection Q as <-. apply SZ in E1. apply SZ in E2. lia. }
  destruct (AUTO_ok _ _ _ _ _ _ _ _ _ _ _ _ (be_bc3_AUTO c v (pure mx size) all x out K ltac:(intros st d n z st' E; cbn [pure estimate_compressed_size] in E; injection E as E _; apply SZ in E; lia) Hm Ho) ltac:(apply order3_in; unfold candidate; auto) R) as (I & Y).
  destruct (AUTO_pure _ _ _ _ _ _ _ _ _ _ _ _ (be_bc3_AUTO c v (pure mx size) all x out K ltac:(intros st d n z st' E; cbn [pure estimate_compressed_size] in E; injection E as E _; apply SZ in E; lia) Hm Ho) ltac:(apply order3_in; unfold candidate; auto) TL R) as (n & z & N1 & N2 & N3 & _).
  split; [apply order3_in; exact I|]. split.
  - rewrite Y. apply be_bc3_slice; [exact K|exact Hm|exact Ho].
  - exists n, z. split; [exact N1|]. split; [exact N2|]. intros s' C. apply N3. apply order3_in. exact C.
Qed.

Lemma be_lC18_bc3_auto_first : forall (Er : Type) (c : cfg) (v : env) (mx : Z -> result Z Er) (size : list byte -> Z -> result Z Er)
    (all : bool) (x out : list byte) (s : settings3) (y : list byte),
  cpu_ok c ->  (forall d n z, size d n = ROk z -> 0 <= z /\ 2 * z <= usize_max v) ->
  be_transform_bc3_auto c v (pure mx size) all x out tt = Ok (ROk s, y, tt) ->
  exists scratch z, mx (zlen x / 4) = ROk scratch /\ total_size (fun d => size d scratch) (be_bc3_shown x s) = ROk z /\
    (z < usize_max v -> exists earlier later, (if all then comprehensive_test_order3 else fast_test_order3) = earlier ++ s :: later /\
      forall s', In s' earlier -> exists z', total_size (fun d => size d scratch) (be_bc3_shown x s') = ROk z' /\ z < z').
Proof.
  intros Er c v mx size all x out s y K SZ R.
  destruct (valid_auto _ _ _ _ _ _ _ _ R) as (Hm & Ho).
  assert (TL : forall n s' z, total_size (fun d => size d n) (be_bc3_shown x s') = ROk z -> z <= usize_max v).
  { intros n s' z. unfold be_bc3_shown. cbn [total_size].
    destruct (size _ n) as [a|] eqn:E1; [|discriminate]. destruct (size (lay (be_colour_fields _ _ _) _) n) as [b|] eqn:E2; [|discriminate].
    intros Q. injection Q as <-. apply SZ in E1. apply SZ in E2. lia. }
  destruct (AUTO_pure _ _ _ _ _ _ _ _ _ _ _ _ (be_bc3_AUTO c v (pure mx size) all x out K ltac:(intros st d n z st' E; cbn [pure estimate_compressed_size] in E; injection E as E _; apply SZ in E; lia) Hm Ho) ltac:(apply order3_in; unfold candidate; auto) TL R) as (n & z & N1 & N2 & _ & N4).
  exists n, z. split; [exact N1|]. split; [exact N2|]. exact N4.
Qed.

Lemma be_lC20_bc3_ultra_never_worse : forall (Er : Type) (c : cfg) (v : env) (mx : Z -> result Z Er) (size : list byte -> Z -> result Z Er)
    (x out1 out2 : list byte) (s1 s2 : settings3) (y1 y2 : list byte),
  cpu_ok c ->  (forall d n z, size d n = ROk z -> 0 <= z /\ 2 * z <= usize_max v) ->
  be_transform_bc3_auto c v (pure mx size) false x out1 tt = Ok (ROk s1, y1, tt) ->
  be_transform_bc3_auto c v (pure mx size) true x out2 tt = Ok (ROk s2, y2, tt) ->
  exists scratch z1 z2, mx (zlen x / 4) = ROk scratch /\
    total_size (fun d => size d scratch) (be_bc3_shown x s1) = ROk z1 /\ total_size (fun d => size d scratch) (be_bc3_shown x s2) = ROk z2 /\ z2 <= z1.
Proof.
  intros Er c v mx size x out1 out2 s1 s2 y1 y2 K SZ R1 R2.
  destruct (be_lC18_bc3_auto_optimal Er c v mx size false x out1 s1 y1 K SZ R1) as (C1 & _ & n1 & z1 & M1 & T1 & _).
  destruct (be_lC18_bc3_auto_optimal Er c v mx size true x out2 s2 y2 K SZ R2) as (C2 & _ & n2 & z2 & M2 & T2 & O2).
  rewrite M1 in M2. injection M2 as <-. exists n1, z1, z2. split; [exact M1|]. split; [exact T1|]. split; [exact T2|].
  destruct (O2 s1) as (z' & E & L); [unfold candidate; auto|]. rewrite T1 in E. injection E as <-. exact L.
Qed.

Lemma be_lC19_bc3_estimator_errors : forall (St Er : Type) (c : cfg) (v : env) (e : estimator St Er) (all : bool) (x out : list byte) (st : St),
  cpu_ok c ->  (forall st d n z st', estimate_compressed_size e st d n = (ROk z, st') -> 2 * z <= usize_max v) -> zlen x mod 16 = 0 -> zlen x <= zlen out ->
  exists r y st' log, be_transform_bc3_auto c v e all x out st = Ok (r, y, st') /\
    be_transform_bc3_auto c v (logging e) all x out (st, []) = Ok (r, y, (st', log)) /\
    match r with
    | ROk _ => Forall (fun q => exists z, answer q = ROk z) log
    | RErr (DetermineBestTransform (SizeEstimationError e1)) =>
        exists before q, log = before ++ [q] /\ answer q = RErr e1 /\ Forall (fun q => exists z, answer q = ROk z) before
    | RErr (DetermineBestTransform AllocateError) => exists n, log = [AskedMax (zlen x / 4) (ROk n)] /\ alloc_ok v n = false
    | RErr _ => False
    end.
Proof.
  intros St Er c v e all x out st K HS Hm Ho.
  destruct (AUTO_log v e _ _ _ _ _ _ st (be_bc3_AUTO c v (logging e) all x out K ltac:(intros st0 d n z st' E; cbn [logging estimate_compressed_size] in E; destruct (estimate_compressed_size e (fst st0) d n) as [a s0] eqn:E0; injection E as -> _; exact (HS _ _ _ _ _ E0)) Hm Ho)) as (r & y & st' & lg & R & A & _).
  exists r, y, st', lg. split; [|split; [exact R|exact A]].
  pose proof (be_bc3_log_same c v e all x out st []) as S. rewrite R in S. symmetry. exact S.
Qed.

Lemma be_lC50_bc3_estimator_calls : forall (St Er : Type) (c : cfg) (v : env) (e : estimator St Er) (all : bool) (x out : list byte) (st : St),
  cpu_ok c ->  (forall st d n z st', estimate_compressed_size e st d n = (ROk z, st') -> 2 * z <= usize_max v) -> zlen x mod 16 = 0 -> zlen x <= zlen out ->
  exists r y st' a rest, be_transform_bc3_auto c v (logging e) all x out (st, []) = Ok (r, y, (st', AskedMax (zlen x / 4) a :: rest)) /\
    match a with
    | RErr _ => rest = []
    | ROk scratch => exists seen, Forall2 (fun d q => exists ans, q = AskedSize d scratch ans) seen rest /\
        exists unseen, flat_map (be_bc3_shown x) (if all then comprehensive_test_order3 else fast_test_order3) = seen ++ unseen /\
          ((exists s, r = ROk s) -> unseen = [])
    end.
Proof.
  intros St Er c v e all x out st K HS Hm Ho.
  destruct (AUTO_log v e _ _ _ _ _ _ st (be_bc3_AUTO c v (logging e) all x out K ltac:(intros st0 d n z st' E; cbn [logging estimate_compressed_size] in E; destruct (estimate_compressed_size e (fst st0) d n) as [a s0] eqn:E0; injection E as -> _; exact (HS _ _ _ _ _ E0)) Hm Ho)) as (r & y & st' & lg & R & _ & a & rest & -> & B).
  exists r, y, st', a, rest. split; [exact R|exact B].
Qed.

Lemma be_lC15_bc1_auto_validation : forall (St Er : Type) (c : cfg) (v : env) (e : estimator St Er) (all : bool) (x out : list byte) (st : St),
  (zlen x mod 8 <> 0 -> be_transform_bc1_auto c v e all x out st = Ok (RErr (AutoInvalidLength (zlen x)), out, st)) /\
  (zlen x mod 8 = 0 -> zlen out < zlen x -> be_transform_bc1_auto c v e all x out st = Ok (RErr (AutoOutputBufferTooSmall (zlen x) (zlen out)), out, st)) /\
  (zlen x mod 8 = 0 -> zlen x <= zlen out -> forall r y st', be_transform_bc1_auto c v e all x out st = Ok (RErr r, y, st') -> exists d, r = DetermineBestTransform d).
Proof. intros. apply auto_checked_errors. Qed.

Lemma be_lC15_bc2_auto_validation : forall (St Er : Type) (c : cfg) (v : env) (e : estimator St Er) (all : bool) (x out : list byte) (st : St),
  (zlen x mod 16 <> 0 -> be_transform_bc2_auto c v e all x out st = Ok (RErr (AutoInvalidLength (zlen x)), out, st)) /\
  (zlen x mod 16 = 0 -> zlen out < zlen x -> be_transform_bc2_auto c v e all x out st = Ok (RErr (AutoOutputBufferTooSmall (zlen x) (zlen out)), out, st)) /\
  (zlen x mod 16 = 0 -> zlen x <= zlen out -> forall r y st', be_transform_bc2_auto c v e all x out st = Ok (RErr r, y, st') -> exists d, r = DetermineBestTransform d).
Proof. intros. apply auto_checked_errors. Qed.

Lemma be_lC15_bc3_auto_validation : forall (St Er : Type) (c : cfg) (v : env) (e : estimator St Er) (all : bool) (x out : list byte) (st : St),
  (zlen x mod 16 <> 0 -> be_transform_bc3_auto c v e all x out st = Ok (RErr (AutoInvalidLength (zlen x)), out, st)) /\
  (zlen x mod 16 = 0 -> zlen out < zlen x -> be_transform_bc3_auto c v e all x out st = Ok (RErr (AutoOutputBufferTooSmall (zlen x) (zlen out)), out, st)) /\
  (zlen x mod 16 = 0 -> zlen x <= zlen out -> forall r y st', be_transform_bc3_auto c v e all x out st = Ok (RErr r, y, st') -> exists d, r = DetermineBestTransform d).
Proof. intros. apply auto_checked_errors. Qed.

Lemma be_lC21_bc1_auto_lossless : forall (St Er : Type) (d1 d2 : bool) (j1 j2 : byte) (v : env) (e : estimator St Er) (all : bool) (x out out2 : list byte) (st st' : St) (s : settings) (y : list byte),
  be_transform_bc1_auto (big_endian_cpu d1 j1) v e all x out st = Ok (ROk s, y, st') -> zlen x <= zlen out2 ->
  exists z, be_untransform_bc1 (big_endian_cpu d2 j2) s (firstn (List.length x) y) out2 = Ok (ROk tt, z) /\ firstn (List.length x) z = x.
Proof.
  intros St Er d1 d2 j1 j2 v e all x out out2 st st' s y R H2.
  destruct (valid_auto _ _ _ _ _ _ _ _ R) as (Hm & Ho).
  destruct (AUTO_ok _ _ _ _ _ _ _ _ _ _ _ _ (be_bc1_AUTO (big_endian_cpu d1 j1) v e all x out (big_endian_ok d1 j1) Hm Ho)
    ltac:(apply order1_in; unfold candidate; auto) R) as (I & ->).
  pose proof (be_bc1_slice (big_endian_cpu d1 j1) s x out (big_endian_ok d1 j1) Hm Ho) as TT.
  destruct (lC65_bc1_lossless d1 d2 j1 j2 s x out out2 Hm Ho H2) as (y & z & T' & U & E).
  rewrite TT in T'. injection T' as <-. exists z. split; assumption.
Qed.

Lemma be_lC21_bc2_auto_lossless : forall (St Er : Type) (d1 d2 : bool) (j1 j2 : byte) (v : env) (e : estimator St Er) (all : bool) (x out out2 : list byte) (st st' : St) (s : settings) (y : list byte),
  be_transform_bc2_auto (big_endian_cpu d1 j1) v e all x out st = Ok (ROk s, y, st') -> zlen x <= zlen out2 ->
  exists z, be_untransform_bc2 (big_endian_cpu d2 j2) s (firstn (List.length x) y) out2 = Ok (ROk tt, z) /\ firstn (List.length x) z = x.
Proof.
  intros St Er d1 d2 j1 j2 v e all x out out2 st st' s y R H2.
  destruct (valid_auto _ _ _ _ _ _ _ _ R) as (Hm & Ho).
  destruct (AUTO_ok _ _ _ _ _ _ _ _ _ _ _ _ (be_bc2_AUTO (big_endian_cpu d1 j1) v e all x out (big_endian_ok d1 j1) Hm Ho)
    ltac:(apply order1_in; unfold candidate; auto) R) as (I & ->).
  pose proof (be_bc2_slice (big_endian_cpu d1 j1) s x out (big_endian_ok d1 j1) Hm Ho) as TT.
  destruct (lC65_bc2_lossless d1 d2 j1 j2 s x out out2 Hm Ho H2) as (y & z & T' & U & E).
  rewrite TT in T'. injection T' as <-. exists z. split; assumption.
Qed.

Lemma be_lC21_bc3_auto_lossless : forall (St Er : Type) (d1 d2 : bool) (j1 j2 : byte) (v : env) (e : estimator St Er) (all : bool) (x out out2 : list byte) (st st' : St) (s : settings3) (y : list byte),
  (forall st d n z st', estimate_compressed_size e st d n = (ROk z, st') -> 2 * z <= usize_max v) ->
  be_transform_bc3_auto (big_endian_cpu d1 j1) v e all x out st = Ok (ROk s, y, st') -> zlen x <= zlen out2 ->
  exists z, be_untransform_bc3 (big_endian_cpu d2 j2) s (firstn (List.length x) y) out2 = Ok (ROk tt, z) /\ firstn (List.length x) z = x.
Proof.
  intros St Er d1 d2 j1 j2 v e all x out out2 st st' s y SZ R H2.
  destruct (valid_auto _ _ _ _ _ _ _ _ R) as (Hm & Ho).
  destruct (AUTO_ok _ _ _ _ _ _ _ _ _ _ _ _ (be_bc3_AUTO (big_endian_cpu d1 j1) v e all x out (big_endian_ok d1 j1) SZ Hm Ho)
    ltac:(apply order3_in; unfold candidate; auto) R) as (I & ->).
  pose proof (be_bc3_slice (big_endian_cpu d1 j1) s x out (big_endian_ok d1 j1) Hm Ho) as TT.
  destruct (lC65_bc3_lossless d1 d2 j1 j2 s x out out2 Hm Ho H2) as (y & z & T' & U & E).
  rewrite TT in T'. injection T' as <-. exists z. split; assumption.
Qed.

