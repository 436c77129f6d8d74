(** Searching with the estimator that answers 0 to everything. *)
From Verif Require Import Base.Bytes Base.Res Model.Color565 Model.Kernel Model.Transform Model.Auto Spec.YCoCg Spec.Layout Spec.Estimator Proofs.AutoTheorems.
Open Scope list_scope.
Open Scope Z_scope.

Definition roomy_like (v : env) : env := Env (usize_max v) (fun _ => true).

Lemma loop_never_fails : forall St Er S (t : S -> mem -> res mem) (es : mem -> St -> res (result Z Er * St)),
  (forall m st r st', es m st = Ok (r, st') -> exists z, r = ROk z) ->
  forall order best size last m st e m' st', search_loop t es order best size last m st <> Ok (RErr e, m', st').
Proof.
  intros St Er S t es H order. induction order as [|s rest IH]; intros best size last m st e m' st'; cbn [search_loop]; [discriminate|].
  destruct (t s m) as [m1|w|w]; cbn [bind]; try discriminate. destruct (es m1 st) as [[r st1]|w|w] eqn:E; cbn [bind]; try discriminate.
  destruct (H _ _ _ _ E) as (z & ->). destruct (z <? size); apply IH.
Qed.
Lemma search_never_fails : forall S v n (t : S -> mem -> res mem) es same default order m (e : determine_error unit) m' st',
  (forall z m st r st', es z m st = Ok (r, st') -> exists z, r = ROk z) ->
  search v no_estimation n t es same default order m tt <> Ok (RErr e, m', st').
Proof.
  intros S v n t es same default order m e m' st' H. unfold search. cbn [no_estimation max_compressed_size]. cbn [Z.eqb negb andb].
  destruct (search_loop t (es 0) order default (usize_max v) default m tt) as [[[[[b l]|er] m1] st1]|w|w] eqn:E; cbn [bind]; try discriminate.
  - destruct (same b l); [discriminate|]. destruct (t b m1); cbn [bind]; discriminate.
  - exfalso. exact (loop_never_fails _ _ _ _ _ (H 0) _ _ _ _ _ _ _ _ _ E).
Qed.
Lemma at_zero : forall p n z m st r st', estimate_at no_estimation p n z m st = Ok (r, st') -> r = ROk 0.
Proof. intros p n z m st r st'. unfold estimate_at. destruct (mload m p n); cbn [bind]; try discriminate. cbn. congruence. Qed.
Lemma est1 : forall p n z m st r st', estimate_at no_estimation p n z m st = Ok (r, st') -> exists z', r = ROk z'.
Proof. intros. exists 0. eapply at_zero; eassumption. Qed.
Lemma est2 : forall p o n z m st r st', (do q <- ptr_add m p o ;; estimate_at no_estimation q n z m st) = Ok (r, st') -> exists z', r = ROk z'.
Proof. intros p o n z m st r st'. destruct (ptr_add m p o); cbn [bind]; try discriminate. apply est1. Qed.
Lemma est3 : forall c v p len z m st r st', estimate_bc3 c v no_estimation p len z m st = Ok (r, st') -> exists z', r = ROk z'.
Proof.
  intros c v p len z m st r st'. unfold estimate_bc3. cbv zeta.
  destruct (estimate_at no_estimation p (len / 16 * 2) z m st) as [[r1 st1]|w|w] eqn:E1; cbn [bind]; try discriminate. rewrite (at_zero _ _ _ _ _ _ _ E1).
  destruct (ptr_add m p (len / 2)) as [p0|w|w]; cbn [bind]; try discriminate.
  destruct (estimate_at no_estimation p0 (len / 16 * 4) z m st1) as [[r2 st2]|w|w] eqn:E2; cbn [bind]; try discriminate. rewrite (at_zero _ _ _ _ _ _ _ E2).
  destruct (0 + 0 <=? usize_max v); [intros Q; injection Q as <- <-; eexists; reflexivity|].
  destruct (c_debug c); [discriminate|]. intros Q; injection Q as <- <-; eexists; reflexivity.
Qed.
Lemma checked_never_fails : forall S blk (run : ptr -> ptr -> Z -> mem -> unit -> res (result S (determine_error unit) * mem * unit)) x out e y st',
  (forall m er m' st1, run (Ptr BIn 0) (Ptr BOut 0) (zlen x) m tt <> Ok (RErr er, m', st1)) ->
  auto_checked blk run x out tt <> Ok (RErr (DetermineBestTransform e), y, st').
Proof.
  intros S blk run x out e y st' H. unfold auto_checked. destruct (negb _); [discriminate|]. destruct (zlen out <? zlen x); [discriminate|].
  destruct (run (Ptr BIn 0) (Ptr BOut 0) (zlen x) (Mem x [] out) tt) as [[[[s|er] m1] st1]|w|w] eqn:E; cbn [bind]; try discriminate.
  exfalso. exact (H _ _ _ _ E).
Qed.
Lemma never1 : forall c v all x out e y st', transform_bc1_auto c v no_estimation all x out tt <> Ok (RErr (DetermineBestTransform e), y, st').
Proof. intros. apply checked_never_fails. intros. apply search_never_fails. intros z m0 st r st'0. apply est1. Qed.
Lemma never2 : forall c v all x out e y st', transform_bc2_auto c v no_estimation all x out tt <> Ok (RErr (DetermineBestTransform e), y, st').
Proof. intros. apply checked_never_fails. intros. apply search_never_fails. intros z m0 st r st'0. apply est2. Qed.
Lemma never3 : forall c v all x out e y st', transform_bc3_auto c v no_estimation all x out tt <> Ok (RErr (DetermineBestTransform e), y, st').
Proof. intros. apply checked_never_fails. intros. apply search_never_fails. intros z m0 st r st'0. apply est3. Qed.

Lemma total_zero : forall (f : list byte -> result Z unit) l z, (forall d, f d = ROk 0) -> total_size f l = ROk z -> z = 0.
Proof.
  intros f l z H. revert z. induction l as [|d l IH]; intros z; cbn [total_size]; [congruence|]. rewrite H.
  destruct (total_size f l) as [z1|er]; [|congruence]. specialize (IH z1 eq_refl). intros Q. injection Q as <-. lia.
Qed.
Lemma first_of : forall A (l : list A) a d earlier later, l = earlier ++ a :: later -> (forall b, In b earlier -> False) -> hd d l = a.
Proof. intros A l a d [|b earlier] later -> H; [reflexivity|]. exfalso. apply (H b). left; reflexivity. Qed.

Definition zero_max (_ : Z) : result Z unit := ROk 0.
Definition zero_size (_ : list byte) (_ : Z) : result Z unit := ROk 0.
Lemma no_estimation_is : no_estimation = pure zero_max zero_size. Proof. reflexivity. Qed.

Lemma no_estimation1 : forall c v (all : bool) x out, cpu_ok c -> (c_debug c = true -> x <> []) -> 0 < usize_max v -> zlen x mod 8 = 0 -> zlen x <= zlen out ->
  let s := Settings (if all then V2 else VNone) false in
  exists y, transform_bc1_auto c v no_estimation all x out tt = Ok (ROk s, y, tt) /\ transform_bc1 c s x out = Ok (ROk tt, y).
Proof.
  intros c v all x out K D V M L s.
  destruct (lC19_bc1_estimator_errors unit unit c (roomy_like v) no_estimation all x out tt K D M L) as (r & y & [] & log & E & _ & C).
  assert (E' : transform_bc1_auto c v no_estimation all x out tt = Ok (r, y, tt)) by exact E.
  destruct r as [s1|e]; [|destruct e; try contradiction C; exfalso; exact (never1 _ _ _ _ _ _ _ _ E')].
  assert (SZ : forall (d : list byte) (n z : Z), zero_size d n = ROk z -> 0 <= z /\ z <= usize_max v) by (intros d n z Q; injection Q as <-; lia).
  assert (G : s1 = s).
  { destruct (lC16_bc1_auto_first unit c v zero_max zero_size all x out s1 y K D SZ E') as (n & z & _ & T & F).
    assert (Z0 : z = 0) by (refine (total_zero _ _ _ _ T); reflexivity). subst z. destruct (F V) as (earlier & later & TR & EA).
    assert (H : hd default_settings (tried all) = s1).
    { eapply first_of; [exact TR|]. intros b B. destruct (EA b B) as (z' & T' & W). assert (Z1 : z' = 0) by (refine (total_zero _ _ _ _ T'); reflexivity). lia. }
    rewrite <- H. unfold s. destruct all; reflexivity. }
  subst s1. exists y. split; [exact E'|]. exact (proj1 (proj2 (lC16_bc1_auto_optimal unit c v zero_max zero_size all x out s y K D SZ E'))).
Qed.
Lemma no_estimation2 : forall c v (all : bool) x out, cpu_ok c -> (c_avx512bw c = true -> c_avx512vl c = true) -> 0 < usize_max v -> zlen x mod 16 = 0 -> zlen x <= zlen out ->
  let s := Settings (if all then V2 else VNone) false in
  exists y, transform_bc2_auto c v no_estimation all x out tt = Ok (ROk s, y, tt) /\ transform_bc2 c s x out = Ok (ROk tt, y).
Proof.
  intros c v all x out K D V M L s.
  destruct (lC19_bc2_estimator_errors unit unit c (roomy_like v) no_estimation all x out tt K D M L) as (r & y & [] & log & E & _ & C).
  assert (E' : transform_bc2_auto c v no_estimation all x out tt = Ok (r, y, tt)) by exact E.
  destruct r as [s1|e]; [|destruct e; try contradiction C; exfalso; exact (never2 _ _ _ _ _ _ _ _ E')].
  assert (SZ : forall (d : list byte) (n z : Z), zero_size d n = ROk z -> 0 <= z /\ z <= usize_max v) by (intros d n z Q; injection Q as <-; lia).
  assert (G : s1 = s).
  { destruct (lC17_bc2_auto_first unit c v zero_max zero_size all x out s1 y K D SZ E') as (n & z & _ & T & F).
    assert (Z0 : z = 0) by (refine (total_zero _ _ _ _ T); reflexivity). subst z. destruct (F V) as (earlier & later & TR & EA).
    assert (H : hd default_settings (tried all) = s1).
    { eapply first_of; [exact TR|]. intros b B. destruct (EA b B) as (z' & T' & W). assert (Z1 : z' = 0) by (refine (total_zero _ _ _ _ T'); reflexivity). lia. }
    rewrite <- H. unfold s. destruct all; reflexivity. }
  subst s1. exists y. split; [exact E'|]. exact (proj1 (proj2 (lC17_bc2_auto_optimal unit c v zero_max zero_size all x out s y K D SZ E'))).
Qed.
Lemma no_estimation3 : forall c v (all : bool) x out, cpu_ok c -> (c_debug c = true -> x <> []) -> 0 < usize_max v -> zlen x mod 16 = 0 -> zlen x <= zlen out ->
  let s := Settings3 (if all then V2 else V1) true false in
  exists y, transform_bc3_auto c v no_estimation all x out tt = Ok (ROk s, y, tt) /\ transform_bc3 c s x out = Ok (ROk tt, y).
Proof.
  intros c v all x out K D V M L s.
  assert (ZE : forall (st : unit) (d : list byte) (n z : Z) (st' : unit), estimate_compressed_size no_estimation st d n = (ROk z, st') -> 2 * z <= usize_max (roomy_like v)).
  { intros st d n z st' Q. injection Q as <- _. cbn [roomy_like usize_max]. lia. }
  destruct (lC19_bc3_estimator_errors unit unit c (roomy_like v) no_estimation all x out tt K D ZE M L) as (r & y & [] & log & E & _ & C).
  assert (E' : transform_bc3_auto c v no_estimation all x out tt = Ok (r, y, tt)) by exact E.
  destruct r as [s1|e]; [|destruct e; try contradiction C; exfalso; exact (never3 _ _ _ _ _ _ _ _ E')].
  assert (SZ : forall (d : list byte) (n z : Z), zero_size d n = ROk z -> 0 <= z /\ 2 * z <= usize_max v) by (intros d n z Q; injection Q as <-; lia).
  assert (G : s1 = s).
  { destruct (lC18_bc3_auto_first unit c v zero_max zero_size all x out s1 y K D SZ E') as (n & z & _ & T & F).
    assert (Z0 : z = 0) by (refine (total_zero _ _ _ _ T); reflexivity). subst z. destruct (F V) as (earlier & later & TR & EA).
    assert (H : hd default_settings3 (tried3 all) = s1).
    { eapply first_of; [exact TR|]. intros b B. destruct (EA b B) as (z' & T' & W). assert (Z1 : z' = 0) by (refine (total_zero _ _ _ _ T'); reflexivity). lia. }
    rewrite <- H. unfold s. destruct all; reflexivity. }
  subst s1. exists y. split; [exact E'|]. exact (proj1 (proj2 (lC18_bc3_auto_optimal unit c v zero_max zero_size all x out s y K D SZ E'))).
Qed.
