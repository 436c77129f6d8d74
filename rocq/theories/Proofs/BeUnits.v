(** The same on a big-endian machine (Proofs/Units.v). *)
From Verif Require Import Base.Bytes Base.Res Model.Color565 Model.Kernel Model.Transform Model.Auto Model.BigEndian Model.BeTransform Model.BeFiles
  Spec.Layout Spec.BigEndian Spec.Estimator Spec.BeFiles Spec.Units Proofs.AutoTheorems Proofs.BeAutoTheorems Proofs.Units.
From Coq Require Import ZifyBool.
Open Scope list_scope.
Open Scope Z_scope.

Section Units.
Context {St Er : Type}.
Variables (c : cfg) (v : env) (e : estimator St Er) (all : bool).

Section Any.
Variable f : Z -> Z.
Hypotheses (K : keeps_order f) (H : forall st d n z st', estimate_compressed_size e st d n = (ROk z, st') -> 0 <= z < usize_max v /\ f z < usize_max v).
Let A z := 0 <= z < usize_max v /\ f z < usize_max v.
Lemma be_units_bc1 : forall x out st, be_transform_bc1_auto c v (in_units f e) all x out st = be_transform_bc1_auto c v e all x out st.
Proof.
  intros. unfold be_transform_bc1_auto. apply checked_ext. intros. unfold be_transform_bc1_auto_ptr.
  apply search_units with (g := f) (A := A); [reflexivity|..].
  - intros. apply estimate_units.
  - intros. refine (estimate_answer _ _ e A _ _ _ _ _ _ _ _ H0). exact H.
  - intros a b [] []. apply order_ltb; [exact K|lia..].
  - intros z []. lia.
Qed.
Lemma be_units_bc2 : forall x out st, be_transform_bc2_auto c v (in_units f e) all x out st = be_transform_bc2_auto c v e all x out st.
Proof.
  intros. unfold be_transform_bc2_auto. apply checked_ext. intros. unfold be_transform_bc2_auto_ptr.
  apply search_units with (g := f) (A := A); [reflexivity|..].
  - intros. destruct (ptr_add m0 o (n / 2)); cbn [bind onto]; [|reflexivity..]. apply estimate_units.
  - intros n0 m0 st0 z st'. destruct (ptr_add m0 o (n / 2)); cbn [bind]; [|congruence..]. intros Q. refine (estimate_answer _ _ e A _ _ _ _ _ _ _ _ Q). exact H.
  - intros a b [] []. apply order_ltb; [exact K|lia..].
  - intros z []. lia.
Qed.
End Any.

Section Affine.
Variables k d : Z.
Hypotheses (Hk : 1 <= k) (H : forall st x n z st', estimate_compressed_size e st x n = (ROk z, st') -> 0 <= z /\ 2 * z < usize_max v /\ 2 * (k * z + d) < usize_max v).
Let A1 z := 0 <= z /\ 2 * z < usize_max v /\ 2 * (k * z + d) < usize_max v.
Let A z := 0 <= z < usize_max v /\ k * z + 2 * d < usize_max v.
Lemma be_units_bc3 : forall x out st, be_transform_bc3_auto c v (in_units (fun z => k * z + d) e) all x out st = be_transform_bc3_auto c v e all x out st.
Proof.
  intros. unfold be_transform_bc3_auto. apply checked_ext. intros. unfold be_transform_bc3_auto_ptr.
  apply search_units with (g := fun z => k * z + 2 * d) (A := A); [reflexivity|..].
  - intros. unfold estimate_bc3. rewrite estimate_units.
    destruct (estimate_at e o (n / 16 * 2) n0 m0 st0) as [[[z|er] st1]|w|w] eqn:Q1; cbn [bind onto]; try reflexivity.
    destruct (ptr_add m0 o (n / 2)); cbn [bind onto]; [|reflexivity..]. rewrite estimate_units.
    destruct (estimate_at e a (n / 16 * 4) n0 m0 st1) as [[[z1|er] st2]|w|w] eqn:Q2; cbn [bind onto]; try reflexivity.
    pose proof (estimate_answer _ _ e A1 _ _ _ _ _ _ _ H Q1) as [? []]. pose proof (estimate_answer _ _ e A1 _ _ _ _ _ _ _ H Q2) as [? []].
    assert (L1 : (k * z + d + (k * z1 + d) <=? usize_max v) = true) by lia. assert (L2 : (z + z1 <=? usize_max v) = true) by lia.
    rewrite L1, L2. cbn [onto]. do 3 f_equal. lia.
  - intros n0 m0 st0 z st'. unfold estimate_bc3. 
    destruct (estimate_at e o (n / 16 * 2) n0 m0 st0) as [[[z0|er] st1]|w|w] eqn:Q1; cbn [bind]; try congruence.
    destruct (ptr_add m0 o (n / 2)); cbn [bind]; [|congruence..].
    destruct (estimate_at e a (n / 16 * 4) n0 m0 st1) as [[[z1|er] st2]|w|w] eqn:Q2; cbn [bind]; try congruence.
    pose proof (estimate_answer _ _ e A1 _ _ _ _ _ _ _ H Q1) as [? []]. pose proof (estimate_answer _ _ e A1 _ _ _ _ _ _ _ H Q2) as [? []].
    assert (L2 : (z0 + z1 <=? usize_max v) = true) by lia. rewrite L2. intros Q. injection Q as <- _. unfold A. lia.
  - intros a b [] []. destruct (a <? b) eqn:L; nia.
  - intros z []. lia.
Qed.
End Affine.
End Units.

Section Pure3.
Context {Er : Type}.
Variables (c : cfg) (v : env) (mx : Z -> result Z Er) (size : list byte -> Z -> result Z Er) (f : Z -> Z) (all : bool).
Hypotheses (K : cpu_ok c) (F : keeps_order f) (H : forall d n z, size d n = ROk z -> 0 <= z /\ 2 * z < usize_max v /\ 0 <= f z /\ 2 * f z < usize_max v).
Let units_size := units_size size f.
Let units_size_fits : forall d n z, units_size d n = ROk z -> 0 <= z /\ 2 * z < usize_max v := Units.units_size_fits v mx size f H.
Lemma be_units_pure : forall x out st, be_transform_bc3_auto c v (in_units f (pure mx size)) all x out st = be_transform_bc3_auto c v (pure mx (units_size)) all x out st.
Proof.
  assert (E : forall p n scratch m st, estimate_at (in_units f (pure mx size)) p n scratch m st = estimate_at (pure mx (units_size)) p n scratch m st).
  { intros. unfold estimate_at. destruct (mload m p n); cbn [bind]; [|reflexivity..]. cbn [in_units pure estimate_compressed_size]. unfold units_size, Units.units_size.
    destruct (size a scratch); reflexivity. }
  assert (E3 : forall o n scratch m st, estimate_bc3 c v (in_units f (pure mx size)) o n scratch m st = estimate_bc3 c v (pure mx (units_size)) o n scratch m st).
  { intros. unfold estimate_bc3. rewrite E. destruct (estimate_at (pure mx (units_size)) o (n / 16 * 2) scratch m st) as [[[z|er] st1]|w|w]; cbn [bind]; try reflexivity.
    destruct (ptr_add m o (n / 2)); cbn [bind]; [|reflexivity..]. rewrite E. reflexivity. }
  intros. unfold be_transform_bc3_auto. apply checked_ext. intros. unfold be_transform_bc3_auto_ptr, search. cbn [in_units pure max_compressed_size].
  destruct (mx (n / 4)) as [z|er]; [|reflexivity]. destruct (negb (z =? 0) && negb (alloc_ok v z)); [reflexivity|].
  rewrite (loop_units _ (fun m st => estimate_bc3 c v (pure mx (units_size)) o n z m st) (fun m st => estimate_bc3 c v (in_units f (pure mx size)) o n z m st) (fun z => z) (fun _ => True)) with (size := usize_max v);
    try reflexivity.
  intros m0 st0. rewrite E3. destruct (estimate_bc3 c v (pure mx (units_size)) o n z m0 st0) as [[[]]| |]; reflexivity.
Qed.

Lemma be_units_bc3_same : forall x out s y s' y', 
  be_transform_bc3_auto c v (pure mx size) all x out tt = Ok (ROk s, y, tt) ->
  be_transform_bc3_auto c v (pure mx (units_size)) all x out tt = Ok (ROk s', y', tt) -> s' = s /\ y' = y.
Proof.
  intros x out s y s' y' R R'.
  assert (H1 : forall d n z, size d n = ROk z -> 0 <= z /\ 2 * z <= usize_max v) by (intros d n z Q; apply H in Q; lia).
  assert (H2 : forall d n z, units_size d n = ROk z -> 0 <= z /\ 2 * z <= usize_max v) by (intros d n z Q; apply units_size_fits in Q; lia).
  destruct (be_lC18_bc3_auto_optimal Er c v mx size all x out s y K H1 R) as (C & T & n & z & M & Z1 & O).
  destruct (be_lC18_bc3_auto_optimal Er c v mx (units_size) all x out s' y' K H2 R') as (C' & T' & n' & z' & M' & Z1' & O').
  destruct (be_lC18_bc3_auto_first Er c v mx size all x out s y K H1 R) as (n1 & z1 & M1 & Z2 & B).
  destruct (be_lC18_bc3_auto_first Er c v mx (units_size) all x out s' y' K H2 R') as (n1' & z1' & M1' & Z2' & B').
  rewrite M in M', M1, M1'. injection M' as <-. injection M1 as <-. injection M1' as <-.
  rewrite Z1 in Z2. injection Z2 as <-. rewrite Z1' in Z2'. injection Z2' as <-.
  set (al := fun b : bool => lay (if b then [raw 0 1; raw 1 1] else [raw 0 2]) (blocks 16 x)) in *.
  set (co := fun w b => lay (be_colour_fields w b 8) (blocks 16 x)) in *.
  assert (SH : forall q, be_bc3_shown x q = [al (split_alpha_endpoints q); co (decorrelation_mode3 q) (split_colour_endpoints3 q)]) by reflexivity.
  pose proof (O (Settings3 (decorrelation_mode3 s) (split_alpha_endpoints s') (split_colour_endpoints3 s)) C) as (za & ZA & LA).
  pose proof (O (Settings3 (decorrelation_mode3 s') (split_alpha_endpoints s) (split_colour_endpoints3 s')) C') as (zc & ZC & LC).
  pose proof (O' (Settings3 (decorrelation_mode3 s) (split_alpha_endpoints s') (split_colour_endpoints3 s)) C) as (za' & ZA' & LA').
  pose proof (O' (Settings3 (decorrelation_mode3 s') (split_alpha_endpoints s) (split_colour_endpoints3 s')) C') as (zc' & ZC' & LC').
  clear O O' R R'. rewrite !SH in *. cbn [split_alpha_endpoints split_colour_endpoints3 decorrelation_mode3 total_size] in *. unfold units_size, Units.units_size in *.
  destruct (size (al (split_alpha_endpoints s)) n) as [a|] eqn:Qa; [|congruence].
  destruct (size (al (split_alpha_endpoints s')) n) as [a'|] eqn:Qa'; [|congruence].
  destruct (size (co (decorrelation_mode3 s) (split_colour_endpoints3 s)) n) as [k|] eqn:Qk; [|congruence].
  destruct (size (co (decorrelation_mode3 s') (split_colour_endpoints3 s')) n) as [k'|] eqn:Qk'; [|congruence].
  injection Z1 as <-. injection Z1' as <-. injection ZA as <-. injection ZC as <-. injection ZA' as <-. injection ZC' as <-.
  pose proof (H _ _ _ Qa) as Ha. pose proof (H _ _ _ Qa') as Ha'. pose proof (H _ _ _ Qk) as Hk. pose proof (H _ _ _ Qk') as Hk'.
  assert (EA : a' = a). { pose proof (order_ltb f a a' F ltac:(lia) ltac:(lia)). lia. }
  assert (EK : k' = k). { pose proof (order_ltb f k k' F ltac:(lia) ltac:(lia)). lia. }
  subst a' k'.
  destruct (B ltac:(lia)) as (e1 & l1 & L1 & N1). destruct (B' ltac:(lia)) as (e2 & l2 & L2 & N2).
  assert (ES : s = s').
  { apply (first_once _ (tried3 all) e1 e2 l1 l2 s s' (fun p q => size (al (split_alpha_endpoints p)) n = size (al (split_alpha_endpoints q)) n /\
      size (co (decorrelation_mode3 p) (split_colour_endpoints3 p)) n = size (co (decorrelation_mode3 q) (split_colour_endpoints3 q)) n) L1 L2).
    - intros q Hq (U1 & U2). destruct (N1 q Hq) as (w & W1 & W2). rewrite SH in W1. cbn [total_size] in W1. rewrite U1, U2, Qa, Qk in W1. injection W1 as <-. lia.
    - intros q Hq (U1 & U2). destruct (N2 q Hq) as (w & W1 & W2). rewrite SH in W1. cbn [total_size] in W1. rewrite U1, U2, Qa', Qk' in W1. injection W1 as <-. lia.
    - rewrite Qa, Qa', Qk, Qk'. split; reflexivity.
    - rewrite Qa, Qa', Qk, Qk'. split; reflexivity. }
  subst s'. split; [reflexivity|]. rewrite T in T'. injection T' as <-. reflexivity.
Qed.

Lemma be_units_bc3_pure : forall x out s y, 
  be_transform_bc3_auto c v (pure mx size) all x out tt = Ok (ROk s, y, tt) ->
  be_transform_bc3_auto c v (in_units f (pure mx size)) all x out tt = Ok (ROk s, y, tt).
Proof.
  intros x out s y R. rewrite be_units_pure.
  enough (Q : exists s' y', be_transform_bc3_auto c v (pure mx (units_size)) all x out tt = Ok (ROk s', y', tt)).
  { destruct Q as (s' & y' & Q). destruct (be_units_bc3_same x out s y s' y' R Q) as (-> & ->). exact Q. }
  assert (Hm : zlen x mod 16 = 0). { destruct (Z.eq_dec (zlen x mod 16) 0) as [|N]; [assumption|]. destruct (be_lC15_bc3_auto_validation unit Er c v (pure mx size) all x out tt) as (V & _). rewrite (V N) in R. congruence. }
  assert (Ho : zlen x <= zlen out). { destruct (Z_le_gt_dec (zlen x) (zlen out)) as [|N]; [assumption|]. destruct (be_lC15_bc3_auto_validation unit Er c v (pure mx size) all x out tt) as (_ & V & _). rewrite (V Hm ltac:(lia)) in R. congruence. }
  assert (H2 : forall st d n z st', estimate_compressed_size (pure mx (units_size)) st d n = (ROk z, st') -> 2 * z <= usize_max v).
  { intros st d n z st' Q. cbn [pure estimate_compressed_size] in Q. injection Q as Q _. apply units_size_fits in Q. lia. }
  destruct (be_lC19_bc3_estimator_errors unit Er c v (pure mx (units_size)) all x out tt K H2 Hm Ho) as (r & y' & [] & _ & Q & _). rewrite Q.
  destruct r as [s'|er]; [exists s', y'; reflexivity|exfalso].
  unfold be_transform_bc3_auto, auto_checked in R, Q.
  destruct (negb (zlen x mod 16 =? 0)); [congruence|]. destruct (zlen out <? zlen x); [congruence|].
  unfold be_transform_bc3_auto_ptr, search in R, Q. cbn [pure max_compressed_size] in R, Q.
  destruct (mx (zlen x / 4)) as [n|]; [|cbn [bind] in R; congruence]. destruct (negb (n =? 0) && negb (alloc_ok v n)); [cbn [bind] in R; congruence|].
  match type of R with context [search_loop ?t ?e ?o ?b ?z ?l ?m ?st] => destruct (search_loop t e o b z l m st) as [[[[[b1 l1]|er1] m1] st1]|w|w] eqn:L end; cbn [bind] in R; try congruence.
  match type of Q with context [search_loop ?t ?e ?o ?b ?z ?l ?m ?st] => assert (S : exists b', search_loop t e o b z l m st = Ok (ROk (b', l1), m1, st1)) end.
  { refine (loop_shape _ _ _ _ _ _ _ _ _ _ _ _ _ _ _ _ L). intros m0 st0. unfold estimate_bc3, estimate_at.
    destruct (mload m0 (Ptr BOut 0) (zlen x / 16 * 2)) as [d0|w|w]; cbn [bind]; [|right; reflexivity..]. cbn [pure estimate_compressed_size].
    destruct (size d0 n) as [u|er0] eqn:Q0.
    2: { assert (U : units_size d0 n = RErr er0) by (unfold units_size, Units.units_size; rewrite Q0; reflexivity). rewrite U. right. reflexivity. }
    assert (U : units_size d0 n = ROk (f u)) by (unfold units_size, Units.units_size; rewrite Q0; reflexivity). rewrite U. pose proof (units_size_fits _ _ _ U).
    destruct (ptr_add m0 (Ptr BOut 0) (zlen x / 2)) as [p|w|w]; cbn [bind]; [|right; reflexivity..].
    destruct (mload m0 p (zlen x / 16 * 4)) as [d1|w|w]; cbn [bind]; [|right; reflexivity..].
    destruct (size d1 n) as [u1|er1] eqn:Q1.
    2: { assert (U1 : units_size d1 n = RErr er1) by (unfold units_size, Units.units_size; rewrite Q1; reflexivity). rewrite U1. right. reflexivity. }
    assert (U1 : units_size d1 n = ROk (f u1)) by (unfold units_size, Units.units_size; rewrite Q1; reflexivity). rewrite U1. pose proof (units_size_fits _ _ _ U1).
    pose proof (H _ _ _ Q0). pose proof (H _ _ _ Q1). left.
    assert (L1 : (u + u1 <=? usize_max v) = true) by lia. assert (L2 : (f u + f u1 <=? usize_max v) = true) by lia. rewrite L1, L2.
    do 3 eexists. split; reflexivity. }
  destruct S as (b' & L'). rewrite L' in Q. cbn [bind] in Q. destruct (settings3_eqb b' l1); cbn [bind] in Q; [congruence|].
  match type of Q with context [be_transform_bc3_with_settings ?a ?b ?c ?d ?e ?f] => destruct (be_transform_bc3_with_settings a b c d e f); cbn [bind] in Q; congruence end.
Qed.
End Pure3.
