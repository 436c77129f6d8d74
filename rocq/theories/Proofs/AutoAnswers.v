(** The choice of an automatic search in terms of the answers it was given, for
    estimators that may answer the same question differently every time. *)
From Verif Require Import Base.Bytes Base.Res Model.Color565 Model.Kernel Model.Transform Model.Auto Spec.YCoCg Spec.Layout Spec.Estimator Spec.Answers
  Proofs.SliceFacts Proofs.TransformProps Proofs.AutoFacts Proofs.AutoProps Proofs.AutoTheorems.
From Coq Require Import ZifyBool ZifyNat.
Open Scope list_scope.
Open Scope Z_scope.

Section Answers.
Context {St Er S : Type}.
Variables (e : estimator St Er) (shown : S -> list (list byte)) (n : Z) (P : list byte -> Z -> Prop).
Hypothesis HP : forall st d z st', estimate_compressed_size e st d n = (ROk z, st') -> P d z.

Lemma est_all_answers : forall ds acc st lg z st' lg', est_all (logging e) ds n acc (st, lg) = (ROk z, (st', lg')) ->
  exists zs, Forall2 P ds zs /\ z = acc + answered_sum zs /\ lg' = lg ++ map (fun q => AskedSize (fst q) n (ROk (snd q))) (combine ds zs).
Proof.
  induction ds as [|d ds IH]; intros acc st lg z st' lg' H; cbn [est_all] in H.
  - injection H as <- <- <-. exists []. split; [constructor|]. split; [cbn; lia|]. symmetry. apply app_nil_r.
  - unfold logging at 1 in H. cbn [estimate_compressed_size fst snd] in H.
    destruct (estimate_compressed_size e st d n) as [[z1|e1] st1] eqn:E; [|discriminate].
    apply IH in H. destruct H as (zs & F & -> & ->). exists (z1 :: zs). split; [constructor; [exact (HP _ _ _ _ E)|exact F]|].
    split; [cbn [answered_sum fold_right]; unfold answered_sum; lia|]. cbn [combine map fst snd]. rewrite <- app_assoc. reflexivity.
Qed.

Lemma srch_answers : forall order best bs st lg s st' lg', srch (logging e) shown n order best bs (st, lg) = (ROk s, (st', lg')) ->
  exists rounds, map fst rounds = order /\ Forall (fun r => Forall2 P (shown (fst r)) (snd r)) rounds /\
    lg' = lg ++ flat_map (round_calls shown n) rounds /\
    ((s = best /\ forall r, In r rounds -> bs <= answered_sum (snd r)) \/
     exists before zs after, rounds = before ++ (s, zs) :: after /\ answered_sum zs < bs /\
       (forall r, In r rounds -> answered_sum zs <= answered_sum (snd r)) /\ (forall r, In r before -> answered_sum zs < answered_sum (snd r))).
Proof.
  induction order as [|a o IH]; intros best bs st lg s st' lg' H; cbn [srch] in H.
  - injection H as <- <- <-. exists []. split; [reflexivity|]. split; [constructor|]. split; [symmetry; apply app_nil_r|]. left. split; [reflexivity|intros r []].
  - destruct (est_all (logging e) (shown a) n 0 (st, lg)) as [[z|e1] [st1 lg1]] eqn:E; [|discriminate].
    apply est_all_answers in E. destruct E as (zs & F & -> & ->). rewrite Z.add_0_l in H.
    assert (G : exists rounds best' bs', map fst rounds = o /\ Forall (fun r => Forall2 P (shown (fst r)) (snd r)) rounds /\
      lg' = (lg ++ round_calls shown n (a, zs)) ++ flat_map (round_calls shown n) rounds /\
      ((s = best' /\ forall r, In r rounds -> bs' <= answered_sum (snd r)) \/
       exists before zs after, rounds = before ++ (s, zs) :: after /\ answered_sum zs < bs' /\
       (forall r, In r rounds -> answered_sum zs <= answered_sum (snd r)) /\ (forall r, In r before -> answered_sum zs < answered_sum (snd r))) /\
      if answered_sum zs <? bs then best' = a /\ bs' = answered_sum zs else best' = best /\ bs' = bs).
    { destruct (answered_sum zs <? bs) eqn:Ez; apply IH in H; destruct H as (rounds & R1 & R2 & R3 & R4).
      - exists rounds, a, (answered_sum zs). repeat (split; [assumption|]). split; reflexivity.
      - exists rounds, best, bs. repeat (split; [assumption|]). split; reflexivity. }
    clear H IH. destruct G as (rounds & best' & bs' & R1 & R2 & R3 & R4 & B). exists ((a, zs) :: rounds).
    split; [cbn [map fst]; rewrite R1; reflexivity|]. split; [constructor; assumption|]. split; [cbn [flat_map]; rewrite R3, <- app_assoc; reflexivity|].
    destruct (answered_sum zs <? bs) eqn:Ez; destruct B as (-> & ->).
    + right. destruct R4 as [(-> & R4)|(before & zs1 & after & -> & R5 & R6 & R7)].
      * exists [], zs, rounds. split; [reflexivity|]. split; [lia|]. split; [|intros r []]. intros r [<-|Hr]; [cbn [snd]; lia|exact (R4 r Hr)].
      * exists ((a, zs) :: before), zs1, after. split; [reflexivity|]. split; [lia|]. split; (intros r [<-|Hr]; [cbn [snd]; lia|auto]).
    + destruct R4 as [(-> & R4)|(before & zs1 & after & -> & R5 & R6 & R7)].
      * left. split; [reflexivity|]. intros r [<-|Hr]; [cbn [snd]; lia|exact (R4 r Hr)].
      * right. exists ((a, zs) :: before), zs1, after. split; [reflexivity|]. split; [lia|]. split; (intros r [<-|Hr]; [cbn [snd]; lia|auto]).
Qed.
End Answers.

Lemma sum_bound : forall (P : list byte -> Z -> Prop) u ds zs, (forall d z, P d z -> 0 <= u -> z <= u) -> 0 <= u -> Forall2 P ds zs -> answered_sum zs <= Z.of_nat (List.length ds) * u.
Proof. intros P u ds zs HB Hu F. induction F as [|d z ds zs H F IH]; cbn [answered_sum fold_right List.length] in *; unfold answered_sum in *; [lia|]. specialize (HB d z H Hu). lia. Qed.

(** the whole search: when no sum exceeds the largest [usize], the candidate with
    the smallest sum; the first such one unless all have the largest *)
Lemma AUTO_answers : forall {St Er S} {out} v (e : estimator St Er) (shown : S -> list (list byte)) L order dflt k run st s y st' log (P : Z -> list byte -> Z -> Prop),
  AUTO (out := out) v (logging e) shown L order dflt k run -> In dflt order ->
  (forall n st d z st', estimate_compressed_size e st d n = (ROk z, st') -> P n d z) ->
  (forall n s zs, Forall2 (P n) (shown s) zs -> answered_sum zs < usize_max v) ->
  run (st, []) = Ok (ROk s, y, (st', log)) ->
  exists scratch rounds, fst (max_compressed_size e st k) = ROk scratch /\
    log = AskedMax k (ROk scratch) :: flat_map (round_calls shown scratch) rounds /\ map fst rounds = order /\
    Forall (fun r => Forall2 (P scratch) (shown (fst r)) (snd r)) rounds /\ first_smallest rounds s.
Proof.
  intros St Er S out v e shown L order dflt k run st s y st' log P A Hd HP HU H. destruct (A (st, [])) as (y' & B).
  cbn [logging max_compressed_size fst snd] in B. destruct (max_compressed_size e st k) as [[n|e1] st1]; [|destruct B as (B & _); rewrite B in H; discriminate].
  destruct (negb (n =? 0) && negb (alloc_ok v n)); [destruct B as (B & _); rewrite B in H; discriminate|].
  cbn [app] in B. destruct (srch (logging e) shown n order dflt (usize_max v) (st1, [AskedMax k (ROk n)])) as [[s'|e1] [st2 lg]] eqn:E; [|destruct B as (B & _); rewrite B in H; discriminate].
  destruct B as (B & ->). rewrite B in H. injection H as <- <- <- <-.
  destruct (srch_answers e shown n (P n) (HP n) _ _ _ _ _ _ _ _ E) as (rounds & R1 & R2 & -> & R4). exists n, rounds.
  split; [reflexivity|]. split; [reflexivity|]. split; [exact R1|]. split; [exact R2|].
  destruct R4 as [(-> & R4)|(before & zs & after & R5 & _ & R6 & R7)]; [exfalso|exists before, zs, after; auto].
  rewrite <- R1 in Hd. apply in_map_iff in Hd. destruct Hd as (r & _ & Hr). specialize (R4 r Hr).
  rewrite Forall_forall in R2. specialize (HU n (fst r) (snd r) (R2 r Hr)). lia.
Qed.

(** ** The three formats *)
Lemma short : forall {A B} (P : A -> B -> Prop) l l', Forall2 P l l' -> List.length l' = List.length l.
Proof. intros A B P l l' F. symmetry. induction F as [|a b l l' H F IH]; cbn [List.length]; [reflexivity|]. rewrite IH. reflexivity. Qed.

Section Formats.
Context {St Er : Type}.
Variables (c : cfg) (v : env) (e : estimator St Er) (all : bool) (x out : list byte) (st : St) (P : Z -> list byte -> Z -> Prop).
Hypothesis HP : forall n st d z st', estimate_compressed_size e st d n = (ROk z, st') -> P n d z.

Lemma bc1_answers : forall s y st' log, cpu_ok c -> (c_debug c = true -> x <> []) -> (forall n d z, P n d z -> z < usize_max v) ->
  transform_bc1_auto c v (logging e) all x out (st, []) = Ok (ROk s, y, (st', log)) ->
  exists scratch rounds, fst (max_compressed_size e st (zlen x / 2)) = ROk scratch /\
    log = AskedMax (zlen x / 2) (ROk scratch) :: flat_map (round_calls (bc1_shown x) scratch) rounds /\ map fst rounds = tried all /\
    Forall (fun r => Forall2 (P scratch) (bc1_shown x (fst r)) (snd r)) rounds /\ first_smallest rounds s.
Proof.
  intros s y st' log K HD HU H. pose proof H as H0. unfold transform_bc1_auto in H0. apply valid_auto in H0. destruct H0 as (Hm & Ho).
  refine (AUTO_answers v e (bc1_shown x) _ (tried all) default_settings (zlen x / 2) _ st s y st' log P (bc1_AUTO c v (logging e) all x out K HD Hm Ho) _ HP _ H).
  - apply order1_in. unfold candidate. auto.
  - intros n s0 zs F. inversion F as [|d z ds zs0 Q F0]; subst. inversion F0; subst. cbn [answered_sum fold_right]. specialize (HU _ _ _ Q). lia.
Qed.
Lemma bc2_answers : forall s y st' log, cpu_ok c -> (c_avx512bw c = true -> c_avx512vl c = true) -> (forall n d z, P n d z -> z < usize_max v) ->
  transform_bc2_auto c v (logging e) all x out (st, []) = Ok (ROk s, y, (st', log)) ->
  exists scratch rounds, fst (max_compressed_size e st (zlen x / 4)) = ROk scratch /\
    log = AskedMax (zlen x / 4) (ROk scratch) :: flat_map (round_calls (bc2_shown x) scratch) rounds /\ map fst rounds = tried all /\
    Forall (fun r => Forall2 (P scratch) (bc2_shown x (fst r)) (snd r)) rounds /\ first_smallest rounds s.
Proof.
  intros s y st' log K HD HU H. pose proof H as H0. unfold transform_bc2_auto in H0. apply valid_auto in H0. destruct H0 as (Hm & Ho).
  refine (AUTO_answers v e (bc2_shown x) _ (tried all) default_settings (zlen x / 4) _ st s y st' log P (bc2_AUTO c v (logging e) all x out K HD Hm Ho) _ HP _ H).
  - apply order1_in. unfold candidate. auto.
  - intros n s0 zs F. inversion F as [|d z ds zs0 Q F0]; subst. inversion F0; subst. cbn [answered_sum fold_right]. specialize (HU _ _ _ Q). lia.
Qed.
Lemma bc3_answers : forall s y st' log, cpu_ok c -> (c_debug c = true -> x <> []) -> (forall n d z, P n d z -> 2 * z < usize_max v) ->
  transform_bc3_auto c v (logging e) all x out (st, []) = Ok (ROk s, y, (st', log)) ->
  exists scratch rounds, fst (max_compressed_size e st (zlen x / 4)) = ROk scratch /\
    log = AskedMax (zlen x / 4) (ROk scratch) :: flat_map (round_calls (bc3_shown x) scratch) rounds /\ map fst rounds = tried3 all /\
    Forall (fun r => Forall2 (P scratch) (bc3_shown x (fst r)) (snd r)) rounds /\ first_smallest rounds s.
Proof.
  intros s y st' log K HD HU H. pose proof H as H0. unfold transform_bc3_auto in H0. apply valid_auto in H0. destruct H0 as (Hm & Ho).
  assert (B : forall st d n z st', estimate_compressed_size (logging e) st d n = (ROk z, st') -> 2 * z <= usize_max v).
  { intros s0 d n z s1 E. cbn [logging estimate_compressed_size] in E. destruct (estimate_compressed_size e (fst s0) d n) as [r s2] eqn:Q. injection E as -> _.
    specialize (HU _ _ _ (HP _ _ _ _ _ Q)). lia. }
  refine (AUTO_answers v e (bc3_shown x) _ (tried3 all) default_settings3 (zlen x / 4) _ st s y st' log P (bc3_AUTO c v (logging e) all x out K HD B Hm Ho) _ HP _ H).
  - apply order3_in. unfold candidate. auto.
  - intros n s0 zs F. inversion F as [|d z ds zs0 Q F0]; subst. inversion F0 as [|d1 z1 ds1 zs1 Q1 F1]; subst. inversion F1; subst. cbn [answered_sum fold_right].
    pose proof (HU _ _ _ Q). pose proof (HU _ _ _ Q1). lia.
Qed.
End Formats.

Section Statements.
Context {St Er : Type}.
Lemma lengths : forall {S} (shown : S -> list (list byte)) (P : list byte -> Z -> Prop) (rounds : list (S * list Z)),
  Forall (fun r => Forall2 P (shown (fst r)) (snd r)) rounds -> Forall (fun r => List.length (snd r) = List.length (shown (fst r))) rounds.
Proof. intros S shown P rounds F. eapply Forall_impl; [|exact F]. cbn beta. intros r Q. exact (short _ _ _ Q). Qed.

Lemma lC16_answers : forall (c : cfg) (v : env) (e : estimator St Er) (all : bool) (x out : list byte) (st : St) s y st' log,
  cpu_ok c -> (c_debug c = true -> x <> []) ->
  (forall st d n z st', estimate_compressed_size e st d n = (ROk z, st') -> z < usize_max v) ->
  transform_bc1_auto c v (logging e) all x out (st, []) = Ok (ROk s, y, (st', log)) ->
  transform_bc1_auto c v e all x out st = Ok (ROk s, y, st') /\
  exists scratch rounds, log = AskedMax (zlen x / 2) (ROk scratch) :: flat_map (round_calls (bc1_shown x) scratch) rounds /\
    map fst rounds = tried all /\ Forall (fun r => List.length (snd r) = List.length (bc1_shown x (fst r))) rounds /\ first_smallest rounds s.
Proof.
  intros c v e all x out st s y st' log K HD HU H. split.
  - rewrite <- (bc1_log_same c v e all x out st []), H. reflexivity.
  - destruct (bc1_answers c v e all x out st (fun _ _ z => z < usize_max v) (fun n st d z st' => HU st d n z st') s y st' log K HD ltac:(auto) H)
      as (scratch & rounds & _ & R1 & R2 & R3 & R4).
    exists scratch, rounds. split; [exact R1|]. split; [exact R2|]. split; [exact (lengths _ _ _ R3)|exact R4].
Qed.
Lemma lC17_answers : forall (c : cfg) (v : env) (e : estimator St Er) (all : bool) (x out : list byte) (st : St) s y st' log,
  cpu_ok c -> (c_avx512bw c = true -> c_avx512vl c = true) ->
  (forall st d n z st', estimate_compressed_size e st d n = (ROk z, st') -> z < usize_max v) ->
  transform_bc2_auto c v (logging e) all x out (st, []) = Ok (ROk s, y, (st', log)) ->
  transform_bc2_auto c v e all x out st = Ok (ROk s, y, st') /\
  exists scratch rounds, log = AskedMax (zlen x / 4) (ROk scratch) :: flat_map (round_calls (bc2_shown x) scratch) rounds /\
    map fst rounds = tried all /\ Forall (fun r => List.length (snd r) = List.length (bc2_shown x (fst r))) rounds /\ first_smallest rounds s.
Proof.
  intros c v e all x out st s y st' log K HD HU H. split.
  - rewrite <- (bc2_log_same c v e all x out st []), H. reflexivity.
  - destruct (bc2_answers c v e all x out st (fun _ _ z => z < usize_max v) (fun n st d z st' => HU st d n z st') s y st' log K HD ltac:(auto) H)
      as (scratch & rounds & _ & R1 & R2 & R3 & R4).
    exists scratch, rounds. split; [exact R1|]. split; [exact R2|]. split; [exact (lengths _ _ _ R3)|exact R4].
Qed.
Lemma lC18_answers : forall (c : cfg) (v : env) (e : estimator St Er) (all : bool) (x out : list byte) (st : St) s y st' log,
  cpu_ok c -> (c_debug c = true -> x <> []) ->
  (forall st d n z st', estimate_compressed_size e st d n = (ROk z, st') -> 2 * z < usize_max v) ->
  transform_bc3_auto c v (logging e) all x out (st, []) = Ok (ROk s, y, (st', log)) ->
  transform_bc3_auto c v e all x out st = Ok (ROk s, y, st') /\
  exists scratch rounds, log = AskedMax (zlen x / 4) (ROk scratch) :: flat_map (round_calls (bc3_shown x) scratch) rounds /\
    map fst rounds = tried3 all /\ Forall (fun r => List.length (snd r) = List.length (bc3_shown x (fst r))) rounds /\ first_smallest rounds s.
Proof.
  intros c v e all x out st s y st' log K HD HU H. split.
  - rewrite <- (bc3_log_same c v e all x out st []), H. reflexivity.
  - destruct (bc3_answers c v e all x out st (fun _ _ z => 2 * z < usize_max v) (fun n st d z st' => HU st d n z st') s y st' log K HD ltac:(auto) H)
      as (scratch & rounds & _ & R1 & R2 & R3 & R4).
    exists scratch, rounds. split; [exact R1|]. split; [exact R2|]. split; [exact (lengths _ _ _ R3)|exact R4].
Qed.
End Statements.
