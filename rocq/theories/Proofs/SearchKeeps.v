(** A search changes the state of its estimator only by asking it. *)
From Verif Require Import Base.Bytes Base.Res Model.Color565 Model.Ycc Model.Kernel Model.Transform Model.Auto Model.Decode Model.Normalize Model.NormTransform.
Open Scope list_scope.
Open Scope Z_scope.

Section Keeps.
Context {St Er : Type}.
Variables (e : estimator St Er) (R : St -> St -> Prop).
Hypotheses (refl : forall s, R s s) (trans : forall a b c, R a b -> R b c -> R a c)
  (Kmax : forall s n, R s (snd (max_compressed_size e s n))) (Ksize : forall s d n, R s (snd (estimate_compressed_size e s d n))).

Lemma keeps_estimate_at : forall p n k m st x st', estimate_at e p n k m st = Ok (x, st') -> R st st'.
Proof.
  intros p n k m st x st' H. unfold estimate_at in H. destruct (mload m p n) as [d|w|w]; try discriminate. cbn [bind] in H. injection H as H.
  pose proof (Ksize st d k) as K. rewrite H in K. exact K.
Qed.
Lemma keeps_loop : forall {S} (transform : S -> mem -> res mem) (est : mem -> St -> res (result Z Er * St)),
  (forall m st x st', est m st = Ok (x, st') -> R st st') ->
  forall order best bs last m st x m' st', search_loop transform est order best bs last m st = Ok (x, m', st') -> R st st'.
Proof.
  intros S transform est H. induction order as [|cur rest IH]; intros best bs last m st x m' st' E; cbn [search_loop] in E.
  - injection E as _ _ <-. apply refl.
  - destruct (transform cur m) as [m1|w|w]; try discriminate. cbn [bind] in E. destruct (est m1 st) as [[r st1]|w|w] eqn:E1; try discriminate. cbn [bind] in E.
    pose proof (H _ _ _ _ E1) as R1. destruct r as [size|er]; [|injection E as _ _ <-; exact R1].
    destruct (size <? bs); exact (trans _ _ _ R1 (IH _ _ _ _ _ _ _ _ E)).
Qed.
Lemma keeps_search : forall v {S} n (transform : S -> mem -> res mem) (est : Z -> mem -> St -> res (result Z Er * St)) same default order,
  (forall z m st x st', est z m st = Ok (x, st') -> R st st') ->
  forall m st x m' st', search v e n transform est same default order m st = Ok (x, m', st') -> R st st'.
Proof.
  intros v S n transform est same default order H m st x m' st' E. unfold search in E. pose proof (Kmax st n) as K.
  destruct (max_compressed_size e st n) as [[z|er] st1]; cbn [snd] in K; [|injection E as _ _ <-; exact K].
  destruct (negb (z =? 0) && negb (alloc_ok v z)); [injection E as _ _ <-; exact K|].
  destruct (search_loop transform (est z) order default (usize_max v) default m st1) as [[[r m1] st2]|w|w] eqn:E1; try discriminate. cbn [bind] in E.
  pose proof (trans _ _ _ K (keeps_loop transform (est z) (H z) _ _ _ _ _ _ _ _ _ E1)) as R1.
  destruct r as [[b l]|er]; [|injection E as _ _ <-; exact R1]. destruct (same b l); [injection E as _ _ <-; exact R1|].
  destruct (transform b m1); try discriminate. injection E as _ _ <-. exact R1.
Qed.
Lemma keeps_bc1 : forall c v all i o len m st x m' st', transform_bc1_auto_ptr c v e all i o len m st = Ok (x, m', st') -> R st st'.
Proof.
  intros c v all i o len m st x m' st'. unfold transform_bc1_auto_ptr. apply keeps_search. intros z m1 s1 y s2. apply keeps_estimate_at.
Qed.
Lemma keeps_bc2 : forall c v all i o len m st x m' st', transform_bc2_auto_ptr c v e all i o len m st = Ok (x, m', st') -> R st st'.
Proof.
  intros c v all i o len m st x m' st'. unfold transform_bc2_auto_ptr. apply keeps_search. intros z m1 s1 y s2 E.
  destruct (ptr_add m1 o (len / 2)) as [p|w|w]; try discriminate. exact (keeps_estimate_at _ _ _ _ _ _ _ E).
Qed.
Lemma keeps_bc3 : forall c v all i o len m st x m' st', transform_bc3_auto_ptr c v e all i o len m st = Ok (x, m', st') -> R st st'.
Proof.
  intros c v all i o len m st x m' st'. unfold transform_bc3_auto_ptr. apply keeps_search. intros z m1 s1 y s2 E. unfold estimate_bc3 in E. cbv zeta in E.
  destruct (estimate_at e o (len / 16 * 2) z m1 s1) as [[r st1]|w|w] eqn:E1; try discriminate. cbn [bind] in E.
  pose proof (keeps_estimate_at _ _ _ _ _ _ _ E1) as R1. destruct r as [za|er]; [|injection E as _ <-; exact R1].
  destruct (ptr_add m1 o (len / 2)) as [p|w|w]; try discriminate. cbn [bind] in E.
  destruct (estimate_at e p (len / 16 * 4) z m1 st1) as [[r st2]|w|w] eqn:E2; try discriminate. cbn [bind] in E.
  pose proof (trans _ _ _ R1 (keeps_estimate_at _ _ _ _ _ _ _ E2)) as R2. destruct r as [zc|er]; [|injection E as _ <-; exact R2].
  destruct (za + zc <=? usize_max v); [injection E as _ <-; exact R2|]. destruct (c_debug c); try discriminate. injection E as _ <-. exact R2.
Qed.

Lemma keeps_variant : forall c i o len comp cur s s', test_variant c e i o len comp cur s = Ok s' -> R (s_est s) (s_est s').
Proof.
  intros c i o len comp cur s s' E. unfold test_variant in E. destruct (if d_split cur then _ else _) as [m|w|w]; try discriminate. cbn [bind] in E.
  destruct (load m o (len / 2)) as [d|w|w]; try discriminate. cbn [bind] in E. pose proof (Ksize (s_est s) d comp) as K.
  destruct (estimate_compressed_size e (s_est s) d comp) as [[z|er] st]; cbn [snd] in K; [|injection E as <-; exact K].
  destruct (z <? best_size s); injection E as <-; exact K.
Qed.
Lemma keeps_order : forall c i o len comp norm order s s', test_order c e i o len comp norm order s = Ok s' -> R (s_est s) (s_est s').
Proof.
  intros c i o len comp norm. induction order as [|cur order IH]; intros s s' E; cbn [test_order] in E; [injection E as <-; apply refl|].
  destruct (test_variant c e i o len comp _ s) as [s1|w|w] eqn:E1; try discriminate. cbn [bind] in E.
  exact (trans _ _ _ (keeps_variant _ _ _ _ _ _ _ _ E1) (IH _ _ E)).
Qed.
Lemma keeps_norms : forall c o len comp order norms inputs s s', test_norms c e norms inputs o len comp order s = Ok s' -> R (s_est s) (s_est s').
Proof.
  intros c o len comp order. induction norms as [|norm norms IH]; intros inputs s s' E; cbn [test_norms] in E; [injection E as <-; apply refl|].
  destruct inputs as [|i inputs]; [injection E as <-; apply refl|].
  destruct (test_order c e i o len comp norm order s) as [s1|w|w] eqn:E1; try discriminate. cbn [bind] in E.
  exact (trans _ _ _ (keeps_order _ _ _ _ _ _ _ _ _ E1) (IH _ _ _ E)).
Qed.
Lemma keeps_norm : forall c v use_all fresh even i o len m0 st x m' st',
  transform_bc1_auto_with_normalization c v e use_all fresh even i o len m0 st = Ok (x, m', st') -> R st st'.
Proof.
  intros c v use_all fresh even i o len m0 st x m' st' E. unfold transform_bc1_auto_with_normalization in E.
  destruct (negb (alloc_ok v len)); [injection E as _ _ <-; apply refl|]. cbv zeta in E.
  pose proof (Kmax st (len / 2)) as K. destruct (max_compressed_size e st (len / 2)) as [[z|er] st1]; cbn [snd] in K; [|injection E as _ _ <-; exact K].
  destruct (negb (z =? 0) && negb (alloc_ok v z)); [injection E as _ _ <-; exact K|].
  destruct (bc1_normalize_blocks_all_modes _ _ _ _ _) as [[any m]|w|w]; try discriminate. cbn [bind] in E. destruct any.
  - destruct (for_dsts _ _ _ _) as [m1|w|w]; try discriminate. cbn [bind] in E.
    destruct (negb (alloc_ok v (len / 2))); [injection E as _ _ <-; exact K|].
    destruct (test_norms _ _ _ _ _ _ _ _ _) as [s|w|w] eqn:E1; try discriminate. cbn [bind] in E. pose proof (keeps_norms _ _ _ _ _ _ _ _ _ E1) as R1.
    cbn [s_est] in R1. destruct (transform_bc1_with_normalize_blocks _ _ _ _ _ _ _ _) as [m2|w|w]; try discriminate. injection E as _ _ <-. exact (trans _ _ _ K R1).
  - destruct (apartb i len o len); try discriminate. destruct (transform_bc1_auto_ptr _ _ _ _ _ _ _ _ _) as [[[r m1] st2]|w|w] eqn:E1; try discriminate. cbn [bind] in E.
    pose proof (trans _ _ _ K (keeps_bc1 _ _ _ _ _ _ _ _ _ _ _ E1)) as R1. destruct r; injection E as _ _ <-; exact R1.
Qed.
End Keeps.
