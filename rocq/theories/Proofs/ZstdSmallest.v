(** What Zstandard prefers is what the searches that use it choose. *)
From Verif Require Import Base.Bytes Base.Res Model.Color565 Model.Kernel Model.Transform Model.Auto Model.Zstd Spec.YCoCg Spec.Layout Spec.Estimator Spec.Zstd Spec.Answers Spec.ZstdSizes
  Proofs.LayoutFacts Proofs.AutoFacts Proofs.AutoProps Proofs.AutoTheorems Proofs.AutoAnswers Proofs.LtuFacts Proofs.ZstdFacts.
From Coq Require Import ZifyBool ZifyNat.
Open Scope list_scope.
Open Scope Z_scope.

Section Smallest.
Context {L : Type} (lib : zstd_lib L) (v : env) (size : Z -> list byte -> Z) (lv : Z).
Hypothesis K : keeps_promise lib.
Hypothesis C : compresses_to lib v size.

(** an answer of the estimator: the compressed size, if there was room *)
Definition measured (n : Z) (d : list byte) (z : Z) : Prop := 2 * z < usize_max v /\ (d <> [] -> z_compress_bound lib (zlen d) <= n -> z = size lv d).
Lemma answers_measured : forall n st d z st', estimate_compressed_size (zstd lib lv) st d n = (ROk z, st') -> measured n d z.
Proof.
  intros n st d z st' H. destruct K as (K1 & K2 & K3). destruct C as (C1 & C2 & C3). cbn [estimate_compressed_size zstd] in H. unfold zstd_estimate in H.
  destruct (zlen d =? 0) eqn:Z0.
  - injection H as <- _. split; [lia|]. intros N. apply Z.eqb_eq in Z0. unfold zlen in Z0. destruct d; [contradiction|cbn in Z0; lia].
  - unfold zstd_compress in H. destruct (z_create_cctx lib st) as [[x|] s1] eqn:E; [|discriminate].
    unfold zstd_setcommoncompressparams in H.
    match type of H with context [z_compress2 lib ?a ?b ?c0 ?d0] => pose proof (C2 a b c0 d0) as Q; assert (Q1 : z_compress_bound lib (zlen c0) <= b -> fst (z_compress2 lib a b c0 d0) = size lv c0) by (intros Hb; exact (C1 st x s1 lv b c0 E Hb)); destruct (z_compress2 lib a b c0 d0) as [r s2] end.
    cbn [fst] in Q, Q1. destruct (z_is_error lib r); cbn [negb] in H; [discriminate|]. injection H as <- _. split; [exact (Q eq_refl)|]. intros _ Hb. exact (Q1 Hb).
Qed.

Lemma sum_measured : forall n ds zs, Forall2 (measured n) ds zs -> Forall (fun d => d <> [] /\ z_compress_bound lib (zlen d) <= n) ds -> answered_sum zs = compressed_sum (size lv) ds.
Proof.
  intros n ds zs F. induction F as [|d z ds zs (_ & H) F IH]; intros G; [reflexivity|]. inversion G as [|d0 ds0 (G1 & G2) G3]; subst.
  cbn [answered_sum compressed_sum fold_right]. rewrite (H G1 G2). f_equal. exact (IH G3).
Qed.

Lemma smallest : forall {S} (shown : S -> list (list byte)) n rounds (s s' : S) order,
  map fst rounds = order -> Forall (fun r => Forall2 (measured n) (shown (fst r)) (snd r)) rounds -> first_smallest rounds s ->
  (forall s, Forall (fun d => d <> [] /\ z_compress_bound lib (zlen d) <= n) (shown s)) -> In s' order ->
  compressed_sum (size lv) (shown s) <= compressed_sum (size lv) (shown s').
Proof.
  intros S shown n rounds s s' order <- F (before & zs & after & -> & Q & _) G I. rewrite Forall_forall in F.
  apply in_map_iff in I. destruct I as (r & <- & I).
  rewrite <- (sum_measured n (shown (fst r)) (snd r) (F _ I) (G _)).
  rewrite <- (sum_measured n (shown s) zs); [exact (Q _ I)|exact (F (s, zs) (in_elt _ _ _))|apply G].
Qed.

(** lengths of what is shown *)
Lemma colours_exact : forall k va sp off bs, List.length (lay (colour_fields va sp off) (blocks k bs)) = (4 * List.length (blocks k bs))%nat.
Proof.
  intros k va sp off bs. set (l := blocks k bs). clearbody l. unfold lay, colour_fields. destruct sp; cbn [map List.concat]; rewrite ?app_length, ?app_nil_r.
  - rewrite !(length_concat_const 2); [rewrite !map_length; cbn [List.length]; lia|intros b H; apply in_map_iff in H; destruct H as (a & <- & _); reflexivity..].
  - rewrite (length_concat_const 4); [rewrite map_length; cbn [List.length]; lia|]. intros b H. apply in_map_iff in H. destruct H as (a & <- & _). reflexivity.
Qed.
Lemma alphas_exact : forall (sp : bool) x, List.length (lay (if sp then [raw 0 1; raw 1 1] else [raw 0 2]) (blocks 16 x)) = (2 * List.length (blocks 16 x))%nat.
Proof.
  intros sp x. assert (B : forall b, In b (blocks 16 x) -> List.length b = 16%nat) by (apply blocks_all; lia).
  assert (R : forall o w, (o + w <= 16)%nat -> forall b, In b (map (raw o w) (blocks 16 x)) -> List.length b = w).
  { intros o w Ho b H. apply in_map_iff in H. destruct H as (a & <- & H). apply B in H. unfold raw. rewrite firstn_length, skipn_length. lia. }
  unfold lay. destruct sp; cbn [map List.concat]; rewrite ?app_length, ?app_nil_r.
  - rewrite (length_concat_const 1), (length_concat_const 1); [rewrite !map_length; cbn [List.length]; lia|apply R; lia..].
  - rewrite (length_concat_const 2); [rewrite map_length; cbn [List.length]; lia|apply R; lia].
Qed.
Lemma some_bytes : forall (d : list byte) k, List.length d = k -> (0 < k)%nat -> d <> [].
Proof. intros d k <- H ->. cbn in H. lia. Qed.

Lemma room : forall (x : list byte) k scratch st (d : list byte), fst (max_compressed_size (zstd lib lv) st (zlen x / k)) = ROk scratch -> 0 < zlen x / k -> 0 < zlen d <= zlen x / k ->
  d <> [] /\ z_compress_bound lib (zlen d) <= scratch.
Proof.
  intros x k scratch st d H Hp Hd. split; [intros ->; unfold zlen in Hd; cbn in Hd; lia|]. cbn [max_compressed_size zstd] in H. unfold zstd_max in H.
  replace (zlen x / k =? 0) with false in H by lia. cbn [fst] in H. injection H as <-. destruct K as (_ & _ & K3). apply K3. lia.
Qed.
Lemma empty_len : forall x : list byte, zlen x = 0 -> x = [].
Proof. intros [|b x] H; [reflexivity|]. unfold zlen in H. cbn in H. lia. Qed.

Lemma bc1_smallest : forall (c : cfg) (all : bool) (x out : list byte) (st : L) s y st', cpu_ok c -> (c_debug c = true -> x <> []) ->
  transform_bc1_auto c v (zstd lib lv) all x out st = Ok (ROk s, y, st') ->
  forall s', candidate all (decorrelation_mode s') -> compressed_sum (size lv) (bc1_shown x s) <= compressed_sum (size lv) (bc1_shown x s').
Proof.
  intros c all x out st s y st' KC HD H s' Hs'. pose proof H as H0. unfold transform_bc1_auto in H0. apply valid_auto in H0. destruct H0 as (Hm & Ho).
  pose proof (bc1_log_same c v (zstd lib lv) all x out st []) as S. rewrite H in S.
  destruct (transform_bc1_auto c v (logging (zstd lib lv)) all x out (st, [])) as [[[r y1] [st1 log]]| |] eqn:E; cbn [forget] in S; try discriminate. injection S as -> -> ->.
  destruct (bc1_answers c v (zstd lib lv) all x out st measured answers_measured s y st' log KC HD ltac:(intros n d z (Q & _); pose proof (proj2 (proj2 C)); lia) E)
    as (scratch & rounds & M & _ & R2 & R3 & R4).
  pose proof (zlen_nonneg _ x). destruct (Z.eq_dec (zlen x) 0) as [Z0|N0].
  - apply empty_len in Z0. subst x. assert (Q : forall s, bc1_shown [] s = [[]]) by (intros [[] []]; reflexivity). rewrite !Q. lia.
  - refine (smallest (bc1_shown x) scratch rounds s s' (tried all) R2 R3 R4 _ (proj2 (order1_in all s') Hs')).
    intros s0. constructor; [|constructor]. pose proof (colours_exact 8 (decorrelation_mode s0) (split_colour_endpoints s0) 0 x) as LN. rewrite blocks_count in LN.
    apply (room x 2 scratch st _ M); unfold zlen in *; [|rewrite LN]; lia.
Qed.
Lemma bc2_smallest : forall (c : cfg) (all : bool) (x out : list byte) (st : L) s y st', cpu_ok c -> (c_avx512bw c = true -> c_avx512vl c = true) ->
  transform_bc2_auto c v (zstd lib lv) all x out st = Ok (ROk s, y, st') ->
  forall s', candidate all (decorrelation_mode s') -> compressed_sum (size lv) (bc2_shown x s) <= compressed_sum (size lv) (bc2_shown x s').
Proof.
  intros c all x out st s y st' KC HD H s' Hs'. pose proof H as H0. unfold transform_bc2_auto in H0. apply valid_auto in H0. destruct H0 as (Hm & Ho).
  pose proof (bc2_log_same c v (zstd lib lv) all x out st []) as S. rewrite H in S.
  destruct (transform_bc2_auto c v (logging (zstd lib lv)) all x out (st, [])) as [[[r y1] [st1 log]]| |] eqn:E; cbn [forget] in S; try discriminate. injection S as -> -> ->.
  destruct (bc2_answers c v (zstd lib lv) all x out st measured answers_measured s y st' log KC HD ltac:(intros n d z (Q & _); pose proof (proj2 (proj2 C)); lia) E)
    as (scratch & rounds & M & _ & R2 & R3 & R4).
  pose proof (zlen_nonneg _ x). destruct (Z.eq_dec (zlen x) 0) as [Z0|N0].
  - apply empty_len in Z0. subst x. assert (Q : forall s, bc2_shown [] s = [[]]) by (intros [[] []]; reflexivity). rewrite !Q. lia.
  - refine (smallest (bc2_shown x) scratch rounds s s' (tried all) R2 R3 R4 _ (proj2 (order1_in all s') Hs')).
    intros s0. constructor; [|constructor]. pose proof (colours_exact 16 (decorrelation_mode s0) (split_colour_endpoints s0) 8 x) as LN. rewrite blocks_count in LN.
    apply (room x 4 scratch st _ M); unfold zlen in *; [|rewrite LN]; lia.
Qed.
Lemma bc3_smallest : forall (c : cfg) (all : bool) (x out : list byte) (st : L) s y st', cpu_ok c -> (c_debug c = true -> x <> []) ->
  transform_bc3_auto c v (zstd lib lv) all x out st = Ok (ROk s, y, st') ->
  forall s', candidate all (decorrelation_mode3 s') -> compressed_sum (size lv) (bc3_shown x s) <= compressed_sum (size lv) (bc3_shown x s').
Proof.
  intros c all x out st s y st' KC HD H s' Hs'. pose proof H as H0. unfold transform_bc3_auto in H0. apply valid_auto in H0. destruct H0 as (Hm & Ho).
  pose proof (bc3_log_same c v (zstd lib lv) all x out st []) as S. rewrite H in S.
  destruct (transform_bc3_auto c v (logging (zstd lib lv)) all x out (st, [])) as [[[r y1] [st1 log]]| |] eqn:E; cbn [forget] in S; try discriminate. injection S as -> -> ->.
  destruct (bc3_answers c v (zstd lib lv) all x out st measured answers_measured s y st' log KC HD ltac:(intros n d z (Q & _); exact Q) E)
    as (scratch & rounds & M & _ & R2 & R3 & R4).
  pose proof (zlen_nonneg _ x). destruct (Z.eq_dec (zlen x) 0) as [Z0|N0].
  - apply empty_len in Z0. subst x. assert (Q : forall s, bc3_shown [] s = [[]; []]) by (intros [[] [] []]; reflexivity). rewrite !Q. lia.
  - refine (smallest (bc3_shown x) scratch rounds s s' (tried3 all) R2 R3 R4 _ (proj2 (order3_in all s') Hs')).
    intros s0. constructor; [|constructor; [|constructor]].
    + pose proof (alphas_exact (split_alpha_endpoints s0) x) as LN. rewrite blocks_count in LN. apply (room x 4 scratch st _ M); unfold zlen in *; [|rewrite LN]; lia.
    + pose proof (colours_exact 16 (decorrelation_mode3 s0) (split_colour_endpoints3 s0) 8 x) as LN. rewrite blocks_count in LN. apply (room x 4 scratch st _ M); unfold zlen in *; [|rewrite LN]; lia.
Qed.
End Smallest.
