(** Which settings the C functions choose. *)
From Verif Require Import Base.Bytes Base.Res Model.Color565 Model.Kernel Model.Transform Model.Auto Model.Builders Model.CApi
  Spec.Layout Spec.Estimator Spec.Files Spec.CApi Spec.Answers Spec.ZstdSizes Spec.CChoice Proofs.AutoProps Proofs.AutoTheorems Proofs.AutoAnswers Proofs.CApiFacts.
From Coq Require Import ZifyBool ZifyNat.
Open Scope list_scope.
Open Scope Z_scope.

Lemma sum_told : forall (told : list byte -> Z) ds zs, Forall2 (fun d z => z = told d) ds zs -> answered_sum zs = compressed_sum told ds.
Proof. intros told ds zs F. induction F as [|d z ds zs -> F IH]; [reflexivity|]. cbn [answered_sum compressed_sum fold_right]. f_equal. exact IH. Qed.
Lemma told_smallest : forall {S} (told : list byte -> Z) (shown : S -> list (list byte)) rounds (s s' : S) order,
  map fst rounds = order -> Forall (fun r => Forall2 (fun d z => z = told d) (shown (fst r)) (snd r)) rounds -> first_smallest rounds s -> In s' order ->
  compressed_sum told (shown s) <= compressed_sum told (shown s').
Proof.
  intros S told shown rounds s s' order <- F (before & zs & after & -> & Q & _) I. rewrite Forall_forall in F.
  apply in_map_iff in I. destruct I as (r & <- & I). rewrite <- (sum_told told _ _ (F _ I)). rewrite <- (sum_told told (shown s) zs (F (s, zs) (in_elt _ _ _))). exact (Q _ I).
Qed.

Lemma core_choice : forall {St Er} (told : list byte -> Z) (k : codec) (c : cfg) (v : env) (e : estimator St Er) (all : bool) (x out : list byte) (st : St) s y st',
  supported c -> (c_debug c = true -> x <> []) ->
  (forall st d n z st', estimate_compressed_size e st d n = (ROk z, st') -> z = told d) -> (forall d, told d < usize_max v) ->
  core_auto k c v e all x out st = Ok (ROk s, y, st') ->
  forall s', candidate all (decorrelation_mode s') -> compressed_sum told (codec_shown k x s) <= compressed_sum told (codec_shown k x s').
Proof.
  intros St Er told k c v e all x out st s y st' K HD HT HU H s' C. apply order1_in in C. destruct k; cbn [core_auto codec_shown] in *.
  - pose proof (bc1_log_same c v e all x out st []) as S. rewrite H in S.
    destruct (transform_bc1_auto c v (logging e) all x out (st, [])) as [[[r y1] [st1 log]]| |] eqn:E; cbn [forget] in S; try discriminate. injection S as -> -> ->.
    destruct (bc1_answers c v e all x out st (fun _ d z => z = told d) (fun n st d z st' => HT st d n z st') s y st' log (proj1 K) HD ltac:(intros n d z ->; apply HU) E)
      as (scratch & rounds & _ & _ & R2 & R3 & R4).
    exact (told_smallest told (bc1_shown x) rounds s s' _ R2 R3 R4 C).
  - pose proof (bc2_log_same c v e all x out st []) as S. rewrite H in S.
    destruct (transform_bc2_auto c v (logging e) all x out (st, [])) as [[[r y1] [st1 log]]| |] eqn:E; cbn [forget] in S; try discriminate. injection S as -> -> ->.
    destruct (bc2_answers c v e all x out st (fun _ d z => z = told d) (fun n st d z st' => HT st d n z st') s y st' log (proj1 K) (proj2 K) ltac:(intros n d z ->; apply HU) E)
      as (scratch & rounds & _ & _ & R2 & R3 & R4).
    exact (told_smallest told (bc2_shown x) rounds s s' _ R2 R3 R4 C).
Qed.

Lemma c_told : forall {St} (e : c_estimator St) stored, reports e stored ->
  forall st d n z st', estimate_compressed_size (of_c_estimator e) st d n = (ROk z, st') -> z = size_found (stored d).
Proof.
  intros St e stored R st d n z st' H. cbn [of_c_estimator estimate_compressed_size] in H. destruct (R st d n) as (s1 & E). rewrite E in H. cbn in H. injection H as <- _. reflexivity.
Qed.

Lemma core_c_choice : forall (St : Type) (k : codec) (c : cfg) (v : env) (e : c_estimator St) (all : bool) (i : list byte) (n : Z) (o : list byte) (m : Z)
    (old : settings) (st : St) (stored : list byte -> option Z) o1 s st1,
  supported c -> (c_debug c = true -> n <> 0) -> valid_for i n -> valid_for o m ->
  reports e stored -> (forall d, size_found (stored d) < usize_max v) ->
  core_transform_auto_c k c v (Some i) n (Some o) m (Some e) all (Some old) st = Ok (CoreSuccess, Some o1, Some s, st1) ->
  forall s', candidate all (decorrelation_mode s') ->
    compressed_sum (fun d => size_found (stored d)) (codec_shown k (firstn (Z.to_nat n) i) s) <=
    compressed_sum (fun d => size_found (stored d)) (codec_shown k (firstn (Z.to_nat n) i) s').
Proof.
  intros St k c v e all i n o m old st stored o1 s st1 K HD VI VO R HU H. unfold core_transform_auto_c in H.
  rewrite (from_raw_ok _ _ VI), (from_raw_ok _ _ VO) in H. cbn [bind] in H.
  destruct (core_auto k c v (of_c_estimator e) all (firstn (Z.to_nat n) i) (firstn (Z.to_nat m) o) st) as [[[[s0|err] y] st2]| |] eqn:E; cbn [bind] in H; try discriminate.
  - injection H as _ <- _. refine (core_choice (fun d => size_found (stored d)) k c v _ all _ _ _ _ _ _ K _ _ _ E).
    + intros D. destruct VI as (V1 & V2). apply firstn_nonempty; auto.
    + exact (c_told e stored R).
    + exact HU.
  - destruct err as [w|a b|[|e1]]; discriminate.
Qed.

Lemma auto_c_choice : forall (St : Type) (k : codec) (c : cfg) (v : env) (h : heap St) (i : list byte) (n : Z) (o : list byte) (m : Z) (b : nat)
    (ab : c_auto_builder St) (cell : handle) (st : St) (stored : list byte -> option Z) o1 cell1 h1 st1,
  supported c -> (c_debug c = true -> n <> 0) -> valid_for i n -> valid_for o m -> lookup (autos h) b = Ok ab ->
  reports (ca_estimator ab) stored -> (forall d, size_found (stored d) < usize_max v) ->
  auto_transform_c k c v (Some b) (Some i) n (Some o) m (Some cell) h st = Ok (Success, Some o1, Some cell1, h1, st1) ->
  exists new s, cell1 = Some new /\ lookup (manuals h1) new = Ok (ManualBuilder s) /\
    forall s', candidate (ca_use_all ab) (decorrelation_mode s') ->
    compressed_sum (fun d => size_found (stored d)) (codec_shown k (firstn (Z.to_nat n) i) s) <=
    compressed_sum (fun d => size_found (stored d)) (codec_shown k (firstn (Z.to_nat n) i) s').
Proof.
  intros St k c v h i n o m b ab cell st stored o1 cell1 h1 st1 K HD VI VO HB R HU H. unfold auto_transform_c in H.
  rewrite HB, (from_raw_ok _ _ VI), (from_raw_ok _ _ VO) in H. cbn [bind] in H. unfold auto_transform in H. cbn [ab_estimator ab_use_all auto_use_all auto_new] in H.
  destruct (core_auto k c v (of_c_estimator (ca_estimator ab)) (ca_use_all ab) (firstn (Z.to_nat n) i) (firstn (Z.to_nat m) o) st) as [[[[s0|err] y] st2]| |] eqn:E; cbn [bind] in H; try discriminate.
  - injection H as _ <- <- _. exists (List.length (manuals h)), s0. split; [reflexivity|]. split.
    + unfold lookup. cbn [manuals]. rewrite nth_error_app2 by lia. rewrite Nat.sub_diag. cbn [nth_error].
      unfold manual_decorrelation_mode, manual_split_colour_endpoints. cbn [mb_settings decorrelation_mode split_colour_endpoints].
      rewrite from_to_internal. destruct s0; reflexivity.
    + refine (core_choice (fun d => size_found (stored d)) k c v _ (ca_use_all ab) _ _ _ _ _ _ K _ _ _ E).
      * intros D. destruct VI as (V1 & V2). apply firstn_nonempty; auto.
      * exact (c_told _ stored R).
      * exact HU.
  - destruct err as [w|a b1|[|e1]]; discriminate.
Qed.
