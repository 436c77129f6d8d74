(** The size cache: threads and runs. *)
From Verif Require Import Base.Bytes Base.Res Model.Transform Model.Auto Model.Handlers Model.Inspect Model.Zstd Model.Caches Spec.Estimator Spec.Caches.
From Coq Require Import ZifyBool ZifyNat.
Open Scope list_scope.
Open Scope Z_scope.

Lemma algorithm_eqb_eq : forall a b, algorithm_eqb a b = true <-> a = b.
Proof. intros [] []; cbn; split; congruence. Qed.
Lemma size_key_eqb_eq : forall a b, size_key_eqb a b = true <-> a = b.
Proof.
  intros [[h l] a] [[h' l'] a']. unfold size_key_eqb. cbn [fst snd]. rewrite !andb_true_iff, !Z.eqb_eq, algorithm_eqb_eq.
  split; [intros [[-> ->] ->]; reflexivity|intros E; injection E; auto].
Qed.
Lemma size_key_eqb_refl : forall a, size_key_eqb a a = true.
Proof. intros a. apply size_key_eqb_eq. reflexivity. Qed.
Lemma size_key_eqb_neq : forall a b, a <> b -> size_key_eqb a b = false.
Proof. intros a b H. destruct (size_key_eqb a b) eqn:E; [|reflexivity]. apply size_key_eqb_eq in E. contradiction. Qed.

Lemma get_insert : forall m k n k', cache_get (cache_insert m k n) k' = if size_key_eqb k' k then Some n else cache_get m k'.
Proof.
  induction m as [|[k1 n1] m IH]; intros k n k'; cbn [cache_insert cache_get].
  - reflexivity.
  - destruct (size_key_eqb k k1) eqn:E.
    + apply size_key_eqb_eq in E. subst k1. cbn [cache_get]. destruct (size_key_eqb k' k); reflexivity.
    + cbn [cache_get]. rewrite IH. destruct (size_key_eqb k' k1) eqn:E1; [|reflexivity].
      apply size_key_eqb_eq in E1. subst k1. destruct (size_key_eqb k' k) eqn:E2; [|reflexivity].
      apply size_key_eqb_eq in E2. subst k'. rewrite size_key_eqb_refl in E. discriminate.
Qed.

Lemma insert_keys : forall m k n x, In x (map fst (cache_insert m k n)) -> x = k \/ In x (map fst m).
Proof.
  induction m as [|[k1 n1] m IH]; intros k n x; cbn [cache_insert].
  - cbn. intuition.
  - destruct (size_key_eqb k k1); cbn [map fst In]; [intuition|]. intros [H|H]; [intuition|]. apply IH in H. intuition.
Qed.
Lemma insert_shape : forall m k n, NoDup (map fst m) -> Forall (fun e => in_range (fst e) (snd e)) m -> in_range k n ->
  NoDup (map fst (cache_insert m k n)) /\ Forall (fun e => in_range (fst e) (snd e)) (cache_insert m k n).
Proof.
  intros m k n N F R. induction m as [|[k1 n1] m IH]; cbn [cache_insert].
  - split; cbn; [constructor; [intros []|constructor]|constructor; [exact R|constructor]].
  - cbn [map fst] in N. inversion N as [|? ? N1 N2]; subst. inversion F as [|? ? F1 F2]; subst. cbn [fst snd] in F1.
    destruct (size_key_eqb k k1) eqn:E.
    + apply size_key_eqb_eq in E. subst k1. split; cbn [map fst]; [constructor; assumption|constructor; [exact R|exact F2]].
    + destruct (IH N2 F2) as [I1 I2]. split; cbn [map fst].
      * constructor; [|exact I1]. intros H. apply insert_keys in H. destruct H as [->|H]; [|contradiction].
        rewrite size_key_eqb_refl in E. discriminate.
      * constructor; [exact F1|exact I2].
Qed.
Lemma holdable_nil : holdable [].
Proof. split; [constructor|]. split; [constructor|]. unfold zlen. cbn. lia. Qed.
Lemma key_found : forall m k, In k (map fst m) -> exists n, cache_get m k = Some n.
Proof.
  induction m as [|[k1 n1] m IH]; intros k; [intros []|]. cbn [map fst In cache_get]. intros [<-|H].
  - rewrite size_key_eqb_refl. eauto.
  - destruct (size_key_eqb k k1); eauto.
Qed.

Section Actions.
Variable hash : list byte -> Z.
Variable size : request -> result Z debug_error.
Variable Q : list request.
Hypothesis NC : forall q q', In q Q -> In q' Q -> request_key hash q = request_key hash q' -> size q = size q'.
Hypothesis RG : forall q n, In q Q -> size q = ROk n -> in_range (request_key hash q) n.
Hypothesis FEW : zlen Q < 2 ^ 64.

Definition sound (m : size_cache) : Prop :=
  holdable m /\ forall k n, cache_get m k = Some n -> exists q, In q Q /\ request_key hash q = k /\ size q = ROk n.
Definition good (s : shared) : Prop :=
  sound (s_cache s) /\ (forall t q, s_waiting s t = Some q -> In q Q) /\ (forall q a, In (q, a) (s_answers s) -> a = size q /\ In q Q).

Lemma sound_nil : sound [].
Proof. split; [exact holdable_nil|]. intros k n H. discriminate. Qed.
Lemma sound_insert : forall m q n, sound m -> In q Q -> size q = ROk n -> sound (cache_insert m (request_key hash q) n).
Proof.
  intros m q n [(H1 & H2 & _) S] I E.
  assert (S' : forall k n', cache_get (cache_insert m (request_key hash q) n) k = Some n' -> exists q, In q Q /\ request_key hash q = k /\ size q = ROk n').
  { intros k n' G. rewrite get_insert in G. destruct (size_key_eqb k (request_key hash q)) eqn:K.
    - apply size_key_eqb_eq in K. injection G as <-. exists q. auto.
    - apply S. exact G. }
  destruct (insert_shape m (request_key hash q) n H1 H2 (RG q n I E)) as (N & F).
  split; [|exact S']. split; [exact N|]. split; [exact F|].
  assert (L : (List.length (map fst (cache_insert m (request_key hash q) n)) <= List.length (map (request_key hash) Q))%nat).
  { apply NoDup_incl_length; [exact N|]. intros k Hk. destruct (key_found _ _ Hk) as (n' & G). destruct (S' _ _ G) as (q' & Iq & <- & _).
    apply in_map. exact Iq. }
  rewrite !map_length in L. unfold zlen in *. lia.
Qed.

Lemma good_act : forall s a, good s -> (forall q, In q (asks a) -> In q Q) -> good (act hash size s a).
Proof.
  intros s a ((H & S) & W & A) I. destruct a as [t q|t]; cbn [act].
  - assert (Iq : In q Q) by (apply I; left; reflexivity).
    destruct (s_waiting s t) eqn:E; [split; [split; assumption|split; assumption]|].
    destruct (cache_get (s_cache s) (request_key hash q)) as [n|] eqn:G.
    + split; [split; assumption|]. split; [exact W|]. cbn [s_answers]. intros q' a H'. apply in_app_or in H'. destruct H' as [H'|[H'|[]]]; [exact (A _ _ H')|].
      injection H' as <- <-. split; [|exact Iq]. destruct (S _ _ G) as (q1 & I1 & K1 & Z1). rewrite <- (NC q1 q I1 Iq K1). symmetry. exact Z1.
    + split; [split; assumption|]. split; [|exact A]. cbn [s_waiting]. intros u q' H'. unfold waits in H'.
      destruct (Nat.eqb u t); [injection H' as <-; exact Iq|exact (W _ _ H')].
  - destruct (s_waiting s t) as [q|] eqn:E; [|split; [split; assumption|split; assumption]].
    pose proof (W t q E) as Iq.
    assert (W' : forall u q', waits s t None u = Some q' -> In q' Q).
    { intros u q' H'. unfold waits in H'. destruct (Nat.eqb u t); [discriminate|exact (W _ _ H')]. }
    destruct (size q) as [n|e] eqn:Z1.
    + split; [apply sound_insert; [split; assumption|exact Iq|exact Z1]|]. split; [exact W'|].
      cbn [s_answers]. intros q' a H'. apply in_app_or in H'. destruct H' as [H'|[H'|[]]]; [exact (A _ _ H')|]. injection H' as <- <-. split; [symmetry; exact Z1|exact Iq].
    + split; [split; assumption|]. split; [exact W'|].
      cbn [s_answers]. intros q' a H'. apply in_app_or in H'. destruct H' as [H'|[H'|[]]]; [exact (A _ _ H')|]. injection H' as <- <-. split; [symmetry; exact Z1|exact Iq].
Qed.

Lemma good_acts' : forall l s, good s -> (forall q, In q (flat_map asks l) -> In q Q) -> good (fold_left (act hash size) l s).
Proof.
  induction l as [|a l IH]; intros s G I; [exact G|]. cbn [fold_left]. apply IH.
  - apply good_act; [exact G|]. intros q H. apply I. cbn [flat_map]. apply in_or_app. auto.
  - intros q H. apply I. cbn [flat_map]. apply in_or_app. auto.
Qed.
Lemma good_acts : forall m l, sound m -> (forall q, In q (flat_map asks l) -> In q Q) -> good (acts hash size m l).
Proof.
  intros m l S I. apply good_acts'; [|exact I]. split; [exact S|]. split; cbn [s_waiting s_answers].
  - intros t q H. discriminate.
  - intros q a [].
Qed.

Variable b : bincode.
Hypothesis RB : reads_back b.

(** What the cache file can hold. *)
Definition sound_file (file : option (list byte)) : Prop :=
  match file with
  | None => True
  | Some bytes => decode b bytes = None \/ exists m, decode b bytes = Some m /\ sound m
  end.
Lemma sound_load : forall opens file, sound_file file -> sound (snd (load_from_disk b opens file [])).
Proof.
  intros opens [bytes|] H; cbn [load_from_disk]; [|exact sound_nil].
  destruct opens; cbn [negb]; [|exact sound_nil]. destruct H as [H|(m & H & S)]; rewrite H; [exact sound_nil|exact S].
Qed.
Lemma sound_save : forall fate m file, sound m -> sound_file file -> sound_file (snd (save_to_disk b fate m file)).
Proof.
  intros fate m file (H & S) F. destruct RB as (R1 & R2). destruct fate as [| |n|]; cbn [save_to_disk snd]; try exact F; cbn [sound_file].
  - destruct (lt_dec n (List.length (encode b m))) as [L|L].
    + left. apply R2; assumption.
    + right. rewrite firstn_all2 by lia. destruct (R1 m H) as (m' & D & H' & G). exists m'. split; [exact D|]. split; [exact H'|].
      intros k z. rewrite G. apply S.
  - right. destruct (R1 m H) as (m' & D & H' & G). exists m'. split; [exact D|]. split; [exact H'|]. intros k z. rewrite G. apply S.
Qed.

Lemma one_run_good : forall r file answers file', sound_file file -> (forall q, In q (flat_map asks (r_actions r)) -> In q Q) ->
  one_run hash size b r file = (answers, file') -> (forall q a, In (q, a) answers -> a = size q /\ In q Q) /\ sound_file file'.
Proof.
  intros r file answers file' F I E. unfold one_run in E.
  pose proof (sound_load (r_opens r) file F) as SL. destruct (load_from_disk b (r_opens r) file []) as [rr m]. cbn [snd] in SL.
  destruct (good_acts m (r_actions r) SL I) as (S & _ & A). injection E as <- <-. split; [exact A|].
  destruct (r_saving r) as [fate|]; [|exact F]. apply sound_save; assumption.
Qed.
Lemma runs_good : forall l file answers file', sound_file file -> (forall q, In q (asked l) -> In q Q) ->
  runs hash size b l file = (answers, file') -> (forall q a, In (q, a) answers -> a = size q) /\ sound_file file'.
Proof.
  induction l as [|r l IH]; intros file answers file' F I E; cbn [runs] in E.
  - injection E as <- <-. split; [intros q a []|exact F].
  - destruct (one_run hash size b r file) as [a1 f1] eqn:E1. destruct (runs hash size b l f1) as [a2 f2] eqn:E2. injection E as <- <-.
    assert (I1 : forall q, In q (flat_map asks (r_actions r)) -> In q Q) by (intros q' H'; apply I; cbn [asked flat_map]; apply in_or_app; auto).
    assert (I2 : forall q, In q (asked l) -> In q Q) by (intros q' H'; apply I; cbn [asked flat_map]; apply in_or_app; auto).
    destruct (one_run_good r file a1 f1 F I1 E1) as (A & F1). destruct (IH f1 a2 f2 F1 I2 E2) as (B & F2). split; [|exact F2].
    intros q a H. apply in_app_or in H. destruct H as [H|H]; [exact (proj1 (A _ _ H))|exact (B _ _ H)].
Qed.
End Actions.

Theorem runs_answers : forall hash size b l answers file,
  reads_back b ->
  (forall q q', In q (asked l) -> In q' (asked l) -> request_key hash q = request_key hash q' -> size q = size q') ->
  (forall q n, In q (asked l) -> size q = ROk n -> in_range (request_key hash q) n) ->
  zlen (asked l) < 2 ^ 64 ->
  runs hash size b l None = (answers, file) -> forall q a, In (q, a) answers -> a = size q.
Proof.
  intros hash size b l answers file RB NC RG FEW E. exact (proj1 (runs_good hash size (asked l) NC RG FEW b RB l None answers file I (fun q H => H) E)).
Qed.

(** ** Everything asked for is answered *)
Section Kept.
Variable hash : list byte -> Z.
Variable size : request -> result Z debug_error.

(** an answer, once given, is in the cache *)
Definition kept (s : shared) : Prop := forall q n, In (q, ROk n) (s_answers s) -> exists n', cache_get (s_cache s) (request_key hash q) = Some n'.
Lemma kept_act : forall s a, kept s -> kept (act hash size s a).
Proof.
  intros s a K. destruct a as [t q|t]; cbn [act].
  - destruct (s_waiting s t); [exact K|]. destruct (cache_get (s_cache s) (request_key hash q)) as [n|] eqn:G; [|exact K].
    intros q' n' H. cbn [s_answers s_cache] in *. apply in_app_or in H. destruct H as [H|[H|[]]]; [exact (K _ _ H)|]. injection H as <- <-. eauto.
  - destruct (s_waiting s t) as [q|]; [|exact K]. destruct (size q) as [n|e].
    + intros q' n' H. cbn [s_answers s_cache] in *. rewrite get_insert. destruct (size_key_eqb _ _) eqn:K1; [eauto|].
      apply in_app_or in H. destruct H as [H|[H|[]]]; [exact (K _ _ H)|]. injection H as <- <-.
      rewrite size_key_eqb_refl in K1. discriminate.
    + intros q' n' H. cbn [s_answers s_cache] in *. apply in_app_or in H. destruct H as [H|[H|[]]]; [exact (K _ _ H)|]. discriminate.
Qed.
Lemma kept_acts : forall m l, kept (acts hash size m l).
Proof.
  intros m l. unfold acts. assert (K : kept (Shared m (fun _ => None) [])) by (intros q n []). revert K. generalize (Shared m (fun _ => None) []).
  induction l as [|a l IH]; intros s K; [exact K|]. cbn [fold_left]. apply IH. apply kept_act. exact K.
Qed.
End Kept.

(** After a run that saved its cache, the next run has the answer at once. *)
Theorem run_remembers : forall hash size b l r answers file q n,
  reads_back b ->
  (forall q q', In q (asked (l ++ [r])) -> In q' (asked (l ++ [r])) -> request_key hash q = request_key hash q' -> size q = size q') ->
  (forall q n, In q (asked (l ++ [r])) -> size q = ROk n -> in_range (request_key hash q) n) ->
  zlen (asked (l ++ [r])) < 2 ^ 64 ->
  runs hash size b l None = (answers, file) -> r_saving r = Some Completes ->
  In (q, ROk n) (fst (one_run hash size b r file)) ->
  exists m, load_from_disk b true (snd (one_run hash size b r file)) [] = (ROk tt, m) /\ cache_get m (request_key hash q) = Some n.
Proof.
  intros hash size b l r answers file q n RB NC RG FEW RU SV H. set (Q := asked (l ++ [r])) in *.
  assert (AL : forall q, In q (asked l) -> In q Q) by (intros q' H'; unfold Q, asked; rewrite flat_map_app; apply in_or_app; left; exact H').
  assert (AS : forall q, In q (flat_map asks (r_actions r)) -> In q Q).
  { intros q' H'. unfold Q, asked. rewrite flat_map_app. apply in_or_app. right. cbn [flat_map]. rewrite app_nil_r. exact H'. }
  destruct (runs_good hash size Q NC RG FEW b RB l None answers file I AL RU) as (_ & SF).
  pose proof (one_run_good hash size Q NC RG FEW b RB r file _ _ SF AS (surjective_pairing _)) as (A & _).
  destruct (A _ _ H) as (E & Iq). unfold one_run in H |- *.
  pose proof (sound_load hash size Q b (r_opens r) file SF) as SL.
  destruct (load_from_disk b (r_opens r) file []) as [rr m0]. cbn [snd fst] in *. rewrite SV. cbn [save_to_disk snd load_from_disk negb].
  destruct (good_acts hash size Q NC RG FEW m0 (r_actions r) SL AS) as ((HO & S) & _ & _).
  destruct RB as (R1 & _). destruct (R1 _ HO) as (m' & D & _ & G). rewrite D. exists m'. split; [reflexivity|]. rewrite G.
  destruct (kept_acts hash size m0 (r_actions r) q n H) as (n' & K). rewrite K. f_equal.
  destruct (S _ _ K) as (q1 & I1 & K1 & Z1). rewrite (NC q1 q I1 Iq K1) in Z1. rewrite Z1 in E. injection E. auto.
Qed.
