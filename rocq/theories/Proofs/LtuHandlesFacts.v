(** Histories of estimator handles. *)
From Verif Require Import Base.Bytes Base.Res Model.Color565 Model.Kernel Model.Transform Model.Auto Model.Builders Model.CApi Model.Ltu Model.LtuHandles
  Spec.Files Spec.CApi Spec.LtuHandles Proofs.CApiHistory.
From Coq Require Import ZifyBool ZifyNat.

Section Facts.
Context {St : Type}.
Variables (matches : list byte -> Z) (k : codec) (c : cfg) (v : env).
Notation e_call := (e_call St). Notation world := (world St).
Notation e_history := (list (e_call * answered_with)).
Notation run := (run_e_call matches k c v). Notation e_ran := (e_ran matches k c v).

Lemma bind_ok : forall A B (r : res A) (f : A -> res B) b, bind r f = Ok b -> exists a, r = Ok a /\ f a = Ok b.
Proof. intros A B [a|w|w] f b H; try discriminate H. exists a. auto. Qed.

(** Only what concerns estimators *)
Record inv (past : e_history) (w : world) : Prop := Inv {
  i_blocks : blocks w = [];
  i_made : Forall (fun a => a = None \/ a = Some Dangling) (made_with w);
  i_est : forall n, (exists a, nth_error (estimators w) n = Some (Some a)) <-> holds_estimator past n = true;
  i_dang : forall n a, nth_error (estimators w) n = Some (Some a) -> a = Dangling;
  i_count : (in_use w + given_back past)%nat = made past }.

Lemma other_frame : forall call (w : world) (st : St) a w1 st1, run (EOther call) w st = Ok (a, w1, st1) ->
  estimators w1 = estimators w /\ blocks w1 = blocks w /\ (exists l, made_with w1 = made_with w ++ l /\ Forall (fun a => a = None) l) /\
  run_c_call k c v call (builders w) st = Ok (a, builders w1, st1).
Proof.
  intros call w st a w1 st1 H.
  assert (G : forall x, (do _ <- x : res unit ;; do r <- run_c_call k c v call (builders w) st ;;
      let '(a, h, st1) := r in Ok (a, World (estimators w) (blocks w) h (made_with w), st1)) = Ok (a, w1, st1) ->
    estimators w1 = estimators w /\ blocks w1 = blocks w /\ (exists l, made_with w1 = made_with w ++ l /\ Forall (fun a => a = None) l) /\
    run_c_call k c v call (builders w) st = Ok (a, builders w1, st1)).
  { intros x H1. apply bind_ok in H1. destruct H1 as (u & _ & H1). apply bind_ok in H1. destruct H1 as ([[a0 h] st0] & E & H1).
    injection H1 as <- <- <-. cbn [estimators blocks builders made_with]. repeat split; try exact E.
    exists []. split; [symmetry; apply app_nil_r|constructor]. }
  destruct call; try (eapply G; exact H).
  cbn [run_e_call] in H. unfold new_auto_own in H. cbn [run_c_call]. destruct e as [e|]; cbn [new_auto] in H |- *; injection H as <- <- <-;
    cbn [estimators blocks builders made_with]; repeat split; eexists; (split; [reflexivity|repeat constructor]).
Qed.

Lemma filter_update : forall (t : list (option address)) n a, nth_error t n = Some (Some a) ->
  S (List.length (filter (fun e => match e with Some _ => true | None => false end) (update t n None))) =
  List.length (filter (fun e => match e with Some _ => true | None => false end) t).
Proof.
  induction t as [|x t IH]; intros [|n] a H; cbn in H; try discriminate H.
  - injection H as ->. reflexivity.
  - cbn [update filter]. destruct x; cbn [List.length]; rewrite (IH n a H); reflexivity.
Qed.
Lemma is_h_iff : forall b n, is_h b n = true <-> b = Some n.
Proof. intros [b|] n; cbn; [rewrite Nat.eqb_eq; split; [intros ->; reflexivity|intros H; injection H as ->; reflexivity]|split; intros H; discriminate H]. Qed.

Lemma step_inv : forall (past : e_history) (w : world) (st : St) call a w1 st1, inv past w -> run call w st = Ok (a, w1, st1) -> inv ((call, a) :: past) w1.
Proof.
  intros past w st call a w1 st1 [IB IM IE ID IC] H. destruct call as [|e|e|call].
  - cbn in H. injection H as <- <- <-. constructor; cbn [blocks made_with estimators]; try assumption.
    + intros n. cbn [holds_estimator is_h]. rewrite nth_snoc. destruct (Nat.eqb_spec (List.length (estimators w)) n) as [E|E]; cbn [orb].
      * split; [reflexivity|]. intros _. eexists. reflexivity.
      * apply IE.
    + intros n a. rewrite nth_snoc. destruct (Nat.eqb_spec (List.length (estimators w)) n) as [E|E]; [intros J; injection J as <-; reflexivity|apply ID].
    + unfold in_use in *. cbn [estimators blocks]. rewrite filter_app, app_length. cbn [made given_back filter List.length]. lia.
  - cbn [run_e_call] in H. apply bind_ok in H. destruct H as (w2 & E & H). injection H as <- <- <-.
    destruct e as [n|]; cbn [free_size_estimator] in E.
    + apply bind_ok in E. destruct E as (x & L & E). apply bind_ok in E. destruct E as (bl & B & E). injection E as <-.
      apply lookup_nth in L. pose proof (ID n x L) as ->. cbn [box_drop] in B. injection B as <-.
      constructor; cbn [blocks made_with estimators]; try assumption.
      * intros i. cbn [holds_estimator is_h]. rewrite nth_update. destruct (Nat.eqb_spec n i) as [E|E]; cbn [negb andb].
        { subst i. rewrite L. split; [intros [a J]; discriminate J|intros J; discriminate J]. }
        apply IE.
      * intros i a. rewrite nth_update. destruct (Nat.eqb_spec n i) as [E|E]; [subst i; rewrite L; intros J; discriminate J|apply ID].
      * unfold in_use in *. cbn [estimators blocks made given_back]. pose proof (filter_update _ _ _ L). lia.
    + injection E as <-. constructor; try assumption.
  - cbn [run_e_call] in H. apply bind_ok in H. destruct H as ([b w2] & E & H). injection H as <- <- <-. cbn [snd].
    destruct e as [n|]; cbn [new_auto_with new_auto] in E.
    + apply bind_ok in E. destruct E as (x & L & E). injection E as <- <-. apply lookup_nth in L. pose proof (ID n x L) as ->.
      constructor; cbn [blocks made_with estimators]; try assumption.
      apply Forall_app. split; [exact IM|]. constructor; [right; reflexivity|constructor].
    + injection E as <- <-. constructor; try assumption.
  - destruct (other_frame _ _ _ _ _ _ H) as (E1 & E2 & (l & E3 & FL) & _).
    constructor; cbn [holds_estimator made given_back]; unfold in_use; rewrite ?E1, ?E2, ?E3; try assumption.
    apply Forall_app. split; [exact IM|]. eapply Forall_impl; [|exact FL]. intros y ->. left. reflexivity.
Qed.
Lemma ran_inv2 : forall (past : e_history) (w : world) (st : St), e_ran past w st -> inv past w.
Proof.
  intros past w st R. induction R as [st|past w st call a w1 st1 R IH E].
  - constructor; try reflexivity; try constructor.
    + intros [a H]. destruct n; discriminate H.
    + intros H. discriminate H.
    + intros n a H. destruct n; discriminate H.
  - exact (step_inv _ _ _ _ _ _ _ IH E).
Qed.

Lemma projection : forall (past : e_history) (w : world) (st : St), e_ran past w st -> ran k c v (without_handles matches past) (builders w) st.
Proof.
  intros past w st R. induction R as [st|past w st call a w1 st1 R IH E]; [constructor|].
  destruct call as [|e|e|call].
  - cbn in E. injection E as <- <- <-. exact IH.
  - cbn [run_e_call] in E. apply bind_ok in E. destruct E as (w2 & E & H). injection H as <- <- <-. destruct e as [n|]; cbn [free_size_estimator] in E.
    + apply bind_ok in E. destruct E as (x & L & E). apply bind_ok in E. destruct E as (bl & B & E). injection E as <-. exact IH.
    + injection E as <-. exact IH.
  - cbn [run_e_call] in E. apply bind_ok in E. destruct E as ([b w2] & E & H). injection H as <- <- <-. cbn [snd fst without_handles].
    apply (ran_call k c v _ _ _ _ _ _ _ IH). destruct e as [n|]; cbn [new_auto_with new_auto] in E.
    + apply bind_ok in E. destruct E as (x & L & E). injection E as <- <-. reflexivity.
    + injection E as <- <-. reflexivity.
  - destruct (other_frame _ _ _ _ _ _ E) as (_ & _ & _ & E4). exact (ran_call k c v _ _ _ _ _ _ _ IH E4).
Qed.

Lemma context_ok : forall (past : e_history) (w : world) b, inv past w -> context_of b w = Ok tt.
Proof.
  intros past w [n|] I; [|reflexivity]. cbn [context_of]. destruct (Nat.lt_ge_cases n (List.length (made_with w))) as [L|L].
  - pose proof (i_made _ _ I) as F. rewrite Forall_forall in F. specialize (F (nth n (made_with w) None) (nth_In _ _ L)). destruct F as [-> | ->]; reflexivity.
  - rewrite nth_overflow by exact L. reflexivity.
Qed.

Lemma rules_kept2 : forall (past : e_history) (w : world) (st : St) call, supported c -> (c_debug c = true -> no_empty_auto (without_handles matches past)) -> e_ran past w st ->
  e_rules matches past call -> (c_debug c = true -> forall call0, call = EOther call0 -> texture_len call0 <> Some 0) ->
  exists a w1 st1, run call w st = Ok (a, w1, st1).
Proof.
  intros past w st call S D R K T. pose proof (ran_inv2 _ _ _ R) as I. destruct call as [|e|e|call].
  - do 3 eexists. reflexivity.
  - destruct e as [n|]; [|do 3 eexists; reflexivity]. cbn [e_rules handle_ok] in K. apply (i_est _ _ I) in K. destruct K as [x L].
    pose proof (i_dang _ _ I _ _ L) as ->. apply lookup_nth in L. cbn [run_e_call free_size_estimator]. rewrite L. cbn [bind box_drop]. do 3 eexists. reflexivity.
  - destruct e as [n|]; [|do 3 eexists; reflexivity]. cbn [e_rules handle_ok] in K. apply (i_est _ _ I) in K. destruct K as [x L].
    apply lookup_nth in L. cbn [run_e_call new_auto_with]. rewrite L. cbn [bind]. do 3 eexists. reflexivity.
  - destruct (rules_kept k c v (without_handles matches past) (builders w) st call S D (projection _ _ _ R) K (fun X => T X call eq_refl)) as (a & h1 & st1 & E).
    destruct call; cbn [run_e_call]; rewrite ?(context_ok past w _ I); cbn [bind]; try (rewrite E; cbn [bind]; do 3 eexists; reflexivity).
    unfold new_auto_own. destruct e; do 3 eexists; reflexivity.
Qed.

Lemma free_exactly : forall (past : e_history) (w : world) (st : St) n, e_ran past w st ->
  if holds_estimator past n then exists w1, run (EFree (Some n)) w st = Ok (Nothing, w1, st) /\ builders w1 = builders w
  else exists why, run (EFree (Some n)) w st = Ub why.
Proof.
  intros past w st n R. pose proof (ran_inv2 _ _ _ R) as I. cbn [run_e_call free_size_estimator].
  destruct (holds_estimator past n) eqn:H.
  - apply (i_est _ _ I) in H. destruct H as [x L]. pose proof (i_dang _ _ I _ _ L) as ->. apply lookup_nth in L. rewrite L. cbn [bind box_drop].
    eexists. split; reflexivity.
  - unfold lookup. destruct (nth_error (estimators w) n) as [[x|]|] eqn:E; try (eexists; reflexivity).
    assert (X : holds_estimator past n = true) by (apply (i_est _ _ I); exists x; exact E). rewrite X in H. discriminate H.
Qed.
Lemma auto_exactly : forall (past : e_history) (w : world) (st : St) n, supported c -> (c_debug c = true -> no_empty_auto (without_handles matches past)) -> e_ran past w st ->
  if holds_estimator past n then exists b w1, run (ENewAuto (Some n)) w st = Ok (GaveHandle (Some b), w1, st) /\ holds_auto (without_handles matches past) b = false
  else exists why, run (ENewAuto (Some n)) w st = Ub why.
Proof.
  intros past w st n S D R. pose proof (ran_inv2 _ _ _ R) as I. cbn [run_e_call new_auto_with].
  destruct (holds_estimator past n) eqn:H.
  - apply (i_est _ _ I) in H. destruct H as [x L]. apply lookup_nth in L. rewrite L. cbn [bind new_auto fst snd].
    destruct (calls_succeed k c v _ _ _ S D (projection _ _ _ R)) as (_ & _ & C & _). destruct (C (ltu_estimator matches)) as (b & h1 & E & F).
    cbn [run_c_call new_auto] in E. injection E as <- _. do 2 eexists. split; [reflexivity|exact F].
  - unfold lookup. destruct (nth_error (estimators w) n) as [[x|]|] eqn:E; try (eexists; reflexivity).
    assert (X : holds_estimator past n = true) by (apply (i_est _ _ I); exists x; exact E). rewrite X in H. discriminate H.
Qed.
Lemma new_estimator : forall (past : e_history) (w : world) (st : St), e_ran past w st -> exists n w1, run ENew w st = Ok (GaveHandle (Some n), w1, st) /\ holds_estimator past n = false.
Proof.
  intros past w st R. pose proof (ran_inv2 _ _ _ R) as I. do 2 eexists. split; [reflexivity|].
  destruct (holds_estimator past (List.length (estimators w))) eqn:H; [|reflexivity]. apply (i_est _ _ I) in H. destruct H as [x L].
  pose proof (proj1 (nth_error_Some (estimators w) (List.length (estimators w)))) as X. rewrite L in X. exfalso. assert (List.length (estimators w) < List.length (estimators w))%nat by (apply X; discriminate). lia.
Qed.

Lemma no_leak : forall (past : e_history) (w : world) (st : St), e_ran past w st -> (in_use w + given_back past)%nat = made past /\
  ((forall n, holds_estimator past n = false) -> in_use w = 0%nat).
Proof.
  intros past w st R. pose proof (ran_inv2 _ _ _ R) as I. split; [exact (i_count _ _ I)|]. intros H. unfold in_use. rewrite (i_blocks _ _ I). cbn [filter List.length].
  assert (F : forall l : list (option address), (forall n a, nth_error l n <> Some (Some a)) ->
    filter (fun e => match e with Some _ => true | None => false end) l = []).
  { induction l as [|x l IH]; intros F; [reflexivity|]. cbn [filter]. destruct x as [x|]; [destruct (F 0%nat x eq_refl)|]. apply IH. intros n a. exact (F (S n) a). }
  rewrite F; [reflexivity|]. intros n a E. assert (X : holds_estimator past n = true) by (apply (i_est _ _ I); exists a; exact E). rewrite H in X. discriminate X.
Qed.

(** Giving an estimator back changes nothing for any builder. *)
Lemma free_invisible : forall (past : e_history) (w : world) (st : St) e w1 st1 a, e_ran past w st -> run (EFree e) w st = Ok (a, w1, st1) ->
  forall call st0, same_for_program (run (EOther call) w1 st0) (run (EOther call) w st0).
Proof.
  intros past w st e w1 st1 a R E call st0. pose proof (ran_inv2 _ _ _ R) as I. pose proof (step_inv _ _ _ _ _ _ _ I E) as I1.
  assert (B : builders w1 = builders w).
  { cbn [run_e_call] in E. apply bind_ok in E. destruct E as (w2 & E & H). injection H as <- <- <-. destruct e as [n|]; cbn [free_size_estimator] in E.
    + apply bind_ok in E. destruct E as (x & L & E). apply bind_ok in E. destruct E as (bl & Bx & E). injection E as <-. reflexivity.
    + injection E as <-. reflexivity. }
  unfold same_for_program. destruct call; cbn [run_e_call]; rewrite ?(context_ok past w _ I), ?(context_ok _ w1 _ I1); cbn [bind]; rewrite ?B;
    try (match goal with |- context [run_c_call k c v ?x (builders w) st0] => destruct (run_c_call k c v x (builders w) st0) as [[[x1 h1] s1]|p|p] end;
      cbn [bind builders]; repeat split; reflexivity).
  unfold new_auto_own. rewrite B. destruct (new_auto e0 (builders w)) as [b h]. cbn [builders]. repeat split; reflexivity.
Qed.
End Facts.
