(** C86: the C handles of the bundled estimator. *)
From Verif Require Import Base.Bytes Base.Res Model.Color565 Model.Kernel Model.Transform Model.Auto Model.Builders Model.CApi Model.Ltu Model.LtuHandles
  Spec.Files Spec.CApi Spec.LtuHandles Proofs.LtuHandlesFacts Props.PCApi.
Open Scope list_scope.
Open Scope Z_scope.

(** Whatever the program has done with estimator handles, its builders are those it would have, had it made each of them with
    the estimator itself; so what C34 says holds for them. *)
Theorem C86_builders : forall (St : Type) (matches : list byte -> Z) (k : codec) (c : cfg) (v : env) (past : @e_history St) (w : world St) (st : St),
  e_ran matches k c v past w st -> ran k c v (without_handles matches past) (builders w) st.
Proof. intros St. exact projection. Qed.
Print Assumptions C86_builders.

(** The estimator itself: no scratch memory, and the length less the matches counted. *)
Theorem C86_estimator : forall (St : Type) (matches : list byte -> Z) (st : St) (d : list byte) (n : Z),
  c_max_compressed_size (ltu_estimator matches) st n = (0, Some 0, st) /\
  c_estimate_compressed_size (ltu_estimator matches) st d n = (0, Some (if zlen d =? 0 then 0 else Z.max 0 (zlen d - matches d)), st).
Proof.
  intros St matches st d n. split; [reflexivity|]. unfold ltu_estimator, dltltu_new_size_estimator, ltu_estimate_compressed_size, ltu_estimate, ltu_estimate_size, saturating_sub.
  cbn [c_estimate_compressed_size orb]. destruct (zlen d =? 0); reflexivity.
Qed.
Print Assumptions C86_estimator.

(** Giving an estimator back changes nothing for any builder, also for those made with it. *)
Theorem C86_builder_outlives_estimator : forall (St : Type) (matches : list byte -> Z) (k : codec) (c : cfg) (v : env) (past : @e_history St)
    (w : world St) (st : St) (e : handle) (w1 : world St) (st1 : St) (a : answered_with),
  e_ran matches k c v past w st -> run_e_call matches k c v (EFree e) w st = Ok (a, w1, st1) ->
  forall call st0, same_for_program (run_e_call matches k c v (EOther call) w1 st0) (run_e_call matches k c v (EOther call) w st0).
Proof. intros St. exact free_invisible. Qed.
Print Assumptions C86_builder_outlives_estimator.

(** A program that frees and uses only estimators it holds, and keeps the rules for builders, never meets undefined behaviour
    or a panic; it may have given back the estimators of the builders it uses. *)
Theorem C86_rules_kept : forall (St : Type) (matches : list byte -> Z) (k : codec) (c : cfg) (v : env) (past : @e_history St) (w : world St) (st : St) (call : e_call St),
  supported c -> (c_debug c = true -> no_empty_auto (without_handles matches past)) -> e_ran matches k c v past w st ->
  e_rules matches past call -> (c_debug c = true -> forall call0, call = EOther call0 -> texture_len call0 <> Some 0) ->
  exists a w1 st1, run_e_call matches k c v call w st = Ok (a, w1, st1).
Proof. intros St. exact rules_kept2. Qed.
Print Assumptions C86_rules_kept.

(** Freeing is defined exactly for handles that are held, so each can be freed once. *)
Theorem C86_free_exactly : forall (St : Type) (matches : list byte -> Z) (k : codec) (c : cfg) (v : env) (past : @e_history St) (w : world St) (st : St) (n : nat),
  e_ran matches k c v past w st ->
  if holds_estimator past n then exists w1, run_e_call matches k c v (EFree (Some n)) w st = Ok (Nothing, w1, st) /\ builders w1 = builders w
  else exists why, run_e_call matches k c v (EFree (Some n)) w st = Ub why.
Proof. intros St. exact free_exactly. Qed.
Print Assumptions C86_free_exactly.

(** A builder can be made exactly from handles that are held. *)
Theorem C86_auto_exactly : forall (St : Type) (matches : list byte -> Z) (k : codec) (c : cfg) (v : env) (past : @e_history St) (w : world St) (st : St) (n : nat),
  supported c -> (c_debug c = true -> no_empty_auto (without_handles matches past)) -> e_ran matches k c v past w st ->
  if holds_estimator past n
  then exists b w1, run_e_call matches k c v (ENewAuto (Some n)) w st = Ok (GaveHandle (Some b), w1, st) /\ holds_auto (without_handles matches past) b = false
  else exists why, run_e_call matches k c v (ENewAuto (Some n)) w st = Ub why.
Proof. intros St. exact auto_exactly. Qed.
Print Assumptions C86_auto_exactly.

(** A new estimator's handle is not null and not in use. *)
Theorem C86_new_estimator : forall (St : Type) (matches : list byte -> Z) (k : codec) (c : cfg) (v : env) (past : @e_history St) (w : world St) (st : St),
  e_ran matches k c v past w st ->
  exists n w1, run_e_call matches k c v ENew w st = Ok (GaveHandle (Some n), w1, st) /\ holds_estimator past n = false.
Proof. intros St. exact new_estimator. Qed.
Print Assumptions C86_new_estimator.

(** Null handles: nothing happens. *)
Theorem C86_null_handles : forall (St : Type) (matches : list byte -> Z) (k : codec) (c : cfg) (v : env) (w : world St) (st : St),
  run_e_call matches k c v (EFree None) w st = Ok (Nothing, w, st) /\ run_e_call matches k c v (ENewAuto None) w st = Ok (GaveHandle None, w, st).
Proof. intros St matches k c v [es bl [ms au] mw] st. split; reflexivity. Qed.
Print Assumptions C86_null_handles.

(** Memory: one allocation for each estimator not yet given back, none when all have been. *)
Theorem C86_no_leak : forall (St : Type) (matches : list byte -> Z) (k : codec) (c : cfg) (v : env) (past : @e_history St) (w : world St) (st : St),
  e_ran matches k c v past w st -> (in_use w + given_back past)%nat = made past /\
  ((forall n, holds_estimator past n = false) -> in_use w = 0%nat).
Proof. intros St. exact no_leak. Qed.
Print Assumptions C86_no_leak.

(** Two estimators, a builder made with the first one and used after it has been given back, a builder with an estimator of the
    program's own. *)
Definition some_matches (d : list byte) : Z := Z.of_nat (List.length (filter (fun b => b2z b =? 0) d)).
Fixpoint e_replay (calls : list (e_call Z)) (past : @e_history Z) (w : world Z) (st : Z) : option (@e_history Z * world Z * Z) :=
  match calls with
  | [] => Some (past, w, st)
  | call :: calls => match run_e_call some_matches CBc1 a_pc plenty call w st with
                     | Ok (a, w1, st1) => e_replay calls ((call, a) :: past) w1 st1
                     | _ => None
                     end
  end.
Lemma e_replay_ran : forall calls past w st past' w' st', e_ran some_matches CBc1 a_pc plenty past w st -> e_replay calls past w st = Some (past', w', st') ->
  e_ran some_matches CBc1 a_pc plenty past' w' st'.
Proof.
  intros calls. induction calls as [|call calls IH]; intros past w st past' w' st' R H; cbn [e_replay] in H.
  - injection H as <- <- <-. exact R.
  - destruct (run_e_call some_matches CBc1 a_pc plenty call w st) as [[[a w1] st1]| |] eqn:E; try discriminate H.
    refine (IH _ _ _ _ _ _ _ H). exact (e_step _ _ _ _ _ _ _ _ _ _ _ R E).
Qed.
Definition e_calls : list (e_call Z) :=
  [ENew; ENew; ENewAuto (Some 0%nat); EFree (Some 0%nat); EOther (CNewAuto (Some (summing 100)));
   EOther (CAutoTransform (Some 0%nat) (Some texture) 16 (Some texture) 16 (Some None))].
Lemma a_pc_supported : supported a_pc.
Proof. split; [constructor; intros; reflexivity || discriminate|reflexivity]. Qed.
Example C86_met : exists (past : @e_history Z) w st, e_ran some_matches CBc1 a_pc plenty past w st /\ supported a_pc /\
  no_empty_auto (without_handles some_matches past) /\
  map (holds_estimator past) [0; 1; 2]%nat = [false; true; false] /\ map (holds_auto (without_handles some_matches past)) [0; 1; 2]%nat = [true; true; false] /\
  holds (without_handles some_matches past) 0 = true /\ in_use w = 1%nat /\ made past = 2%nat /\ given_back past = 1%nat /\
  (exists a w1 st1, run_e_call some_matches CBc1 a_pc plenty (EFree (Some 1%nat)) w st = Ok (a, w1, st1)) /\
  e_rules some_matches past (EOther (CAutoTransform (Some 0%nat) (Some texture) 16 (Some texture) 16 (Some None))).
Proof.
  assert (F : match e_replay e_calls [] (World [] [] (Heap [] []) []) 0 with
    | Some (past, w, st) =>
        forallb (fun x : c_call Z * answered_with => match fst x with CAutoTransform _ _ n _ _ _ => negb (n =? 0) | _ => true end) (without_handles some_matches past) &&
        match map (holds_estimator past) [0; 1; 2]%nat with [false; true; false] => true | _ => false end &&
        match map (holds_auto (without_handles some_matches past)) [0; 1; 2]%nat with [true; true; false] => true | _ => false end &&
        holds (without_handles some_matches past) 0 &&
        Nat.eqb (in_use w) 1 && Nat.eqb (made past) 2 && Nat.eqb (given_back past) 1 &&
        match run_e_call some_matches CBc1 a_pc plenty (EFree (Some 1%nat)) w st with Ok _ => true | _ => false end
    | None => false
    end = true) by (vm_compute; reflexivity).
  destruct (e_replay e_calls [] (World [] [] (Heap [] []) []) 0) as [[[past w] st]|] eqn:E; [|discriminate F].
  exists past, w, st. split; [exact (e_replay_ran _ _ _ _ _ _ _ (e_start _ _ _ _ _) E)|].
  split; [exact a_pc_supported|]. clear E.
  apply andb_prop in F. destruct F as [F F8]. apply andb_prop in F. destruct F as [F F7]. apply andb_prop in F. destruct F as [F F6].
  apply andb_prop in F. destruct F as [F F5]. apply andb_prop in F. destruct F as [F F4]. apply andb_prop in F. destruct F as [F F3].
  apply andb_prop in F. destruct F as [F1 F2].
  split; [|split; [|split; [|split; [|split; [|split; [|split; [|split]]]]]]].
  - intros b d n o m cell a H. rewrite forallb_forall in F1. specialize (F1 _ H). cbn [fst] in F1. intros ->. discriminate F1.
  - cbn [map] in *. destruct (holds_estimator past 0), (holds_estimator past 1), (holds_estimator past 2); try discriminate F2. reflexivity.
  - cbn [map] in *. destruct (holds_auto (without_handles some_matches past) 0), (holds_auto (without_handles some_matches past) 1), (holds_auto (without_handles some_matches past) 2);
      try discriminate F3. reflexivity.
  - exact F4.
  - apply Nat.eqb_eq. exact F5.
  - apply Nat.eqb_eq. exact F6.
  - apply Nat.eqb_eq. exact F7.
  - destruct (run_e_call some_matches CBc1 a_pc plenty (EFree (Some 1%nat)) w st) as [[[a w1] st1]| |]; try discriminate F8. do 3 eexists. reflexivity.
  - cbn [e_rules keeps_rules]. split; [|split; cbn [buffer_ok]; unfold valid_for; vm_compute; split; discriminate].
    cbn [map handle_ok] in *. destruct (holds_auto (without_handles some_matches past) 0); [reflexivity|discriminate F3].
Qed.
