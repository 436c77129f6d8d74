(** Histories of calls of a C program that uses the bundled size estimator. *)
From Verif Require Import Base.Bytes Base.Res Model.Color565 Model.Kernel Model.Transform Model.Auto Model.Builders Model.CApi Model.Ltu Model.LtuHandles Spec.CApi.

Inductive e_call (St : Type) :=
| ENew | EFree (e : handle) | ENewAuto (e : handle)
| EOther (call : c_call St).
Arguments ENew {St}. Arguments EFree {St}. Arguments ENewAuto {St}. Arguments EOther {St}.

Section Run.
Context {St : Type}.
Variables (matches : list byte -> Z) (k : codec) (c : cfg) (v : env).

Definition run_e_call (call : e_call St) (w : world St) (st : St) : res (answered_with * world St * St) :=
  match call with
  | ENew => let '(e, w1) := new_size_estimator w in Ok (GaveHandle e, w1, st)
  | EFree e => do w1 <- free_size_estimator e w ;; Ok (Nothing, w1, st)
  | ENewAuto e => do r <- new_auto_with matches e w ;; Ok (GaveHandle (fst r), snd r, st)
  | EOther (CNewAuto e) => let '(b, w1) := new_auto_own e w in Ok (GaveHandle b, w1, st)
  | EOther call =>
      do _ <- match call with CAutoTransform b _ _ _ _ _ => context_of b w | _ => Ok tt end ;;
      do r <- run_c_call k c v call (builders w) st ;;
      let '(a, h, st1) := r in Ok (a, World (estimators w) (blocks w) h (made_with w), st1)
  end.

(** The calls and their answers, the most recent first. *)
Definition e_history := list (e_call St * answered_with).
Inductive e_ran : e_history -> world St -> St -> Prop :=
| e_start : forall st, e_ran [] (World [] [] (Heap [] []) []) st
| e_step : forall past w st call a w1 st1, e_ran past w st -> run_e_call call w st = Ok (a, w1, st1) -> e_ran ((call, a) :: past) w1 st1.

(** The same history without the estimator's handles: each builder made with one
    is made with the estimator itself. *)
Fixpoint without_handles (past : e_history) : @history St :=
  match past with
  | [] => []
  | (ENew, _) :: past | (EFree _, _) :: past => without_handles past
  | (ENewAuto e, a) :: past => (CNewAuto (match e with None => None | Some _ => Some (ltu_estimator matches) end), a) :: without_handles past
  | (EOther call, a) :: past => (call, a) :: without_handles past
  end.

(** An estimator the program holds: made and not freed since. *)
Fixpoint holds_estimator (past : e_history) (n : nat) : bool :=
  match past with
  | [] => false
  | (ENew, GaveHandle b) :: past => is_h b n || holds_estimator past n
  | (EFree b, _) :: past => negb (is_h b n) && holds_estimator past n
  | _ :: past => holds_estimator past n
  end.

(** The rules for the calls. There is none that a builder's estimator must still
    be held when the builder is used. *)
Definition e_rules (past : e_history) (call : e_call St) : Prop :=
  match call with
  | ENew => True
  | EFree e | ENewAuto e => handle_ok (holds_estimator past) e
  | EOther call => keeps_rules (without_handles past) call
  end.

(** How many estimators were made, and how many given back. *)
Fixpoint made (past : e_history) : nat :=
  match past with [] => 0 | (ENew, _) :: past => S (made past) | _ :: past => made past end.
Fixpoint given_back (past : e_history) : nat :=
  match past with [] => 0 | (EFree (Some _), _) :: past => S (given_back past) | _ :: past => given_back past end.
End Run.

(** The allocations in use: the structures of the estimators, and blocks of contexts. *)
Definition in_use {St} (w : world St) : nat :=
  List.length (filter (fun e => match e with Some _ => true | None => false end) (estimators w)) + List.length (filter (fun b => b) (blocks w)).

(** Two calls the program cannot tell apart, and which leave it with the same builders. *)
Definition same_for_program {St} (r1 r2 : res (answered_with * world St * St)) : Prop :=
  match r1, r2 with
  | Ok (a1, w1, st1), Ok (a2, w2, st2) => a1 = a2 /\ st1 = st2 /\ builders w1 = builders w2
  | Panic p, Panic q | Ub p, Ub q => p = q
  | _, _ => False
  end.
