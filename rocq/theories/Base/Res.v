(** Outcomes of running a piece of Rust code.

    [Ok] - the code ran to completion;
    [Panic] - an explicit Rust panic (failed [assert!], slice index out of
    range, arithmetic overflow in a debug build, ...);
    [Ub] - the code performed an operation whose behaviour Rust leaves
    undefined (out-of-bounds access, out-of-range pointer arithmetic, ...), or
    the interpreter ran out of fuel (so a proof of [Ok] includes termination).

    A Rust [Result] is a value, not an outcome: it appears inside [Ok]. *)
From Verif Require Import Base.Bytes.

Inductive res (A : Type) : Type :=
| Ok (a : A)
| Panic (why : string)
| Ub (why : string).
Arguments Ok {A}. Arguments Panic {A}. Arguments Ub {A}.

Definition bind {A B} (x : res A) (f : A -> res B) : res B :=
  match x with
  | Ok a => f a
  | Panic w => Panic w
  | Ub w => Ub w
  end.

Notation "'do' x <- e ;; f" := (bind e (fun x => f))
  (at level 200, x pattern, e at level 100, f at level 200, right associativity).

Lemma bind_assoc : forall A B C (x : res A) (f : A -> res B) (g : B -> res C),
  bind (bind x f) g = bind x (fun a => bind (f a) g).
Proof. intros A B C [a|w|w] f g; reflexivity. Qed.

(** [debug_assert!(c)]: panics in debug builds only. *)
Definition debug_assert (debug c : bool) (why : string) : res unit :=
  if debug && negb c then Panic why else Ok tt.

Definition is_ok {A} (r : res A) : bool := match r with Ok _ => true | _ => false end.
