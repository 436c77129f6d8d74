(** Watching a memory allocator. *)
From Verif Require Import Base.Bytes Base.Res Model.Transform Model.Alloc.
Open Scope list_scope.
Open Scope Z_scope.

(** What the allocator is asked to do, and its answers. *)
Inductive alloc_event := Asked (size align : Z) (answer : option Z) | GivenBack (p : Z).
Definition watched {A} (al : allocator A) : allocator (A * list alloc_event) := {|
  a_alloc := fun n align st => let '(r, s) := a_alloc al n align (fst st) in (r, (s, snd st ++ [Asked n align r]));
  a_free := fun p st => (a_free al p (fst st), snd st ++ [GivenBack p]) |}.

(** The blocks in use after these events, given those in use before; none if a
    block is given back that is not in use (such as one given back twice). *)
Fixpoint in_use (live : list Z) (log : list alloc_event) : option (list Z) :=
  match log with
  | [] => Some live
  | Asked _ _ None :: log => in_use live log
  | Asked _ _ (Some p) :: log => in_use (p :: live) log
  | GivenBack p :: log => if existsb (Z.eqb p) live then in_use (remove Z.eq_dec p live) log else None
  end.

(** The allocator hands out only blocks that are not in use. *)
Fixpoint fresh (live : list Z) (log : list alloc_event) : Prop :=
  match log with
  | [] => True
  | Asked _ _ None :: log => fresh live log
  | Asked _ _ (Some p) :: log => ~ In p live /\ fresh (p :: live) log
  | GivenBack p :: log => fresh (remove Z.eq_dec p live) log
  end.
