(** C58: arrays of aligned allocations. [al] is the allocator; it may be anything
    except where [fresh] says that it hands out only memory that is not in use. *)
From Verif Require Import Base.Bytes Base.Res Model.Transform Model.Alloc Spec.Alloc Proofs.AllocFacts Props.Cases.
Open Scope list_scope.
Open Scope Z_scope.

(** Either all of the allocations asked for are made, each of the size asked for
    and aligned to 64; or, the size being too large for a layout, nothing is asked
    of the allocator; or one request is refused, it is the last, and everything
    handed out before is given back, once. *)
Theorem C58_all_or_nothing : forall (A : Type) (al : allocator A) (isize_max : Z) (k : nat) (n : Z) (a : A), exists a' log,
  match array_new (watched al) isize_max k n (a, []) with
  | (ROk ps, st) => st = (a', log) /\ List.length ps = k /\ log = map (fun p => Asked n 64 (Some p)) ps
  | (RErr LayoutError, st) => st = (a', log) /\ log = [] /\ isize_max - 63 < n /\ (0 < k)%nat
  | (RErr AllocationFailed, st) =>
      st = (a', log) /\ n <= isize_max - 63 /\
      exists ps, (List.length ps < k)%nat /\ log = map (fun p => Asked n 64 (Some p)) ps ++ [Asked n 64 None] ++ map GivenBack ps
  end.
Proof. exact (@new_explained). Qed.
Print Assumptions C58_all_or_nothing.

(** After a failure exactly what was in use before is in use: nothing leaks, and
    nothing is given back twice. *)
Theorem C58_failure_leaks_nothing : forall (A : Type) (al : allocator A) (isize_max : Z) (k : nat) (n : Z) (a : A) (live : list Z) st e, NoDup live ->
  array_new (watched al) isize_max k n (a, []) = (RErr e, st) -> fresh live (snd st) ->
  exists l, in_use live (snd st) = Some l /\ (forall x, In x l <-> In x live).
Proof. exact (@new_leaks_nothing). Qed.
Print Assumptions C58_failure_leaks_nothing.

(** The allocations differ from each other and from those in use before, stay in
    use until the array is dropped, and are then all given back, once. *)
Theorem C58_new_and_drop : forall (A : Type) (al : allocator A) (isize_max : Z) (k : nat) (n : Z) (a : A) (live : list Z) st ps, NoDup live ->
  array_new (watched al) isize_max k n (a, []) = (ROk ps, st) -> fresh live (snd st) ->
  NoDup ps /\ (forall p, In p ps -> ~ In p live) /\
  (exists l, in_use live (snd st) = Some l /\ (forall x, In x l <-> In x ps \/ In x live)) /\
  exists l, in_use live (snd (array_drop (watched al) ps st)) = Some l /\ (forall x, In x l <-> In x live).
Proof. exact (@new_and_drop). Qed.
Print Assumptions C58_new_and_drop.

(** The array's pointers are its allocations, in order. *)
Theorem C58_pointers : forall ps, get_pointer_slice ps = ps.
Proof. exact pointers. Qed.
Print Assumptions C58_pointers.

(** An allocator that hands out [limit] blocks, one after another. *)
Definition counting (limit : Z) : allocator Z := {|
  a_alloc := fun n align st => if st <? limit then (Some (4096 * (st + 1)), st + 1) else (None, st);
  a_free := fun _ st => st |}.
Example C58_nontrivial :
  array_new (watched (counting 5)) (2 ^ 63 - 1) 3 100 (0, []) =
    (ROk [4096; 8192; 12288], (3, [Asked 100 64 (Some 4096); Asked 100 64 (Some 8192); Asked 100 64 (Some 12288)])) /\
  array_new (watched (counting 2)) (2 ^ 63 - 1) 3 100 (0, []) =
    (RErr AllocationFailed, (2, [Asked 100 64 (Some 4096); Asked 100 64 (Some 8192); Asked 100 64 None; GivenBack 4096; GivenBack 8192])) /\
  array_new (watched (counting 2)) (2 ^ 63 - 1) 3 (2 ^ 63 - 63) (0, []) = (RErr LayoutError, (0, [])) /\
  fresh [7] [Asked 100 64 (Some 4096); Asked 100 64 (Some 8192); Asked 100 64 None; GivenBack 4096; GivenBack 8192].
Proof. split; [reflexivity|]. split; [reflexivity|]. split; [reflexivity|]. cbn. intuition lia. Qed.

(** two blocks are in use before, and the third of three requests is refused *)
Example C58_failure_leaks_nothing_met :
  let A := Z in let al := counting 2 in let isize_max := 2 ^ 63 - 1 in let k := 3%nat in let n := 100 in let a := 0 in let live := [7; 9] in let e := AllocationFailed in
  let st := snd (array_new (watched al) isize_max k n (a, [])) in
  NoDup live /\ array_new (watched al) isize_max k n (a, []) = (RErr e, st) /\ fresh live (snd st).
Proof. met. Qed.

(** two blocks are in use before, and three requests succeed *)
Example C58_new_and_drop_met :
  let A := Z in let al := counting 5 in let isize_max := 2 ^ 63 - 1 in let k := 3%nat in let n := 100 in let a := 0 in let live := [7; 9] in let ps := [4096; 8192; 12288]
  in let st := snd (array_new (watched al) isize_max k n (a, [])) in
  NoDup live /\ array_new (watched al) isize_max k n (a, []) = (ROk ps, st) /\ fresh live (snd st).
Proof. met. Qed.
