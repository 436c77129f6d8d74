(** Aligned allocations and fixed arrays of them.

    The memory allocator itself is not part of the repository: it is a value of
    the type below, over which everything here is a function. *)
From Verif Require Import Base.Bytes Base.Res Model.Transform.
Open Scope list_scope.
Open Scope Z_scope.

(** A memory allocator with states in [A]: it is asked for a number of bytes
    with an alignment, and answers with the address of a new block or refuses;
    it is given back blocks.
    src/core/dxt-lossless-transform-common/src/allocate.rs:17-20 (crate safe_allocator_api) *)
Record allocator (A : Type) := Allocator {
  a_alloc : Z -> Z -> A -> option Z * A;
  a_free : Z -> A -> A }.
Arguments Allocator {A}. Arguments a_alloc {A}. Arguments a_free {A}.

(** src/core/dxt-lossless-transform-common/src/allocate.rs:103-113 *)
Inductive allocate_error := LayoutError | AllocationFailed.

Section Alloc.
Context {A : Type} (al : allocator A) (isize_max : Z).

(** [Layout::from_size_align(num_bytes, align)] of the standard library (src/core/dxt-lossless-transform-common/src/allocate.rs:98):
    refused if the size rounded up to the alignment is more than [isize::MAX]. *)
Definition layout_ok (num_bytes align : Z) : bool := num_bytes <=? isize_max - (align - 1).

(** src/core/dxt-lossless-transform-common/src/allocate.rs:97-100; a [RawAlloc] is the address of its block *)
Definition allocate_align_64 (num_bytes : Z) (st : A) : result Z allocate_error * A :=
  if layout_ok num_bytes 64 then
    match a_alloc al num_bytes 64 st with
    | (Some p, st) => (ROk p, st)
    | (None, st) => (RErr AllocationFailed, st)
    end
  else (RErr LayoutError, st).

(** Dropping allocations, the first one first.
    src/core/dxt-lossless-transform-common/src/allocate.rs:97-100 (RawAlloc frees its block when dropped) *)
Fixpoint drop_all (ps : list Z) (st : A) : A :=
  match ps with [] => st | p :: ps => drop_all ps (a_free al p st) end.

(** src/core/dxt-lossless-transform-common/src/allocate.rs:48-64: the loop over the [todo] elements still to be filled; [done] are
    the elements filled already, [allocations[0..initialized_count]] *)
Fixpoint fill (num_bytes : Z) (todo : nat) (done : list Z) (st : A) : result (list Z) allocate_error * A :=
  match todo with
  | O => (ROk done, st)
  | S todo =>
      match allocate_align_64 num_bytes st with
      | (ROk p, st) => fill num_bytes todo (done ++ [p]) st
      | (RErr e, st) => (RErr e, drop_all done st)
      end
  end.
(** src/core/dxt-lossless-transform-common/src/allocate.rs:40-69; the array is the list of its blocks *)
Definition array_new (num_elements : nat) (num_bytes : Z) (st : A) : result (list Z) allocate_error * A :=
  fill num_bytes num_elements [] st.

(** src/core/dxt-lossless-transform-common/src/allocate.rs:83-85 *)
Definition get_pointer_slice (allocations : list Z) : list Z := map (fun p => p) allocations.

(** The array going out of scope.
    src/core/dxt-lossless-transform-common/src/allocate.rs:97-100 *)
Definition array_drop (allocations : list Z) (st : A) : A := drop_all allocations st.
End Alloc.
