(** The C handles of the bundled size estimator, beside the builders made with them.

    The copy of a [DltSizeEstimator] that an automatic builder keeps holds the
    address of the estimator's context. Using the builder follows that address, so
    the memory it points to is part of the model. *)
From Verif Require Import Base.Bytes Base.Res Model.Color565 Model.Kernel Model.Transform Model.Auto Model.CApi Model.Ltu.
Open Scope string_scope.
Open Scope list_scope.
Open Scope Z_scope.

(** The address of a boxed object: a boxed object of size 0 has no memory, its
    address is dangling but not null (std, alloc::boxed);
    src/extensions/estimators/dxt-lossless-transform-ltu/src/c_api.rs:150 *)
Inductive address := Dangling | Block (n : nat).

(** src/extensions/estimators/dxt-lossless-transform-ltu/src/lib.rs:49: a unit struct *)
Definition context_size : Z := 0.

(** Box::new and Box::into_raw (std) on a list of blocks, each in use or not;
    src/extensions/estimators/dxt-lossless-transform-ltu/src/c_api.rs:75, 150 *)
Definition box_new (size : Z) (blocks : list bool) : address * list bool :=
  if size =? 0 then (Dangling, blocks) else (Block (List.length blocks), blocks ++ [true]).
Fixpoint release (blocks : list bool) (n : nat) : list bool :=
  match blocks, n with
  | [], _ => []
  | _ :: r, O => false :: r
  | b :: r, S n1 => b :: release r n1
  end.
(** Box::from_raw and its drop (std);
    src/extensions/estimators/dxt-lossless-transform-ltu/src/c_api.rs:94-96 *)
Definition box_drop (a : address) (blocks : list bool) : res (list bool) :=
  match a with
  | Dangling => Ok blocks
  | Block n => if nth n blocks false then Ok (release blocks n) else Ub "memory freed twice"
  end.
(** A reference to the object at an address;
    src/extensions/estimators/dxt-lossless-transform-ltu/src/c_api.rs:113, 137 *)
Definition reference (a : address) (blocks : list bool) : res unit :=
  match a with
  | Dangling => Ok tt
  | Block n => if nth n blocks false then Ok tt else Ub "use of freed memory"
  end.

(** The estimators ([None] when freed) with the addresses of their contexts, the
    memory of the contexts, the builders, and for each automatic builder the
    context of the bundled estimator it was made with, if it was.
    src/extensions/estimators/dxt-lossless-transform-ltu/src/c_api.rs:148-154,
    src/api/dxt-lossless-transform-bc1-api/src/c_api/transform/auto_transform_builder.rs:35-38, 71 *)
Record world (St : Type) := World { estimators : list (option address); blocks : list bool; builders : heap St; made_with : list (option address) }.
Arguments World {St}. Arguments estimators {St}. Arguments blocks {St}. Arguments builders {St}. Arguments made_with {St}.

Section Calls.
Context {St : Type}.
Variable matches : list byte -> Z.

(** The bundled estimator beside others with a context of their own: it leaves theirs alone.
    src/extensions/estimators/dxt-lossless-transform-ltu/src/c_api.rs:104-145 *)
Definition ltu_estimator : c_estimator St :=
  CEstimator (fun st n => let '(code, out, _) := c_max_compressed_size (dltltu_new_size_estimator matches) tt n in (code, out, st))
    (fun st d scratch => let '(code, out, _) := c_estimate_compressed_size (dltltu_new_size_estimator matches) tt d scratch in (code, out, st)).

(** src/extensions/estimators/dxt-lossless-transform-ltu/src/c_api.rs:74-78, 148-154 *)
Definition new_size_estimator (w : world St) : handle * world St :=
  let '(a, bl) := box_new context_size (blocks w) in
  (Some (List.length (estimators w)), World (estimators w ++ [Some a]) bl (builders w) (made_with w)).
(** src/extensions/estimators/dxt-lossless-transform-ltu/src/c_api.rs:89-101; the context is never null *)
Definition free_size_estimator (e : handle) (w : world St) : res (world St) :=
  match e with
  | None => Ok w
  | Some n =>
      do a <- lookup (estimators w) n ;;
      do bl <- box_drop a (blocks w) ;;
      Ok (World (update (estimators w) n None) bl (builders w) (made_with w))
  end.
(** src/api/dxt-lossless-transform-bc1-api/src/c_api/transform/auto_transform_builder.rs:63-79 with a handle of the bundled
    estimator: the structure is read *)
Definition new_auto_with (e : handle) (w : world St) : res (handle * world St) :=
  match e with
  | None => let '(b, h) := new_auto None (builders w) in Ok (b, World (estimators w) (blocks w) h (made_with w))
  | Some n =>
      do a <- lookup (estimators w) n ;;
      let '(b, h) := new_auto (Some ltu_estimator) (builders w) in
      Ok (b, World (estimators w) (blocks w) h (made_with w ++ [Some a]))
  end.
(** ... with an estimator the program has written itself *)
Definition new_auto_own (e : option (c_estimator St)) (w : world St) : handle * world St :=
  let '(b, h) := new_auto e (builders w) in
  (b, World (estimators w) (blocks w) h (made_with w ++ match e with None => [] | Some _ => [None] end)).
(** src/api/dxt-lossless-transform-bc1-api/src/c_api/transform/auto_transform_builder.rs:190-250; the
    context is looked at (src/extensions/estimators/dxt-lossless-transform-ltu/src/c_api.rs:113, 137) before
    the rest; simplified: also by calls that return an error before they ask the estimator *)
Definition context_of (b : handle) (w : world St) : res unit :=
  match b with
  | None => Ok tt
  | Some n => match nth n (made_with w) None with None => Ok tt | Some a => reference a (blocks w) end
  end.
End Calls.
