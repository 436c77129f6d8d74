(** The computers of a history of actions on a file. *)
From Verif Require Import Base.Bytes Base.Res Model.Kernel Model.Auto Model.Dds Model.FileHistory Spec.Files.

Definition little (p : computer) : bool := match p with LittleOne _ _ => true | BigOne _ _ _ => false end.
Definition debug_build (p : computer) : bool := match p with LittleOne c _ => c_debug c | BigOne d _ _ => d end.

(** An existing computer with addresses of at least 32 bits, whose memory has room for [size] bytes. *)
Definition fit (size : Z) (p : computer) : Prop :=
  match p with
  | LittleOne c v => supported c /\ 2 ^ 32 - 1 <= usize_max v /\ size <= usize_max v
  | BigOne _ _ v => 2 ^ 32 - 1 <= usize_max v /\ size <= usize_max v
  end.

(** A history on fit computers of one byte order. *)
Definition one_order (order : bool) (size : Z) (l : list (computer * action)) : Prop :=
  Forall (fun pa => little (fst pa) = order /\ fit size (fst pa)) l.
