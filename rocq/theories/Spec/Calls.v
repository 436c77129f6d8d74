(** Histories of calls and the calls that take them back. *)
From Verif Require Import Base.Bytes Model.Kernel Model.Calls Spec.Files.
Open Scope list_scope.

(** The bytes of one block. *)
Definition block (w : job) : Z := match w with Bc1 _ => 8 | Bc2 _ | Bc3 _ => 16 end.
(** A machine the project supports. *)
Definition good (m : machine) : Prop := match m with Little c => supported c | Big _ _ => True end.
Definition same_order (m m' : machine) : Prop :=
  match m, m' with Little _, Little _ | Big _ _, Big _ _ => True | _, _ => False end.

(** A call that may be made on a texture of [len] bytes. *)
Definition allowed (len : Z) (k : call) : Prop := good (k_on k) /\ len mod block (k_job k) = 0 /\ len <= zlen (k_out k).
(** [k'] takes [k] back: the same codec and settings, the other direction, on a
    machine of the same byte order. *)
Definition takes_back (k k' : call) : Prop :=
  k_job k' = k_job k /\ k_back k' = negb (k_back k) /\ same_order (k_on k) (k_on k').
(** The same call on some machine of the same byte order. *)
Definition alike (k k' : call) : Prop :=
  k_job k' = k_job k /\ k_back k' = k_back k /\ same_order (k_on k) (k_on k').
