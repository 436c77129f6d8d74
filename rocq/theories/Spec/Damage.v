(** Counting the differences between two versions of a texture. *)
From Verif Require Import Base.Bytes Spec.Layout.

(** At how many places the bytes differ. *)
Definition damaged_bytes (a b : list byte) : Z :=
  zlen (filter (fun p => negb (Byte.eqb (fst p) (snd p))) (combine a b)).
(** How many blocks of [size] bytes differ. *)
Definition damaged_blocks (size : nat) (a b : list byte) : Z :=
  zlen (filter (fun p => if list_eq_dec Byte.byte_eq_dec (fst p) (snd p) then false else true) (combine (blocks size a) (blocks size b))).
