(** Buffers as the documentation of the normalising functions allows them, and calls that stop (C94). *)
From Verif Require Import Base.Bytes Base.Res Spec.Normalize.

(** The output is the input itself or shares no byte with it. *)
Definition clear_of (len inp out : Z) : Prop := inp = out \/ apart len inp out.
(** The call panics. *)
Definition stops {A} (r : res A) : Prop := exists why, r = Panic why.
