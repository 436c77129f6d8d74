(** Debug and release builds. *)
From Verif Require Import Base.Bytes Base.Res Model.Color565 Model.Kernel.

(** The same program for the same machine, built without debug assertions and
    overflow checks. *)
Definition release_build (c : cfg) : cfg :=
  Cfg false (c_arch c) (c_static c) (c_sse2 c) (c_ssse3 c) (c_avx2 c) (c_avx512f c) (c_avx512bw c) (c_avx512vl c) (c_avx512vbmi c) (c_junk c).

(** A call does what the other does, or panics. *)
Definition same_or_panics {A} (one other : res A) : Prop := one = other \/ exists why, one = Panic why.
