(** Semantics of the 16-bit-lane x86 instructions used by the YCoCg-R register
    functions (Intel intrinsics guide), for one lane. This is part of the trusted
    description of the hardware, not of the repository's code. *)
From Verif Require Import Base.Bytes.

(** src/core/dxt-lossless-transform-common/src/intrinsics/color_565/recorrelate/sse2.rs:32-48 *)
Definition w16 (z : Z) : Z := Z.land z 65535.
(** srli_epi16 / slli_epi16: logical shifts inside each 16-bit lane.
    src/core/dxt-lossless-transform-common/src/intrinsics/color_565/recorrelate/sse2.rs:32-48 *)
Definition w_srli (a k : Z) : Z := Z.shiftr a k.
Definition w_slli (a k : Z) : Z := w16 (Z.shiftl a k).
(** add_epi16 / sub_epi16: wrapping.
    src/core/dxt-lossless-transform-common/src/intrinsics/color_565/recorrelate/sse2.rs:32-48 *)
Definition w_add (a b : Z) : Z := w16 (a + b).
Definition w_sub (a b : Z) : Z := w16 (a - b).
Definition w_and (a b : Z) : Z := Z.land a b.
Definition w_or (a b : Z) : Z := Z.lor a b.
(** set1_epi16: the same constant in each lane; set1_epi32: the low half in even
    lanes, the high half in odd lanes.
    src/core/dxt-lossless-transform-common/src/intrinsics/color_565/recorrelate/sse2.rs:23-31 *)
Definition w_set1_16 (c : Z) : Z := w16 c.
Definition w_set1_32 (odd : bool) (c : Z) : Z :=
  if odd then w16 (Z.shiftr c 16) else w16 c.
(** ternarylogic: result bit = bit (a<<2 | b<<1 | c) of the immediate, i.e. the
    union of the minterms whose bit is set in the immediate.
    src/core/dxt-lossless-transform-common/src/intrinsics/color_565/recorrelate/avx512bw.rs:55-58 *)
Definition w_not (a : Z) : Z := Z.lxor a 65535.
Definition w_tern (imm a b c : Z) : Z :=
  let m (i : Z) (x y z : Z) := if Z.testbit imm i then w_and x (w_and y z) else 0 in
  let na := w_not a in let nb := w_not b in let nc := w_not c in
  w_or (w_or (w_or (m 0 na nb nc) (m 1 na nb c)) (w_or (m 2 na b nc) (m 3 na b c)))
       (w_or (w_or (m 4 a nb nc) (m 5 a nb c)) (w_or (m 6 a b nc) (m 7 a b c))).
