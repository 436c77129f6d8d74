(** Model of the scalar RGB565 code of dxt-lossless-transform-common
    ([src/core/dxt-lossless-transform-common/src/color_565/]).

    A [u16] is an integer in [0,65536); Rust's [as i16] intermediate values are
    integers (all of them lie in [-31,46], so no [i16] overflow is possible and
    [&] on a negative number is two's-complement, as [Z.land] is). *)
From Verif Require Import Base.Bytes.

(** src/core/dxt-lossless-transform-common/src/color_565/decorrelate.rs:74-84, enum YCoCgVariant (same order, same
    discriminants 0..3). *)
Inductive variant := VNone | V1 | V2 | V3.

Definition variant_eqb (a b : variant) : bool :=
  match a, b with
  | VNone, VNone | V1, V1 | V2, V2 | V3, V3 => true
  | _, _ => false
  end.

Definition all_variants : list variant := [VNone; V1; V2; V3].

(** Truncation of a shift result to 16 bits.
    src/core/dxt-lossless-transform-common/src/color_565/mod.rs:114 *)
Definition u16 (z : Z) : Z := Z.land z 65535.
Definition shl16 (z k : Z) : Z := u16 (Z.shiftl z k).

(** src/core/dxt-lossless-transform-common/src/color_565/decorrelate.rs:101-127, 187-214, 274-300: the three
    forward transforms share their first half (lines 104-121, 190-207,
    277-294) and differ in the final packing. *)
Definition fwd_components (v : Z) : Z * Z * Z * Z :=
  let r := Z.land (Z.shiftr v 11) 31 in
  let g := Z.land (Z.shiftr v 6) 31 in
  let g_low := Z.land (Z.shiftr v 5) 1 in
  let b := Z.land v 31 in
  let co := Z.land (r - b) 31 in
  let t := Z.land (b + Z.shiftr co 1) 31 in
  let cg := Z.land (g - t) 31 in
  let y := Z.land (t + Z.shiftr cg 1) 31 in
  (y, co, cg, g_low).

(** src/core/dxt-lossless-transform-common/src/color_565/decorrelate.rs:101-127 decorrelate_ycocg_r_var1 *)
Definition decorrelate_var1 (v : Z) : Z :=
  let '(y, co, cg, g_low) := fwd_components v in
  Z.lor (Z.lor (Z.lor (shl16 y 11) (shl16 co 6)) (shl16 g_low 5)) cg.

(** src/core/dxt-lossless-transform-common/src/color_565/decorrelate.rs:187-214 decorrelate_ycocg_r_var2 *)
Definition decorrelate_var2 (v : Z) : Z :=
  let '(y, co, cg, g_low) := fwd_components v in
  Z.lor (Z.lor (Z.lor (shl16 g_low 15) (shl16 y 10)) (shl16 co 5)) cg.

(** src/core/dxt-lossless-transform-common/src/color_565/decorrelate.rs:274-300 decorrelate_ycocg_r_var3 *)
Definition decorrelate_var3 (v : Z) : Z :=
  let '(y, co, cg, g_low) := fwd_components v in
  Z.lor (Z.lor (Z.lor (shl16 y 11) (shl16 co 6)) (shl16 cg 1)) g_low.

(** src/core/dxt-lossless-transform-common/src/color_565/decorrelate.rs:157-170, 244-257, 330-343: the common
    second half of the three inverse transforms. *)
Definition inv_pack (y co cg g_low : Z) : Z :=
  let t := Z.land (y - Z.shiftr cg 1) 31 in
  let g := Z.land (cg + t) 31 in
  let b := Z.land (t - Z.shiftr co 1) 31 in
  let r := Z.land (b + co) 31 in
  Z.lor (Z.lor (Z.lor (shl16 r 11) (shl16 g 6)) (shl16 g_low 5)) b.

(** src/core/dxt-lossless-transform-common/src/color_565/decorrelate.rs:148-171 recorrelate_ycocg_r_var1 *)
Definition recorrelate_var1 (v : Z) : Z :=
  let y := Z.land (Z.shiftr v 11) 31 in
  let co := Z.land (Z.shiftr v 6) 31 in
  let g_low := Z.land (Z.shiftr v 5) 1 in
  let cg := Z.land v 31 in
  inv_pack y co cg g_low.

(** src/core/dxt-lossless-transform-common/src/color_565/decorrelate.rs:235-258 recorrelate_ycocg_r_var2 *)
Definition recorrelate_var2 (v : Z) : Z :=
  let g_low := Z.shiftr v 15 in
  let y := Z.land (Z.shiftr v 10) 31 in
  let co := Z.land (Z.shiftr v 5) 31 in
  let cg := Z.land v 31 in
  inv_pack y co cg g_low.

(** src/core/dxt-lossless-transform-common/src/color_565/decorrelate.rs:321-344 recorrelate_ycocg_r_var3 *)
Definition recorrelate_var3 (v : Z) : Z :=
  let y := Z.land (Z.shiftr v 11) 31 in
  let co := Z.land (Z.shiftr v 6) 31 in
  let cg := Z.land (Z.shiftr v 1) 31 in
  let g_low := Z.land v 1 in
  inv_pack y co cg g_low.

(** src/core/dxt-lossless-transform-common/src/color_565/decorrelate.rs:364-371 decorrelate_ycocg_r *)
Definition decorrelate (var : variant) (v : Z) : Z :=
  match var with
  | V1 => decorrelate_var1 v
  | V2 => decorrelate_var2 v
  | V3 => decorrelate_var3 v
  | VNone => v
  end.

(** src/core/dxt-lossless-transform-common/src/color_565/decorrelate.rs:391-398 recorrelate_ycocg_r *)
Definition recorrelate (var : variant) (v : Z) : Z :=
  match var with
  | V1 => recorrelate_var1 v
  | V2 => recorrelate_var2 v
  | V3 => recorrelate_var3 v
  | VNone => v
  end.

(** src/core/dxt-lossless-transform-common/src/color_565/mod.rs:108-115 from_rgb *)
Definition from_rgb (r g b : Z) : Z :=
  Z.lor (Z.lor (shl16 (Z.land r 248) 8) (shl16 (Z.land g 252) 3)) (Z.shiftr b 3).

(** src/core/dxt-lossless-transform-common/src/color_565/mod.rs:154-157.
    [as u8] keeps the low 8 bits. *)
Definition red (v : Z) : Z :=
  let r := Z.shiftr (Z.land v 63488) 11 in
  Z.land (Z.lor (shl16 r 3) (Z.shiftr r 2)) 255.
(** src/core/dxt-lossless-transform-common/src/color_565/mod.rs:171-174 *)
Definition green (v : Z) : Z :=
  let g := Z.shiftr (Z.land v 2016) 5 in
  Z.land (Z.lor (shl16 g 2) (Z.shiftr g 4)) 255.
(** src/core/dxt-lossless-transform-common/src/color_565/mod.rs:188-191 *)
Definition blue (v : Z) : Z :=
  let b := Z.land v 31 in
  Z.land (Z.lor (shl16 b 3) (Z.shiftr b 2)) 255.

(** src/core/dxt-lossless-transform-common/src/color_565/mod.rs:198-200 greater_than *)
Definition greater_than (a b : Z) : bool := b <? a.

(** src/core/dxt-lossless-transform-common/src/color_8888.rs:30-39 Color8888 *)
Record color8888 := mkC { c_r : Z; c_g : Z; c_b : Z; c_a : Z }.

Definition color_eqb (x y : color8888) : bool :=
  (c_r x =? c_r y) && (c_g x =? c_g y) && (c_b x =? c_b y) && (c_a x =? c_a y).

(** src/core/dxt-lossless-transform-common/src/color_565/mod.rs:224-226 to_8888_lossy, 250-252 to_8888_with_alpha_lossy *)
Definition to_8888_lossy (v : Z) : color8888 := mkC (red v) (green v) (blue v) 255.
Definition to_8888_with_alpha_lossy (v a : Z) : color8888 := mkC (red v) (green v) (blue v) a.

(** src/core/dxt-lossless-transform-common/src/color_8888.rs:77-79 to_565_lossy, 92-94 without_alpha *)
Definition to_565_lossy (c : color8888) : Z := from_rgb (c_r c) (c_g c) (c_b c).
Definition without_alpha (c : color8888) : color8888 := mkC (c_r c) (c_g c) (c_b c) 0.
