(** The pictures that BC1, BC2 and BC3 blocks stand for, from the format
    definitions: 16 pixels, row by row, with 8-bit channels. *)
From Verif Require Import Base.Bytes Model.Color565.

(** A number from its bytes, lowest first. *)
Fixpoint le (bs : list byte) : Z := match bs with [] => 0 | b :: bs => b2z b + 256 * le bs end.
(** Field [i] of [w]-bit fields, lowest first. *)
Definition bits (z : Z) (w i : nat) : Z := z / 2 ^ Z.of_nat (w * i) mod 2 ^ Z.of_nat w.

(** 5 and 6 bits widened to 8 by repeating the high bits. *)
Definition widen5 (v : Z) : Z := v * 8 + v / 4.
Definition widen6 (v : Z) : Z := v * 4 + v / 16.
(** red, green and blue of an RGB565 number: 5, 6 and 5 bits from the top *)
Definition rgb (v : Z) : Z * Z * Z := (widen5 (v / 2048), widen6 (v / 32 mod 64), widen5 (v mod 32)).

(** [(w0 * x + w1 * y) / d], channel by channel, rounding down *)
Definition blend (w0 w1 d : Z) (x y : Z * Z * Z) : Z * Z * Z :=
  let '(r0, g0, b0) := x in let '(r1, g1, b1) := y in
  ((w0 * r0 + w1 * r1) / d, (w0 * g0 + w1 * g1) / d, (w0 * b0 + w1 * b1) / d).

(** The colour of index [i] in the mode with four colours. *)
Definition four_colours (c0 c1 : Z) (i : Z) : Z * Z * Z :=
  match i with 0 => rgb c0 | 1 => rgb c1 | 2 => blend 2 1 3 (rgb c0) (rgb c1) | _ => blend 1 2 3 (rgb c0) (rgb c1) end.

Definition opaque (c : Z * Z * Z) : color8888 := let '(r, g, b) := c in mkC r g b 255.

(** BC1: four colours if the first endpoint is greater; otherwise three, and the
    last index is transparent black. *)
Definition bc1_pixel (b : list byte) (i : nat) : color8888 :=
  let c0 := le (firstn 2 b) in let c1 := le (firstn 2 (skipn 2 b)) in
  let k := bits (le (firstn 4 (skipn 4 b))) 2 i in
  if c1 <? c0 then opaque (four_colours c0 c1 k)
  else match k with
       | 0 => opaque (rgb c0) | 1 => opaque (rgb c1) | 2 => opaque (blend 1 1 2 (rgb c0) (rgb c1))
       | _ => mkC 0 0 0 0
       end.

(** The colour part of BC2 and BC3 blocks. *)
Definition colour_of (b : list byte) (i : nat) (a : Z) : color8888 :=
  let '(r, g, bl) := four_colours (le (firstn 2 (skipn 8 b))) (le (firstn 2 (skipn 10 b))) (bits (le (firstn 4 (skipn 12 b))) 2 i) in
  mkC r g bl a.

(** BC2: 4 bits of alpha per pixel. *)
Definition bc2_pixel (b : list byte) (i : nat) : color8888 := colour_of b i (17 * bits (le (firstn 8 b)) 4 i).

(** BC3: two alpha endpoints and 3 bits per pixel. *)
Definition bc3_alpha (a0 a1 k : Z) : Z :=
  match k with
  | 0 => a0
  | 1 => a1
  | _ => if a1 <? a0 then ((8 - k) * a0 + (k - 1) * a1) / 7
         else match k with 6 => 0 | 7 => 255 | _ => ((6 - k) * a0 + (k - 1) * a1) / 5 end
  end.
Definition bc3_pixel (b : list byte) (i : nat) : color8888 :=
  colour_of b i (bc3_alpha (le (firstn 1 b)) (le (firstn 1 (skipn 1 b))) (bits (le (firstn 6 (skipn 2 b))) 3 i)).

Definition picture (pixel : list byte -> nat -> color8888) (b : list byte) : list color8888 := map (pixel b) (seq 0 16).
