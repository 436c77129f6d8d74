(** What "YCoCg-R of an RGB565 colour" means, by arithmetic on its fields. *)
From Verif Require Import Base.Bytes Model.Color565.

(** A colour is 5 bits of red, 5 high bits of green, the low bit of green and
    5 bits of blue. YCoCg-R, modulo 32, on red, high green and blue; the low bit
    of green goes along unchanged. The variants differ in where the four
    results are put. *)
Definition ycocg (v : variant) (x : Z) : Z :=
  let r := x / 2048 in let g := x / 64 mod 32 in let low := x / 32 mod 2 in let b := x mod 32 in
  let co := (r - b) mod 32 in
  let t := (b + co / 2) mod 32 in
  let cg := (g - t) mod 32 in
  let y := (t + cg / 2) mod 32 in
  match v with
  | VNone => x
  | V1 => y * 2048 + co * 64 + low * 32 + cg
  | V2 => low * 32768 + y * 1024 + co * 32 + cg
  | V3 => y * 2048 + co * 64 + cg * 2 + low
  end.
