(** What normalisation does to a block, said with the pixels of Spec/Pixels.v. *)
From Verif Require Import Base.Bytes Model.Color565 Model.Normalize Spec.Pixels.

(** The two ways to write a block of one colour. *)
Definition solid_bytes (mode : color_norm) (v : Z) : list byte :=
  [lo8 v; hi8 v] ++ (match mode with ReplicateColor => [lo8 v; hi8 v] | _ => [x00; x00] end) ++ [x00; x00; x00; x00].

(** BC1: every pixel is transparent black; every pixel is the opaque colour [v]. *)
Definition bc1_transparent (b : list byte) : Prop := forall i, (i < 16)%nat -> bc1_pixel b i = mkC 0 0 0 0.
Definition bc1_solid (b : list byte) (v : Z) : Prop := 0 <= v < 65536 /\ forall i, (i < 16)%nat -> bc1_pixel b i = opaque (rgb v).

(** [b'] is block [b] normalised. *)
Definition bc1_normal (mode : color_norm) (b b' : list byte) : Prop :=
  mode = CNone /\ b' = b \/
  mode <> CNone /\ (bc1_transparent b /\ b' = repeat xff 8 \/
                    (exists v, bc1_solid b v /\ b' = solid_bytes mode v) \/
                    ~ bc1_transparent b /\ ~ (exists v, bc1_solid b v) /\ b' = b).

(** Only transparent blocks are rewritten. *)
Definition bc1_kept (b b' : list byte) : Prop := bc1_transparent b /\ b' = repeat xff 8 \/ ~ bc1_transparent b /\ b' = b.

(** BC2, BC3: every pixel has the colour [v], whatever its alpha. *)
Definition one_colour (pixel : list byte -> nat -> color8888) (b : list byte) (v : Z) : Prop :=
  0 <= v < 65536 /\ forall i, (i < 16)%nat -> (c_r (pixel b i), c_g (pixel b i), c_b (pixel b i)) = rgb v.
(** [c'] is the normalised colour part, the last 8 bytes. *)
Definition colour_normal (pixel : list byte -> nat -> color8888) (mode : color_norm) (b c' : list byte) : Prop :=
  mode = CNone /\ c' = slice b 8 8 \/
  mode <> CNone /\ ((exists v, one_colour pixel b v /\ c' = solid_bytes mode v) \/
                    ~ (exists v, one_colour pixel b v) /\ c' = slice b 8 8).

(** BC2: alpha stays. *)
Definition bc2_normal (mode : color_norm) (b b' : list byte) : Prop :=
  exists c', colour_normal bc2_pixel mode b c' /\ b' = slice b 0 8 ++ c'.

(** BC3: every pixel has alpha [a]; the ways to write that. *)
Definition one_alpha (b : list byte) (a : Z) : Prop := 0 <= a < 256 /\ forall i, (i < 16)%nat -> c_a (bc3_pixel b i) = a.
Definition alpha_bytes (mode : alpha_norm) (a : Z) : list byte :=
  match mode, a with
  | OpaqueFillAll, 255 => repeat xff 8
  | OpaqueZeroAlphaMaxIndices, 255 => [x00; x00] ++ repeat xff 6
  | _, _ => [z2b a; x00] ++ repeat x00 6
  end.
Definition alpha_normal (mode : alpha_norm) (b a' : list byte) : Prop :=
  mode = ANone /\ a' = slice b 0 8 \/
  mode <> ANone /\ ((exists a, one_alpha b a /\ a' = alpha_bytes mode a) \/ ~ (exists a, one_alpha b a) /\ a' = slice b 0 8).
Definition bc3_normal (amode : alpha_norm) (cmode : color_norm) (b b' : list byte) : Prop :=
  exists a' c', alpha_normal amode b a' /\ colour_normal bc3_pixel cmode b c' /\ b' = a' ++ c'.

(** Two textures whose blocks are related one by one. *)
Definition blockwise (size : Z) (R : list byte -> list byte -> Prop) (x y : list byte) : Prop :=
  zlen y = zlen x /\ forall k, 0 <= k -> size * (k + 1) <= zlen x -> R (slice x (size * k) size) (slice y (size * k) size).

(** [len] bytes at [p] lie in the memory [m]. *)
Definition within (m : list byte) (p len : Z) : Prop := 0 <= p /\ 0 <= len /\ p + len <= zlen m.
Definition apart (len p q : Z) : Prop := p + len <= q \/ q + len <= p.
(** Everything outside the given areas is as before. *)
Definition only_changes (areas : list (Z * Z)) (m m' : list byte) : Prop :=
  zlen m' = zlen m /\ forall i, 0 <= i < zlen m -> (forall p len, In (p, len) areas -> ~ (p <= i < p + len)) -> znth m' i = znth m i.

(** Blocks stored in parts: part [j] of block [k] is [w] bytes at [p + w * k]. *)
Definition gather (m : list byte) (parts : list (Z * Z)) (k : Z) : list byte :=
  flat_map (fun '(p, w) => slice m (p + w * k) w) parts.
Definition parts_ok (m : list byte) (parts : list (Z * Z)) (n : Z) : Prop :=
  (forall p w, In (p, w) parts -> 0 < w /\ within m p (w * n)) /\
  ForallOrdPairs (fun a b => fst a + snd a * n <= fst b \/ fst b + snd b * n <= fst a) parts.
