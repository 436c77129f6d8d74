(** The block decoders: src/core/dxt-lossless-transform-bc1/src/util/bc1_decode.rs,
    the same in the bc2 and bc3 crates, and src/core/dxt-lossless-transform-common/src/decoded_4x4_block.rs.

    A source pointer is the list of bytes from there on; reading past its end is
    undefined behaviour. Integer arithmetic that Rust checks in debug builds is
    checked here ([Panic]); [as u8] keeps the low 8 bits. *)
From Verif Require Import Base.Bytes Base.Res Model.Color565.
Open Scope string_scope.
Open Scope list_scope.
Open Scope Z_scope.

(** [*src.add(i)];
    src/core/dxt-lossless-transform-bc1/src/util/bc1_decode.rs:44-46 *)
Definition rd (src : list byte) (i : Z) : res byte :=
  if (0 <=? i) && (i <? zlen src) then Ok (znth src i) else Ub "read out of bounds".

(** A sum or product that must fit an unsigned type with maximum [max].
    src/core/dxt-lossless-transform-bc1/src/util/bc1_decode.rs:69-76 *)
Definition fits (max z : Z) : res Z := if (0 <=? z) && (z <=? max) then Ok z else Panic "arithmetic overflow".

Definition u8_max := 255. Definition u16_max := 65535. Definition u32_max := 4294967295.

(** [((w0 * a as T + w1 * b as T) / d) as u8];
    src/core/dxt-lossless-transform-bc1/src/util/bc1_decode.rs:69 *)
Definition weighted (max w0 a w1 b d : Z) : res Z :=
  do p <- fits max (w0 * a) ;; do q <- fits max (w1 * b) ;; do s <- fits max (p + q) ;; Ok ((s / d) mod 256).

(** src/core/dxt-lossless-transform-bc1/src/util/bc1_decode.rs:69-72: three channels and opaque *)
Definition mix (w0 c0 w1 c1 d : Z) : res color8888 :=
  do r <- weighted u32_max w0 (red c0) w1 (red c1) d ;;
  do g <- weighted u32_max w0 (green c0) w1 (green c1) d ;;
  do b <- weighted u32_max w0 (blue c0) w1 (blue c1) d ;;
  Ok (mkC r g b 255).

Definition blank : color8888 := mkC 0 0 0 0.

(** src/core/dxt-lossless-transform-bc1/src/util/bc1_decode.rs:62-85: the four colours *)
Definition bc1_dict (c0 c1 : Z) : res (list color8888) :=
  if greater_than c0 c1 then
    do d2 <- mix 2 c0 1 c1 3 ;; do d3 <- mix 1 c0 2 c1 3 ;; Ok [to_8888_lossy c0; to_8888_lossy c1; d2; d3]
  else
    do d2 <- mix 1 c0 1 c1 2 ;; Ok [to_8888_lossy c0; to_8888_lossy c1; d2; blank].

(** src/core/dxt-lossless-transform-bc2/src/util/bc2_decode.rs:73-86, src/core/dxt-lossless-transform-bc3/src/util/bc3_decode.rs:72-85: always four colours *)
Definition bc23_dict (c0 c1 : Z) : res (list color8888) :=
  do d2 <- mix 2 c0 1 c1 3 ;; do d3 <- mix 1 c0 2 c1 3 ;; Ok [to_8888_lossy c0; to_8888_lossy c1; d2; d3].

(** src/core/dxt-lossless-transform-common/src/decoded_4x4_block.rs:97-100 set_pixel_unchecked *)
Definition set_pixel (pixels : list color8888) (x y : Z) (c : color8888) : res (list color8888) :=
  let i := y * 4 + x in
  if (0 <=? i) && (i <? zlen pixels) then Ok (splice pixels i [c]) else Ub "pixel out of bounds".

(** [for y in 0..4 { for x in 0..4 { ... } }];
    src/core/dxt-lossless-transform-bc1/src/util/bc1_decode.rs:88-100 *)
Definition positions : list (Z * Z) := flat_map (fun y => map (fun x => (y, x)) [0; 1; 2; 3]) [0; 1; 2; 3].

Fixpoint for_each {A S} (l : list A) (body : A -> S -> res S) (s : S) : res S :=
  match l with [] => Ok s | a :: l => do s <- body a s ;; for_each l body s end.

(** [dict.get_unchecked(i)];
    src/core/dxt-lossless-transform-bc1/src/util/bc1_decode.rs:88-100 *)
Definition pick (dict : list color8888) (i : Z) : res color8888 :=
  if (0 <=? i) && (i <? zlen dict) then Ok (nth (Z.to_nat i) dict blank) else Ub "dictionary index out of bounds".

(** src/core/dxt-lossless-transform-bc1/src/util/bc1_decode.rs:42-101 decode_bc1_block *)
Definition decode_bc1_block (src : list byte) : res (list color8888) :=
  do b0 <- rd src 0 ;; do b1 <- rd src 1 ;; do b2 <- rd src 2 ;; do b3 <- rd src 3 ;;
  do b4 <- rd src 4 ;; do b5 <- rd src 5 ;; do b6 <- rd src 6 ;; do b7 <- rd src 7 ;;
  let c0 := u16le b0 b1 in let c1 := u16le b2 b3 in let idx := u32le b4 b5 b6 b7 in
  do dict <- bc1_dict c0 c1 ;;
  do r <- for_each positions (fun '(y, x) '(result, index_pos) =>
    do c <- pick dict (Z.land (Z.shiftr idx index_pos) 3) ;;
    do result <- set_pixel result x y c ;; Ok (result, index_pos + 2)) (repeat blank 16, 0) ;;
  Ok (fst r).

(** src/core/dxt-lossless-transform-bc1/src/util/bc1_decode.rs:109-114 *)
Definition decode_bc1_block_from_slice (src : list byte) : res (option (list color8888)) :=
  if zlen src <? 8 then Ok None else do p <- decode_bc1_block src ;; Ok (Some p).

Definition with_alpha (c : color8888) (a : Z) : color8888 := mkC (c_r c) (c_g c) (c_b c) a.

(** src/core/dxt-lossless-transform-bc2/src/util/bc2_decode.rs:44-122 decode_bc2_block; [alpha_bytes\[i\]] is bounds-checked on 8 bytes *)
Definition decode_bc2_block (src : list byte) : res (list color8888) :=
  do b0 <- rd src 8 ;; do b1 <- rd src 9 ;; do b2 <- rd src 10 ;; do b3 <- rd src 11 ;;
  do b4 <- rd src 12 ;; do b5 <- rd src 13 ;; do b6 <- rd src 14 ;; do b7 <- rd src 15 ;;
  let c0 := u16le b0 b1 in let c1 := u16le b2 b3 in let idx := u32le b4 b5 b6 b7 in
  do dict <- bc23_dict c0 c1 ;;
  let alpha_bytes := slice src 0 8 in
  do r <- for_each positions (fun '(y, x) '(result, index_pos, alpha_bit_pos) =>
    do c <- pick dict (Z.land (Z.shiftr idx index_pos) 3) ;;
    let shift_amount := Z.land alpha_bit_pos 1 * 4 in
    let i := Z.shiftr alpha_bit_pos 1 in
    if (i <? 0) || (8 <=? i) then Panic "index out of bounds"
    else
      let alpha_value := Z.land (Z.shiftr (b2z (znth alpha_bytes i)) shift_amount) 15 in
      do a <- fits u8_max (alpha_value * 17) ;;
      do result <- set_pixel result x y (with_alpha c a) ;; Ok (result, index_pos + 2, alpha_bit_pos + 1))
    (repeat blank 16, 0, 0) ;;
  Ok (fst (fst r)).

(** src/core/dxt-lossless-transform-bc2/src/util/bc2_decode.rs:130-135 *)
Definition decode_bc2_block_from_slice (src : list byte) : res (option (list color8888)) :=
  if zlen src <? 16 then Ok None else do p <- decode_bc2_block src ;; Ok (Some p).

(** src/core/dxt-lossless-transform-bc3/src/util/bc3_decode.rs:98-120: the eight alpha values *)
Definition bc3_alphas (alpha0 alpha1 : Z) : res (list Z) :=
  if alpha1 <? alpha0 then
    do v2 <- weighted u16_max 6 alpha0 1 alpha1 7 ;; do v3 <- weighted u16_max 5 alpha0 2 alpha1 7 ;;
    do v4 <- weighted u16_max 4 alpha0 3 alpha1 7 ;; do v5 <- weighted u16_max 3 alpha0 4 alpha1 7 ;;
    do v6 <- weighted u16_max 2 alpha0 5 alpha1 7 ;; do v7 <- weighted u16_max 1 alpha0 6 alpha1 7 ;;
    Ok [alpha0; alpha1; v2; v3; v4; v5; v6; v7]
  else
    do v2 <- weighted u16_max 4 alpha0 1 alpha1 5 ;; do v3 <- weighted u16_max 3 alpha0 2 alpha1 5 ;;
    do v4 <- weighted u16_max 2 alpha0 3 alpha1 5 ;; do v5 <- weighted u16_max 1 alpha0 4 alpha1 5 ;;
    Ok [alpha0; alpha1; v2; v3; v4; v5; 0; 255].

(** [alpha_indices\[i\]], an array of 6 bytes;
    src/core/dxt-lossless-transform-bc3/src/util/bc3_decode.rs:152, 155 *)
Definition alpha_index_byte (alpha_indices : list byte) (i : Z) : res Z :=
  if (0 <=? i) && (i <? zlen alpha_indices) then Ok (b2z (znth alpha_indices i)) else Panic "index out of bounds".

(** src/core/dxt-lossless-transform-bc3/src/util/bc3_decode.rs:147-158: three bits from position [alpha_bit_pos]; [<<] on a u8 drops the high bits *)
Definition bc3_alpha_idx (alpha_indices : list byte) (alpha_bit_pos : Z) : res Z :=
  let byte_pos := alpha_bit_pos / 8 in
  let bit_shift := alpha_bit_pos mod 8 in
  if bit_shift <=? 5 then
    do b <- alpha_index_byte alpha_indices byte_pos ;; Ok (Z.land (Z.shiftr b bit_shift) 7)
  else
    do b <- alpha_index_byte alpha_indices byte_pos ;;
    do n <- alpha_index_byte alpha_indices (byte_pos + 1) ;;
    Ok (Z.land (Z.lor (Z.shiftr b bit_shift) (Z.land (Z.shiftl n (8 - bit_shift)) 255)) 7).

(** src/core/dxt-lossless-transform-bc3/src/util/bc3_decode.rs:43-173 decode_bc3_block *)
Definition decode_bc3_block (src : list byte) : res (list color8888) :=
  do b0 <- rd src 8 ;; do b1 <- rd src 9 ;; do b2 <- rd src 10 ;; do b3 <- rd src 11 ;;
  do b4 <- rd src 12 ;; do b5 <- rd src 13 ;; do b6 <- rd src 14 ;; do b7 <- rd src 15 ;;
  let c0 := u16le b0 b1 in let c1 := u16le b2 b3 in let idx := u32le b4 b5 b6 b7 in
  do dict <- bc23_dict c0 c1 ;;
  do alpha0 <- rd src 0 ;; do alpha1 <- rd src 1 ;;
  do alpha_values <- bc3_alphas (b2z alpha0) (b2z alpha1) ;;
  do i0 <- rd src 2 ;; do i1 <- rd src 3 ;; do i2 <- rd src 4 ;; do i3 <- rd src 5 ;; do i4 <- rd src 6 ;; do i5 <- rd src 7 ;;
  let alpha_indices := [i0; i1; i2; i3; i4; i5] in
  do r <- for_each positions (fun '(y, x) '(result, index_pos, alpha_bit_pos) =>
    do c <- pick dict (Z.land (Z.shiftr idx index_pos) 3) ;;
    do alpha_idx <- bc3_alpha_idx alpha_indices alpha_bit_pos ;;
    if (alpha_idx <? 0) || (zlen alpha_values <=? alpha_idx) then Panic "index out of bounds"
    else
      do result <- set_pixel result x y (with_alpha c (nth (Z.to_nat alpha_idx) alpha_values 0)) ;;
      Ok (result, index_pos + 2, alpha_bit_pos + 3)) (repeat blank 16, 0, 0) ;;
  Ok (fst (fst r)).

(** src/core/dxt-lossless-transform-bc3/src/util/bc3_decode.rs:181-186 *)
Definition decode_bc3_block_from_slice (src : list byte) : res (option (list color8888)) :=
  if zlen src <? 16 then Ok None else do p <- decode_bc3_block src ;; Ok (Some p).

(** src/core/dxt-lossless-transform-common/src/decoded_4x4_block.rs:107-119 has_identical_pixels (comparing the four bytes at
    once), 127-135 has_identical_pixels_ignore_alpha, 139-142 has_identical_alpha *)
Definition has_identical_pixels (pixels : list color8888) : bool :=
  forallb (fun p => color_eqb p (nth 0 pixels blank)) pixels.
Definition has_identical_pixels_ignore_alpha (pixels : list color8888) : bool :=
  forallb (fun p => color_eqb (without_alpha p) (without_alpha (nth 0 pixels blank))) pixels.
Definition has_identical_alpha (pixels : list color8888) : bool :=
  forallb (fun p => c_a p =? c_a (nth 0 pixels blank)) pixels.
