(** BC7 bit-field helpers, src/core/dxt-lossless-transform-bc7/src/util/. *)
From Verif Require Import Base.Bytes Base.Res.

(** u8 arithmetic: [a - b] with overflow check (debug builds panic, release
    builds wrap), [1u32 << n] needs n < 32, [u8 << n] needs n < 8.
    src/core/dxt-lossless-transform-bc7/src/util/msb_extract_bits.rs *)
Definition sub_u8 (debug : bool) (a b : Z) : res Z :=
  if a <? b then (if debug then Panic "attempt to subtract with overflow" else Ok ((a - b) mod 256))
  else Ok (a - b).

(** src/core/dxt-lossless-transform-bc7/src/util/msb_extract_bits.rs:19-33 extract_msb_bits. Shift amounts out of range
    panic in debug builds and are masked in release builds; the masked amounts are
    modelled with [mod]. *)
Definition extract_msb_bits (debug : bool) (byte start end_ : Z) : res Z :=
  do _ <- debug_assert debug (start <=? end_) "start <= end" ;;
  do _ <- debug_assert debug (end_ <=? 7) "end <= 7" ;;
  do d <- sub_u8 debug end_ start ;;
  let num_bits := (d + 1) mod 256 in
  let mask := Z.shiftl 1 (num_bits mod 32) - 1 in
  do shift <- sub_u8 debug 7 end_ ;;
  Ok (Z.land (Z.shiftr byte (shift mod 8)) (mask mod 256)).

(** src/core/dxt-lossless-transform-bc7/src/util/msb_insert_bits.rs:20-39 insert_msb_bits. *)
Definition insert_msb_bits (debug : bool) (byte value start end_ : Z) : res Z :=
  do _ <- debug_assert debug (start <=? end_) "start <= end" ;;
  do _ <- debug_assert debug (end_ <=? 7) "end <= 7" ;;
  do d <- sub_u8 debug end_ start ;;
  let num_bits := (d + 1) mod 256 in
  do shift <- sub_u8 debug 7 end_ ;;
  let mask := Z.shiftl (Z.shiftl 1 (num_bits mod 32) - 1) (shift mod 32) mod 256 in
  let cleared := Z.land byte (255 - mask) in
  let positioned_value := Z.land (Z.shiftl value (shift mod 8) mod 256) mask in
  Ok (Z.lor cleared positioned_value).
