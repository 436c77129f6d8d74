(** The fuzz targets of src/fuzz/fuzz_targets: what each of them does with a block
    of arbitrary bytes. A failed assertion is a panic.

    Buffers are placed one after the other in
    one memory. The decoders of the C++ library rgbcx and of the crate bcdec_rs are
    parameters. *)
From Verif Require Import Base.Bytes Base.Res Model.Color565 Model.Kernel Model.Transform Model.Auto Model.Embed Model.Bundle Model.Dds Model.Handlers Model.Cli Model.Decode Model.Normalize Model.Inspect.
From Coq Require Import String.
Open Scope list_scope.
Open Scope Z_scope.

(** assert_eq! of two decoded blocks;
    src/fuzz/fuzz_targets/bc1_decode.rs:30 *)
Definition assert_same (a b : list color8888) : res unit := if pixels_eqb a b then Ok tt else Panic "assertion failed"%string.
(** A loop with assertions.
    src/fuzz/fuzz_targets/bc1_normalize_all_modes.rs *)
Fixpoint each {A} (l : list A) (body : A -> res unit) : res unit :=
  match l with [] => Ok tt | x :: l => do _ <- body x ;; each l body end.
(** u16::from_le_bytes of two bytes of the block;
    src/fuzz/fuzz_targets/bc1_normalize.rs *)
Definition u16_at (block : list byte) (i : Z) : Z := b2z (znth block i) + 256 * b2z (znth block (i + 1)).
(** src/fuzz/fuzz_targets/bc2_normalize.rs:21-28 and the like: not [c0.greater_than(&c1)] *)
Definition skipped (block : list byte) : bool := negb (greater_than (u16_at block 8) (u16_at block 10)).

Section Decoders.
(** rgbcx::unpack_bc1 with the method Ideal, bcdec_rs::bc2, rgbcx::unpack_bc3 *)
Variables rgbcx_bc1 bcdec_bc2 rgbcx_bc3 : list byte -> list color8888.
(** src/fuzz/fuzz_targets/bc1_decode.rs:19-31 *)
Definition fuzz_bc1_decode (block : list byte) : res unit :=
  do our_decoded <- decode_bc1_block block ;;
  assert_same our_decoded (rgbcx_bc1 block).
(** src/fuzz/fuzz_targets/bc2_decode.rs:42-75 *)
Definition hybrid_decode_bc2 (block : list byte) : list color8888 :=
  map (fun p => with_alpha (fst p) (c_a (snd p))) (combine (rgbcx_bc1 (slice block 8 8)) (bcdec_bc2 block)).
(** src/fuzz/fuzz_targets/bc2_decode.rs:18-39 *)
Definition fuzz_bc2_decode (block : list byte) : res unit :=
  if skipped block then Ok tt
  else
    do our_decoded <- decode_bc2_block block ;;
    assert_same our_decoded (hybrid_decode_bc2 block).
(** src/fuzz/fuzz_targets/bc3_decode.rs:19-41 *)
Definition fuzz_bc3_decode (block : list byte) : res unit :=
  if skipped block then Ok tt
  else
    do our_decoded <- decode_bc3_block block ;;
    assert_same our_decoded (rgbcx_bc3 block).
End Decoders.

(** src/fuzz/fuzz_targets/bc2_decode_color_only.rs:16-53 *)
Definition fuzz_bc2_decode_color_only (block : list byte) : res unit :=
  if skipped block then Ok tt
  else
    do bc1_decoded <- decode_bc1_block (slice block 8 8) ;;
    do bc2_decoded <- decode_bc2_block block ;;
    each (zseq 0 16) (fun x =>
      let p1 := nth (Z.to_nat x) bc1_decoded blank in
      let p2 := nth (Z.to_nat x) bc2_decoded blank in
      if c_r p1 =? c_r p2 then
        if c_g p1 =? c_g p2 then
          if c_b p1 =? c_b p2 then Ok tt else Panic "Blue component mismatch"%string
        else Panic "Green component mismatch"%string
      else Panic "Red component mismatch"%string).

Section Normalizers.
Variable debug : bool.

(** src/fuzz/fuzz_targets/bc1_normalize.rs:16-73 *)
Definition fuzz_bc1_normalize (block : list byte) : res unit :=
  do original_decoded <- decode_bc1_block block ;;
  do m <- bc1_normalize_blocks debug 0 8 8 Color0Only (block ++ repeat x00 8) ;;
  do normalized_decoded <- decode_bc1_block (slice m 8 8) ;;
  do _ <- assert_same original_decoded normalized_decoded ;;
  do m <- bc1_normalize_blocks debug 0 8 8 ReplicateColor (block ++ repeat x00 8) ;;
  do normalized_decoded <- decode_bc1_block (slice m 8 8) ;;
  assert_same original_decoded normalized_decoded.
(** src/fuzz/fuzz_targets/bc1_normalize_all_modes.rs:19-64 *)
Definition fuzz_bc1_normalize_all_modes (block : list byte) : res unit :=
  do original_decoded <- decode_bc1_block block ;;
  do r <- bc1_normalize_blocks_all_modes debug 0 [8; 16; 24] 8 (block ++ repeat x00 24) ;;
  each [8; 16; 24] (fun o =>
    do normalized_decoded <- decode_bc1_block (slice (snd r) o 8) ;;
    assert_same original_decoded normalized_decoded).
(** src/fuzz/fuzz_targets/bc1_normalize_in_place.rs:17-65 *)
Definition fuzz_bc1_normalize_in_place (block : list byte) : res unit :=
  do original_decoded <- decode_bc1_block block ;;
  each all_color_norms (fun color_mode =>
    do m <- bc1_normalize_split_blocks_in_place 0 4 1 color_mode (slice block 0 4 ++ slice block 4 4) ;;
    do normalized_decoded <- decode_bc1_block (slice m 0 4 ++ slice m 4 4) ;;
    assert_same original_decoded normalized_decoded).

(** src/fuzz/fuzz_targets/bc2_normalize.rs:20-86 *)
Definition fuzz_bc2_normalize (block : list byte) : res unit :=
  if skipped block then Ok tt
  else
    do original_decoded <- decode_bc2_block block ;;
    do m <- bc2_normalize_blocks debug 0 16 16 Color0Only (block ++ repeat x00 16) ;;
    do normalized_decoded <- decode_bc2_block (slice m 16 16) ;;
    do _ <- assert_same original_decoded normalized_decoded ;;
    do m <- bc2_normalize_blocks debug 0 16 16 ReplicateColor (block ++ repeat x00 16) ;;
    do normalized_decoded <- decode_bc2_block (slice m 16 16) ;;
    assert_same original_decoded normalized_decoded.
(** src/fuzz/fuzz_targets/bc2_normalize_all_modes.rs:26-80 *)
Definition fuzz_bc2_normalize_all_modes (block : list byte) : res unit :=
  if skipped block then Ok tt
  else
    do original_decoded <- decode_bc2_block block ;;
    do m <- bc2_normalize_blocks_all_modes debug 0 [16; 32; 48] 16 (block ++ repeat x00 48) ;;
    each [16; 32; 48] (fun o =>
      do normalized_decoded <- decode_bc2_block (slice m o 16) ;;
      assert_same original_decoded normalized_decoded).
(** src/fuzz/fuzz_targets/bc2_normalize_in_place.rs:23-84 *)
Definition fuzz_bc2_normalize_in_place (block : list byte) : res unit :=
  if skipped block then Ok tt
  else
    do original_decoded <- decode_bc2_block block ;;
    each all_color_norms (fun color_mode =>
      do m <- bc2_normalize_split_blocks_in_place 0 8 12 1 color_mode (slice block 0 8 ++ slice block 8 4 ++ slice block 12 4) ;;
      do normalized_decoded <- decode_bc2_block (slice m 0 8 ++ slice m 8 4 ++ slice m 12 4) ;;
      assert_same original_decoded normalized_decoded).

(** src/fuzz/fuzz_targets/bc3_normalize.rs:22-80 *)
Definition fuzz_bc3_normalize (block : list byte) : res unit :=
  if skipped block then Ok tt
  else
    do original_decoded <- decode_bc3_block block ;;
    each [UniformAlphaZeroIndices; OpaqueFillAll; OpaqueZeroAlphaMaxIndices] (fun alpha_mode =>
      each [Color0Only; ReplicateColor] (fun color_mode =>
        do m <- bc3_normalize_blocks debug 0 16 16 alpha_mode color_mode (block ++ repeat x00 16) ;;
        do normalized_decoded <- decode_bc3_block (slice m 16 16) ;;
        assert_same original_decoded normalized_decoded)).
(** src/fuzz/fuzz_targets/bc3_normalize_all_modes.rs:27-87: one buffer for each pair of modes *)
Definition twelve_buffers : list Z := map (fun i => 16 + 16 * i) (zseq 0 12).
Definition fuzz_bc3_normalize_all_modes (block : list byte) : res unit :=
  if skipped block then Ok tt
  else
    do original_decoded <- decode_bc3_block block ;;
    do m <- bc3_normalize_blocks_all_modes debug 0 twelve_buffers 16 (block ++ repeat x00 192) ;;
    each twelve_buffers (fun o =>
      do normalized_decoded <- decode_bc3_block (slice m o 16) ;;
      assert_same original_decoded normalized_decoded).
(** src/fuzz/fuzz_targets/bc3_normalize_in_place.rs:22-85 *)
Definition fuzz_bc3_normalize_in_place (block : list byte) : res unit :=
  do original_decoded <- decode_bc3_block block ;;
  each all_alpha_norms (fun alpha_mode =>
    each all_color_norms (fun color_mode =>
      do m <- bc3_normalize_split_blocks_in_place 0 2 8 12 1 alpha_mode color_mode
        (slice block 0 2 ++ slice block 2 6 ++ slice block 8 4 ++ slice block 12 4) ;;
      do normalized_decoded <- decode_bc3_block (slice m 0 2 ++ slice m 2 6 ++ slice m 8 4 ++ slice m 12 4) ;;
      assert_same original_decoded normalized_decoded)).
End Normalizers.
