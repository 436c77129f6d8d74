(** Block normalisation: src/core/dxt-lossless-transform-bc{1,2,3}/src/experimental/normalize_blocks.

    All buffers lie in one memory [m], a list of bytes; a pointer is an offset
    into it, so that buffers may coincide or overlap as they can in the program.
    Access outside the memory is undefined behaviour. *)
From Verif Require Import Base.Bytes Base.Res Model.Color565 Model.Decode.
Open Scope string_scope.
Open Scope list_scope.
Open Scope Z_scope.

(** ** Memory *)

(** src/core/dxt-lossless-transform-bc1/src/experimental/normalize_blocks/normalize.rs:88 *)
Definition load (m : list byte) (p n : Z) : res (list byte) :=
  if (0 <=? p) && (p + n <=? zlen m) then Ok (slice m p n) else Ub "read out of bounds".
Definition store (m : list byte) (p : Z) (d : list byte) : res (list byte) :=
  if (0 <=? p) && (p + zlen d <=? zlen m) then Ok (splice m p d) else Ub "write out of bounds".
(** [write_unaligned(read_unaligned(src as *const u64))];
    src/core/dxt-lossless-transform-bc1/src/experimental/normalize_blocks/normalize.rs:88 *)
Definition copy8 (m : list byte) (src dst : Z) : res (list byte) :=
  do d <- load m src 8 ;; store m dst d.
(** [copy_nonoverlapping];
    src/core/dxt-lossless-transform-bc1/src/experimental/normalize_blocks/normalize.rs:61 *)
Definition copy_apart (m : list byte) (src dst n : Z) : res (list byte) :=
  if (src + n <=? dst) || (dst + n <=? src) || (n =? 0) then do d <- load m src n ;; store m dst d
  else Ub "copy_nonoverlapping of overlapping memory".
(** [write_bytes(p, b, n)];
    src/core/dxt-lossless-transform-bc1/src/experimental/normalize_blocks/normalize.rs:74 *)
Definition fill (m : list byte) (p : Z) (b : byte) (n : nat) : res (list byte) := store m p (repeat b n).

(** Assignments [*p.add(i) = d\[i\]] one byte at a time.
    src/core/dxt-lossless-transform-bc1/src/experimental/normalize_blocks/normalize.rs:226-243 *)
Fixpoint assign (m : list byte) (p : Z) (d : list byte) : res (list byte) :=
  match d with [] => Ok m | b :: d => do m <- store m p [b] ;; assign m (p + 1) d end.

(** The condition of the debug assertions on the buffers.
    src/core/dxt-lossless-transform-bc1/src/experimental/normalize_blocks/normalize.rs:45 *)
Definition same_or_apart (inp out len : Z) : bool := (inp =? out) || (inp + len <=? out) || (out + len <=? inp).

(** src/core/dxt-lossless-transform-bc1/src/experimental/normalize_blocks/normalize.rs:487-500, src/core/dxt-lossless-transform-bc2/src/experimental/normalize_blocks/normalize.rs:339-352, src/core/dxt-lossless-transform-bc3/src/experimental/normalize_blocks/normalize.rs:143-156 ColorNormalizationMode (three equal enums) *)
Inductive color_norm := CNone | Color0Only | ReplicateColor.
Definition all_color_norms : list color_norm := [CNone; Color0Only; ReplicateColor].

(** src/core/dxt-lossless-transform-bc3/src/experimental/normalize_blocks/normalize.rs:117-136 AlphaNormalizationMode *)
Inductive alpha_norm := ANone | UniformAlphaZeroIndices | OpaqueFillAll | OpaqueZeroAlphaMaxIndices.
Definition all_alpha_norms : list alpha_norm := [ANone; UniformAlphaZeroIndices; OpaqueFillAll; OpaqueZeroAlphaMaxIndices].

(** The bytes that make the colour part of a solid block: src/core/dxt-lossless-transform-bc1/src/experimental/normalize_blocks/normalize.rs:223-257,
    352-370, src/core/dxt-lossless-transform-bc2/src/experimental/normalize_blocks/normalize.rs:301-330, 438-466, src/core/dxt-lossless-transform-bc3/src/experimental/normalize_blocks/normalize.rs:257-286, 606-634;
    first the endpoints, then the indices. *)
Definition solid_endpoints (color565 : Z) (second : bool) : list byte :=
  [lo8 color565; hi8 color565] ++ (if second then [lo8 color565; hi8 color565] else [x00; x00]).
Definition zero_indices : list byte := [x00; x00; x00; x00].

(** What a closure and its captured variables hold: the memory, the current
    destination pointers, and [any_normalized].
    src/core/dxt-lossless-transform-bc1/src/experimental/normalize_blocks/normalize.rs:64-100 *)
Record nst := Nst { n_mem : list byte; n_dst : list Z; n_any : bool }.

(** [while src_block_ptr < src_end_ptr { ...; src_block_ptr = src_block_ptr.add(size) }];
    src/core/dxt-lossless-transform-bc1/src/experimental/normalize_blocks/normalize.rs:130 *)
Fixpoint block_loop {S} (n : nat) (src size : Z) (body : Z -> S -> res S) (s : S) : res S :=
  match n with O => Ok s | Datatypes.S n => do s <- body src s ;; block_loop n (src + size) size body s end.
(** The number of iterations.
    src/core/dxt-lossless-transform-bc1/src/experimental/normalize_blocks/normalize.rs:130 *)
Definition rounds (len size : Z) : nat := Z.to_nat ((len + size - 1) / size).

(** Do something for each destination pointer, with its index's mode.
    src/core/dxt-lossless-transform-bc1/src/experimental/normalize_blocks/normalize.rs:451 *)
Fixpoint for_dsts {A} (modes : list A) (dsts : list Z) (body : A -> Z -> list byte -> res (list byte)) (m : list byte) : res (list byte) :=
  match modes, dsts with
  | a :: modes, d :: dsts => do m <- body a d m ;; for_dsts modes dsts body m
  | _, _ => Ok m
  end.

(** ** BC1 *)

(** src/core/dxt-lossless-transform-bc1/src/experimental/normalize_blocks/normalize.rs:191-198 *)
Inductive bc1_case := Transparent | SolidColorRoundtrippable | CannotNormalize.

(** src/core/dxt-lossless-transform-bc1/src/experimental/normalize_blocks/normalize.rs:134-182: how a decoded block is handled, and with which colour *)
Definition bc1_classify (pixels : list color8888) : bc1_case * Z :=
  if has_identical_pixels pixels then
    let pixel := nth 0 pixels blank in
    if c_a pixel =? 0 then (Transparent, 0)
    else
      let color565 := to_565_lossy pixel in
      if color_eqb (to_8888_lossy color565) pixel then (SolidColorRoundtrippable, color565) else (CannotNormalize, color565)
  else (CannotNormalize, 0).

(** src/core/dxt-lossless-transform-bc1/src/experimental/normalize_blocks/normalize.rs:119-187 normalize_blocks_impl *)
Definition bc1_impl (debug : bool) (input_ptr len : Z) (handle_output : Z -> bc1_case -> Z -> nst -> res nst) (s : nst) : res nst :=
  do _ <- debug_assert debug (len mod 8 =? 0) "len" ;;
  block_loop (rounds len 8) input_ptr 8 (fun src s =>
    do pixels <- decode_bc1_block (skipn (Z.to_nat src) (n_mem s)) ;;
    let (case, color565) := bc1_classify pixels in
    handle_output src case color565 s) s.

(** src/core/dxt-lossless-transform-bc1/src/experimental/normalize_blocks/normalize.rs:215-259 write_normalized_solid_color_block *)
Definition bc1_write_solid (dst src color565 : Z) (mode : color_norm) (m : list byte) : res (list byte) :=
  do m <- assign m dst [lo8 color565; hi8 color565] ;;
  match mode with
  | CNone => copy8 m src dst
  | Color0Only => assign m (dst + 2) ([x00; x00] ++ zero_indices)
  | ReplicateColor => assign m (dst + 2) ([lo8 color565; hi8 color565] ++ zero_indices)
  end.

(** src/core/dxt-lossless-transform-bc1/src/experimental/normalize_blocks/normalize.rs:38-96 normalize_blocks *)
Definition bc1_normalize_blocks (debug : bool) (input_ptr output_ptr len : Z) (mode : color_norm) (m : list byte) : res (list byte) :=
  do _ <- debug_assert debug (same_or_apart input_ptr output_ptr len) "overlapping buffers" ;;
  match mode with
  | CNone => if input_ptr =? output_ptr then Ok m else copy_apart m input_ptr output_ptr len
  | _ =>
      do s <- bc1_impl debug input_ptr len (fun src case color565 s =>
        let dst := nth 0 (n_dst s) 0 in
        do m <- match case with
                | Transparent => fill (n_mem s) dst xff 8
                | SolidColorRoundtrippable => bc1_write_solid dst src color565 mode (n_mem s)
                | CannotNormalize => copy8 (n_mem s) src dst
                end ;;
        Ok (Nst m [dst + 8] (n_any s))) (Nst m [output_ptr] false) ;;
      Ok (n_mem s)
  end.

(** src/core/dxt-lossless-transform-bc1/src/experimental/normalize_blocks/normalize.rs:417-480 normalize_blocks_all_modes; [output_ptrs] has 3 entries *)
Definition bc1_normalize_blocks_all_modes (debug : bool) (input_ptr : Z) (output_ptrs : list Z) (len : Z) (m : list byte) : res (bool * list byte) :=
  do _ <- debug_assert debug (len mod 8 =? 0) "len" ;;
  do _ <- debug_assert debug (forallb (fun o => same_or_apart input_ptr o len) output_ptrs) "overlapping buffers" ;;
  do s <- bc1_impl debug input_ptr len (fun src case color565 s =>
    do r <- match case with
            | Transparent => do m <- for_dsts all_color_norms (n_dst s) (fun _ dst m => fill m dst xff 8) (n_mem s) ;; Ok (m, true)
            | SolidColorRoundtrippable => do m <- for_dsts all_color_norms (n_dst s) (fun mode dst => bc1_write_solid dst src color565 mode) (n_mem s) ;; Ok (m, true)
            | CannotNormalize => do m <- for_dsts all_color_norms (n_dst s) (fun _ dst m => copy8 m src dst) (n_mem s) ;; Ok (m, n_any s)
            end ;;
    Ok (Nst (fst r) (map (fun d => d + 8) (n_dst s)) (snd r))) (Nst m output_ptrs false) ;;
  Ok (n_any s, n_mem s).

(** [for block_idx in 0..num_blocks];
    src/core/dxt-lossless-transform-bc1/src/experimental/normalize_blocks/normalize.rs:298 *)
Fixpoint for_blocks (n : nat) (i : Z) (body : Z -> list byte -> res (list byte)) (m : list byte) : res (list byte) :=
  match n with O => Ok m | S n => do m <- body i m ;; for_blocks n (i + 1) body m end.

(** src/core/dxt-lossless-transform-bc1/src/experimental/normalize_blocks/normalize.rs:286-383 normalize_split_blocks_in_place *)
Definition bc1_normalize_split_blocks_in_place (colors_ptr indices_ptr : Z) (num_blocks : nat) (mode : color_norm) (m : list byte) : res (list byte) :=
  match mode with
  | CNone => Ok m
  | _ =>
      for_blocks num_blocks 0 (fun block_idx m =>
        let curr_colors := colors_ptr + block_idx * 4 in
        let curr_indices := indices_ptr + block_idx * 4 in
        do c <- load m curr_colors 4 ;; do i <- load m curr_indices 4 ;;
        do pixels <- decode_bc1_block (c ++ i) ;;
        if has_identical_pixels pixels then
          let pixel := nth 0 pixels blank in
          if c_a pixel =? 0 then
            do m <- fill m curr_colors xff 4 ;; fill m curr_indices xff 4
          else
            let color565 := to_565_lossy pixel in
            if color_eqb (to_8888_lossy color565) pixel then
              match mode with
              | CNone => Ub "unreachable_unchecked"
              | Color0Only => do m <- assign m curr_colors (solid_endpoints color565 false) ;; assign m curr_indices zero_indices
              | ReplicateColor => do m <- assign m curr_colors (solid_endpoints color565 true) ;; assign m curr_indices zero_indices
              end
            else Ok m
        else Ok m) m
  end.

(** ** BC2 *)

(** src/core/dxt-lossless-transform-bc2/src/experimental/normalize_blocks/normalize.rs:129-158, 413-425 and src/core/dxt-lossless-transform-bc3/src/experimental/normalize_blocks/normalize.rs:355-376: the colour, if the
    block is solid and its colour survives RGB565; alpha is ignored (both sides of the
    comparison get alpha 255) *)
Definition solid_color (pixels : list color8888) : option Z :=
  if has_identical_pixels_ignore_alpha pixels then
    let pixel := nth 0 pixels blank in
    let color565 := to_565_lossy pixel in
    if color_eqb (with_alpha (to_8888_lossy color565) 255) (with_alpha pixel 255) then Some color565 else None
  else None.

(** src/core/dxt-lossless-transform-bc2/src/experimental/normalize_blocks/normalize.rs:114-163 normalize_blocks_impl; [None] is BlockCase::CannotNormalize *)
Definition bc2_impl (debug : bool) (input_ptr len : Z) (handle_output : Z -> option Z -> nst -> res nst) (s : nst) : res nst :=
  do _ <- debug_assert debug (len mod 16 =? 0) "len" ;;
  block_loop (rounds len 16) input_ptr 16 (fun src s =>
    do pixels <- decode_bc2_block (skipn (Z.to_nat src) (n_mem s)) ;;
    handle_output src (solid_color pixels) s) s.

(** src/core/dxt-lossless-transform-bc2/src/experimental/normalize_blocks/normalize.rs:285-332 write_normalized_solid_color_block *)
Definition bc2_write_solid (dst src color565 : Z) (mode : color_norm) (m : list byte) : res (list byte) :=
  match mode with
  | CNone => copy8 m (src + 8) (dst + 8)
  | Color0Only => assign m (dst + 8) (solid_endpoints color565 false ++ zero_indices)
  | ReplicateColor => assign m (dst + 8) (solid_endpoints color565 true ++ zero_indices)
  end.

(** src/core/dxt-lossless-transform-bc2/src/experimental/normalize_blocks/normalize.rs:66-86, 220-257: one block into one buffer *)
Definition bc2_block (src : Z) (solid : option Z) (mode : color_norm) (dst : Z) (m : list byte) : res (list byte) :=
  do m <- copy8 m src dst ;;
  match solid with
  | Some color565 => bc2_write_solid dst src color565 mode m
  | None => copy8 m (src + 8) (dst + 8)
  end.

(** src/core/dxt-lossless-transform-bc2/src/experimental/normalize_blocks/normalize.rs:35-92 normalize_blocks *)
Definition bc2_normalize_blocks (debug : bool) (input_ptr output_ptr len : Z) (mode : color_norm) (m : list byte) : res (list byte) :=
  do _ <- debug_assert debug (len mod 16 =? 0) "len" ;;
  do _ <- debug_assert debug (same_or_apart input_ptr output_ptr len) "overlapping buffers" ;;
  match mode with
  | CNone => if input_ptr =? output_ptr then Ok m else copy_apart m input_ptr output_ptr len
  | _ =>
      do s <- bc2_impl debug input_ptr len (fun src solid s =>
        let dst := nth 0 (n_dst s) 0 in
        do m <- bc2_block src solid mode dst (n_mem s) ;;
        Ok (Nst m [dst + 16] (n_any s))) (Nst m [output_ptr] false) ;;
      Ok (n_mem s)
  end.

(** src/core/dxt-lossless-transform-bc2/src/experimental/normalize_blocks/normalize.rs:193-259 normalize_blocks_all_modes; [output_ptrs] has 3 entries *)
Definition bc2_normalize_blocks_all_modes (debug : bool) (input_ptr : Z) (output_ptrs : list Z) (len : Z) (m : list byte) : res (list byte) :=
  do _ <- debug_assert debug (len mod 16 =? 0) "len" ;;
  do _ <- debug_assert debug (forallb (fun o => same_or_apart input_ptr o len) output_ptrs) "overlapping buffers" ;;
  do s <- bc2_impl debug input_ptr len (fun src solid s =>
    do m <- for_dsts all_color_norms (n_dst s) (bc2_block src solid) (n_mem s) ;;
    Ok (Nst m (map (fun d => d + 16) (n_dst s)) (n_any s))) (Nst m output_ptrs false) ;;
  Ok (n_mem s).

(** src/core/dxt-lossless-transform-bc2/src/experimental/normalize_blocks/normalize.rs:382-476 normalize_split_blocks_in_place *)
Definition bc2_normalize_split_blocks_in_place (alpha_ptr colors_ptr indices_ptr : Z) (num_blocks : nat) (mode : color_norm) (m : list byte) : res (list byte) :=
  match mode with
  | CNone => Ok m
  | _ =>
      for_blocks num_blocks 0 (fun block_idx m =>
        let curr_alpha := alpha_ptr + block_idx * 8 in
        let curr_colors := colors_ptr + block_idx * 4 in
        let curr_indices := indices_ptr + block_idx * 4 in
        do a <- load m curr_alpha 8 ;; do c <- load m curr_colors 4 ;; do i <- load m curr_indices 4 ;;
        do pixels <- decode_bc2_block (a ++ c ++ i) ;;
        match solid_color pixels with
        | Some color565 =>
            match mode with
            | CNone => Ok m
            | Color0Only => do m <- assign m curr_colors (solid_endpoints color565 false) ;; assign m curr_indices zero_indices
            | ReplicateColor => do m <- assign m curr_colors (solid_endpoints color565 true) ;; assign m curr_indices zero_indices
            end
        | None => Ok m
        end) m
  end.

(** ** BC3 *)

(** src/core/dxt-lossless-transform-bc3/src/experimental/normalize_blocks/normalize.rs:330-390 normalize_blocks_impl; the alpha case with its value, and the colour case *)
Definition bc3_impl (debug : bool) (input_ptr len : Z) (handle_output : Z -> option Z -> option Z -> nst -> res nst) (s : nst) : res nst :=
  do _ <- debug_assert debug (len mod 16 =? 0) "len" ;;
  block_loop (rounds len 16) input_ptr 16 (fun src s =>
    do pixels <- decode_bc3_block (skipn (Z.to_nat src) (n_mem s)) ;;
    handle_output src (if has_identical_alpha pixels then Some (c_a (nth 0 pixels blank)) else None) (solid_color pixels) s) s.

(** src/core/dxt-lossless-transform-bc3/src/experimental/normalize_blocks/normalize.rs:176-229 normalize_alpha *)
Definition uniform_alpha (dst alpha_value : Z) (m : list byte) : res (list byte) :=
  do m <- assign m dst [z2b alpha_value; x00] ;; fill m (dst + 2) x00 6.
Definition normalize_alpha (src dst alpha_value : Z) (mode : alpha_norm) (m : list byte) : res (list byte) :=
  match mode with
  | ANone => copy8 m src dst
  | UniformAlphaZeroIndices => uniform_alpha dst alpha_value m
  | OpaqueFillAll => if alpha_value =? 255 then fill m dst xff 8 else uniform_alpha dst alpha_value m
  | OpaqueZeroAlphaMaxIndices =>
      if alpha_value =? 255 then do m <- assign m dst [x00; x00] ;; fill m (dst + 2) xff 6 else uniform_alpha dst alpha_value m
  end.

(** src/core/dxt-lossless-transform-bc3/src/experimental/normalize_blocks/normalize.rs:249-288 normalize_color *)
Definition normalize_color (color565 dst : Z) (mode : color_norm) (m : list byte) : res (list byte) :=
  match mode with
  | CNone => Ok m
  | Color0Only => assign m (dst + 8) (solid_endpoints color565 false ++ zero_indices)
  | ReplicateColor => assign m (dst + 8) (solid_endpoints color565 true ++ zero_indices)
  end.

(** src/core/dxt-lossless-transform-bc3/src/experimental/normalize_blocks/normalize.rs:70-104, 453-494: one block into one buffer *)
Definition bc3_block (src : Z) (uniform solid : option Z) (modes : alpha_norm * color_norm) (dst : Z) (m : list byte) : res (list byte) :=
  do m <- match uniform, fst modes with
          | Some _, ANone => copy8 m src dst
          | Some alpha_value, mode => normalize_alpha src dst alpha_value mode m
          | None, _ => copy8 m src dst
          end ;;
  match solid, snd modes with
  | Some _, CNone => copy8 m (src + 8) (dst + 8)
  | Some color565, mode => normalize_color color565 dst mode m
  | None, _ => copy8 m (src + 8) (dst + 8)
  end.

(** src/core/dxt-lossless-transform-bc3/src/experimental/normalize_blocks/normalize.rs:36-110 normalize_blocks *)
Definition bc3_normalize_blocks (debug : bool) (input_ptr output_ptr len : Z) (amode : alpha_norm) (cmode : color_norm) (m : list byte) : res (list byte) :=
  do _ <- debug_assert debug (len mod 16 =? 0) "len" ;;
  do _ <- debug_assert debug (same_or_apart input_ptr output_ptr len) "overlapping buffers" ;;
  match amode, cmode with
  | ANone, CNone => if input_ptr =? output_ptr then Ok m else copy_apart m input_ptr output_ptr len
  | _, _ =>
      do s <- bc3_impl debug input_ptr len (fun src uniform solid s =>
        let dst := nth 0 (n_dst s) 0 in
        do m <- bc3_block src uniform solid (amode, cmode) dst (n_mem s) ;;
        Ok (Nst m [dst + 16] (n_any s))) (Nst m [output_ptr] false) ;;
      Ok (n_mem s)
  end.

(** src/core/dxt-lossless-transform-bc3/src/experimental/normalize_blocks/normalize.rs:419-502 normalize_blocks_all_modes; [output_ptrs] has 12 entries,
    all colour modes of the first alpha mode, then of the second, ... *)
Definition all_norms : list (alpha_norm * color_norm) := list_prod all_alpha_norms all_color_norms.
Definition bc3_normalize_blocks_all_modes (debug : bool) (input_ptr : Z) (output_ptrs : list Z) (len : Z) (m : list byte) : res (list byte) :=
  do _ <- debug_assert debug (len mod 16 =? 0) "len" ;;
  do _ <- debug_assert debug (forallb (fun o => (input_ptr + len <=? o) || (o + len <=? input_ptr)) output_ptrs) "must not overlap" ;;
  do s <- bc3_impl debug input_ptr len (fun src uniform solid s =>
    do m <- for_dsts all_norms (n_dst s) (bc3_block src uniform solid) (n_mem s) ;;
    Ok (Nst m (map (fun d => d + 16) (n_dst s)) (n_any s))) (Nst m output_ptrs false) ;;
  Ok (n_mem s).

(** src/core/dxt-lossless-transform-bc3/src/experimental/normalize_blocks/normalize.rs:642-692 normalize_alpha_in_place *)
Definition uniform_alpha_in_place (endpoints indices alpha_value : Z) (m : list byte) : res (list byte) :=
  do m <- assign m endpoints [z2b alpha_value; x00] ;; fill m indices x00 6.
Definition normalize_alpha_in_place (mode : alpha_norm) (endpoints indices alpha_value : Z) (m : list byte) : res (list byte) :=
  match mode with
  | ANone => Ok m
  | UniformAlphaZeroIndices => uniform_alpha_in_place endpoints indices alpha_value m
  | OpaqueFillAll =>
      if alpha_value =? 255 then do m <- fill m endpoints xff 2 ;; fill m indices xff 6
      else uniform_alpha_in_place endpoints indices alpha_value m
  | OpaqueZeroAlphaMaxIndices =>
      if alpha_value =? 255 then do m <- assign m endpoints [x00; x00] ;; fill m indices xff 6
      else uniform_alpha_in_place endpoints indices alpha_value m
  end.

(** src/core/dxt-lossless-transform-bc3/src/experimental/normalize_blocks/normalize.rs:539-639 normalize_split_blocks_in_place *)
Definition bc3_normalize_split_blocks_in_place (alpha_endpoints_ptr alpha_indices_ptr color_endpoints_ptr color_indices_ptr : Z)
    (num_blocks : nat) (amode : alpha_norm) (cmode : color_norm) (m : list byte) : res (list byte) :=
  match amode, cmode with
  | ANone, CNone => Ok m
  | _, _ =>
      for_blocks num_blocks 0 (fun block_idx m =>
        let ae := alpha_endpoints_ptr + block_idx * 2 in
        let ai := alpha_indices_ptr + block_idx * 6 in
        let ce := color_endpoints_ptr + block_idx * 4 in
        let ci := color_indices_ptr + block_idx * 4 in
        do a <- load m ae 2 ;; do b <- load m ai 6 ;; do c <- load m ce 4 ;; do d <- load m ci 4 ;;
        do pixels <- decode_bc3_block (a ++ b ++ c ++ d) ;;
        do m <- match amode with
                | ANone => Ok m
                | _ => if has_identical_alpha pixels then normalize_alpha_in_place amode ae ai (c_a (nth 0 pixels blank)) m else Ok m
                end ;;
        match cmode with
        | CNone => Ok m
        | _ =>
            if has_identical_pixels_ignore_alpha pixels then
              let pixel_ignore_alpha := with_alpha (nth 0 pixels blank) 255 in
              let color565 := to_565_lossy pixel_ignore_alpha in
              if color_eqb (to_8888_lossy color565) pixel_ignore_alpha then
                match cmode with
                | CNone => Ok m
                | Color0Only => do m <- assign m ce (solid_endpoints color565 false) ;; assign m ci zero_indices
                | ReplicateColor => do m <- assign m ce (solid_endpoints color565 true) ;; assign m ci zero_indices
                end
              else Ok m
            else Ok m
        end) m
  end.
