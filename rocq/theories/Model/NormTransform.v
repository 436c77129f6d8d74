(** BC1 transform with block normalisation,
    src/core/dxt-lossless-transform-bc1/src/experimental/normalize_blocks.

    As in Model/Normalize.v all buffers lie in one memory, a list of bytes, and a
    pointer is an offset into it. Functions whose buffers must not overlap are
    undefined when they do. The code makes references to [Color565] from byte
    pointers, which must be even addresses; of the caller's buffers this concerns
    the output only, and [even] says whether its address is even (allocated
    buffers are aligned to 64 bytes). Simplifications: a shared and a mutable
    slice over the same colours (src/core/dxt-lossless-transform-bc1/src/experimental/normalize_blocks/transform.rs:359-364) are one array; arithmetic
    that leaves one buffer but not the memory is not noticed. *)
From Verif Require Import Base.Bytes Base.Res Model.Color565 Model.Ycc Model.Kernel Model.GenBc1Std Model.GenSplit565
  Model.ColorSlices Model.Transform Model.Auto Model.Decode Model.Normalize.
Open Scope string_scope.
Open Scope list_scope.
Open Scope Z_scope.

(** src/core/dxt-lossless-transform-bc1/src/experimental/normalize_blocks/mod.rs:98-112 Bc1TransformDetailsWithNormalization (src/core/dxt-lossless-transform-bc1/src/experimental/mod.rs:14-28 is the same) *)
Record details := Details { d_norm : color_norm; d_decorr : variant; d_split : bool }.
(** src/core/dxt-lossless-transform-bc1/src/experimental/normalize_blocks/mod.rs:114-121 *)
Definition untransform_settings (d : details) : settings := Settings (d_decorr d) (d_split d).
(** src/core/dxt-lossless-transform-bc1/src/experimental/normalize_blocks/mod.rs:123-132 *)
Definition default_details : details := Details CNone V1 true.
(** src/core/dxt-lossless-transform-bc1/src/experimental/normalize_blocks/mod.rs:134-142 *)
Definition details_of_settings (s : settings) : details := Details CNone (decorrelation_mode s) (split_colour_endpoints s).
(** src/core/dxt-lossless-transform-bc1/src/experimental/normalize_blocks/mod.rs:168-184 *)
Definition all_combinations : list details :=
  flat_map (fun n => flat_map (fun v => map (fun s => Details n v s) [true; false]) all_variants) all_color_norms.

(** ** The functions of other modules, in one memory *)

(** src/core/dxt-lossless-transform-bc1/src/experimental/normalize_blocks/transform.rs *)
Definition apartb (a alen b blen : Z) : bool := (a + alen <=? b) || (b + blen <=? a).
(** Run something that reads one part of the memory and writes another.
    src/core/dxt-lossless-transform-bc1/src/experimental/normalize_blocks/transform.rs *)
Definition kernel_at (no_overlap : bool) (run : mem -> res mem) (m : list byte) : res (list byte) :=
  if no_overlap then do r <- run (Mem m [] m) ;; Ok (m_out r) else Ub "overlapping buffers".

(** src/core/dxt-lossless-transform-bc1/src/transform/standard/transform/mod.rs transform *)
Definition transform_at (c : cfg) (inp out len : Z) : list byte -> res (list byte) :=
  kernel_at (apartb inp len out len) (bc1_std_t_transform c (Ptr BIn inp) (Ptr BOut out) len).
(** src/core/dxt-lossless-transform-bc1/src/transform/standard/transform/mod.rs transform_with_separate_pointers *)
Definition transform_separate_at (c : cfg) (inp colours indices len : Z) : list byte -> res (list byte) :=
  kernel_at (apartb inp len colours (len / 2) && apartb inp len indices (len / 2) && apartb colours (len / 2) indices (len / 2))
    (bc1_std_t_transform_with_separate_pointers c (Ptr BIn inp) (Ptr BOut colours) (Ptr BOut indices) len).
(** src/core/dxt-lossless-transform-common/src/transforms/split_565_color_endpoints/mod.rs:110-130 split_color_endpoints *)
Definition split_at (c : cfg) (colors colors_out len : Z) : list byte -> res (list byte) :=
  kernel_at (apartb colors len colors_out len)
    (common_transforms_split_565_color_endpoints_split_color_endpoints c (Ptr BIn colors) (Ptr BOut colors_out) len).

(** Bytes as an array of colours.
    src/core/dxt-lossless-transform-bc1/src/experimental/normalize_blocks/transform.rs:359-364 *)
Fixpoint to_colours (l : list byte) : list Z :=
  match l with a :: b :: l => u16le a b :: to_colours l | _ => [] end.
Definition of_colours (cs : list Z) : list byte := flat_map (fun v => [lo8 v; hi8 v]) cs.
(** [Color565::decorrelate_ycocg_r_ptr(p, p, n, v)], src/core/dxt-lossless-transform-common/src/color_565/decorrelate_batch_ptr.rs:336-359:
    the three variants read every colour through a reference (75, 169, 263), mode None touches nothing *)
Definition reads_colours (n : Z) (v : variant) : bool :=
  match v with VNone => false | _ => 0 <? n end.
Definition decorrelate_at (even : bool) (p n : Z) (v : variant) (m : list byte) : res (list byte) :=
  if negb even && reads_colours n v then Ub "reference to a colour at an odd address" else
  do d <- load m p (2 * n) ;;
  do cs <- decorrelate_ptr 0 0 n v (to_colours d) ;;
  store m p (of_colours cs).
(** [Color565::decorrelate_ycocg_r_slice] from [n] colours at [src] to [n] colours at [dst];
    src/core/dxt-lossless-transform-bc1/src/experimental/normalize_blocks/transform.rs:365 *)
Definition decorrelate_slice_at (debug : bool) (src dst n : Z) (v : variant) (m : list byte) : res (list byte) :=
  if apartb src (2 * n) dst (2 * n) then
    do s <- load m src (2 * n) ;;
    do d <- load m dst (2 * n) ;;
    do cs <- decorrelate_slice debug v (to_colours s) (to_colours d) ;;
    store m dst (of_colours cs)
  else Ub "overlapping slices".

(** ** src/core/dxt-lossless-transform-bc1/src/experimental/normalize_blocks/transform.rs:65-170 transform_bc1_with_normalize_blocks *)
Definition transform_bc1_with_normalize_blocks (c : cfg) (even : bool) (input_ptr output_ptr work_ptr len : Z) (d : details) (m : list byte)
  : res (list byte) :=
  do _ <- debug_assert (c_debug c) (len mod 8 =? 0) "len.is_multiple_of(8)" ;;
  let has_normalization := match d_norm d with CNone => false | _ => true end in
  if has_normalization && d_split d then
    do m <- transform_separate_at c input_ptr work_ptr (output_ptr + len / 2) len m ;;
    do m <- bc1_normalize_split_blocks_in_place work_ptr (output_ptr + len / 2) (Z.to_nat (len / 8)) (d_norm d) m ;;
    do m <- split_at c work_ptr output_ptr (len / 2) m ;;
    decorrelate_at even output_ptr (len / 2 / 2) (d_decorr d) m
  else if has_normalization then
    do m <- transform_at c input_ptr output_ptr len m ;;
    do m <- bc1_normalize_split_blocks_in_place output_ptr (output_ptr + len / 2) (Z.to_nat (len / 8)) (d_norm d) m ;;
    decorrelate_at even output_ptr (len / 2 / 2) (d_decorr d) m
  else if d_split d then
    do m <- transform_separate_at c input_ptr work_ptr (output_ptr + len / 2) len m ;;
    do m <- split_at c work_ptr output_ptr (len / 2) m ;;
    decorrelate_at even output_ptr (len / 2 / 2) (d_decorr d) m
  else
    do m <- transform_at c input_ptr output_ptr len m ;;
    decorrelate_at even output_ptr (len / 2 / 2) (d_decorr d) m.

(** ** Automatic choice *)
Section Auto.
Context {St Er : Type}.
(** [fresh i] is the content of byte [i] of the memory when it has just been allocated. *)
Variables (c : cfg) (v : env) (e : estimator St Er) (use_all : bool) (fresh : Z -> byte) (even : bool).

(** What the loop keeps: best details, best size, the memory, the estimator's state.
    src/core/dxt-lossless-transform-bc1/src/experimental/normalize_blocks/transform.rs:256-257 *)
Record search_state := Search { best : details; best_size : Z; s_mem : list byte; s_est : St }.

(** src/core/dxt-lossless-transform-bc1/src/experimental/normalize_blocks/transform.rs:336-408 test_normalize_variant_with_normalization *)
Definition test_variant (input output len comp_buffer_len : Z) (current : details) (s : search_state) : res search_state :=
  do m <- (if d_split current then
             do m <- split_at c input output (len / 2) (s_mem s) ;;
             decorrelate_at true output (len / 2 / 2) (d_decorr current) m
           else decorrelate_slice_at (c_debug c) input output (len / 2 / 2) (d_decorr current) (s_mem s)) ;;
  do d <- load m output (len / 2) ;;
  match estimate_compressed_size e (s_est s) d comp_buffer_len with
  | (RErr _, st) => Ok (Search (best s) (best_size s) m st)
  | (ROk size, st) =>
      if size <? best_size s then Ok (Search current size m st) else Ok (Search (best s) (best_size s) m st)
  end.

(** src/core/dxt-lossless-transform-bc1/src/experimental/normalize_blocks/transform.rs:283-309, the two loops: over the normalisation modes with
    their buffers, and over the test order. *)
Fixpoint test_order (input output len comp : Z) (norm : color_norm) (order : list settings) (s : search_state) : res search_state :=
  match order with
  | [] => Ok s
  | o :: order =>
      do s <- test_variant input output len comp (Details norm (decorrelation_mode o) (split_colour_endpoints o)) s ;;
      test_order input output len comp norm order s
  end.
Fixpoint test_norms (norms : list color_norm) (inputs : list Z) (output len comp : Z) (order : list settings) (s : search_state) : res search_state :=
  match norms, inputs with
  | norm :: norms, input :: inputs =>
      do s <- test_order input output len comp norm order s ;;
      test_norms norms inputs output len comp order s
  | _, _ => Ok s
  end.

(** A new allocation at the end of the memory.
    src/core/dxt-lossless-transform-bc1/src/experimental/normalize_blocks/transform.rs:246, 273 *)
Definition grow (m : list byte) (n : Z) : list byte := m ++ map fresh (zseq (zlen m) (Z.to_nat n)).
(** Three buffers of [n] bytes, one after the other: src/core/dxt-lossless-transform-common/src/allocate.rs:40-69 *)
Definition three (m : list byte) (n : Z) : list Z := [zlen m; zlen m + n; zlen m + 2 * n].

(** src/core/dxt-lossless-transform-bc1/src/experimental/normalize_blocks/transform.rs:222-332. The buffers are released on return. *)
Definition transform_bc1_auto_with_normalization (input_ptr output_ptr len : Z) (m0 : list byte) (st : St)
  : res (result details (determine_error Er) * list byte * St) :=
  if negb (alloc_ok v len) then Ok (RErr AllocateError, m0, st)
  else
    let normalize_buffers := three m0 len in
    let m := grow m0 (3 * len) in
    match max_compressed_size e st (len / 2) with
    | (RErr e1, st) => Ok (RErr (SizeEstimationError e1), m0, st)
    | (ROk max_comp_size, st) =>
        if negb (max_comp_size =? 0) && negb (alloc_ok v max_comp_size) then Ok (RErr AllocateError, m0, st)
        else
          do r <- bc1_normalize_blocks_all_modes (c_debug c) input_ptr normalize_buffers len m ;;
          let '(any_normalized, m) := r in
          if any_normalized then
            if negb (alloc_ok v len) then Ok (RErr AllocateError, m0, st)
            else
              let split_blocks_buffers := three m len in
              let m := grow m (3 * len) in
              do m <- for_dsts normalize_buffers split_blocks_buffers (fun src dst => transform_at c src dst len) m ;;
              if negb (alloc_ok v (len / 2)) then Ok (RErr AllocateError, m0, st)
              else
                let work_ptr := zlen m in
                let m := grow m (len / 2) in
                do s <- test_norms all_color_norms split_blocks_buffers work_ptr len max_comp_size
                          (if use_all then comprehensive_test_order else fast_test_order)
                          (Search default_details (usize_max v) m st) ;;
                do m <- transform_bc1_with_normalize_blocks c even input_ptr output_ptr work_ptr len (best s) (s_mem s) ;;
                Ok (ROk (best s), firstn (List.length m0) m, s_est s)
          else
            if apartb input_ptr len output_ptr len then
              do r <- transform_bc1_auto_ptr c v e use_all (Ptr BIn input_ptr) (Ptr BOut output_ptr) len (Mem m [] m) st ;;
              match r with
              | (ROk s, m, st) => Ok (ROk (details_of_settings s), firstn (List.length m0) (m_out m), st)
              | (RErr err, m, st) => Ok (RErr err, firstn (List.length m0) (m_out m), st)
              end
            else Ub "overlapping buffers"
    end.
End Auto.
Arguments Search {St}. Arguments best {St}. Arguments best_size {St}. Arguments s_mem {St}. Arguments s_est {St}.
