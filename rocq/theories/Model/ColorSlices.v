(** The batch colour functions on arrays of colours.

    An array of [Color565] is a list of 16-bit numbers and a pointer an index into
    it; reads and writes past its end are undefined. Source and destination may be
    parts of one array. The versions multiversion compiles for several CPUs are
    one function. [Model.ColorBatch] has the split function on bytes, as the
    transforms use it. *)
From Verif Require Import Base.Bytes Base.Res Model.Color565 Model.Kernel.
Open Scope string_scope.
Open Scope list_scope.
Open Scope Z_scope.

(** src/core/dxt-lossless-transform-common/src/color_565/decorrelate_batch_ptr.rs:73-78 *)
Definition rd (mem : list Z) (i : Z) : res Z :=
  if (0 <=? i) && (i <? zlen mem) then Ok (nth (Z.to_nat i) mem 0) else Ub "read outside the array".
Definition wr (mem : list Z) (i : Z) (v : Z) : res (list Z) :=
  if (0 <=? i) && (i <? zlen mem) then Ok (splice mem i [v]) else Ub "write outside the array".

(** src/core/dxt-lossless-transform-common/src/color_565/decorrelate_batch_ptr.rs:73-78 and the five loops like it: [count]
    turns are left and [x] is the next index *)
Fixpoint per_item (f : Z -> Z) (count : nat) (x src dst : Z) (mem : list Z) : res (list Z) :=
  match count with
  | O => Ok mem
  | S count =>
      do color <- rd mem (src + x) ;;
      do mem <- wr mem (dst + x) (f color) ;;
      per_item f count (x + 1) src dst mem
  end.
(** src/core/dxt-lossless-transform-common/src/color_565/decorrelate_batch_ptr.rs:58-82, 105-129, 152-176, 199-223, 246-270,
    293-317 *)
Definition decorrelate_var1_ptr src dst n mem := per_item decorrelate_var1 (Z.to_nat n) 0 src dst mem.
Definition recorrelate_var1_ptr src dst n mem := per_item recorrelate_var1 (Z.to_nat n) 0 src dst mem.
Definition decorrelate_var2_ptr src dst n mem := per_item decorrelate_var2 (Z.to_nat n) 0 src dst mem.
Definition recorrelate_var2_ptr src dst n mem := per_item recorrelate_var2 (Z.to_nat n) 0 src dst mem.
Definition decorrelate_var3_ptr src dst n mem := per_item decorrelate_var3 (Z.to_nat n) 0 src dst mem.
Definition recorrelate_var3_ptr src dst n mem := per_item recorrelate_var3 (Z.to_nat n) 0 src dst mem.

(** core::ptr::copy_nonoverlapping;
    src/core/dxt-lossless-transform-common/src/color_565/decorrelate_batch_ptr.rs:355 *)
Definition copy_nonoverlapping (src dst n : Z) (mem : list Z) : res (list Z) :=
  if (0 <=? src) && (src + n <=? zlen mem) && (0 <=? dst) && (dst + n <=? zlen mem)
  then if (src + n <=? dst) || (dst + n <=? src) then Ok (splice mem dst (slice mem src n)) else Ub "copy between overlapping regions"
  else Ub "copy outside the array".
(** src/core/dxt-lossless-transform-common/src/color_565/decorrelate_batch_ptr.rs:352-357, 394-399 *)
Definition copy_ptr (src dst n : Z) (mem : list Z) : res (list Z) :=
  if (0 <? n) && negb (src =? dst) then copy_nonoverlapping src dst n mem else Ok mem.
(** src/core/dxt-lossless-transform-common/src/color_565/decorrelate_batch_ptr.rs:336-359 *)
Definition decorrelate_ptr (src dst n : Z) (v : variant) (mem : list Z) : res (list Z) :=
  match v with
  | V1 => decorrelate_var1_ptr src dst n mem
  | V2 => decorrelate_var2_ptr src dst n mem
  | V3 => decorrelate_var3_ptr src dst n mem
  | VNone => copy_ptr src dst n mem
  end.
(** src/core/dxt-lossless-transform-common/src/color_565/decorrelate_batch_ptr.rs:378-401 *)
Definition recorrelate_ptr (src dst n : Z) (v : variant) (mem : list Z) : res (list Z) :=
  match v with
  | V1 => recorrelate_var1_ptr src dst n mem
  | V2 => recorrelate_var2_ptr src dst n mem
  | V3 => recorrelate_var3_ptr src dst n mem
  | VNone => copy_ptr src dst n mem
  end.

(** Two slices are two separate regions: here one after the other in one array.
    src/core/dxt-lossless-transform-common/src/color_565/decorrelate_batch_slice.rs *)
Definition on_slices (run : Z -> Z -> Z -> list Z -> res (list Z)) (debug : bool) (src dst : list Z) : res (list Z) :=
  do _ <- debug_assert debug (zlen src <=? zlen dst) "Destination slice must be at least as large as source slice" ;;
  do mem <- run 0 (zlen src) (zlen src) (src ++ dst) ;;
  Ok (skipn (List.length src) mem).
(** src/core/dxt-lossless-transform-common/src/color_565/decorrelate_batch_slice.rs:44-52, 75-83, 106-114, 137-145, 168-176,
    199-207 *)
Definition decorrelate_var1_slice := on_slices decorrelate_var1_ptr.
Definition recorrelate_var1_slice := on_slices recorrelate_var1_ptr.
Definition decorrelate_var2_slice := on_slices decorrelate_var2_ptr.
Definition recorrelate_var2_slice := on_slices recorrelate_var2_ptr.
Definition decorrelate_var3_slice := on_slices decorrelate_var3_ptr.
Definition recorrelate_var3_slice := on_slices recorrelate_var3_ptr.
(** src/core/dxt-lossless-transform-common/src/color_565/decorrelate_batch_slice.rs:241-249, 290-298 *)
Definition decorrelate_slice (debug : bool) (v : variant) (src dst : list Z) : res (list Z) :=
  on_slices (fun s d n => decorrelate_ptr s d n v) debug src dst.
Definition recorrelate_slice (debug : bool) (v : variant) (src dst : list Z) : res (list Z) :=
  on_slices (fun s d n => recorrelate_ptr s d n v) debug src dst.

(** src/core/dxt-lossless-transform-common/src/color_565/decorrelate_batch_split_ptr.rs:120-131, 200-211, 280-291, 349-354 *)
Fixpoint per_pair (f : Z -> Z) (count : nat) (x src_0 src_1 dst : Z) (mem : list Z) : res (list Z) :=
  match count with
  | O => Ok mem
  | S count =>
      do color_0 <- rd mem (src_0 + x) ;;
      do color_1 <- rd mem (src_1 + x) ;;
      do mem <- wr mem (dst + x * 2) (f color_0) ;;
      do mem <- wr mem (dst + (x * 2 + 1)) (f color_1) ;;
      per_pair f count (x + 1) src_0 src_1 dst mem
  end.
(** src/core/dxt-lossless-transform-common/src/color_565/decorrelate_batch_split_ptr.rs:94-135, 174-215, 254-295 *)
Definition split_ptr (f : Z -> Z) (debug : bool) (src_0 src_1 dst n : Z) (mem : list Z) : res (list Z) :=
  do _ <- debug_assert debug (n mod 2 =? 0) "num_items must be even for split operations" ;;
  per_pair f (Z.to_nat (n / 2)) 0 src_0 src_1 dst mem.
Definition recorrelate_var1_ptr_split := split_ptr recorrelate_var1.
Definition recorrelate_var2_ptr_split := split_ptr recorrelate_var2.
Definition recorrelate_var3_ptr_split := split_ptr recorrelate_var3.
(** src/core/dxt-lossless-transform-common/src/color_565/decorrelate_batch_split_ptr.rs:324-358 *)
Definition recorrelate_ptr_split (debug : bool) (src_0 src_1 dst n : Z) (v : variant) (mem : list Z) : res (list Z) :=
  match v with
  | V1 => recorrelate_var1_ptr_split debug src_0 src_1 dst n mem
  | V2 => recorrelate_var2_ptr_split debug src_0 src_1 dst n mem
  | V3 => recorrelate_var3_ptr_split debug src_0 src_1 dst n mem
  | VNone => if 0 <? n then split_ptr (fun color => color) debug src_0 src_1 dst n mem else Ok mem
  end.

(** src/core/dxt-lossless-transform-common/src/color_565/decorrelate_batch_split_slice.rs:77-99, 131-153, 185-207 *)
Definition on_split_slices (run : bool -> Z -> Z -> Z -> Z -> list Z -> res (list Z)) (debug : bool) (src_0 src_1 dst : list Z) : res (list Z) :=
  do _ <- debug_assert debug (zlen src_0 =? zlen src_1) "Both source slices must have the same length" ;;
  do _ <- debug_assert debug (zlen src_0 + zlen src_1 <=? zlen dst) "Destination slice must be at least as large as the combined source slices" ;;
  do mem <- run debug 0 (zlen src_0) (zlen src_0 + zlen src_1) (zlen src_0 + zlen src_1) (src_0 ++ src_1 ++ dst) ;;
  Ok (skipn (List.length (src_0 ++ src_1)) mem).
Definition recorrelate_var1_slice_split := on_split_slices recorrelate_var1_ptr_split.
Definition recorrelate_var2_slice_split := on_split_slices recorrelate_var2_ptr_split.
Definition recorrelate_var3_slice_split := on_split_slices recorrelate_var3_ptr_split.
(** src/core/dxt-lossless-transform-common/src/color_565/decorrelate_batch_split_slice.rs:252-276 *)
Definition recorrelate_slice_split (debug : bool) (v : variant) (src_0 src_1 dst : list Z) : res (list Z) :=
  do _ <- debug_assert debug (zlen src_0 =? zlen src_1) "Source slices must have the same length" ;;
  do _ <- debug_assert debug (zlen src_0 * 2 <=? zlen dst) "Destination slice must be at least twice as large as each source slice" ;;
  do mem <- recorrelate_ptr_split debug 0 (zlen src_0) (zlen src_0 + zlen src_1) (zlen src_0 * 2) v (src_0 ++ src_1 ++ dst) ;;
  Ok (skipn (List.length (src_0 ++ src_1)) mem).
