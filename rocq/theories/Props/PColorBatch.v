(** C04: the batch colour functions. *)
From Verif Require Import Base.Bytes Base.Res Model.Color565 Model.ColorSlices Spec.ColorSlices Proofs.ColorSlicesFacts Props.Cases.
Open Scope string_scope.
Open Scope list_scope.
Open Scope Z_scope.

(** C04 (slices, result): the first [src.len()] colours of the destination become
    the converted source colours, in order; the rest of it stays. *)
Theorem C04_slices_elementwise : forall (debug : bool) (v : variant) (src dst : list Z), zlen src <= zlen dst ->
  decorrelate_slice debug v src dst = Ok (map (decorrelate v) src ++ skipn (List.length src) dst) /\
  recorrelate_slice debug v src dst = Ok (map (recorrelate v) src ++ skipn (List.length src) dst).
Proof. exact (fun debug v src dst H => conj (decorrelate_slice_ok debug v src dst H) (recorrelate_slice_ok debug v src dst H)). Qed.
Print Assumptions C04_slices_elementwise.
(** three colours into a slice of four *)
Example C04_slices_elementwise_met :
  let debug := true in let v := V1 in let src := [51914; 0; 65535] in let dst := [1; 2; 3; 4] in
  zlen src <= zlen dst.
Proof. met. Qed.

(** C04 (slices): decorrelating a slice and recorrelating what was written gives
    the slice back, and the other way round, whatever the lengths. *)
Theorem C04_slices_round_trip : forall (v : variant) (d1 d2 : bool) (src dst out : list Z),
  colours src -> zlen src <= zlen dst -> zlen src <= zlen out ->
  (exists enc, decorrelate_slice d1 v src dst = Ok (enc ++ skipn (List.length src) dst) /\ List.length enc = List.length src /\ colours enc /\
     recorrelate_slice d2 v enc out = Ok (src ++ skipn (List.length src) out)) /\
  (exists dec, recorrelate_slice d1 v src dst = Ok (dec ++ skipn (List.length src) dst) /\ List.length dec = List.length src /\ colours dec /\
     decorrelate_slice d2 v dec out = Ok (src ++ skipn (List.length src) out)).
Proof. exact slices_round_trip. Qed.
Print Assumptions C04_slices_round_trip.
(** three colours, by a debug and a release build *)
Example C04_slices_round_trip_met :
  let v := V1 in let d1 := true in let d2 := false in let src := [51914; 0; 65535] in let dst := [1; 2; 3; 4] in let out := [9; 9; 9] in
  colours src /\ zlen src <= zlen dst /\ zlen src <= zlen out.
Proof. met. Qed.

(** C04 (pointers): inside one array, from a range to the same range or to one
    apart from it, exactly the destination range changes. *)
Theorem C04_pointers_elementwise : forall (v : variant) (mem : list Z) (src dst n : Z),
  0 <= src -> 0 <= dst -> 0 <= n -> src + n <= zlen mem -> dst + n <= zlen mem -> same_or_apart src dst n ->
  decorrelate_ptr src dst n v mem = Ok (splice mem dst (map (decorrelate v) (slice mem src n))) /\
  recorrelate_ptr src dst n v mem = Ok (splice mem dst (map (recorrelate v) (slice mem src n))).
Proof. exact (fun v mem src dst n H1 H2 H3 H4 H5 A => conj (decorrelate_ptr_ok v mem src dst n H1 H2 H3 H4 H5 A) (recorrelate_ptr_ok v mem src dst n H1 H2 H3 H4 H5 A)). Qed.
Print Assumptions C04_pointers_elementwise.
(** two colours to a place that does not overlap *)
Example C04_pointers_elementwise_met :
  let v := V2 in let mem := [5; 51914; 51914; 6; 0; 0] in let src := 1 in let dst := 3 in let n := 2 in
  0 <= src /\ 0 <= dst /\ 0 <= n /\ src + n <= zlen mem /\ dst + n <= zlen mem /\ same_or_apart src dst n.
Proof. met. Qed.

(** C04 (in place): any range of any array, converted in place and back. *)
Theorem C04_in_place_round_trip : forall (v : variant) (mem : list Z) (off n : Z),
  colours mem -> 0 <= off -> 0 <= n -> off + n <= zlen mem ->
  (exists enc, decorrelate_ptr off off n v mem = Ok enc /\ recorrelate_ptr off off n v enc = Ok mem) /\
  (exists dec, recorrelate_ptr off off n v mem = Ok dec /\ decorrelate_ptr off off n v dec = Ok mem).
Proof. exact in_place_round_trip. Qed.
Print Assumptions C04_in_place_round_trip.
(** the two colours in the middle *)
Example C04_in_place_round_trip_met :
  let v := V2 in let mem := [5; 51914; 51914; 6] in let off := 1 in let n := 2 in
  colours mem /\ 0 <= off /\ 0 <= n /\ off + n <= zlen mem.
Proof. met. Qed.

(** C04 (split): two decorrelated arrays of first and second endpoints come back
    as the alternating original colours. *)
Theorem C04_split_round_trip : forall (v : variant) (debug : bool) (s0 s1 dst : list Z),
  colours s0 -> colours s1 -> List.length s0 = List.length s1 -> 2 * zlen s0 <= zlen dst ->
  recorrelate_slice_split debug v (map (decorrelate v) s0) (map (decorrelate v) s1) dst =
  Ok (interleave s0 s1 ++ skipn (2 * List.length s0) dst).
Proof. exact split_round_trip. Qed.
Print Assumptions C04_split_round_trip.
(** two pairs of colours into a slice of five *)
Example C04_split_round_trip_met :
  let v := V3 in let debug := true in let s0 := [51914; 0] in let s1 := [65535; 51914] in let dst := [1; 1; 1; 1; 7] in
  colours s0 /\ colours s1 /\ List.length s0 = List.length s1 /\ 2 * zlen s0 <= zlen dst.
Proof. met. Qed.

(** C04 (per variant): the functions for one variant are the ones that take the
    variant. *)
Theorem C04_variant_functions : forall (debug : bool) (src dst : list Z), zlen src <= zlen dst ->
  decorrelate_var1_slice debug src dst = decorrelate_slice debug V1 src dst /\
  decorrelate_var2_slice debug src dst = decorrelate_slice debug V2 src dst /\
  decorrelate_var3_slice debug src dst = decorrelate_slice debug V3 src dst /\
  recorrelate_var1_slice debug src dst = recorrelate_slice debug V1 src dst /\
  recorrelate_var2_slice debug src dst = recorrelate_slice debug V2 src dst /\
  recorrelate_var3_slice debug src dst = recorrelate_slice debug V3 src dst.
Proof. exact decorrelate_vars_ok. Qed.
Print Assumptions C04_variant_functions.
(** three colours into a slice of four *)
Example C04_variant_functions_met :
  let debug := true in let src := [51914; 0; 65535] in let dst := [1; 2; 3; 4] in
  zlen src <= zlen dst.
Proof. met. Qed.
Theorem C04_variant_split_functions : forall (debug : bool) (s0 s1 dst : list Z), List.length s0 = List.length s1 -> 2 * zlen s0 <= zlen dst ->
  recorrelate_var1_slice_split debug s0 s1 dst = recorrelate_slice_split debug V1 s0 s1 dst /\
  recorrelate_var2_slice_split debug s0 s1 dst = recorrelate_slice_split debug V2 s0 s1 dst /\
  recorrelate_var3_slice_split debug s0 s1 dst = recorrelate_slice_split debug V3 s0 s1 dst.
Proof. exact split_vars_ok. Qed.
Print Assumptions C04_variant_split_functions.
(** two pairs of colours into a slice of five *)
Example C04_variant_split_functions_met :
  let debug := true in let s0 := [51914; 0] in let s1 := [65535; 51914] in let dst := [1; 1; 1; 1; 7] in
  List.length s0 = List.length s1 /\ 2 * zlen s0 <= zlen dst.
Proof. met. Qed.

(** C04 (too small): debug builds panic when the destination is too small. *)
Theorem C04_small_destination : forall (v : variant) (src dst : list Z), zlen dst < zlen src ->
  decorrelate_slice true v src dst = Panic "Destination slice must be at least as large as source slice" /\
  recorrelate_slice true v src dst = Panic "Destination slice must be at least as large as source slice".
Proof. exact short_destination. Qed.
Print Assumptions C04_small_destination.

Example C04_slices_case :
  decorrelate_slice true V1 [51914; 0; 65535] [1; 2; 3; 4] = Ok [62426; 0; 63520; 4] /\
  recorrelate_slice true V1 [62426; 0; 63520] [9; 9; 9] = Ok [51914; 0; 65535] /\
  decorrelate_ptr 1 1 2 V2 [5; 51914; 51914; 6] = Ok [5; 31226; 31226; 6] /\
  recorrelate_slice_split true V1 [62426; 0] [63520; 62426] [1; 1; 1; 1; 7] = Ok [51914; 65535; 0; 51914; 7].
Proof. repeat split; vm_compute; reflexivity. Qed.
