(** C95: normalising does not depend on the machine. *)
From Verif Require Import Base.Bytes Base.Res Model.Color565 Model.Kernel Model.Transform Model.Auto Model.Decode Model.Normalize Model.NormTransform
  Model.BigEndian Model.BeTransform Model.BeFiles Model.BeNormTransform
  Spec.YCoCg Spec.Layout Spec.BigEndian Spec.Pixels Spec.Normalize Spec.Estimator Spec.NormTransform Spec.BeFiles Spec.Release
  Proofs.NormalizeFacts Proofs.BigEndianFacts Proofs.NormMachines Proofs.NormDebug Props.Cases Props.PNormTransform.

(** C95: two little-endian machines, with work buffers in different places, write the same bytes. *)
Theorem C95_transform : forall c1 c2 even1 even2 m inp out work1 work2 len d, cpu_ok c1 -> cpu_ok c2 -> len mod 8 = 0 ->
  within m inp len -> within m out len -> within m work1 (len / 2) -> within m work2 (len / 2) -> inp + len <= out \/ out + len <= inp ->
  inp + len <= work1 \/ work1 + len / 2 <= inp -> work1 + len / 2 <= out \/ out + len <= work1 ->
  inp + len <= work2 \/ work2 + len / 2 <= inp -> work2 + len / 2 <= out \/ out + len <= work2 ->
  even1 = true \/ d_decorr d = VNone -> even2 = true \/ d_decorr d = VNone ->
  (d_split d = true -> splittable c1 (len / 8)) -> (d_split d = true -> splittable c2 (len / 8)) ->
  exists m1 m2, transform_bc1_with_normalize_blocks c1 even1 inp out work1 len d m = Ok m1 /\
    transform_bc1_with_normalize_blocks c2 even2 inp out work2 len d m = Ok m2 /\
    only_changes [(out, len); (work1, len / 2)] m m1 /\ only_changes [(out, len); (work2, len / 2)] m m2 /\ slice m1 out len = slice m2 out len.
Proof. exact norm_transform_same. Qed.
Print Assumptions C95_transform.

(** C95: their searches, with any estimator and whatever newly allocated memory contains, give the same answer and leave the
    estimator in the same state; if they succeed, all memory is the same. *)
Theorem C95_search : forall (St Er : Type) c1 c2 v (e : estimator St Er) all fresh1 fresh2 even1 even2 m inp out len st, cpu_ok c1 -> cpu_ok c2 -> len mod 8 = 0 ->
  within m inp len -> within m out len -> inp + len <= out \/ out + len <= inp ->
  (c_debug c1 = true -> 0 < len) -> (c_debug c2 = true -> 0 < len) ->
  (normalisable (slice m inp len) -> even1 = true /\ even2 = true /\ splittable c1 (len / 8) /\ splittable c2 (len / 8)) ->
  exists r st' m1 m2,
    transform_bc1_auto_with_normalization c1 v e all fresh1 even1 inp out len m st = Ok (r, m1, st') /\
    transform_bc1_auto_with_normalization c2 v e all fresh2 even2 inp out len m st = Ok (r, m2, st') /\
    only_changes [(out, len)] m m1 /\ only_changes [(out, len)] m m2 /\ (forall d, r = ROk d -> m1 = m2).
Proof. exact norm_search_same. Qed.
Print Assumptions C95_search.

(** C95: the same for two big-endian machines. *)
Theorem C95_be_transform : forall (d1 d2 : bool) (j1 j2 : byte) even1 even2 m inp out work1 work2 len d, len mod 8 = 0 ->
  within m inp len -> within m out len -> within m work1 (len / 2) -> within m work2 (len / 2) -> inp + len <= out \/ out + len <= inp ->
  inp + len <= work1 \/ work1 + len / 2 <= inp -> work1 + len / 2 <= out \/ out + len <= work1 ->
  inp + len <= work2 \/ work2 + len / 2 <= inp -> work2 + len / 2 <= out \/ out + len <= work2 ->
  even1 = true \/ d_decorr d = VNone -> even2 = true \/ d_decorr d = VNone ->
  (d1 = true -> d_split d = true -> 0 < len) -> (d2 = true -> d_split d = true -> 0 < len) ->
  exists m1 m2, be_transform_bc1_with_normalize_blocks (big_endian_cpu d1 j1) even1 inp out work1 len d m = Ok m1 /\
    be_transform_bc1_with_normalize_blocks (big_endian_cpu d2 j2) even2 inp out work2 len d m = Ok m2 /\
    only_changes [(out, len); (work1, len / 2)] m m1 /\ only_changes [(out, len); (work2, len / 2)] m m2 /\ slice m1 out len = slice m2 out len.
Proof.
  intros d1 d2 j1 j2 even1 even2 m inp out work1 work2 len d.
  exact (be_norm_transform_same (big_endian_cpu d1 j1) (big_endian_cpu d2 j2) even1 even2 m inp out work1 work2 len d (big_endian_ok d1 j1) (big_endian_ok d2 j2)).
Qed.
Print Assumptions C95_be_transform.
Theorem C95_be_search : forall (St Er : Type) (d1 d2 : bool) (j1 j2 : byte) v (e : estimator St Er) all fresh1 fresh2 even1 even2 m inp out len st, len mod 8 = 0 ->
  within m inp len -> within m out len -> inp + len <= out \/ out + len <= inp ->
  (d1 = true -> 0 < len) -> (d2 = true -> 0 < len) -> (normalisable (slice m inp len) -> even1 = true /\ even2 = true) ->
  exists r st' m1 m2,
    be_transform_bc1_auto_with_normalization (big_endian_cpu d1 j1) v e all fresh1 even1 inp out len m st = Ok (r, m1, st') /\
    be_transform_bc1_auto_with_normalization (big_endian_cpu d2 j2) v e all fresh2 even2 inp out len m st = Ok (r, m2, st') /\
    only_changes [(out, len)] m m1 /\ only_changes [(out, len)] m m2 /\ (forall d, r = ROk d -> m1 = m2).
Proof.
  intros St Er d1 d2 j1 j2 v e all fresh1 fresh2 even1 even2 m inp out len st.
  exact (be_norm_search_same St Er (big_endian_cpu d1 j1) (big_endian_cpu d2 j2) v e all fresh1 fresh2 even1 even2 m inp out len st (big_endian_ok d1 j1) (big_endian_ok d2 j2)).
Qed.
Print Assumptions C95_be_search.

(** C95: whatever the buffers, lengths and modes, a debug build normalises as the release build does or panics. *)
Theorem C95_normalize : forall inp out outs len mode amode m,
  same_or_panics (bc1_normalize_blocks true inp out len mode m) (bc1_normalize_blocks false inp out len mode m) /\
  same_or_panics (bc2_normalize_blocks true inp out len mode m) (bc2_normalize_blocks false inp out len mode m) /\
  same_or_panics (bc3_normalize_blocks true inp out len amode mode m) (bc3_normalize_blocks false inp out len amode mode m) /\
  same_or_panics (bc1_normalize_blocks_all_modes true inp outs len m) (bc1_normalize_blocks_all_modes false inp outs len m) /\
  same_or_panics (bc2_normalize_blocks_all_modes true inp outs len m) (bc2_normalize_blocks_all_modes false inp outs len m) /\
  same_or_panics (bc3_normalize_blocks_all_modes true inp outs len m) (bc3_normalize_blocks_all_modes false inp outs len m).
Proof. exact norm_debug. Qed.
Print Assumptions C95_normalize.

(** A transparent block and a red one, searched on a debug machine without vector units and on one with AVX-512 VBMI, whose
    new memory differs; and on two big-endian machines. *)
Definition vbmi_cpu : cfg := Cfg false X86_64 false true true true true true true true xaa.
Example C95_met : let m := transparent_block ++ red_block ++ repeat xdd 16 in
  let v := Env (2 ^ 64 - 1) (fun _ => true) in
  let e := pure (fun n => ROk (2 * n)) (fun d _ => ROk (5000 - fold_right Z.add 0 (map b2z d)) : result Z unit) in
  cpu_ok plain_cpu /\ cpu_ok vbmi_cpu /\ splittable plain_cpu (16 / 8) /\ splittable vbmi_cpu (16 / 8) /\ within m 0 16 /\ within m 16 16 /\ normalisable (slice m 0 16) /\
  (exists d m', transform_bc1_auto_with_normalization plain_cpu v e true (fun _ => xcc) true 0 16 16 m tt = Ok (ROk d, m', tt) /\
    transform_bc1_auto_with_normalization vbmi_cpu v e true (fun i => z2b i) true 0 16 16 m tt = Ok (ROk d, m', tt) /\ d_norm d <> CNone) /\
  (exists d m', be_transform_bc1_auto_with_normalization (big_endian_cpu true xaa) v e true (fun _ => xcc) true 0 16 16 m tt = Ok (ROk d, m', tt) /\
    be_transform_bc1_auto_with_normalization (big_endian_cpu false x11) v e true (fun i => z2b i) true 0 16 16 m tt = Ok (ROk d, m', tt)).
Proof.
  cbv zeta. split; [constructor; intros H; discriminate H|]. split; [constructor; intros; try reflexivity; discriminate|].
  split; [split; [reflexivity|intros H; discriminate H]|]. split; [split; [intros H; discriminate H|intros _ H; discriminate H]|].
  split; [split; vm_compute; [|split]; intros H; discriminate H|]. split; [split; vm_compute; [|split]; intros H; discriminate H|].
  split. { exists 0. split; [lia|]. split; [vm_compute; intros H; discriminate H|]. apply bc1_N_iff. vm_compute. reflexivity. }
  split; do 2 eexists.
  - split; [vm_compute; reflexivity|]. split; [vm_compute; reflexivity|]. discriminate.
  - split; vm_compute; reflexivity.
Qed.
