(** C98: what the buffers held before makes no difference to the normalising functions. *)
From Verif Require Import Base.Bytes Base.Res Model.Color565 Model.Kernel Model.Transform Model.Auto Model.Decode Model.Normalize Model.NormTransform
  Model.BigEndian Model.BeTransform Model.BeFiles Model.BeNormTransform
  Spec.YCoCg Spec.Layout Spec.BigEndian Spec.Pixels Spec.Normalize Spec.Estimator Spec.NormTransform Spec.BeFiles
  Proofs.NormalizeFacts Proofs.BigEndianFacts Proofs.OldContentsNorm Props.Cases Props.PNormTransform.

(** The normalising transform: two memories, which may hold anything outside the texture, and buffers in any places; the bytes
    written to the output are the same. *)
Theorem C98_normalizing : forall c even m1 m2 inp1 inp2 out1 out2 work1 work2 len d, cpu_ok c -> len mod 8 = 0 ->
  within m1 inp1 len -> within m1 out1 len -> within m1 work1 (len / 2) -> inp1 + len <= out1 \/ out1 + len <= inp1 ->
  inp1 + len <= work1 \/ work1 + len / 2 <= inp1 -> work1 + len / 2 <= out1 \/ out1 + len <= work1 ->
  within m2 inp2 len -> within m2 out2 len -> within m2 work2 (len / 2) -> inp2 + len <= out2 \/ out2 + len <= inp2 ->
  inp2 + len <= work2 \/ work2 + len / 2 <= inp2 -> work2 + len / 2 <= out2 \/ out2 + len <= work2 ->
  slice m1 inp1 len = slice m2 inp2 len -> even = true \/ d_decorr d = VNone -> (d_split d = true -> splittable c (len / 8)) ->
  exists m1' m2', transform_bc1_with_normalize_blocks c even inp1 out1 work1 len d m1 = Ok m1' /\
    transform_bc1_with_normalize_blocks c even inp2 out2 work2 len d m2 = Ok m2' /\
    only_changes [(out1, len); (work1, len / 2)] m1 m1' /\ only_changes [(out2, len); (work2, len / 2)] m2 m2' /\ slice m1' out1 len = slice m2' out2 len.
Proof. exact old_norm_transform. Qed.
Print Assumptions C98_normalizing.
(** Its search, with any estimator: the same answer, the same estimator state and, on success, the same output bytes. What newly
    allocated memory contains makes no difference either. *)
Theorem C98_normalizing_search : forall (St Er : Type) c v (e : estimator St Er) all fresh1 fresh2 even m1 m2 inp1 inp2 out1 out2 len st, cpu_ok c -> len mod 8 = 0 ->
  within m1 inp1 len -> within m1 out1 len -> inp1 + len <= out1 \/ out1 + len <= inp1 ->
  within m2 inp2 len -> within m2 out2 len -> inp2 + len <= out2 \/ out2 + len <= inp2 ->
  slice m1 inp1 len = slice m2 inp2 len ->
  (c_debug c = true -> 0 < len) -> (normalisable (slice m1 inp1 len) -> even = true /\ splittable c (len / 8)) ->
  exists r st' m1' m2',
    transform_bc1_auto_with_normalization c v e all fresh1 even inp1 out1 len m1 st = Ok (r, m1', st') /\
    transform_bc1_auto_with_normalization c v e all fresh2 even inp2 out2 len m2 st = Ok (r, m2', st') /\
    only_changes [(out1, len)] m1 m1' /\ only_changes [(out2, len)] m2 m2' /\ (forall d, r = ROk d -> slice m1' out1 len = slice m2' out2 len).
Proof. exact old_norm_search. Qed.
Print Assumptions C98_normalizing_search.

(** The same on a big-endian machine. *)
Theorem C98_be_normalizing : forall (debug : bool) (junk : byte) even m1 m2 inp1 inp2 out1 out2 work1 work2 len d, len mod 8 = 0 ->
  within m1 inp1 len -> within m1 out1 len -> within m1 work1 (len / 2) -> inp1 + len <= out1 \/ out1 + len <= inp1 ->
  inp1 + len <= work1 \/ work1 + len / 2 <= inp1 -> work1 + len / 2 <= out1 \/ out1 + len <= work1 ->
  within m2 inp2 len -> within m2 out2 len -> within m2 work2 (len / 2) -> inp2 + len <= out2 \/ out2 + len <= inp2 ->
  inp2 + len <= work2 \/ work2 + len / 2 <= inp2 -> work2 + len / 2 <= out2 \/ out2 + len <= work2 ->
  slice m1 inp1 len = slice m2 inp2 len -> even = true \/ d_decorr d = VNone -> (debug = true -> d_split d = true -> 0 < len) ->
  exists m1' m2', be_transform_bc1_with_normalize_blocks (big_endian_cpu debug junk) even inp1 out1 work1 len d m1 = Ok m1' /\
    be_transform_bc1_with_normalize_blocks (big_endian_cpu debug junk) even inp2 out2 work2 len d m2 = Ok m2' /\
    only_changes [(out1, len); (work1, len / 2)] m1 m1' /\ only_changes [(out2, len); (work2, len / 2)] m2 m2' /\ slice m1' out1 len = slice m2' out2 len.
Proof.
  intros debug junk even m1 m2 inp1 inp2 out1 out2 work1 work2 len d.
  exact (be_old_norm_transform (big_endian_cpu debug junk) even m1 m2 inp1 inp2 out1 out2 work1 work2 len d (big_endian_ok debug junk)).
Qed.
Print Assumptions C98_be_normalizing.
Theorem C98_be_normalizing_search : forall (St Er : Type) (debug : bool) (junk : byte) v (e : estimator St Er) all fresh1 fresh2 even m1 m2 inp1 inp2 out1 out2 len st, len mod 8 = 0 ->
  within m1 inp1 len -> within m1 out1 len -> inp1 + len <= out1 \/ out1 + len <= inp1 ->
  within m2 inp2 len -> within m2 out2 len -> inp2 + len <= out2 \/ out2 + len <= inp2 ->
  slice m1 inp1 len = slice m2 inp2 len ->
  (debug = true -> 0 < len) -> (normalisable (slice m1 inp1 len) -> even = true) ->
  exists r st' m1' m2',
    be_transform_bc1_auto_with_normalization (big_endian_cpu debug junk) v e all fresh1 even inp1 out1 len m1 st = Ok (r, m1', st') /\
    be_transform_bc1_auto_with_normalization (big_endian_cpu debug junk) v e all fresh2 even inp2 out2 len m2 st = Ok (r, m2', st') /\
    only_changes [(out1, len)] m1 m1' /\ only_changes [(out2, len)] m2 m2' /\ (forall d, r = ROk d -> slice m1' out1 len = slice m2' out2 len).
Proof.
  intros St Er debug junk v e all fresh1 fresh2 even m1 m2 inp1 inp2 out1 out2 len st.
  exact (be_old_norm_search St Er (big_endian_cpu debug junk) v e all fresh1 fresh2 even m1 m2 inp1 inp2 out1 out2 len st (big_endian_ok debug junk)).
Qed.
Print Assumptions C98_be_normalizing_search.

(** A transparent block and a red one, searched and then written with normalisation and decorrelation, in two memories laid out
    differently and filled with different bytes. *)
Example C98_norm_met : let m1 := transparent_block ++ red_block ++ repeat xdd 24 in
  let m2 := repeat x11 24 ++ transparent_block ++ red_block in
  let v := Env (2 ^ 64 - 1) (fun _ => true) in
  let e := pure (fun n => ROk (2 * n)) (fun d _ => ROk (5000 - fold_right Z.add 0 (map b2z d)) : result Z unit) in
  let d := Details ReplicateColor V1 true in
  cpu_ok plain_cpu /\ splittable plain_cpu (16 / 8) /\ slice m1 0 16 = slice m2 24 16 /\ normalisable (slice m1 0 16) /\
  within m1 0 16 /\ within m1 16 16 /\ within m1 32 (16 / 2) /\ within m2 24 16 /\ within m2 8 16 /\ within m2 0 (16 / 2) /\
  (exists m1' m2', transform_bc1_with_normalize_blocks plain_cpu true 0 16 32 16 d m1 = Ok m1' /\
    transform_bc1_with_normalize_blocks plain_cpu true 24 8 0 16 d m2 = Ok m2' /\ slice m1' 16 16 = slice m2' 8 16 /\
    slice m1' 16 16 <> slice m1 16 16) /\
  (exists d' m1' m2', transform_bc1_auto_with_normalization plain_cpu v e true (fun _ => xcc) true 0 16 16 m1 tt = Ok (ROk d', m1', tt) /\
    transform_bc1_auto_with_normalization plain_cpu v e true (fun i => z2b i) true 24 8 16 m2 tt = Ok (ROk d', m2', tt) /\
    slice m1' 16 16 = slice m2' 8 16 /\ d_norm d' <> CNone).
Proof.
  cbv zeta. split; [constructor; intros H; discriminate H|]. split; [split; [reflexivity|intros H; discriminate H]|]. split; [reflexivity|].
  split. { exists 0. split; [lia|]. split; [vm_compute; intros H; discriminate H|]. apply bc1_N_iff. vm_compute. reflexivity. }
  do 6 (split; [split; vm_compute; [|split]; intros H; discriminate H|]). split.
  - do 2 eexists. split; [vm_compute; reflexivity|]. split; [vm_compute; reflexivity|]. split; [vm_compute; reflexivity|vm_compute; intros H; discriminate H].
  - do 3 eexists. split; [vm_compute; reflexivity|]. split; [vm_compute; reflexivity|]. split; [vm_compute; reflexivity|discriminate].
Qed.
