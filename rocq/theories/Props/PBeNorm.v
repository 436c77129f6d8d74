(** C85: the BC1 transform with block normalisation, and its search, on a big-endian machine. Spec/Pixels.v says what the pixels of
    a block are, Spec/Normalize.v what its normal form is, Spec/BigEndian.v how a big-endian machine lays out a transformed texture. *)
From Verif Require Import Base.Bytes Base.Res Model.Color565 Model.Kernel Model.Transform Model.Auto Model.Decode Model.Normalize Model.NormTransform
  Model.BigEndian Model.BeTransform Model.BeFiles Model.BeNormTransform
  Spec.YCoCg Spec.Layout Spec.BigEndian Spec.Pixels Spec.Normalize Spec.Estimator Spec.NormTransform Spec.BeFiles Proofs.NormalizeFacts Proofs.BeNormProps Props.Cases Props.PNormTransform.

(** C85: on a big-endian machine the output is the transform of a texture [y] in which blocks are normalised and no pixel has
    changed; restoring the output with the settings kept in the details, on a big-endian machine, gives [y]. Nothing but the output
    and the work buffer changes. Unlike on x86 (C51_short_refuted) any number of blocks will do. Partial: with a decorrelation mode
    the address of the output must be even, see C85_be_odd_address_refuted; a debug build does not take an empty texture with split
    endpoints. *)
Theorem C85_be_normalising_transform_partial : forall (d1 d2 : bool) (j1 j2 : byte) (even : bool) (m : list byte) (inp out work len : Z) (d : details) (out2 : list byte),
  len mod 8 = 0 -> within m inp len -> within m out len -> within m work (len / 2) ->
  inp + len <= out \/ out + len <= inp -> inp + len <= work \/ work + len / 2 <= inp -> work + len / 2 <= out \/ out + len <= work ->
  even = true \/ d_decorr d = VNone -> (d1 = true -> d_split d = true -> 0 < len) -> len <= zlen out2 ->
  exists m' y, be_transform_bc1_with_normalize_blocks (big_endian_cpu d1 j1) even inp out work len d m = Ok m' /\ only_changes [(out, len); (work, len / 2)] m m' /\
    blockwise 8 (bc1_normal (d_norm d)) (slice m inp len) y /\
    blockwise 8 (fun b b' => picture bc1_pixel b' = picture bc1_pixel b) (slice m inp len) y /\
    slice m' out len = be_bc1_layout (d_decorr d) (d_split d) y /\
    be_untransform_bc1 (big_endian_cpu d2 j2) (untransform_settings d) (slice m' out len) out2 = Ok (ROk tt, y ++ skipn (Z.to_nat len) out2).
Proof. exact be_norm_round_trip. Qed.
Print Assumptions C85_be_normalising_transform_partial.

(** C85: without normalisation it writes what the ordinary big-endian transform writes. *)
Theorem C85_be_mode_none_partial : forall (d1 d2 : bool) (j1 j2 : byte) (even : bool) (m : list byte) (inp out work len : Z) (d : details) (m' out2 : list byte),
  len mod 8 = 0 -> within m inp len -> within m out len -> within m work (len / 2) ->
  inp + len <= out \/ out + len <= inp -> inp + len <= work \/ work + len / 2 <= inp -> work + len / 2 <= out \/ out + len <= work ->
  even = true \/ d_decorr d = VNone -> (d1 = true -> d_split d = true -> 0 < len) -> len <= zlen out2 ->
  d_norm d = CNone -> be_transform_bc1_with_normalize_blocks (big_endian_cpu d1 j1) even inp out work len d m = Ok m' ->
  be_transform_bc1 (big_endian_cpu d2 j2) (untransform_settings d) (slice m inp len) out2 = Ok (ROk tt, slice m' out len ++ skipn (Z.to_nat len) out2).
Proof. exact be_norm_none. Qed.
Print Assumptions C85_be_mode_none_partial.

(** C85: without decorrelation it writes the bytes a little-endian machine writes. *)
Theorem C85_be_same_as_little_endian_partial : forall (c : cfg) (debug : bool) (junk : byte) (even even' : bool) (m : list byte) (inp out work len : Z) (d : details) (m1 m2 : list byte),
  cpu_ok c -> len mod 8 = 0 -> within m inp len -> within m out len -> within m work (len / 2) ->
  inp + len <= out \/ out + len <= inp -> inp + len <= work \/ work + len / 2 <= inp -> work + len / 2 <= out \/ out + len <= work ->
  (d_split d = true -> splittable c (len / 8)) -> (debug = true -> d_split d = true -> 0 < len) -> d_decorr d = VNone ->
  transform_bc1_with_normalize_blocks c even inp out work len d m = Ok m1 ->
  be_transform_bc1_with_normalize_blocks (big_endian_cpu debug junk) even' inp out work len d m = Ok m2 ->
  slice m1 out len = slice m2 out len.
Proof. exact be_norm_same. Qed.
Print Assumptions C85_be_same_as_little_endian_partial.

(** An output at an odd address is undefined behaviour with every decorrelation mode. *)
Theorem C85_be_odd_address_refuted : forall (debug : bool) (junk : byte) (m : list byte) (inp out work len : Z) (d : details),
  len mod 8 = 0 -> within m inp len -> within m out len -> within m work (len / 2) ->
  inp + len <= out \/ out + len <= inp -> inp + len <= work \/ work + len / 2 <= inp -> work + len / 2 <= out \/ out + len <= work ->
  0 < len -> d_decorr d <> VNone ->
  exists why, be_transform_bc1_with_normalize_blocks (big_endian_cpu debug junk) false inp out work len d m = Ub why.
Proof. exact be_norm_odd. Qed.
Print Assumptions C85_be_odd_address_refuted.

(** C85: whatever the estimator answers, the search ends, changes only the output, and on success the output is the big-endian
    transform, with the details returned, of a texture with the same pixels; a failure is a failed allocation or an error the
    estimator gave. Also for an empty texture in a debug build. Partial: if some block can be normalised, the address must be even. *)
Theorem C85_be_normalising_search_partial : forall (St Er : Type) (debug : bool) (junk : byte) (v : env) (e : estimator St Er) (all : bool) (fresh : Z -> byte) (even : bool)
    (m : list byte) (inp out len : Z) (st : St), len mod 8 = 0 ->
  within m inp len -> within m out len -> inp + len <= out \/ out + len <= inp ->
  (normalisable (slice m inp len) -> even = true) ->
  exists r m' st', be_transform_bc1_auto_with_normalization (big_endian_cpu debug junk) v e all fresh even inp out len m st = Ok (r, m', st') /\
    only_changes [(out, len)] m m' /\
    match r with
    | ROk d => candidate all (d_decorr d) /\ exists y, blockwise 8 (bc1_normal (d_norm d)) (slice m inp len) y /\
        blockwise 8 (fun b b' => picture bc1_pixel b' = picture bc1_pixel b) (slice m inp len) y /\
        slice m' out len = be_bc1_layout (d_decorr d) (d_split d) y
    | RErr AllocateError => exists n, alloc_ok v n = false
    | RErr (SizeEstimationError e1) => (exists st1 st2, max_compressed_size e st1 (len / 2) = (RErr e1, st2)) \/
        (exists st1 d n st2, estimate_compressed_size e st1 d n = (RErr e1, st2))
    end.
Proof. exact be_norm_search. Qed.
Print Assumptions C85_be_normalising_search_partial.

(** C85: with a deterministic estimator no candidate has a smaller estimate than the details returned, where a candidate is
    measured as in C52 (Spec/NormTransform.v). *)
Theorem C85_be_normalising_search_best_partial : forall (Er : Type) (debug : bool) (junk : byte) (v : env) (mx : Z -> result Z Er) (size : list byte -> Z -> result Z Er)
    (all : bool) (fresh : Z -> byte) (even : bool) (m : list byte) (inp out len : Z) (d : details) (m' : list byte), len mod 8 = 0 ->
  within m inp len -> within m out len -> inp + len <= out \/ out + len <= inp -> normalisable (slice m inp len) ->
  be_transform_bc1_auto_with_normalization (big_endian_cpu debug junk) v (pure mx size) all fresh even inp out len m tt = Ok (ROk d, m', tt) ->
  exists scratch, mx (len / 2) = ROk scratch /\
  forall d' y' z', candidate all (d_decorr d') -> blockwise 8 (measured (d_norm d')) (slice m inp len) y' ->
    total_size (fun b => size b scratch) (be_bc1_shown y' (untransform_settings d')) = ROk z' -> z' < usize_max v ->
    exists y z, blockwise 8 (measured (d_norm d)) (slice m inp len) y /\
      total_size (fun b => size b scratch) (be_bc1_shown y (untransform_settings d)) = ROk z /\ z <= z'.
Proof. exact be_norm_best. Qed.
Print Assumptions C85_be_normalising_search_best_partial.

(** C85: if nothing can be normalised, the outcome is that of the ordinary big-endian search. *)
Theorem C85_be_nothing_to_normalise : forall (Er : Type) (debug : bool) (junk : byte) (v : env) (mx : Z -> result Z Er) (size : list byte -> Z -> result Z Er)
    (all : bool) (fresh : Z -> byte) (even : bool) (m : list byte) (inp out len : Z) r y, len mod 8 = 0 ->
  within m inp len -> within m out len -> inp + len <= out \/ out + len <= inp ->
  ~ normalisable (slice m inp len) -> alloc_ok v len = true ->
  be_transform_bc1_auto (big_endian_cpu debug junk) v (pure mx size) all (slice m inp len) (slice m out len) tt = Ok (r, y, tt) ->
  match r with
  | ROk s => exists m', be_transform_bc1_auto_with_normalization (big_endian_cpu debug junk) v (pure mx size) all fresh even inp out len m tt = Ok (ROk (details_of_settings s), m', tt) /\ slice m' out len = y
  | RErr (DetermineBestTransform err) => exists m', be_transform_bc1_auto_with_normalization (big_endian_cpu debug junk) v (pure mx size) all fresh even inp out len m tt = Ok (RErr err, m', tt)
  | RErr _ => False
  end.
Proof. exact be_norm_plain. Qed.
Print Assumptions C85_be_nothing_to_normalise.

(** The work buffer, the output, and three blocks: transparent, one colour, neither. *)
Definition three_blocks : list byte := repeat xee 12 ++ repeat xdd 24 ++ transparent_block ++ red_block ++ other_block.

Ltac met_norm := cbv zeta; repeat lazymatch goal with |- _ /\ _ => split end; lazymatch goal with
  | |- within _ _ _ => split; vm_compute; [|split]; intros H; discriminate H
  | |- cpu_ok plain_cpu => constructor; intros H; discriminate H
  | |- normalisable _ -> _ => intros _; reflexivity
  | |- _ -> splittable _ _ => intros _; split; [reflexivity|intros H; discriminate H]
  | |- normalisable _ => exists 0; split; [lia|]; split; [vm_compute; intros H; discriminate H|]; apply bc1_N_iff; vm_compute; reflexivity
  | |- _ = true \/ _ => left; reflexivity
  | |- _ <> VNone => discriminate
  | |- _ \/ _ => lia
  | _ => met1
  end.

(** two big-endian machines, one a debug build *)
Example C85_be_normalising_transform_partial_met :
  let d1 := true in let even := true in let m := three_blocks in let inp := 36 in let out := 12 in let work := 0 in let len := 24 in
  let d := Details ReplicateColor V2 true in let out2 := repeat x11 30 in
  len mod 8 = 0 /\ within m inp len /\ within m out len /\ within m work (len / 2) /\ (inp + len <= out \/ out + len <= inp) /\
  (inp + len <= work \/ work + len / 2 <= inp) /\ (work + len / 2 <= out \/ out + len <= work) /\ (even = true \/ d_decorr d = VNone) /\
  (d1 = true -> d_split d = true -> 0 < len) /\ len <= zlen out2.
Proof. met_norm. Qed.

(** What it writes: the normalised texture, its colours decorrelated as big-endian numbers, and what is restored. *)
Example C85_be_case : let d := Details ReplicateColor V2 true in
  exists m', be_transform_bc1_with_normalize_blocks (big_endian_cpu true x00) true 36 12 0 24 d three_blocks = Ok m' /\
    slice m' 24 12 = [xff; xff; xff; xff; x00; x00; x00; x00; xe4; xff; xff; xff] /\
    be_untransform_bc1 (big_endian_cpu false x11) (untransform_settings d) (slice m' 12 24) (repeat x00 24) =
      Ok (ROk tt, repeat xff 8 ++ [x00; xf8; x00; xf8; x00; x00; x00; x00] ++ other_block).
Proof. cbv zeta. eexists. split; [vm_compute; reflexivity|]. split; vm_compute; reflexivity. Qed.

Example C85_be_mode_none_partial_met : let d := Details CNone V1 true in let m := three_blocks in
  d_norm d = CNone /\ (exists m', be_transform_bc1_with_normalize_blocks (big_endian_cpu true x00) true 36 12 0 24 d m = Ok m') /\
  24 mod 8 = 0 /\ within m 36 24 /\ within m 12 24 /\ within m 0 (24 / 2) /\ (36 + 24 <= 12 \/ 12 + 24 <= 36) /\
  (36 + 24 <= 0 \/ 0 + 24 / 2 <= 36) /\ (0 + 24 / 2 <= 12 \/ 12 + 24 <= 0) /\ 24 <= zlen (repeat x11 30).
Proof. cbv zeta. split; [reflexivity|]. split; [eexists; vm_compute; reflexivity|]. met_norm. Qed.

Example C85_be_same_as_little_endian_partial_met : let d := Details Color0Only VNone true in let m := three_blocks in
  cpu_ok plain_cpu /\ (d_split d = true -> splittable plain_cpu (24 / 8)) /\ d_decorr d = VNone /\
  (exists m1 m2, transform_bc1_with_normalize_blocks plain_cpu false 36 12 0 24 d m = Ok m1 /\
    be_transform_bc1_with_normalize_blocks (big_endian_cpu true x00) true 36 12 0 24 d m = Ok m2).
Proof.
  cbv zeta. split; [constructor; intros H; discriminate H|]. split; [intros _; split; [reflexivity|intros H; discriminate H]|]. split; [reflexivity|].
  do 2 eexists. split; vm_compute; reflexivity.
Qed.

Example C85_be_odd_address_refuted_met : let d := Details ReplicateColor V3 false in d_decorr d <> VNone /\ 0 < 24 /\
  exists why, be_transform_bc1_with_normalize_blocks (big_endian_cpu false x00) false 36 12 0 24 d three_blocks = Ub why.
Proof. cbv zeta. split; [discriminate|]. split; [lia|]. eexists. vm_compute. reflexivity. Qed.

(** Two blocks, one transparent, one red: the search finds that normalising them gives the smallest estimate. *)
Example C85_be_normalising_search_met : let m := transparent_block ++ red_block ++ repeat xdd 16 in
  16 mod 8 = 0 /\ within m 0 16 /\ within m 16 16 /\ normalisable (slice m 0 16) /\
  exists m', be_transform_bc1_auto_with_normalization (big_endian_cpu true x00) (Env (2 ^ 64 - 1) (fun _ => true))
    (pure (fun n => ROk (2 * n)) (fun d _ => ROk (fold_right Z.add 0 (map (fun b => 255 - b2z b) d)) : result Z unit)) false (fun _ => xcc) true 0 16 16 m tt =
    Ok (ROk (Details ReplicateColor VNone false), m', tt) /\
  slice m' 16 16 = [xff; xff; xff; xff; x00; xf8; x00; xf8; xff; xff; xff; xff; x00; x00; x00; x00].
Proof.
  cbv zeta. split; [reflexivity|]. split; [split; vm_compute; [|split]; intros H; discriminate H|]. split; [split; vm_compute; [|split]; intros H; discriminate H|].
  split.
  - exists 0. split; [lia|]. split; [vm_compute; intros H; discriminate H|]. apply bc1_N_iff. vm_compute. reflexivity.
  - eexists. split; vm_compute; reflexivity.
Qed.

(** A block of two colours cannot be normalised: the ordinary search is run. *)
Example C85_be_nothing_to_normalise_met : let m := other_block ++ repeat xdd 8 in
  ~ normalisable (slice m 0 8) /\
  exists s y, be_transform_bc1_auto (big_endian_cpu true x00) (Env (2 ^ 64 - 1) (fun _ => true))
    (pure (fun n => ROk (2 * n)) (fun d _ => ROk (fold_right Z.add 0 (map b2z d)) : result Z unit)) true (slice m 0 8) (slice m 8 8) tt = Ok (ROk s, y, tt).
Proof.
  cbv zeta. split; [|do 2 eexists; vm_compute; reflexivity]. intros (k & K0 & K1 & N). change (zlen (slice (other_block ++ repeat xdd 8) 0 8)) with 8 in K1.
  assert (k = 0) by lia. subst k. apply bc1_N_iff in N. vm_compute in N. discriminate N.
Qed.
