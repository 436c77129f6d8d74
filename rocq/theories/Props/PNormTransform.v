(** C51, C52: the BC1 transform with block normalisation, and its search. Spec/Pixels.v says what the pixels of a block are,
    Spec/Normalize.v what its normal form is, Spec/Layout.v how a transformed texture is laid out. *)
From Verif Require Import Base.Bytes Base.Res Model.Color565 Model.Kernel Model.Transform Model.Auto Model.Decode Model.Normalize Model.NormTransform
  Spec.YCoCg Spec.Layout Spec.Pixels Spec.Normalize Spec.Estimator Spec.NormTransform Proofs.NormAutoTheorems Proofs.NormShort Props.Cases.

(** C51: the output is the transform of a texture [y] in which blocks are normalised and no pixel has changed; restoring the
    output with the settings kept in the details gives [y]. Nothing but the output and the work buffer changes.
    [even] says whether the address of the output is even. Partial: with split endpoints there must be enough blocks for the
    endpoint splitter, see C51_short_refuted; with a decorrelation mode the address must be even, see C51_odd_address_refuted. *)
Theorem C51_bc1_normalising_transform_partial : forall (c c2 : cfg) (even : bool) (m : list byte) (inp out work len : Z) (d : details) (out2 : list byte),
  cpu_ok c -> cpu_ok c2 -> len mod 8 = 0 -> within m inp len -> within m out len -> within m work (len / 2) ->
  inp + len <= out \/ out + len <= inp -> inp + len <= work \/ work + len / 2 <= inp -> work + len / 2 <= out \/ out + len <= work ->
  even = true \/ d_decorr d = VNone -> (d_split d = true -> splittable c (len / 8)) -> (c_debug c2 = true -> d_split d = true -> 0 < len) -> len <= zlen out2 ->
  exists m' y, transform_bc1_with_normalize_blocks c even inp out work len d m = Ok m' /\ only_changes [(out, len); (work, len / 2)] m m' /\
    blockwise 8 (bc1_normal (d_norm d)) (slice m inp len) y /\
    blockwise 8 (fun b b' => picture bc1_pixel b' = picture bc1_pixel b) (slice m inp len) y /\
    slice m' out len = bc1_layout (d_decorr d) (d_split d) y /\
    untransform_bc1 c2 (untransform_settings d) (slice m' out len) out2 = Ok (ROk tt, y ++ skipn (Z.to_nat len) out2).
Proof. exact lC51. Qed.
Print Assumptions C51_bc1_normalising_transform_partial.

(** C51: without normalisation it writes what the ordinary transform writes. *)
Theorem C51_bc1_mode_none_partial : forall (c c2 : cfg) (even : bool) (m : list byte) (inp out work len : Z) (d : details) (m' out2 : list byte),
  cpu_ok c -> cpu_ok c2 -> len mod 8 = 0 -> within m inp len -> within m out len -> within m work (len / 2) ->
  inp + len <= out \/ out + len <= inp -> inp + len <= work \/ work + len / 2 <= inp -> work + len / 2 <= out \/ out + len <= work ->
  even = true \/ d_decorr d = VNone -> (d_split d = true -> splittable c (len / 8)) -> (c_debug c2 = true -> d_split d = true -> 0 < len) -> len <= zlen out2 ->
  d_norm d = CNone -> transform_bc1_with_normalize_blocks c even inp out work len d m = Ok m' ->
  transform_bc1 c2 (untransform_settings d) (slice m inp len) out2 = Ok (ROk tt, slice m' out len ++ skipn (Z.to_nat len) out2).
Proof. exact lC51_none. Qed.
Print Assumptions C51_bc1_mode_none_partial.

Definition plain_cpu : cfg := Cfg true OtherArch false false false false false false false false x00.
Definition transparent_block : list byte := [x00; x00; x01; x00; xff; xff; xff; xff].
Definition red_block : list byte := [x00; xf8; x00; x00; x00; x00; x00; x00].
Definition other_block : list byte := [x00; x00; x01; x00; xe4; xff; xff; xff].

(** Three blocks: transparent, one colour, neither. The work buffer comes first, then the output, then the input. *)
Example C51_case : let m := repeat xee 12 ++ repeat xdd 24 ++ transparent_block ++ red_block ++ other_block in
  let d := Details ReplicateColor VNone true in
  cpu_ok plain_cpu /\ splittable plain_cpu 3 /\
  exists m', transform_bc1_with_normalize_blocks plain_cpu true 36 12 0 24 d m = Ok m' /\
    slice m' 12 24 = [xff; xff; x00; xf8; x00; x00] ++ [xff; xff; x00; xf8; x01; x00] ++ [xff; xff; xff; xff; x00; x00; x00; x00; xe4; xff; xff; xff] /\
    untransform_bc1 plain_cpu (untransform_settings d) (slice m' 12 24) (repeat x00 24) =
      Ok (ROk tt, repeat xff 8 ++ [x00; xf8; x00; xf8; x00; x00; x00; x00] ++ other_block).
Proof.
  cbv zeta. split; [constructor; intros; reflexivity || discriminate|].
  split; [split; [intros _; reflexivity|intros H; discriminate H]|].
  eexists. split; [vm_compute; reflexivity|]. split; vm_compute; reflexivity.
Qed.

(** Fewer than sixteen blocks and split endpoints on a CPU with SSE2: undefined behaviour. *)
Theorem C51_short_refuted : exists (c : cfg) (m : list byte) (inp out work len : Z) (d : details) why,
  cpu_ok c /\ 0 < len /\ len mod 8 = 0 /\ within m inp len /\ within m out len /\ within m work (len / 2) /\
  inp + len <= out /\ work + len / 2 <= inp /\
  transform_bc1_with_normalize_blocks c true inp out work len d m = Ub why.
Proof. exact lC51_short_refuted. Qed.
Print Assumptions C51_short_refuted.

(** On such machines that is so for every texture, normalisation mode and decorrelation mode, as soon as the work buffer ends
    less than 64 bytes (sixteen blocks) after the start of the memory it lies in. *)
Theorem C51_short_exactly_partial : forall (c : cfg) (even : bool) (m : list byte) (inp out work len : Z) (d : details),
  cpu_ok c -> len mod 8 = 0 -> within m inp len -> within m out len -> within m work (len / 2) ->
  inp + len <= out \/ out + len <= inp -> inp + len <= work \/ work + len / 2 <= inp -> work + len / 2 <= out \/ out + len <= work ->
  (c_debug c = true -> 0 < len) -> d_split d = true ->
  is_x86 c = true -> c_avx512vbmi c = false -> has_sse2 c = true \/ c_avx2 c = true -> work + len / 2 < 64 ->
  transform_bc1_with_normalize_blocks c even inp out work len d m = Ub "pointer arithmetic out of bounds".
Proof. exact lC51_short. Qed.
Print Assumptions C51_short_exactly_partial.
(** fifteen blocks with SSE2 *)
Example C51_short_exactly_partial_met :
  let c := Cfg true X86_64 false true false false false false false false x00 in let m := repeat x07 300 in
  let d := Details Color0Only V1 true in
  cpu_ok c /\ 120 mod 8 = 0 /\ within m 60 120 /\ within m 180 120 /\ within m 0 (120 / 2) /\ 60 + 120 <= 180 /\ 0 + 120 / 2 <= 60 /\
  (c_debug c = true -> 0 < 120) /\ d_split d = true /\ is_x86 c = true /\ c_avx512vbmi c = false /\ has_sse2 c = true /\ 0 + 120 / 2 < 64.
Proof.
  cbv zeta. split; [constructor; intros; reflexivity || discriminate|]. split; [reflexivity|]. unfold within.
  change (zlen (repeat x07 300)) with 300. change (120 / 2) with 60. repeat split; lia || reflexivity.
Qed.

(** An output at an odd address: every decorrelation mode is undefined behaviour on every texture, although the documentation
    only recommends an alignment. *)
Theorem C51_odd_address_refuted : forall (c : cfg) (m : list byte) (inp out work len : Z) (d : details),
  cpu_ok c -> len mod 8 = 0 -> within m inp len -> within m out len -> within m work (len / 2) ->
  inp + len <= out \/ out + len <= inp -> inp + len <= work \/ work + len / 2 <= inp -> work + len / 2 <= out \/ out + len <= work ->
  (d_split d = true -> splittable c (len / 8)) -> 0 < len -> d_decorr d <> VNone ->
  exists why, transform_bc1_with_normalize_blocks c false inp out work len d m = Ub why.
Proof. exact lC51_odd. Qed.
Print Assumptions C51_odd_address_refuted.
Example C51_odd_case : let m := repeat xee 12 ++ repeat xdd 24 ++ transparent_block ++ red_block ++ other_block in
  (forall v, v <> VNone -> exists why, transform_bc1_with_normalize_blocks plain_cpu false 36 12 0 24 (Details ReplicateColor v true) m = Ub why) /\
  transform_bc1_with_normalize_blocks plain_cpu false 36 12 0 24 (Details ReplicateColor VNone true) m =
  transform_bc1_with_normalize_blocks plain_cpu true 36 12 0 24 (Details ReplicateColor VNone true) m.
Proof. cbv zeta. split; [|vm_compute; reflexivity]. intros [] H; try (destruct (H eq_refl)); eexists; vm_compute; reflexivity. Qed.

(** The list of the details there are: all of them, each once. *)
Theorem C51_all_details : (forall d : details, In d all_combinations) /\ NoDup all_combinations.
Proof. exact all_combinations_complete. Qed.
Print Assumptions C51_all_details.

(** C52: whatever the estimator answers, the search ends; it changes only the output; when it succeeds, the output is the
    transform with the details it returns of a texture with the same pixels; a failure is a failed allocation or an error
    the estimator gave. Partial: as C51, if some block can be normalised. *)
Theorem C52_bc1_normalising_search_partial : forall (St Er : Type) (c : cfg) (v : env) (e : estimator St Er) (all : bool) (fresh : Z -> byte) (even : bool)
    (m : list byte) (inp out len : Z) (st : St), cpu_ok c -> len mod 8 = 0 ->
  within m inp len -> within m out len -> inp + len <= out \/ out + len <= inp ->
  (c_debug c = true -> 0 < len) -> (normalisable (slice m inp len) -> even = true /\ splittable c (len / 8)) ->
  exists r m' st', transform_bc1_auto_with_normalization c v e all fresh even inp out len m st = Ok (r, m', st') /\
    only_changes [(out, len)] m m' /\
    match r with
    | ROk d => candidate all (d_decorr d) /\ exists y, blockwise 8 (bc1_normal (d_norm d)) (slice m inp len) y /\
        blockwise 8 (fun b b' => picture bc1_pixel b' = picture bc1_pixel b) (slice m inp len) y /\
        slice m' out len = bc1_layout (d_decorr d) (d_split d) y
    | RErr AllocateError => exists n, alloc_ok v n = false
    | RErr (SizeEstimationError e1) => (exists st1 st2, max_compressed_size e st1 (len / 2) = (RErr e1, st2)) \/
        (exists st1 d n st2, estimate_compressed_size e st1 d n = (RErr e1, st2))
    end.
Proof. exact lC52_total. Qed.
Print Assumptions C52_bc1_normalising_search_partial.

(** C52: with a deterministic estimator, no candidate has a smaller estimate than the details returned. The estimate of a
    candidate is that of the colour endpoints of the texture measured for its normalisation mode; candidates whose estimate
    fails are passed over. Partial: for mode None that texture is not the one written; see C52_none_estimate_refuted. *)
Theorem C52_bc1_normalising_search_best_partial : forall (Er : Type) (c : cfg) (v : env) (mx : Z -> result Z Er) (size : list byte -> Z -> result Z Er)
    (all : bool) (fresh : Z -> byte) (even : bool) (m : list byte) (inp out len : Z) (d : details) (m' : list byte), cpu_ok c -> len mod 8 = 0 ->
  within m inp len -> within m out len -> inp + len <= out \/ out + len <= inp ->
  normalisable (slice m inp len) -> splittable c (len / 8) ->
  transform_bc1_auto_with_normalization c v (pure mx size) all fresh even inp out len m tt = Ok (ROk d, m', tt) ->
  exists scratch, mx (len / 2) = ROk scratch /\
  forall d' y' z', candidate all (d_decorr d') -> blockwise 8 (measured (d_norm d')) (slice m inp len) y' ->
    total_size (fun b => size b scratch) (bc1_shown y' (untransform_settings d')) = ROk z' -> z' < usize_max v ->
    exists y z, blockwise 8 (measured (d_norm d)) (slice m inp len) y /\
      total_size (fun b => size b scratch) (bc1_shown y (untransform_settings d)) = ROk z /\ z <= z'.
Proof. exact lC52_best. Qed.
Print Assumptions C52_bc1_normalising_search_best_partial.

(** C52: if nothing can be normalised, the outcome is that of the ordinary search. *)
Theorem C52_bc1_nothing_to_normalise : forall (Er : Type) (c : cfg) (v : env) (mx : Z -> result Z Er) (size : list byte -> Z -> result Z Er)
    (all : bool) (fresh : Z -> byte) (even : bool) (m : list byte) (inp out len : Z) r y, cpu_ok c -> len mod 8 = 0 ->
  within m inp len -> within m out len -> inp + len <= out \/ out + len <= inp -> (c_debug c = true -> 0 < len) ->
  ~ normalisable (slice m inp len) -> alloc_ok v len = true ->
  transform_bc1_auto c v (pure mx size) all (slice m inp len) (slice m out len) tt = Ok (r, y, tt) ->
  match r with
  | ROk s => exists m', transform_bc1_auto_with_normalization c v (pure mx size) all fresh even inp out len m tt = Ok (ROk (details_of_settings s), m', tt) /\ slice m' out len = y
  | RErr (DetermineBestTransform err) => exists m', transform_bc1_auto_with_normalization c v (pure mx size) all fresh even inp out len m tt = Ok (RErr err, m', tt)
  | RErr _ => False
  end.
Proof. exact lC52_plain. Qed.
Print Assumptions C52_bc1_nothing_to_normalise.

(** Two blocks, one transparent, one red: the smallest byte sum is found with normalisation. *)
Example C52_case : let m := transparent_block ++ red_block ++ repeat xdd 16 in
  exists m', transform_bc1_auto_with_normalization plain_cpu (Env (2 ^ 64 - 1) (fun _ => true))
    (pure (fun n => ROk (2 * n)) (fun d _ => ROk (fold_right Z.add 0 (map (fun b => 255 - b2z b) d)) : result Z unit)) false (fun _ => xcc) true 0 16 16 m tt =
    Ok (ROk (Details ReplicateColor VNone false), m', tt) /\
  slice m' 16 16 = [xff; xff; xff; xff; x00; xf8; x00; xf8; xff; xff; xff; xff; x00; x00; x00; x00].
Proof. cbv zeta. eexists. split; vm_compute; reflexivity. Qed.

(** C52 fails for what is written: the search can return mode None although another candidate's output has a smaller estimate. *)
Theorem C52_none_estimate_refuted : exists (c : cfg) (v : env) (mx : Z -> result Z unit) (size : list byte -> Z -> result Z unit)
    (m : list byte) (inp out work len : Z) (d d' : details) (m' m1 : list byte) (scratch z z' : Z),
  cpu_ok c /\ splittable c (len / 8) /\ len mod 8 = 0 /\ within m inp len /\ within m out len /\ within m work (len / 2) /\
  inp + len <= out /\ out + len <= work /\ mx (len / 2) = ROk scratch /\
  transform_bc1_auto_with_normalization c v (pure mx size) false (fun _ => x00) true inp out len m tt = Ok (ROk d, m', tt) /\
  candidate false (d_decorr d') /\ transform_bc1_with_normalize_blocks c true inp out work len d' m = Ok m1 /\
  size (slice m' out (len / 2)) scratch = ROk z /\ size (slice m1 out (len / 2)) scratch = ROk z' /\ z' < z.
Proof. exact lC52_none_refuted. Qed.
Print Assumptions C52_none_estimate_refuted.

(** C52 fails for an output at an odd address: whenever the details found for an even one have a decorrelation mode. *)
Theorem C52_odd_address_refuted : forall (St Er : Type) (c : cfg) (v : env) (e : estimator St Er) (all : bool) (fresh : Z -> byte) (m : list byte)
    (inp out len : Z) (st : St) (d : details) (m' : list byte) (st' : St), cpu_ok c -> len mod 8 = 0 -> within m inp len -> 0 < len ->
  normalisable (slice m inp len) ->
  transform_bc1_auto_with_normalization c v e all fresh true inp out len m st = Ok (ROk d, m', st') -> d_decorr d <> VNone ->
  exists why, transform_bc1_auto_with_normalization c v e all fresh false inp out len m st = Ub why.
Proof. exact lC52_odd. Qed.
Print Assumptions C52_odd_address_refuted.
Example C52_odd_case : let m := transparent_block ++ red_block ++ repeat xdd 16 in
  let search := fun even => transform_bc1_auto_with_normalization plain_cpu (Env (2 ^ 64 - 1) (fun _ => true))
    (pure (fun n => ROk (2 * n)) (fun d _ => ROk (fold_right Z.add 0 (map b2z d)) : result Z unit)) false (fun _ => xcc) even 0 16 16 m tt in
  (exists d m', search true = Ok (ROk d, m', tt) /\ d_decorr d <> VNone) /\ exists why, search false = Ub why.
Proof. cbv zeta. split; [do 2 eexists; split; [vm_compute; reflexivity|discriminate]|eexists; vm_compute; reflexivity]. Qed.

(** debug builds on two machines; a transparent block, one of one colour and another *)
Example C51_bc1_normalising_transform_partial_met :
  let c := plain_cpu in let c2 := debug_cpu in let even := true in let m := repeat xee 12 ++ repeat xdd 24 ++ transparent_block ++ red_block ++ other_block in let inp :=
  36 in let out := 12 in let work := 0 in let len := 24 in let d := Details ReplicateColor V2 true in let out2 := repeat x11 30 in
  cpu_ok c /\ cpu_ok c2 /\ len mod 8 = 0 /\ within m inp len /\ within m out len /\ within m work (len / 2) /\ (inp + len <= out \/ out + len <= inp) /\ (inp + len <=
  work \/ work + len / 2 <= inp) /\ (work + len / 2 <= out \/ out + len <= work) /\ (even = true \/ d_decorr d = VNone) /\ (d_split d = true -> splittable c (len / 8)) /\
  (c_debug c2 = true -> d_split d = true -> 0 < len) /\ len <= zlen out2.
Proof.
  cbv zeta; repeat lazymatch goal with |- _ /\ _ => split end; lazymatch goal with
  | |- cpu_ok plain_cpu => constructor; intros H; discriminate H
  | |- within _ _ _ => split; vm_compute; [|split]; intros H; discriminate H
  | |- normalisable _ -> _ => intros _; split; [reflexivity|split; [reflexivity|intros H; discriminate H]]
  | |- _ -> splittable _ _ => intros _; split; [reflexivity|intros H; discriminate H]
  | |- _ = true \/ _ => left; reflexivity
  | |- _ \/ _ => lia
  | _ => met1
  end.
Qed.

(** a debug build; a transparent block and one of one colour *)
Example C52_bc1_normalising_search_partial_met :
  let c := plain_cpu in let even := true in let m := transparent_block ++ red_block ++ repeat xdd 16 in let inp := 0 in let out := 16 in let len := 16 in
  cpu_ok c /\ len mod 8 = 0 /\ within m inp len /\ within m out len /\ (inp + len <= out \/ out + len <= inp) /\ (c_debug c = true -> 0 < len) /\ (normalisable (slice m
  inp len) -> even = true /\ splittable c (len / 8)).
Proof.
  cbv zeta; repeat lazymatch goal with |- _ /\ _ => split end; lazymatch goal with
  | |- cpu_ok plain_cpu => constructor; intros H; discriminate H
  | |- within _ _ _ => split; vm_compute; [|split]; intros H; discriminate H
  | |- normalisable _ -> _ => intros _; split; [reflexivity|split; [reflexivity|intros H; discriminate H]]
  | |- _ -> splittable _ _ => intros _; split; [reflexivity|intros H; discriminate H]
  | |- _ = true \/ _ => left; reflexivity
  | |- _ \/ _ => lia
  | _ => met1
  end.
Qed.
