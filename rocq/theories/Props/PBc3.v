(** BC3 entry points: C03, C08, C11, C14, C15, C22, C44, C46, C47, C48. *)
From Verif Require Import Base.Bytes Base.Res Model.Color565 Model.Kernel Model.Transform Spec.YCoCg Spec.Layout.
From Verif Require Import Proofs.TransformProps Props.Cases.
From Verif Require Proofs.EmptyExact.
From Coq Require Import Permutation.

(** C03: transforming on one machine and restoring on another gives the original bytes. In debug builds a split-alpha kernel asserts that there is at least one block, hence the condition on [c_debug]; C44 is about that. *)
Theorem C03_bc3_lossless : forall (c1 c2 : cfg) (s : settings3) (x out1 out2 : list byte),
  cpu_ok c1 -> cpu_ok c2 -> (c_debug c1 = true \/ c_debug c2 = true -> split_alpha_endpoints s = true -> x <> []) ->
  zlen x mod 16 = 0 -> zlen x <= zlen out1 -> zlen x <= zlen out2 ->
  exists y z, transform_bc3 c1 s x out1 = Ok (ROk tt, y) /\
    untransform_bc3 c2 s (firstn (List.length x) y) out2 = Ok (ROk tt, z) /\
    firstn (List.length x) z = x.
Proof. exact lC03_bc3_lossless. Qed.
Print Assumptions C03_bc3_lossless.

(** a 3-block texture meets the hypotheses *)
Example C03_bc3_lossless_example : let x := map (fun i => lo8 (i * 37 + 11)) (zseq 0 48) in
  (zlen x mod 16 = 0) /\ x <> [] /\
  exists y, transform_bc3 (Cfg true X86_64 false true true true true true true true x00) (Settings3 V2 true true) x (List.repeat x00 48) = Ok (ROk tt, y) /\ y <> x.
Proof.
  cbv zeta. repeat apply conj; [reflexivity|discriminate|]. eexists. split; [vm_compute; reflexivity|discriminate].
Qed.

(** C08: two machines (architecture, CPU features, build profile) leave the same memory behind. *)
Theorem C08_bc3_cpu_independent : forall (c1 c2 : cfg) (s : settings3) (inp aux out : list byte) (a b len : Z),
  cpu_ok c1 -> cpu_ok c2 -> (c_debug c1 = true \/ c_debug c2 = true -> split_alpha_endpoints s = true -> 0 < len) ->
  len mod 16 = 0 -> 0 <= len -> 0 <= a -> 0 <= b -> a + len <= zlen inp -> b + len <= zlen out ->
  exists mt mu,
    (transform_bc3_with_settings c1 (Ptr BIn a) (Ptr BOut b) len s (Mem inp aux out) = Ok mt /\
     transform_bc3_with_settings c2 (Ptr BIn a) (Ptr BOut b) len s (Mem inp aux out) = Ok mt) /\
    (untransform_bc3_with_settings c1 (Ptr BIn a) (Ptr BOut b) len s (Mem inp aux out) = Ok mu /\
     untransform_bc3_with_settings c2 (Ptr BIn a) (Ptr BOut b) len s (Mem inp aux out) = Ok mu).
Proof. exact lC08_bc3_cpu_independent. Qed.
Print Assumptions C08_bc3_cpu_independent.
(** a SIMD release build and a portable debug build, three blocks inside larger buffers *)
Example C08_bc3_cpu_independent_met :
  let c1 := fast_cpu in let c2 := slow_cpu in let s := Settings3 V2 true true in let inp := texture 58 in let aux := [x01] in let out := List.repeat x00 63 in let a := 3
  in let b := 7 in let len := 48 in
  cpu_ok c1 /\ cpu_ok c2 /\ (c_debug c1 = true \/ c_debug c2 = true -> split_alpha_endpoints s = true -> 0 < len) /\ len mod 16 = 0 /\ 0 <= len /\ 0 <= a /\ 0 <= b /\ a +
  len <= zlen inp /\ b + len <= zlen out.
Proof. met. Qed.

(** C08, checked functions: same answer and same output bytes for every input, valid or not. *)
Theorem C08_bc3_slice_cpu_independent : forall (c1 c2 : cfg) (s : settings3) (x out : list byte),
  cpu_ok c1 -> cpu_ok c2 -> (c_debug c1 = true \/ c_debug c2 = true -> split_alpha_endpoints s = true -> x <> []) ->
  transform_bc3 c1 s x out = transform_bc3 c2 s x out /\
  untransform_bc3 c1 s x out = untransform_bc3 c2 s x out.
Proof. exact lC08_bc3_slice_cpu_independent. Qed.
Print Assumptions C08_bc3_slice_cpu_independent.

(** two very different machines agree on a concrete texture *)
Example C08_bc3_slice_cpu_independent_example : let x := map (fun i => lo8 (i * 37 + 11)) (zseq 0 64) in let s := Settings3 V1 true true in
  exists y, transform_bc3 (Cfg false X86_64 false true true true true true true true x00) s x x = Ok (ROk tt, y) /\
    transform_bc3 (Cfg true OtherArch false false false false false false false false xff) s x x = Ok (ROk tt, y) /\ y <> x.
Proof.
  cbv zeta. eexists. repeat apply conj; [vm_compute; reflexivity|vm_compute; reflexivity|discriminate].
Qed.

(** C11: the call never reads or writes outside its buffers (that would be [Ub]; take [a = 0] and [zlen inp = len] for a buffer with nothing around it), leaves the input alone and changes no output byte outside [b .. b + len). *)
Theorem C11_bc3_transform_stays_inside : forall (c : cfg) (s : settings3) (inp aux out : list byte) (a b len : Z),
  cpu_ok c -> (c_debug c = true -> split_alpha_endpoints s = true -> 0 < len) ->
  len mod 16 = 0 -> 0 <= len -> 0 <= a -> 0 <= b -> a + len <= zlen inp -> b + len <= zlen out ->
  exists out', transform_bc3_with_settings c (Ptr BIn a) (Ptr BOut b) len s (Mem inp aux out) = Ok (Mem inp aux out') /\
    zlen out' = zlen out /\
    forall i, 0 <= i < b \/ b + len <= i < zlen out -> znth out' i = znth out i.
Proof. exact lC11_bc3_transform_stays_inside. Qed.
Print Assumptions C11_bc3_transform_stays_inside.
(** three blocks inside larger buffers, in a debug build *)
Example C11_bc3_transform_stays_inside_met :
  let c := debug_cpu in let s := Settings3 V2 true true in let inp := texture 58 in let aux := [x01] in let out := List.repeat x00 63 in let a := 3 in let b := 7 in let
  len := 48 in
  cpu_ok c /\ (c_debug c = true -> split_alpha_endpoints s = true -> 0 < len) /\ len mod 16 = 0 /\ 0 <= len /\ 0 <= a /\ 0 <= b /\ a + len <= zlen inp /\ b + len <= zlen
  out.
Proof. met. Qed.

(** C11: the call never reads or writes outside its buffers (that would be [Ub]; take [a = 0] and [zlen inp = len] for a buffer with nothing around it), leaves the input alone and changes no output byte outside [b .. b + len). *)
Theorem C11_bc3_untransform_stays_inside : forall (c : cfg) (s : settings3) (inp aux out : list byte) (a b len : Z),
  cpu_ok c -> (c_debug c = true -> split_alpha_endpoints s = true -> 0 < len) ->
  len mod 16 = 0 -> 0 <= len -> 0 <= a -> 0 <= b -> a + len <= zlen inp -> b + len <= zlen out ->
  exists out', untransform_bc3_with_settings c (Ptr BIn a) (Ptr BOut b) len s (Mem inp aux out) = Ok (Mem inp aux out') /\
    zlen out' = zlen out /\
    forall i, 0 <= i < b \/ b + len <= i < zlen out -> znth out' i = znth out i.
Proof. exact lC11_bc3_untransform_stays_inside. Qed.
Print Assumptions C11_bc3_untransform_stays_inside.
(** three blocks inside larger buffers, in a debug build *)
Example C11_bc3_untransform_stays_inside_met :
  let c := debug_cpu in let s := Settings3 V2 true true in let inp := texture 58 in let aux := [x01] in let out := List.repeat x00 63 in let a := 3 in let b := 7 in let
  len := 48 in
  cpu_ok c /\ (c_debug c = true -> split_alpha_endpoints s = true -> 0 < len) /\ len mod 16 = 0 /\ 0 <= len /\ 0 <= a /\ 0 <= b /\ a + len <= zlen inp /\ b + len <= zlen
  out.
Proof. met. Qed.

(** C14: the transform writes the documented layout, [bc3_layout] of Spec/Layout.v. *)
Theorem C14_bc3_layout : forall (c : cfg) (s : settings3) (inp aux out : list byte) (a b len : Z),
  cpu_ok c -> (c_debug c = true -> split_alpha_endpoints s = true -> 0 < len) ->
  len mod 16 = 0 -> 0 <= len -> 0 <= a -> 0 <= b -> a + len <= zlen inp -> b + len <= zlen out ->
  exists out', transform_bc3_with_settings c (Ptr BIn a) (Ptr BOut b) len s (Mem inp aux out) = Ok (Mem inp aux out') /\
    slice out' b len = bc3_layout (decorrelation_mode3 s) (split_alpha_endpoints s) (split_colour_endpoints3 s) (slice inp a len).
Proof. exact lC14_bc3_layout. Qed.
Print Assumptions C14_bc3_layout.
(** three blocks inside larger buffers, in a debug build *)
Example C14_bc3_layout_met :
  let c := debug_cpu in let s := Settings3 V2 true true in let inp := texture 58 in let aux := [x01] in let out := List.repeat x00 63 in let a := 3 in let b := 7 in let
  len := 48 in
  cpu_ok c /\ (c_debug c = true -> split_alpha_endpoints s = true -> 0 < len) /\ len mod 16 = 0 /\ 0 <= len /\ 0 <= a /\ 0 <= b /\ a + len <= zlen inp /\ b + len <= zlen
  out.
Proof. met. Qed.

(** C15: what the checked transform answers for every pair of lengths; errors leave the output alone. *)
Theorem C15_bc3_transform_validation : forall (c : cfg) (s : settings3) (x out : list byte),
  (zlen x mod 16 <> 0 -> transform_bc3 c s x out = Ok (RErr (InvalidLength (zlen x)), out)) /\
  (zlen x mod 16 = 0 -> zlen out < zlen x ->
     transform_bc3 c s x out = Ok (RErr (OutputBufferTooSmall (zlen x) (zlen out)), out)) /\
  (zlen x mod 16 = 0 -> zlen x <= zlen out -> cpu_ok c -> (c_debug c = true -> split_alpha_endpoints s = true -> x <> []) ->
     exists out', transform_bc3 c s x out = Ok (ROk tt, out')).
Proof. exact lC15_bc3_transform_validation. Qed.
Print Assumptions C15_bc3_transform_validation.

(** C15: what the checked untransform answers for every pair of lengths; errors leave the output alone. *)
Theorem C15_bc3_untransform_validation : forall (c : cfg) (s : settings3) (x out : list byte),
  (zlen x mod 16 <> 0 -> untransform_bc3 c s x out = Ok (RErr (InvalidLength (zlen x)), out)) /\
  (zlen x mod 16 = 0 -> zlen out < zlen x ->
     untransform_bc3 c s x out = Ok (RErr (OutputBufferTooSmall (zlen x) (zlen out)), out)) /\
  (zlen x mod 16 = 0 -> zlen x <= zlen out -> cpu_ok c -> (c_debug c = true -> split_alpha_endpoints s = true -> x <> []) ->
     exists out', untransform_bc3 c s x out = Ok (ROk tt, out')).
Proof. exact lC15_bc3_untransform_validation. Qed.
Print Assumptions C15_bc3_untransform_validation.

(** C22: every byte string of valid length is the transform of something: untransforming and transforming again gives it back. *)
Theorem C22_bc3_onto : forall (c1 c2 : cfg) (s : settings3) (y out1 out2 : list byte),
  cpu_ok c1 -> cpu_ok c2 -> (c_debug c1 = true \/ c_debug c2 = true -> split_alpha_endpoints s = true -> y <> []) ->
  zlen y mod 16 = 0 -> zlen y <= zlen out1 -> zlen y <= zlen out2 ->
  exists x z, untransform_bc3 c1 s y out1 = Ok (ROk tt, x) /\
    transform_bc3 c2 s (firstn (List.length y) x) out2 = Ok (ROk tt, z) /\
    firstn (List.length y) z = y.
Proof. exact lC22_bc3_onto. Qed.
Print Assumptions C22_bc3_onto.
(** three blocks, the second buffer larger than needed *)
Example C22_bc3_onto_met :
  let c1 := fast_cpu in let c2 := slow_cpu in let s := Settings3 V2 true true in let y := texture 48 in let out1 := List.repeat x00 48 in let out2 := List.repeat xff 49
  in
  cpu_ok c1 /\ cpu_ok c2 /\ (c_debug c1 = true \/ c_debug c2 = true -> split_alpha_endpoints s = true -> y <> []) /\ zlen y mod 16 = 0 /\ zlen y <= zlen out1 /\ zlen y <=
  zlen out2.
Proof. met. Qed.

(** C22: distinct textures never share a transformed form. *)
Theorem C22_bc3_one_to_one : forall (c1 c2 : cfg) (s : settings3) (x1 x2 out1 out2 y1 y2 : list byte),
  cpu_ok c1 -> cpu_ok c2 -> (c_debug c1 = true -> split_alpha_endpoints s = true -> x1 <> []) -> (c_debug c2 = true -> split_alpha_endpoints s = true -> x2 <> []) ->
  transform_bc3 c1 s x1 out1 = Ok (ROk tt, y1) -> transform_bc3 c2 s x2 out2 = Ok (ROk tt, y2) ->
  firstn (List.length x1) y1 = firstn (List.length x2) y2 -> x1 = x2.
Proof. exact lC22_bc3_one_to_one. Qed.
Print Assumptions C22_bc3_one_to_one.
(** two machines transform the same three blocks into buffers of different sizes *)
Example C22_bc3_one_to_one_met :
  let c1 := fast_cpu in let c2 := slow_cpu in let s := Settings3 V2 true true in let x1 := texture 48 in let x2 := texture 48 in let out1 := List.repeat x00 48 in let
  out2 := List.repeat xff 49 in let y1 := left_in (transform_bc3 c1 s x1 out1) in let y2 := left_in (transform_bc3 c2 s x2 out2) in
  cpu_ok c1 /\ cpu_ok c2 /\ (c_debug c1 = true -> split_alpha_endpoints s = true -> x1 <> []) /\ (c_debug c2 = true -> split_alpha_endpoints s = true -> x2 <> []) /\
  transform_bc3 c1 s x1 out1 = Ok (ROk tt, y1) /\ transform_bc3 c2 s x2 out2 = Ok (ROk tt, y2) /\ firstn (List.length x1) y1 = firstn (List.length x2) y2 /\ y1 <> x1 /\
  y2 <> y1.
Proof. met. Qed.

(** C44: an empty texture is accepted and nothing is written, in release builds (the full claim, for every build, is refuted below). *)
Theorem C44_bc3_empty_release_partial : forall (c : cfg) (s : settings3) (out : list byte), cpu_ok c -> c_debug c = false ->
  transform_bc3 c s [] out = Ok (ROk tt, out) /\ untransform_bc3 c s [] out = Ok (ROk tt, out).
Proof. exact lC44_bc3_empty_release_partial. Qed.
Print Assumptions C44_bc3_empty_release_partial.
(** an output buffer with something in it *)
Example C44_bc3_empty_release_partial_met :
  let c := fast_cpu in let s := Settings3 V2 true true in let out := texture 5 in
  cpu_ok c /\ c_debug c = false.
Proof. met. Qed.

(** In debug builds it depends on the machine and the settings: this is exactly when transforming panics; restoring always works. *)
Theorem C44_bc3_empty_exactly_partial : forall (c : cfg) (s : settings3) (out : list byte), cpu_ok c ->
  (if c_debug c && split_alpha_endpoints s && negb (split_colour_endpoints3 s) && variant_eqb (decorrelation_mode3 s) VNone && is_x86 c && c_avx512vbmi c
   then exists why, transform_bc3 c s [] out = Panic why else transform_bc3 c s [] out = Ok (ROk tt, out)) /\
  untransform_bc3 c s [] out = Ok (ROk tt, out).
Proof. intros c s out K. split; [exact (EmptyExact.bc3_exactly c s out K)|exact (EmptyExact.unbc3_exactly c s out K)]. Qed.
Print Assumptions C44_bc3_empty_exactly_partial.
(** one settings value makes a debug build panic, another does not *)
Example C44_bc3_empty_exactly_partial_met : cpu_ok debug_cpu /\ c_debug debug_cpu = true /\
  (exists why, transform_bc3 debug_cpu (Settings3 VNone true false) [] [] = Panic why) /\
  transform_bc3 debug_cpu (Settings3 VNone true true) [] (texture 3) = Ok (ROk tt, texture 3).
Proof. split; [exact debug_ok|]. split; [reflexivity|]. split; [eexists; vm_compute; reflexivity|vm_compute; reflexivity]. Qed.

(** C44 fails in debug builds on x86: the checked transform panics on an empty texture, which it should accept. *)
Theorem C44_bc3_empty_debug_refuted : exists (c : cfg) (s : settings3) (out : list byte) why, cpu_ok c /\ transform_bc3 c s [] out = Panic why.
Proof. exact lC44_bc3_empty_debug_refuted. Qed.
Print Assumptions C44_bc3_empty_debug_refuted.

(** C46: without decorrelation the transform only moves bytes around. *)
Theorem C46_bc3_permutation : forall (c : cfg) (s : settings3) (x out : list byte),
  cpu_ok c -> (c_debug c = true -> split_alpha_endpoints s = true -> x <> []) -> decorrelation_mode3 s = VNone -> zlen x mod 16 = 0 -> zlen x <= zlen out ->
  exists y, transform_bc3 c s x out = Ok (ROk tt, y) /\ Permutation (firstn (List.length x) y) x.
Proof. exact lC46_bc3_permutation. Qed.
Print Assumptions C46_bc3_permutation.
(** three blocks, whose bytes do move *)
Example C46_bc3_permutation_met :
  let c := debug_cpu in let s := Settings3 VNone true true in let x := texture 48 in let out := List.repeat x00 48 in
  cpu_ok c /\ (c_debug c = true -> split_alpha_endpoints s = true -> x <> []) /\ decorrelation_mode3 s = VNone /\ zlen x mod 16 = 0 /\ zlen x <= zlen out /\ left_in
  (transform_bc3 c s x out) <> x.
Proof. met. Qed.

(** C46: whatever the settings, index (and alpha) bytes are only moved. *)
Theorem C46_bc3_only_colours_change : forall (c : cfg) (s : settings3) (x out : list byte),
  cpu_ok c -> (c_debug c = true -> split_alpha_endpoints s = true -> x <> []) -> zlen x mod 16 = 0 -> zlen x <= zlen out ->
  exists y, transform_bc3 c s x out = Ok (ROk tt, y) /\
    slice y (zlen x / 8) (6 * (zlen x / 16)) = List.concat (map (raw 2 6) (blocks 16 x)) /\
    slice y (zlen x / 2 + zlen x / 4) (zlen x / 4) = List.concat (map (raw 12 4) (blocks 16 x)) /\
    Permutation (slice y 0 (zlen x / 8)) (List.concat (map (raw 0 2) (blocks 16 x))).
Proof. exact lC46_bc3_only_colours_change. Qed.
Print Assumptions C46_bc3_only_colours_change.
(** three blocks *)
Example C46_bc3_only_colours_change_met :
  let c := debug_cpu in let s := Settings3 V2 true true in let x := texture 48 in let out := List.repeat x00 51 in
  cpu_ok c /\ (c_debug c = true -> split_alpha_endpoints s = true -> x <> []) /\ zlen x mod 16 = 0 /\ zlen x <= zlen out.
Proof. met. Qed.

(** C47: an output byte depends only on the block that owns it ([owner] of Spec/Layout.v; each block owns as many bytes as it has). *)
Theorem C47_bc3_transform_local : forall (c : cfg) (s : settings3) (x x' out out' : list byte),
  cpu_ok c -> (c_debug c = true -> split_alpha_endpoints s = true -> x <> []) -> zlen x mod 16 = 0 -> List.length x = List.length x' ->
  zlen x <= zlen out -> zlen x <= zlen out' ->
  let n := (List.length x / 16)%nat in let ws := bc3_widths (split_alpha_endpoints s) (split_colour_endpoints3 s) in
  exists y y', transform_bc3 c s x out = Ok (ROk tt, y) /\ transform_bc3 c s x' out' = Ok (ROk tt, y') /\
    (forall p, (p < List.length x)%nat ->
       nth (owner ws n p) (blocks 16 x) [] = nth (owner ws n p) (blocks 16 x') [] -> nth p y x00 = nth p y' x00) /\
    (forall i, (i < n)%nat -> List.length (filter (fun p => (owner ws n p =? i)%nat) (seq 0 (List.length x))) = 16%nat).
Proof. exact lC47_bc3_transform_local. Qed.
Print Assumptions C47_bc3_transform_local.
(** two textures that differ in the last of three blocks *)
Example C47_bc3_transform_local_met :
  let c := debug_cpu in let s := Settings3 V2 true true in let x := texture 48 in let x' := texture 32 ++ List.repeat x11 16 in let out := List.repeat x00 48 in let out'
  := List.repeat xff 51 in
  cpu_ok c /\ (c_debug c = true -> split_alpha_endpoints s = true -> x <> []) /\ zlen x mod 16 = 0 /\ List.length x = List.length x' /\ zlen x <= zlen out /\ zlen x <=
  zlen out' /\ x <> x'.
Proof. met. Qed.

(** C47, the other way: a restored block depends only on the bytes it owns. *)
Theorem C47_bc3_untransform_local : forall (c : cfg) (s : settings3) (x x' out out' : list byte) (i : nat),
  cpu_ok c -> (c_debug c = true -> split_alpha_endpoints s = true -> x <> []) -> zlen x mod 16 = 0 -> List.length x = List.length x' ->
  zlen x <= zlen out -> zlen x <= zlen out' ->
  let n := (List.length x / 16)%nat in let ws := bc3_widths (split_alpha_endpoints s) (split_colour_endpoints3 s) in
  (i < n)%nat -> (forall p, (p < List.length x)%nat -> owner ws n p = i -> nth p x x00 = nth p x' x00) ->
  exists y y', untransform_bc3 c s x out = Ok (ROk tt, y) /\ untransform_bc3 c s x' out' = Ok (ROk tt, y') /\
    nth i (blocks 16 (firstn (List.length x) y)) [] = nth i (blocks 16 (firstn (List.length x) y')) [].
Proof. exact lC47_bc3_untransform_local. Qed.
Print Assumptions C47_bc3_untransform_local.
(** two transformed textures that differ in the bytes of block 2 only, and block 1 of 3 *)
Example C47_bc3_untransform_local_met :
  let c := debug_cpu in let s := Settings3 V2 true true in let n := 3%nat in let ws := bc3_widths true true in let x := texture 48 in let x' := map (fun p => if (owner ws
  n p =? 2)%nat then x11 else nth p x x00) (seq 0 48) in let out := List.repeat x00 48 in let out' := List.repeat xff 51 in let i := 1%nat in
  cpu_ok c /\ (c_debug c = true -> split_alpha_endpoints s = true -> x <> []) /\ zlen x mod 16 = 0 /\ List.length x = List.length x' /\ zlen x <= zlen out /\ zlen x <=
  zlen out' /\ (i < n)%nat /\ x <> x' /\ (forall p, (p < 48)%nat -> owner ws n p = i -> nth p x x00 = nth p x' x00).
Proof. cbv zeta. repeat lazymatch goal with |- _ /\ _ => split end; try met1. intros p Hp. do 48 (destruct p as [|p]; [vm_compute; (reflexivity || intros H; discriminate H)|]). lia. Qed.

(** C48: untransform accepts any bytes of valid length, in any settings. *)
Theorem C48_bc3_untransform_total : forall (c : cfg) (s : settings3) (x out : list byte),
  cpu_ok c -> (c_debug c = true -> split_alpha_endpoints s = true -> x <> []) -> zlen x mod 16 = 0 -> zlen x <= zlen out ->
  exists y, untransform_bc3 c s x out = Ok (ROk tt, y) /\ zlen y = zlen out.
Proof. exact lC48_bc3_untransform_total. Qed.
Print Assumptions C48_bc3_untransform_total.
(** three blocks *)
Example C48_bc3_untransform_total_met :
  let c := debug_cpu in let s := Settings3 V2 true true in let x := texture 48 in let out := List.repeat x00 51 in
  cpu_ok c /\ (c_debug c = true -> split_alpha_endpoints s = true -> x <> []) /\ zlen x mod 16 = 0 /\ zlen x <= zlen out.
Proof. met. Qed.

