(** C22, C46 and C47 on big-endian machines: the statements of Props/PBc1.v, PBc2.v and PBc3.v about
    the entry points compiled for a big-endian machine (Model/BeTransform.v). They need no condition on the
    CPU, and hold for empty textures in debug builds as well. *)
From Verif Require Import Base.Bytes Base.Res Model.Color565 Model.Kernel Model.Transform Model.BigEndian Model.BeTransform
  Spec.YCoCg Spec.Layout Spec.BigEndian Proofs.BigEndianFacts Proofs.BeLocal Props.Cases.
From Coq Require Import Permutation ZifyBool ZifyNat.

(** C22, BC1, big-endian: every byte string of valid length is the transform of something: untransforming and transforming again gives it back. *)
Theorem C22_be_bc1_onto : forall (d1 d2 : bool) (j1 j2 : byte) (s : settings) (y out1 out2 : list byte),
  zlen y mod 8 = 0 -> zlen y <= zlen out1 -> zlen y <= zlen out2 ->
  exists x z, be_untransform_bc1 (big_endian_cpu d1 j1) s y out1 = Ok (ROk tt, x) /\
    be_transform_bc1 (big_endian_cpu d2 j2) s (firstn (List.length y) x) out2 = Ok (ROk tt, z) /\
    firstn (List.length y) z = y.
Proof. intros d1 d2 j1 j2 s y out1 out2. exact (lC22_be_bc1_onto (big_endian_cpu d1 j1) (big_endian_cpu d2 j2) s y out1 out2 (big_endian_ok d1 j1) (big_endian_ok d2 j2)). Qed.
Print Assumptions C22_be_bc1_onto.
(** three blocks, the second buffer larger than needed *)
Example C22_be_bc1_onto_met :
  let c1 := big_endian_cpu true x5a in let c2 := big_endian_cpu false x77 in let s := Settings V2 true in let y := texture 24 in let out1 := List.repeat x00 24 in let out2 := List.repeat xff 25 in
  zlen y mod 8 = 0 /\ zlen y <= zlen out1 /\ zlen y <=
  zlen out2.
Proof. met. Qed.

(** C22, BC1, big-endian: distinct textures never share a transformed form. *)
Theorem C22_be_bc1_one_to_one : forall (d1 d2 : bool) (j1 j2 : byte) (s : settings) (x1 x2 out1 out2 y1 y2 : list byte),
  be_transform_bc1 (big_endian_cpu d1 j1) s x1 out1 = Ok (ROk tt, y1) -> be_transform_bc1 (big_endian_cpu d2 j2) s x2 out2 = Ok (ROk tt, y2) ->
  firstn (List.length x1) y1 = firstn (List.length x2) y2 -> x1 = x2.
Proof. intros d1 d2 j1 j2 s x1 x2 out1 out2 y1 y2. exact (lC22_be_bc1_one_to_one (big_endian_cpu d1 j1) (big_endian_cpu d2 j2) s x1 x2 out1 out2 y1 y2 (big_endian_ok d1 j1) (big_endian_ok d2 j2)). Qed.
Print Assumptions C22_be_bc1_one_to_one.
(** two machines transform the same three blocks into buffers of different sizes *)
Example C22_be_bc1_one_to_one_met :
  let c1 := big_endian_cpu true x5a in let c2 := big_endian_cpu false x77 in let s := Settings V2 true in let x1 := texture 24 in let x2 := texture 24 in let out1 := List.repeat x00 24 in let out2 :=
  List.repeat xff 25 in let y1 := left_in (be_transform_bc1 c1 s x1 out1) in let y2 := left_in (be_transform_bc1 c2 s x2 out2) in
  be_transform_bc1 c1 s x1 out1 = Ok (ROk tt, y1) /\ be_transform_bc1 c2 s x2 out2 = Ok (ROk tt, y2) /\ firstn (List.length x1) y1 = firstn (List.length x2) y2 /\ y1 <> x1 /\
  y2 <> y1.
Proof. met. Qed.

(** C46, BC1, big-endian: without decorrelation the transform only moves bytes around. *)
Theorem C46_be_bc1_permutation : forall (debug : bool) (junk : byte) (s : settings) (x out : list byte),
  decorrelation_mode s = VNone -> zlen x mod 8 = 0 -> zlen x <= zlen out ->
  exists y, be_transform_bc1 (big_endian_cpu debug junk) s x out = Ok (ROk tt, y) /\ Permutation (firstn (List.length x) y) x.
Proof. intros debug junk s x out. exact (lC46_be_bc1_permutation (big_endian_cpu debug junk) s x out (big_endian_ok debug junk)). Qed.
Print Assumptions C46_be_bc1_permutation.
(** three blocks, whose bytes do move *)
Example C46_be_bc1_permutation_met :
  let c := big_endian_cpu true x5a in let s := Settings VNone true in let x := texture 24 in let out := List.repeat x00 24 in
  decorrelation_mode s = VNone /\ zlen x mod 8 = 0 /\ zlen x <= zlen out /\ left_in
  (be_transform_bc1 c s x out) <> x.
Proof. met. Qed.

(** C46, BC1, big-endian: whatever the settings, index (and alpha) bytes are only moved. *)
Theorem C46_be_bc1_only_colours_change : forall (debug : bool) (junk : byte) (s : settings) (x out : list byte),
  zlen x mod 8 = 0 -> zlen x <= zlen out ->
  exists y, be_transform_bc1 (big_endian_cpu debug junk) s x out = Ok (ROk tt, y) /\
    slice y (zlen x / 2) (zlen x / 2) = List.concat (map (raw 4 4) (blocks 8 x)).
Proof. intros debug junk s x out. exact (lC46_be_bc1_only_colours_change (big_endian_cpu debug junk) s x out (big_endian_ok debug junk)). Qed.
Print Assumptions C46_be_bc1_only_colours_change.
(** three blocks *)
Example C46_be_bc1_only_colours_change_met :
  let c := big_endian_cpu true x5a in let s := Settings V2 true in let x := texture 24 in let out := List.repeat x00 27 in
  zlen x mod 8 = 0 /\ zlen x <= zlen out.
Proof. met. Qed.

(** C47, BC1, big-endian: an output byte depends only on the block that owns it ([owner] of Spec/Layout.v; each block owns as many bytes as it has). *)
Theorem C47_be_bc1_transform_local : forall (debug : bool) (junk : byte) (s : settings) (x x' out out' : list byte),
  zlen x mod 8 = 0 -> List.length x = List.length x' ->
  zlen x <= zlen out -> zlen x <= zlen out' ->
  let n := (List.length x / 8)%nat in let ws := bc1_widths (split_colour_endpoints s) in
  exists y y', be_transform_bc1 (big_endian_cpu debug junk) s x out = Ok (ROk tt, y) /\ be_transform_bc1 (big_endian_cpu debug junk) s x' out' = Ok (ROk tt, y') /\
    (forall p, (p < List.length x)%nat ->
       nth (owner ws n p) (blocks 8 x) [] = nth (owner ws n p) (blocks 8 x') [] -> nth p y x00 = nth p y' x00) /\
    (forall i, (i < n)%nat -> List.length (filter (fun p => (owner ws n p =? i)%nat) (seq 0 (List.length x))) = 8%nat).
Proof. intros debug junk s x x' out out'. exact (lC47_be_bc1_transform_local (big_endian_cpu debug junk) s x x' out out' (big_endian_ok debug junk)). Qed.
Print Assumptions C47_be_bc1_transform_local.
(** two textures that differ in the last of three blocks *)
Example C47_be_bc1_transform_local_met :
  let c := big_endian_cpu true x5a in let s := Settings V2 true in let x := texture 24 in let x' := texture 16 ++ List.repeat x11 8 in let out := List.repeat x00 24 in let out' :=
  List.repeat xff 27 in
  zlen x mod 8 = 0 /\ List.length x = List.length x' /\ zlen x <= zlen out /\ zlen x <=
  zlen out' /\ x <> x'.
Proof. met. Qed.

(** C47, BC1, big-endian, the other way: a restored block depends only on the bytes it owns. *)
Theorem C47_be_bc1_untransform_local : forall (debug : bool) (junk : byte) (s : settings) (x x' out out' : list byte) (i : nat),
  zlen x mod 8 = 0 -> List.length x = List.length x' ->
  zlen x <= zlen out -> zlen x <= zlen out' ->
  let n := (List.length x / 8)%nat in let ws := bc1_widths (split_colour_endpoints s) in
  (i < n)%nat -> (forall p, (p < List.length x)%nat -> owner ws n p = i -> nth p x x00 = nth p x' x00) ->
  exists y y', be_untransform_bc1 (big_endian_cpu debug junk) s x out = Ok (ROk tt, y) /\ be_untransform_bc1 (big_endian_cpu debug junk) s x' out' = Ok (ROk tt, y') /\
    nth i (blocks 8 (firstn (List.length x) y)) [] = nth i (blocks 8 (firstn (List.length x) y')) [].
Proof. intros debug junk s x x' out out' i. exact (lC47_be_bc1_untransform_local (big_endian_cpu debug junk) s x x' out out' i (big_endian_ok debug junk)). Qed.
Print Assumptions C47_be_bc1_untransform_local.
(** two transformed textures that differ in the bytes of block 2 only, and block 1 of 3 *)
Example C47_be_bc1_untransform_local_met :
  let c := big_endian_cpu true x5a in let s := Settings V2 true in let n := 3%nat in let ws := bc1_widths true in let x := texture 24 in let x' := map (fun p => if (owner ws n p =?
  2)%nat then x11 else nth p x x00) (seq 0 24) in let out := List.repeat x00 24 in let out' := List.repeat xff 27 in let i := 1%nat in
  zlen x mod 8 = 0 /\ List.length x = List.length x' /\ zlen x <= zlen out /\ zlen x <=
  zlen out' /\ (i < n)%nat /\ x <> x' /\ (forall p, (p < 24)%nat -> owner ws n p = i -> nth p x x00 = nth p x' x00).
Proof. cbv zeta. repeat lazymatch goal with |- _ /\ _ => split end; try met1. intros p Hp. do 24 (destruct p as [|p]; [vm_compute; (reflexivity || intros H; discriminate H)|]). lia. Qed.

(** C22, BC2, big-endian: every byte string of valid length is the transform of something: untransforming and transforming again gives it back. *)
Theorem C22_be_bc2_onto : forall (d1 d2 : bool) (j1 j2 : byte) (s : settings) (y out1 out2 : list byte),
  zlen y mod 16 = 0 -> zlen y <= zlen out1 -> zlen y <= zlen out2 ->
  exists x z, be_untransform_bc2 (big_endian_cpu d1 j1) s y out1 = Ok (ROk tt, x) /\
    be_transform_bc2 (big_endian_cpu d2 j2) s (firstn (List.length y) x) out2 = Ok (ROk tt, z) /\
    firstn (List.length y) z = y.
Proof. intros d1 d2 j1 j2 s y out1 out2. exact (lC22_be_bc2_onto (big_endian_cpu d1 j1) (big_endian_cpu d2 j2) s y out1 out2 (big_endian_ok d1 j1) (big_endian_ok d2 j2)). Qed.
Print Assumptions C22_be_bc2_onto.
(** three blocks, the second buffer larger than needed *)
Example C22_be_bc2_onto_met :
  let c1 := big_endian_cpu true x5a in let c2 := big_endian_cpu false x77 in let s := Settings V2 true in let y := texture 48 in let out1 := List.repeat x00 48 in let out2 := List.repeat xff 49 in
  zlen y mod 16 = 0 /\ zlen y <= zlen out1 /\ zlen y <= zlen out2.
Proof. met. Qed.

(** C22, BC2, big-endian: distinct textures never share a transformed form. *)
Theorem C22_be_bc2_one_to_one : forall (d1 d2 : bool) (j1 j2 : byte) (s : settings) (x1 x2 out1 out2 y1 y2 : list byte),
  be_transform_bc2 (big_endian_cpu d1 j1) s x1 out1 = Ok (ROk tt, y1) -> be_transform_bc2 (big_endian_cpu d2 j2) s x2 out2 = Ok (ROk tt, y2) ->
  firstn (List.length x1) y1 = firstn (List.length x2) y2 -> x1 = x2.
Proof. intros d1 d2 j1 j2 s x1 x2 out1 out2 y1 y2. exact (lC22_be_bc2_one_to_one (big_endian_cpu d1 j1) (big_endian_cpu d2 j2) s x1 x2 out1 out2 y1 y2 (big_endian_ok d1 j1) (big_endian_ok d2 j2)). Qed.
Print Assumptions C22_be_bc2_one_to_one.
(** two machines transform the same three blocks into buffers of different sizes *)
Example C22_be_bc2_one_to_one_met :
  let c1 := big_endian_cpu true x5a in let c2 := big_endian_cpu false x77 in let s := Settings V2 true in let x1 := texture 48 in let x2 := texture 48 in let out1 := List.repeat x00 48 in let out2 :=
  List.repeat xff 49 in let y1 := left_in (be_transform_bc2 c1 s x1 out1) in let y2 := left_in (be_transform_bc2 c2 s x2 out2) in
  be_transform_bc2 c1 s x1 out1 = Ok (ROk tt,
  y1) /\ be_transform_bc2 c2 s x2 out2 = Ok (ROk tt, y2) /\ firstn (List.length x1) y1 = firstn (List.length x2) y2 /\ y1 <> x1 /\ y2 <> y1.
Proof. met. Qed.

(** C46, BC2, big-endian: without decorrelation the transform only moves bytes around. *)
Theorem C46_be_bc2_permutation : forall (debug : bool) (junk : byte) (s : settings) (x out : list byte),
  decorrelation_mode s = VNone -> zlen x mod 16 = 0 -> zlen x <= zlen out ->
  exists y, be_transform_bc2 (big_endian_cpu debug junk) s x out = Ok (ROk tt, y) /\ Permutation (firstn (List.length x) y) x.
Proof. intros debug junk s x out. exact (lC46_be_bc2_permutation (big_endian_cpu debug junk) s x out (big_endian_ok debug junk)). Qed.
Print Assumptions C46_be_bc2_permutation.
(** three blocks, whose bytes do move *)
Example C46_be_bc2_permutation_met :
  let c := big_endian_cpu true x5a in let s := Settings VNone true in let x := texture 48 in let out := List.repeat x00 48 in
  decorrelation_mode s = VNone /\ zlen x mod 16 = 0 /\ zlen x <= zlen out /\ left_in (be_transform_bc2 c s x out)
  <> x.
Proof. met. Qed.

(** C46, BC2, big-endian: whatever the settings, index (and alpha) bytes are only moved. *)
Theorem C46_be_bc2_only_colours_change : forall (debug : bool) (junk : byte) (s : settings) (x out : list byte),
  zlen x mod 16 = 0 -> zlen x <= zlen out ->
  exists y, be_transform_bc2 (big_endian_cpu debug junk) s x out = Ok (ROk tt, y) /\
    slice y 0 (zlen x / 2) = List.concat (map (raw 0 8) (blocks 16 x)) /\
    slice y (zlen x / 2 + zlen x / 4) (zlen x / 4) = List.concat (map (raw 12 4) (blocks 16 x)).
Proof. intros debug junk s x out. exact (lC46_be_bc2_only_colours_change (big_endian_cpu debug junk) s x out (big_endian_ok debug junk)). Qed.
Print Assumptions C46_be_bc2_only_colours_change.
(** three blocks *)
Example C46_be_bc2_only_colours_change_met :
  let c := big_endian_cpu true x5a in let s := Settings V2 true in let x := texture 48 in let out := List.repeat x00 51 in
  zlen x mod 16 = 0 /\ zlen x <= zlen out.
Proof. met. Qed.

(** C47, BC2, big-endian: an output byte depends only on the block that owns it ([owner] of Spec/Layout.v; each block owns as many bytes as it has). *)
Theorem C47_be_bc2_transform_local : forall (debug : bool) (junk : byte) (s : settings) (x x' out out' : list byte),
  zlen x mod 16 = 0 -> List.length x = List.length x' ->
  zlen x <= zlen out -> zlen x <= zlen out' ->
  let n := (List.length x / 16)%nat in let ws := bc2_widths (split_colour_endpoints s) in
  exists y y', be_transform_bc2 (big_endian_cpu debug junk) s x out = Ok (ROk tt, y) /\ be_transform_bc2 (big_endian_cpu debug junk) s x' out' = Ok (ROk tt, y') /\
    (forall p, (p < List.length x)%nat ->
       nth (owner ws n p) (blocks 16 x) [] = nth (owner ws n p) (blocks 16 x') [] -> nth p y x00 = nth p y' x00) /\
    (forall i, (i < n)%nat -> List.length (filter (fun p => (owner ws n p =? i)%nat) (seq 0 (List.length x))) = 16%nat).
Proof. intros debug junk s x x' out out'. exact (lC47_be_bc2_transform_local (big_endian_cpu debug junk) s x x' out out' (big_endian_ok debug junk)). Qed.
Print Assumptions C47_be_bc2_transform_local.
(** two textures that differ in the last of three blocks *)
Example C47_be_bc2_transform_local_met :
  let c := big_endian_cpu true x5a in let s := Settings V2 true in let x := texture 48 in let x' := texture 32 ++ List.repeat x11 16 in let out := List.repeat x00 48 in let out' :=
  List.repeat xff 51 in
  zlen x mod 16 = 0 /\ List.length x = List.length x' /\ zlen x <= zlen out /\ zlen x <= zlen out' /\ x <> x'.
Proof. met. Qed.

(** C47, BC2, big-endian, the other way: a restored block depends only on the bytes it owns. *)
Theorem C47_be_bc2_untransform_local : forall (debug : bool) (junk : byte) (s : settings) (x x' out out' : list byte) (i : nat),
  zlen x mod 16 = 0 -> List.length x = List.length x' ->
  zlen x <= zlen out -> zlen x <= zlen out' ->
  let n := (List.length x / 16)%nat in let ws := bc2_widths (split_colour_endpoints s) in
  (i < n)%nat -> (forall p, (p < List.length x)%nat -> owner ws n p = i -> nth p x x00 = nth p x' x00) ->
  exists y y', be_untransform_bc2 (big_endian_cpu debug junk) s x out = Ok (ROk tt, y) /\ be_untransform_bc2 (big_endian_cpu debug junk) s x' out' = Ok (ROk tt, y') /\
    nth i (blocks 16 (firstn (List.length x) y)) [] = nth i (blocks 16 (firstn (List.length x) y')) [].
Proof. intros debug junk s x x' out out' i. exact (lC47_be_bc2_untransform_local (big_endian_cpu debug junk) s x x' out out' i (big_endian_ok debug junk)). Qed.
Print Assumptions C47_be_bc2_untransform_local.
(** two transformed textures that differ in the bytes of block 2 only, and block 1 of 3 *)
Example C47_be_bc2_untransform_local_met :
  let c := big_endian_cpu true x5a in let s := Settings V2 true in let n := 3%nat in let ws := bc2_widths true in let x := texture 48 in let x' := map (fun p => if (owner ws n p =?
  2)%nat then x11 else nth p x x00) (seq 0 48) in let out := List.repeat x00 48 in let out' := List.repeat xff 51 in let i := 1%nat in
  zlen x mod 16 = 0 /\ List.length x = List.length x' /\ zlen x <= zlen out /\ zlen x <= zlen out' /\ (i < n)%nat /\ x <> x' /\ (forall p, (p < 48)%nat ->
  owner ws n p = i -> nth p x x00 = nth p x' x00).
Proof. cbv zeta. repeat lazymatch goal with |- _ /\ _ => split end; try met1. intros p Hp. do 48 (destruct p as [|p]; [vm_compute; (reflexivity || intros H; discriminate H)|]). lia. Qed.

(** C22, BC3, big-endian: every byte string of valid length is the transform of something: untransforming and transforming again gives it back. *)
Theorem C22_be_bc3_onto : forall (d1 d2 : bool) (j1 j2 : byte) (s : settings3) (y out1 out2 : list byte),
  zlen y mod 16 = 0 -> zlen y <= zlen out1 -> zlen y <= zlen out2 ->
  exists x z, be_untransform_bc3 (big_endian_cpu d1 j1) s y out1 = Ok (ROk tt, x) /\
    be_transform_bc3 (big_endian_cpu d2 j2) s (firstn (List.length y) x) out2 = Ok (ROk tt, z) /\
    firstn (List.length y) z = y.
Proof. intros d1 d2 j1 j2 s y out1 out2. exact (lC22_be_bc3_onto (big_endian_cpu d1 j1) (big_endian_cpu d2 j2) s y out1 out2 (big_endian_ok d1 j1) (big_endian_ok d2 j2)). Qed.
Print Assumptions C22_be_bc3_onto.
(** three blocks, the second buffer larger than needed *)
Example C22_be_bc3_onto_met :
  let c1 := big_endian_cpu true x5a in let c2 := big_endian_cpu false x77 in let s := Settings3 V2 true true in let y := texture 48 in let out1 := List.repeat x00 48 in let out2 := List.repeat xff 49
  in
  zlen y mod 16 = 0 /\ zlen y <= zlen out1 /\ zlen y <=
  zlen out2.
Proof. met. Qed.

(** C22, BC3, big-endian: distinct textures never share a transformed form. *)
Theorem C22_be_bc3_one_to_one : forall (d1 d2 : bool) (j1 j2 : byte) (s : settings3) (x1 x2 out1 out2 y1 y2 : list byte),
  be_transform_bc3 (big_endian_cpu d1 j1) s x1 out1 = Ok (ROk tt, y1) -> be_transform_bc3 (big_endian_cpu d2 j2) s x2 out2 = Ok (ROk tt, y2) ->
  firstn (List.length x1) y1 = firstn (List.length x2) y2 -> x1 = x2.
Proof. intros d1 d2 j1 j2 s x1 x2 out1 out2 y1 y2. exact (lC22_be_bc3_one_to_one (big_endian_cpu d1 j1) (big_endian_cpu d2 j2) s x1 x2 out1 out2 y1 y2 (big_endian_ok d1 j1) (big_endian_ok d2 j2)). Qed.
Print Assumptions C22_be_bc3_one_to_one.
(** two machines transform the same three blocks into buffers of different sizes *)
Example C22_be_bc3_one_to_one_met :
  let c1 := big_endian_cpu true x5a in let c2 := big_endian_cpu false x77 in let s := Settings3 V2 true true in let x1 := texture 48 in let x2 := texture 48 in let out1 := List.repeat x00 48 in let
  out2 := List.repeat xff 49 in let y1 := left_in (be_transform_bc3 c1 s x1 out1) in let y2 := left_in (be_transform_bc3 c2 s x2 out2) in
  be_transform_bc3 c1 s x1 out1 = Ok (ROk tt, y1) /\ be_transform_bc3 c2 s x2 out2 = Ok (ROk tt, y2) /\ firstn (List.length x1) y1 = firstn (List.length x2) y2 /\ y1 <> x1 /\
  y2 <> y1.
Proof. met. Qed.

(** C46, BC3, big-endian: without decorrelation the transform only moves bytes around. *)
Theorem C46_be_bc3_permutation : forall (debug : bool) (junk : byte) (s : settings3) (x out : list byte),
  decorrelation_mode3 s = VNone -> zlen x mod 16 = 0 -> zlen x <= zlen out ->
  exists y, be_transform_bc3 (big_endian_cpu debug junk) s x out = Ok (ROk tt, y) /\ Permutation (firstn (List.length x) y) x.
Proof. intros debug junk s x out. exact (lC46_be_bc3_permutation (big_endian_cpu debug junk) s x out (big_endian_ok debug junk)). Qed.
Print Assumptions C46_be_bc3_permutation.
(** three blocks, whose bytes do move *)
Example C46_be_bc3_permutation_met :
  let c := big_endian_cpu true x5a in let s := Settings3 VNone true true in let x := texture 48 in let out := List.repeat x00 48 in
  decorrelation_mode3 s = VNone /\ zlen x mod 16 = 0 /\ zlen x <= zlen out /\ left_in
  (be_transform_bc3 c s x out) <> x.
Proof. met. Qed.

(** C46, BC3, big-endian: whatever the settings, index (and alpha) bytes are only moved. *)
Theorem C46_be_bc3_only_colours_change : forall (debug : bool) (junk : byte) (s : settings3) (x out : list byte),
  zlen x mod 16 = 0 -> zlen x <= zlen out ->
  exists y, be_transform_bc3 (big_endian_cpu debug junk) s x out = Ok (ROk tt, y) /\
    slice y (zlen x / 8) (6 * (zlen x / 16)) = List.concat (map (raw 2 6) (blocks 16 x)) /\
    slice y (zlen x / 2 + zlen x / 4) (zlen x / 4) = List.concat (map (raw 12 4) (blocks 16 x)) /\
    Permutation (slice y 0 (zlen x / 8)) (List.concat (map (raw 0 2) (blocks 16 x))).
Proof. intros debug junk s x out. exact (lC46_be_bc3_only_colours_change (big_endian_cpu debug junk) s x out (big_endian_ok debug junk)). Qed.
Print Assumptions C46_be_bc3_only_colours_change.
(** three blocks *)
Example C46_be_bc3_only_colours_change_met :
  let c := big_endian_cpu true x5a in let s := Settings3 V2 true true in let x := texture 48 in let out := List.repeat x00 51 in
  zlen x mod 16 = 0 /\ zlen x <= zlen out.
Proof. met. Qed.

(** C47, BC3, big-endian: an output byte depends only on the block that owns it ([owner] of Spec/Layout.v; each block owns as many bytes as it has). *)
Theorem C47_be_bc3_transform_local : forall (debug : bool) (junk : byte) (s : settings3) (x x' out out' : list byte),
  zlen x mod 16 = 0 -> List.length x = List.length x' ->
  zlen x <= zlen out -> zlen x <= zlen out' ->
  let n := (List.length x / 16)%nat in let ws := bc3_widths (split_alpha_endpoints s) (split_colour_endpoints3 s) in
  exists y y', be_transform_bc3 (big_endian_cpu debug junk) s x out = Ok (ROk tt, y) /\ be_transform_bc3 (big_endian_cpu debug junk) s x' out' = Ok (ROk tt, y') /\
    (forall p, (p < List.length x)%nat ->
       nth (owner ws n p) (blocks 16 x) [] = nth (owner ws n p) (blocks 16 x') [] -> nth p y x00 = nth p y' x00) /\
    (forall i, (i < n)%nat -> List.length (filter (fun p => (owner ws n p =? i)%nat) (seq 0 (List.length x))) = 16%nat).
Proof. intros debug junk s x x' out out'. exact (lC47_be_bc3_transform_local (big_endian_cpu debug junk) s x x' out out' (big_endian_ok debug junk)). Qed.
Print Assumptions C47_be_bc3_transform_local.
(** two textures that differ in the last of three blocks *)
Example C47_be_bc3_transform_local_met :
  let c := big_endian_cpu true x5a in let s := Settings3 V2 true true in let x := texture 48 in let x' := texture 32 ++ List.repeat x11 16 in let out := List.repeat x00 48 in let out'
  := List.repeat xff 51 in
  zlen x mod 16 = 0 /\ List.length x = List.length x' /\ zlen x <= zlen out /\ zlen x <=
  zlen out' /\ x <> x'.
Proof. met. Qed.

(** C47, BC3, big-endian, the other way: a restored block depends only on the bytes it owns. *)
Theorem C47_be_bc3_untransform_local : forall (debug : bool) (junk : byte) (s : settings3) (x x' out out' : list byte) (i : nat),
  zlen x mod 16 = 0 -> List.length x = List.length x' ->
  zlen x <= zlen out -> zlen x <= zlen out' ->
  let n := (List.length x / 16)%nat in let ws := bc3_widths (split_alpha_endpoints s) (split_colour_endpoints3 s) in
  (i < n)%nat -> (forall p, (p < List.length x)%nat -> owner ws n p = i -> nth p x x00 = nth p x' x00) ->
  exists y y', be_untransform_bc3 (big_endian_cpu debug junk) s x out = Ok (ROk tt, y) /\ be_untransform_bc3 (big_endian_cpu debug junk) s x' out' = Ok (ROk tt, y') /\
    nth i (blocks 16 (firstn (List.length x) y)) [] = nth i (blocks 16 (firstn (List.length x) y')) [].
Proof. intros debug junk s x x' out out' i. exact (lC47_be_bc3_untransform_local (big_endian_cpu debug junk) s x x' out out' i (big_endian_ok debug junk)). Qed.
Print Assumptions C47_be_bc3_untransform_local.
(** two transformed textures that differ in the bytes of block 2 only, and block 1 of 3 *)
Example C47_be_bc3_untransform_local_met :
  let c := big_endian_cpu true x5a in let s := Settings3 V2 true true in let n := 3%nat in let ws := bc3_widths true true in let x := texture 48 in let x' := map (fun p => if (owner ws
  n p =? 2)%nat then x11 else nth p x x00) (seq 0 48) in let out := List.repeat x00 48 in let out' := List.repeat xff 51 in let i := 1%nat in
  zlen x mod 16 = 0 /\ List.length x = List.length x' /\ zlen x <= zlen out /\ zlen x <=
  zlen out' /\ (i < n)%nat /\ x <> x' /\ (forall p, (p < 48)%nat -> owner ws n p = i -> nth p x x00 = nth p x' x00).
Proof. cbv zeta. repeat lazymatch goal with |- _ /\ _ => split end; try met1. intros p Hp. do 48 (destruct p as [|p]; [vm_compute; (reflexivity || intros H; discriminate H)|]). lia. Qed.

