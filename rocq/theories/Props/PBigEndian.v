(** C65, C66: big-endian machines.
    [be_transform_bcN] and [be_untransform_bcN] are the entry points compiled for
    a big-endian machine (Model/BeTransform.v). *)
From Verif Require Import Base.Bytes Base.Res Model.Color565 Model.Kernel Model.Transform Model.BigEndian Model.BeTransform
  Model.ColorBatch Model.GenBeSplit565 Spec.YCoCg Spec.Layout Spec.BigEndian Proofs.BigEndianFacts Proofs.BigEndianProps Props.Cases.
Open Scope string_scope.
Open Scope list_scope.
Open Scope Z_scope.

(** ** The machine *)

(** A load of 1, 2, 4 or 8 bytes fills the register (which holds the least
    significant byte first) with the bytes of memory in reverse order; other
    registers and memory stay as they are. *)
Theorem C65_load : forall junk vt d p off n r ps m q l, width n -> scratch d = false ->
  look ps p = Some q -> mload m (padd q off) n = Ok l -> zlen l = n ->
  exists r', exec junk vt (be_body [ILoad d p off n]) (St r ps m) = Ok (St r' ps m) /\
    look r' d = Some (rev l) /\ forall x, scratch x = false -> x <> d -> look r' x = look r x.
Proof. exact be_load_run. Qed.
Print Assumptions C65_load.

(** A store writes the bytes of the register in reverse order. *)
Theorem C65_store : forall junk vt p off n s r ps m q l m', width n -> scratch s = false ->
  look ps p = Some q -> look r s = Some l -> zlen l = n -> mstore m (padd q off) (rev l) = Ok m' ->
  exists r', exec junk vt (be_body [IStore p off n s]) (St r ps m) = Ok (St r' ps m') /\
    forall x, scratch x = false -> look r' x = look r x.
Proof. exact be_store_run. Qed.
Print Assumptions C65_store.

Example C65_load_case : exec x00 0 (be_body [ILoad "a" "p" 1 4]) (St [] [("p", Ptr BIn 0)] (Mem [x01; x02; x03; x04; x05] [] [])) =
  exec x00 0 [ILoad "a" "p" 1 4] (St [] [("p", Ptr BIn 0)] (Mem [x01; x02; x03; x04; x05] [] [])) -> False.
Proof. vm_compute. discriminate. Qed.

(** ** C65: the transforms on a big-endian machine *)

(** C65, BC1: a big-endian machine restores what it (or another one) transformed, for every setting, in debug and release builds; also for an empty texture. *)
Theorem C65_bc1_lossless : forall (d1 d2 : bool) (j1 j2 : byte) (s : settings) (x out1 out2 : list byte),
  zlen x mod 8 = 0 -> zlen x <= zlen out1 -> zlen x <= zlen out2 ->
  exists y z, be_transform_bc1 (big_endian_cpu d1 j1) s x out1 = Ok (ROk tt, y) /\
    be_untransform_bc1 (big_endian_cpu d2 j2) s (firstn (List.length x) y) out2 = Ok (ROk tt, z) /\
    firstn (List.length x) z = x.
Proof. exact lC65_bc1_lossless. Qed.
Print Assumptions C65_bc1_lossless.
Example C65_bc1_lossless_case : let x := map (fun i => lo8 (i * 37 + 11)) (zseq 0 24) in
  zlen x mod 8 = 0 /\
  exists y, be_transform_bc1 (big_endian_cpu true x00) (Settings V2 true) x (List.repeat x00 24) = Ok (ROk tt, y) /\ y <> x.
Proof. cbv zeta. split; [reflexivity|]. eexists. split; [vm_compute; reflexivity|discriminate]. Qed.

(** C65, BC1: the transform writes the big-endian layout of Spec/BigEndian.v to [b .. b + len) and touches nothing else. *)
Theorem C65_bc1_layout : forall (debug : bool) (junk : byte) (s : settings) (inp aux out : list byte) (a b len : Z),
  len mod 8 = 0 -> 0 <= len -> 0 <= a -> 0 <= b -> a + len <= zlen inp -> b + len <= zlen out ->
  be_transform_bc1_with_settings (big_endian_cpu debug junk) (Ptr BIn a) (Ptr BOut b) len s (Mem inp aux out) =
  Ok (Mem inp aux (splice out b (be_bc1_layout (decorrelation_mode s) (split_colour_endpoints s) (slice inp a len)))) /\
  zlen (be_bc1_layout (decorrelation_mode s) (split_colour_endpoints s) (slice inp a len)) = len.
Proof. exact lC65_bc1_layout. Qed.
Print Assumptions C65_bc1_layout.
(** the texture is inside larger buffers *)
Example C65_bc1_layout_met :
  let debug := true in let junk := x5a in let s := Settings V2 true in let aux := @nil byte in let inp := texture 60 in let out := repeat xee 70 in let a := 3 in let b :=
  7 in let len := 48 in
  len mod 8 = 0 /\ 0 <= len /\ 0 <= a /\ 0 <= b /\ a + len <= zlen inp /\ b + len <= zlen out.
Proof. met. Qed.

(** C65, BC1: untransforming writes the texture whose layout was given to [b .. b + len) and touches nothing else, whatever the bytes given. *)
Theorem C65_bc1_untransform : forall (debug : bool) (junk : byte) (s : settings) (inp aux out : list byte) (a b len : Z),
  len mod 8 = 0 -> 0 <= len -> 0 <= a -> 0 <= b -> a + len <= zlen inp -> b + len <= zlen out ->
  exists y, be_untransform_bc1_with_settings (big_endian_cpu debug junk) (Ptr BIn a) (Ptr BOut b) len s (Mem inp aux out) =
    Ok (Mem inp aux (splice out b y)) /\ zlen y = len /\ be_bc1_layout (decorrelation_mode s) (split_colour_endpoints s) y = slice inp a len.
Proof. exact lC65_bc1_untransform. Qed.
Print Assumptions C65_bc1_untransform.
(** the texture is inside larger buffers *)
Example C65_bc1_untransform_met :
  let debug := true in let junk := x5a in let s := Settings V2 true in let aux := @nil byte in let inp := texture 60 in let out := repeat xee 70 in let a := 3 in let b :=
  7 in let len := 48 in
  len mod 8 = 0 /\ 0 <= len /\ 0 <= a /\ 0 <= b /\ a + len <= zlen inp /\ b + len <= zlen out.
Proof. met. Qed.

(** C66, BC1, without decorrelation: a big-endian and a little-endian machine give the same answers and the same bytes, for every input. (Partial: decorrelating settings are not portable, see the refutation.) *)
Theorem C66_bc1_no_decorrelation_partial : forall (c : cfg) (debug : bool) (junk : byte) (s : settings) (x out : list byte),
  cpu_ok c -> (c_debug c = true -> split_colour_endpoints s = true -> x <> []) -> decorrelation_mode s = VNone ->
  be_transform_bc1 (big_endian_cpu debug junk) s x out = transform_bc1 c s x out /\
  be_untransform_bc1 (big_endian_cpu debug junk) s x out = untransform_bc1 c s x out.
Proof. exact lC66_bc1_no_decorrelation_partial. Qed.
Print Assumptions C66_bc1_no_decorrelation_partial.
(** a debug build *)
Example C66_bc1_no_decorrelation_partial_met :
  let c := debug_cpu in let debug := true in let junk := x5a in let s := Settings VNone true in let x := texture 48 in let out := texture 50 in
  cpu_ok c /\ (c_debug c = true -> split_colour_endpoints s = true -> x <> []) /\ decorrelation_mode s = VNone.
Proof. met. Qed.

(** C66, BC1: exactly which textures survive being transformed on a little-endian machine and restored on a big-endian one: those whose two layouts agree. *)
Theorem C66_bc1_portable_iff_partial : forall (c : cfg) (debug : bool) (junk : byte) (s : settings) (x out1 out2 : list byte),
  cpu_ok c -> (c_debug c = true -> split_colour_endpoints s = true -> x <> []) -> zlen x mod 8 = 0 -> zlen x <= zlen out1 -> zlen x <= zlen out2 ->
  exists y z, transform_bc1 c s x out1 = Ok (ROk tt, y) /\
    be_untransform_bc1 (big_endian_cpu debug junk) s (firstn (List.length x) y) out2 = Ok (ROk tt, z) /\
    (firstn (List.length x) z = x <-> be_bc1_layout (decorrelation_mode s) (split_colour_endpoints s) x = bc1_layout (decorrelation_mode s) (split_colour_endpoints s) x).
Proof. exact lC66_bc1_portable_iff_partial. Qed.
Print Assumptions C66_bc1_portable_iff_partial.
(** a debug build *)
Example C66_bc1_portable_iff_partial_met :
  let c := debug_cpu in let debug := true in let junk := x5a in let s := Settings V2 true in let x := texture 48 in let out1 := texture 50 in let out2 := texture 48 in
  cpu_ok c /\ (c_debug c = true -> split_colour_endpoints s = true -> x <> []) /\ zlen x mod 8 = 0 /\ zlen x <= zlen out1 /\ zlen x <= zlen out2.
Proof. met. Qed.

(** C66, BC1, refuted with decorrelation: for every decorrelation mode and every choice of the other settings there is a block that a little-endian machine transforms and a big-endian machine restores as other bytes, and the other way round. No error is reported. *)
Theorem C66_bc1_decorrelated_refuted : forall (v : variant) (sp : bool), v <> VNone ->
  exists (c : cfg) (x y z y' z' : list byte), cpu_ok c /\ zlen x = 8 /\
    transform_bc1 c (Settings v sp) x (List.repeat x00 8) = Ok (ROk tt, y) /\
    be_untransform_bc1 (big_endian_cpu false x00) (Settings v sp) y (List.repeat x00 8) = Ok (ROk tt, z) /\ z <> x /\
    be_transform_bc1 (big_endian_cpu false x00) (Settings v sp) x (List.repeat x00 8) = Ok (ROk tt, y') /\
    untransform_bc1 c (Settings v sp) y' (List.repeat x00 8) = Ok (ROk tt, z') /\ z' <> x.
Proof. exact lC66_bc1_decorrelated_refuted. Qed.
Print Assumptions C66_bc1_decorrelated_refuted.

(** C65, BC2: a big-endian machine restores what it (or another one) transformed, for every setting, in debug and release builds; also for an empty texture. *)
Theorem C65_bc2_lossless : forall (d1 d2 : bool) (j1 j2 : byte) (s : settings) (x out1 out2 : list byte),
  zlen x mod 16 = 0 -> zlen x <= zlen out1 -> zlen x <= zlen out2 ->
  exists y z, be_transform_bc2 (big_endian_cpu d1 j1) s x out1 = Ok (ROk tt, y) /\
    be_untransform_bc2 (big_endian_cpu d2 j2) s (firstn (List.length x) y) out2 = Ok (ROk tt, z) /\
    firstn (List.length x) z = x.
Proof. exact lC65_bc2_lossless. Qed.
Print Assumptions C65_bc2_lossless.
Example C65_bc2_lossless_case : let x := map (fun i => lo8 (i * 37 + 11)) (zseq 0 48) in
  zlen x mod 16 = 0 /\
  exists y, be_transform_bc2 (big_endian_cpu true x00) (Settings V2 true) x (List.repeat x00 48) = Ok (ROk tt, y) /\ y <> x.
Proof. cbv zeta. split; [reflexivity|]. eexists. split; [vm_compute; reflexivity|discriminate]. Qed.

(** C65, BC2: the transform writes the big-endian layout of Spec/BigEndian.v to [b .. b + len) and touches nothing else. *)
Theorem C65_bc2_layout : forall (debug : bool) (junk : byte) (s : settings) (inp aux out : list byte) (a b len : Z),
  len mod 16 = 0 -> 0 <= len -> 0 <= a -> 0 <= b -> a + len <= zlen inp -> b + len <= zlen out ->
  be_transform_bc2_with_settings (big_endian_cpu debug junk) (Ptr BIn a) (Ptr BOut b) len s (Mem inp aux out) =
  Ok (Mem inp aux (splice out b (be_bc2_layout (decorrelation_mode s) (split_colour_endpoints s) (slice inp a len)))) /\
  zlen (be_bc2_layout (decorrelation_mode s) (split_colour_endpoints s) (slice inp a len)) = len.
Proof. exact lC65_bc2_layout. Qed.
Print Assumptions C65_bc2_layout.
(** the texture is inside larger buffers *)
Example C65_bc2_layout_met :
  let debug := true in let junk := x5a in let s := Settings V3 false in let aux := @nil byte in let inp := texture 60 in let out := repeat xee 70 in let a := 3 in let b
  := 7 in let len := 48 in
  len mod 16 = 0 /\ 0 <= len /\ 0 <= a /\ 0 <= b /\ a + len <= zlen inp /\ b + len <= zlen out.
Proof. met. Qed.

(** C65, BC2: untransforming writes the texture whose layout was given to [b .. b + len) and touches nothing else, whatever the bytes given. *)
Theorem C65_bc2_untransform : forall (debug : bool) (junk : byte) (s : settings) (inp aux out : list byte) (a b len : Z),
  len mod 16 = 0 -> 0 <= len -> 0 <= a -> 0 <= b -> a + len <= zlen inp -> b + len <= zlen out ->
  exists y, be_untransform_bc2_with_settings (big_endian_cpu debug junk) (Ptr BIn a) (Ptr BOut b) len s (Mem inp aux out) =
    Ok (Mem inp aux (splice out b y)) /\ zlen y = len /\ be_bc2_layout (decorrelation_mode s) (split_colour_endpoints s) y = slice inp a len.
Proof. exact lC65_bc2_untransform. Qed.
Print Assumptions C65_bc2_untransform.
(** the texture is inside larger buffers *)
Example C65_bc2_untransform_met :
  let debug := true in let junk := x5a in let s := Settings V3 false in let aux := @nil byte in let inp := texture 60 in let out := repeat xee 70 in let a := 3 in let b
  := 7 in let len := 48 in
  len mod 16 = 0 /\ 0 <= len /\ 0 <= a /\ 0 <= b /\ a + len <= zlen inp /\ b + len <= zlen out.
Proof. met. Qed.

(** C66, BC2, without decorrelation: a big-endian and a little-endian machine give the same answers and the same bytes, for every input. (Partial: decorrelating settings are not portable, see the refutation.) *)
Theorem C66_bc2_no_decorrelation_partial : forall (c : cfg) (debug : bool) (junk : byte) (s : settings) (x out : list byte),
  cpu_ok c -> (c_avx512bw c = true -> c_avx512vl c = true) -> decorrelation_mode s = VNone ->
  be_transform_bc2 (big_endian_cpu debug junk) s x out = transform_bc2 c s x out /\
  be_untransform_bc2 (big_endian_cpu debug junk) s x out = untransform_bc2 c s x out.
Proof. exact lC66_bc2_no_decorrelation_partial. Qed.
Print Assumptions C66_bc2_no_decorrelation_partial.
(** a debug build *)
Example C66_bc2_no_decorrelation_partial_met :
  let c := debug_cpu in let debug := true in let junk := x5a in let s := Settings VNone false in let x := texture 48 in let out := texture 50 in
  cpu_ok c /\ (c_avx512bw c = true -> c_avx512vl c = true) /\ decorrelation_mode s = VNone.
Proof. met. Qed.

(** C66, BC2: exactly which textures survive being transformed on a little-endian machine and restored on a big-endian one: those whose two layouts agree. *)
Theorem C66_bc2_portable_iff_partial : forall (c : cfg) (debug : bool) (junk : byte) (s : settings) (x out1 out2 : list byte),
  cpu_ok c -> (c_avx512bw c = true -> c_avx512vl c = true) -> zlen x mod 16 = 0 -> zlen x <= zlen out1 -> zlen x <= zlen out2 ->
  exists y z, transform_bc2 c s x out1 = Ok (ROk tt, y) /\
    be_untransform_bc2 (big_endian_cpu debug junk) s (firstn (List.length x) y) out2 = Ok (ROk tt, z) /\
    (firstn (List.length x) z = x <-> be_bc2_layout (decorrelation_mode s) (split_colour_endpoints s) x = bc2_layout (decorrelation_mode s) (split_colour_endpoints s) x).
Proof. exact lC66_bc2_portable_iff_partial. Qed.
Print Assumptions C66_bc2_portable_iff_partial.
(** a debug build *)
Example C66_bc2_portable_iff_partial_met :
  let c := debug_cpu in let debug := true in let junk := x5a in let s := Settings V3 false in let x := texture 48 in let out1 := texture 50 in let out2 := texture 48 in
  cpu_ok c /\ (c_avx512bw c = true -> c_avx512vl c = true) /\ zlen x mod 16 = 0 /\ zlen x <= zlen out1 /\ zlen x <= zlen out2.
Proof. met. Qed.

(** C66, BC2, refuted with decorrelation: for every decorrelation mode and every choice of the other settings there is a block that a little-endian machine transforms and a big-endian machine restores as other bytes, and the other way round. No error is reported. *)
Theorem C66_bc2_decorrelated_refuted : forall (v : variant) (sp : bool), v <> VNone ->
  exists (c : cfg) (x y z y' z' : list byte), cpu_ok c /\ zlen x = 16 /\
    transform_bc2 c (Settings v sp) x (List.repeat x00 16) = Ok (ROk tt, y) /\
    be_untransform_bc2 (big_endian_cpu false x00) (Settings v sp) y (List.repeat x00 16) = Ok (ROk tt, z) /\ z <> x /\
    be_transform_bc2 (big_endian_cpu false x00) (Settings v sp) x (List.repeat x00 16) = Ok (ROk tt, y') /\
    untransform_bc2 c (Settings v sp) y' (List.repeat x00 16) = Ok (ROk tt, z') /\ z' <> x.
Proof. exact lC66_bc2_decorrelated_refuted. Qed.
Print Assumptions C66_bc2_decorrelated_refuted.

(** C65, BC3: a big-endian machine restores what it (or another one) transformed, for every setting, in debug and release builds; also for an empty texture. *)
Theorem C65_bc3_lossless : forall (d1 d2 : bool) (j1 j2 : byte) (s : settings3) (x out1 out2 : list byte),
  zlen x mod 16 = 0 -> zlen x <= zlen out1 -> zlen x <= zlen out2 ->
  exists y z, be_transform_bc3 (big_endian_cpu d1 j1) s x out1 = Ok (ROk tt, y) /\
    be_untransform_bc3 (big_endian_cpu d2 j2) s (firstn (List.length x) y) out2 = Ok (ROk tt, z) /\
    firstn (List.length x) z = x.
Proof. exact lC65_bc3_lossless. Qed.
Print Assumptions C65_bc3_lossless.
Example C65_bc3_lossless_case : let x := map (fun i => lo8 (i * 37 + 11)) (zseq 0 48) in
  zlen x mod 16 = 0 /\
  exists y, be_transform_bc3 (big_endian_cpu true x00) (Settings3 V2 true true) x (List.repeat x00 48) = Ok (ROk tt, y) /\ y <> x.
Proof. cbv zeta. split; [reflexivity|]. eexists. split; [vm_compute; reflexivity|discriminate]. Qed.

(** C65, BC3: the transform writes the big-endian layout of Spec/BigEndian.v to [b .. b + len) and touches nothing else. *)
Theorem C65_bc3_layout : forall (debug : bool) (junk : byte) (s : settings3) (inp aux out : list byte) (a b len : Z),
  len mod 16 = 0 -> 0 <= len -> 0 <= a -> 0 <= b -> a + len <= zlen inp -> b + len <= zlen out ->
  be_transform_bc3_with_settings (big_endian_cpu debug junk) (Ptr BIn a) (Ptr BOut b) len s (Mem inp aux out) =
  Ok (Mem inp aux (splice out b (be_bc3_layout (decorrelation_mode3 s) (split_alpha_endpoints s) (split_colour_endpoints3 s) (slice inp a len)))) /\
  zlen (be_bc3_layout (decorrelation_mode3 s) (split_alpha_endpoints s) (split_colour_endpoints3 s) (slice inp a len)) = len.
Proof. exact lC65_bc3_layout. Qed.
Print Assumptions C65_bc3_layout.
(** the texture is inside larger buffers *)
Example C65_bc3_layout_met :
  let debug := true in let junk := x5a in let s := Settings3 V1 true false in let aux := @nil byte in let inp := texture 60 in let out := repeat xee 70 in let a := 3 in
  let b := 7 in let len := 48 in
  len mod 16 = 0 /\ 0 <= len /\ 0 <= a /\ 0 <= b /\ a + len <= zlen inp /\ b + len <= zlen out.
Proof. met. Qed.

(** C65, BC3: untransforming writes the texture whose layout was given to [b .. b + len) and touches nothing else, whatever the bytes given. *)
Theorem C65_bc3_untransform : forall (debug : bool) (junk : byte) (s : settings3) (inp aux out : list byte) (a b len : Z),
  len mod 16 = 0 -> 0 <= len -> 0 <= a -> 0 <= b -> a + len <= zlen inp -> b + len <= zlen out ->
  exists y, be_untransform_bc3_with_settings (big_endian_cpu debug junk) (Ptr BIn a) (Ptr BOut b) len s (Mem inp aux out) =
    Ok (Mem inp aux (splice out b y)) /\ zlen y = len /\ be_bc3_layout (decorrelation_mode3 s) (split_alpha_endpoints s) (split_colour_endpoints3 s) y = slice inp a len.
Proof. exact lC65_bc3_untransform. Qed.
Print Assumptions C65_bc3_untransform.
(** the texture is inside larger buffers *)
Example C65_bc3_untransform_met :
  let debug := true in let junk := x5a in let s := Settings3 V1 true false in let aux := @nil byte in let inp := texture 60 in let out := repeat xee 70 in let a := 3 in
  let b := 7 in let len := 48 in
  len mod 16 = 0 /\ 0 <= len /\ 0 <= a /\ 0 <= b /\ a + len <= zlen inp /\ b + len <= zlen out.
Proof. met. Qed.

(** C66, BC3, without decorrelation: a big-endian and a little-endian machine give the same answers and the same bytes, for every input. (Partial: decorrelating settings are not portable, see the refutation.) *)
Theorem C66_bc3_no_decorrelation_partial : forall (c : cfg) (debug : bool) (junk : byte) (s : settings3) (x out : list byte),
  cpu_ok c -> (c_debug c = true -> split_alpha_endpoints s = true -> x <> []) -> decorrelation_mode3 s = VNone ->
  be_transform_bc3 (big_endian_cpu debug junk) s x out = transform_bc3 c s x out /\
  be_untransform_bc3 (big_endian_cpu debug junk) s x out = untransform_bc3 c s x out.
Proof. exact lC66_bc3_no_decorrelation_partial. Qed.
Print Assumptions C66_bc3_no_decorrelation_partial.
(** a debug build *)
Example C66_bc3_no_decorrelation_partial_met :
  let c := debug_cpu in let debug := true in let junk := x5a in let s := Settings3 VNone true false in let x := texture 48 in let out := texture 50 in
  cpu_ok c /\ (c_debug c = true -> split_alpha_endpoints s = true -> x <> []) /\ decorrelation_mode3 s = VNone.
Proof. met. Qed.

(** C66, BC3: exactly which textures survive being transformed on a little-endian machine and restored on a big-endian one: those whose two layouts agree. *)
Theorem C66_bc3_portable_iff_partial : forall (c : cfg) (debug : bool) (junk : byte) (s : settings3) (x out1 out2 : list byte),
  cpu_ok c -> (c_debug c = true -> split_alpha_endpoints s = true -> x <> []) -> zlen x mod 16 = 0 -> zlen x <= zlen out1 -> zlen x <= zlen out2 ->
  exists y z, transform_bc3 c s x out1 = Ok (ROk tt, y) /\
    be_untransform_bc3 (big_endian_cpu debug junk) s (firstn (List.length x) y) out2 = Ok (ROk tt, z) /\
    (firstn (List.length x) z = x <-> be_bc3_layout (decorrelation_mode3 s) (split_alpha_endpoints s) (split_colour_endpoints3 s) x = bc3_layout (decorrelation_mode3 s) (split_alpha_endpoints s) (split_colour_endpoints3 s) x).
Proof. exact lC66_bc3_portable_iff_partial. Qed.
Print Assumptions C66_bc3_portable_iff_partial.
(** a debug build *)
Example C66_bc3_portable_iff_partial_met :
  let c := debug_cpu in let debug := true in let junk := x5a in let s := Settings3 V1 true false in let x := texture 48 in let out1 := texture 50 in let out2 := texture
  48 in
  cpu_ok c /\ (c_debug c = true -> split_alpha_endpoints s = true -> x <> []) /\ zlen x mod 16 = 0 /\ zlen x <= zlen out1 /\ zlen x <= zlen out2.
Proof. met. Qed.

(** C66, BC3, refuted with decorrelation: for every decorrelation mode and every choice of the other settings there is a block that a little-endian machine transforms and a big-endian machine restores as other bytes, and the other way round. No error is reported. *)
Theorem C66_bc3_decorrelated_refuted : forall (v : variant) (sa sp : bool), v <> VNone ->
  exists (c : cfg) (x y z y' z' : list byte), cpu_ok c /\ zlen x = 16 /\
    transform_bc3 c (Settings3 v sa sp) x (List.repeat x00 16) = Ok (ROk tt, y) /\
    be_untransform_bc3 (big_endian_cpu false x00) (Settings3 v sa sp) y (List.repeat x00 16) = Ok (ROk tt, z) /\ z <> x /\
    be_transform_bc3 (big_endian_cpu false x00) (Settings3 v sa sp) x (List.repeat x00 16) = Ok (ROk tt, y') /\
    untransform_bc3 c (Settings3 v sa sp) y' (List.repeat x00 16) = Ok (ROk tt, z') /\ z' <> x.
Proof. exact lC66_bc3_decorrelated_refuted. Qed.
Print Assumptions C66_bc3_decorrelated_refuted.

(** ** The endpoint splitter (C42) on a big-endian machine: no minimum length. *)
Theorem C65_split_layout : forall (debug : bool) (junk : byte) (inp aux out : list byte) (a b n : Z),
  (debug = true -> 0 < n) -> 0 <= a -> 0 <= b -> 0 <= n -> a + 4 * n <= zlen inp -> b + 4 * n <= zlen out ->
  be_common_transforms_split_565_color_endpoints_split_color_endpoints (big_endian_cpu debug junk) (Ptr BIn a) (Ptr BOut b) (4 * n) (Mem inp aux out) =
  Ok (Mem inp aux (splice out b (lay [raw 0 2; raw 2 2] (blocks 4 (slice inp a (4 * n)))))).
Proof. exact (fun debug junk inp aux out a b n => be_split_run (big_endian_cpu debug junk) inp aux out a b n (big_endian_ok debug junk)). Qed.
Print Assumptions C65_split_layout.
(** an odd number of pairs inside larger buffers, a debug build *)
Example C65_split_layout_met :
  let debug := true in let junk := x5a in let inp := texture 60 in let aux := @nil byte in let out := repeat xee 70 in let a := 3 in let b := 7 in let n := 13 in
  (debug = true -> 0 < n) /\ 0 <= a /\ 0 <= b /\ 0 <= n /\ a + 4 * n <= zlen inp /\ b + 4 * n <= zlen out.
Proof. met. Qed.

(** ** C04: recorrelating from two arrays, by pointers. An odd number of colours is
    refused in debug builds, for both byte orders; an even one is not. *)
Theorem C04_odd_number : forall (c : cfg) (src0 src1 dst : ptr) (n : Z) (v : variant) (m : mem),
  c_debug c = true -> n mod 2 = 1 ->
  (exists why, color_batch_recorrelate_ptr_split c src0 src1 dst n v m = Panic why) /\
  (exists why, be_color_batch_recorrelate_ptr_split c src0 src1 dst n v m = Panic why).
Proof.
  intros c src0 src1 dst n v m D H. unfold color_batch_recorrelate_ptr_split, be_color_batch_recorrelate_ptr_split.
  rewrite D, H. split; eexists; reflexivity.
Qed.
Print Assumptions C04_odd_number.
Example C04_even_number : forall v, let m := Mem [x01; x02; x03; x04] [] [x00; x00; x00; x00] in let c := big_endian_cpu true x00 in
  (exists m', color_batch_recorrelate_ptr_split c (Ptr BIn 0) (Ptr BIn 2) (Ptr BOut 0) 2 v m = Ok m') /\
  (exists m', be_color_batch_recorrelate_ptr_split c (Ptr BIn 0) (Ptr BIn 2) (Ptr BOut 0) 2 v m = Ok m').
Proof. intros v m c. destruct v; split; eexists; vm_compute; reflexivity. Qed.
