(** C78 on big-endian machines: a damaged or cut transformed texture or DDS
    file, written and read there. *)
From Verif Require Import Base.Bytes Base.Res Model.Color565 Model.Ycc Model.Kernel Model.Transform Model.Auto Model.Builders Model.Embed Model.Bundle Model.Dds
  Model.BigEndian Model.BeTransform Model.BeFiles.
From Verif Require Import Spec.Layout Spec.BigEndian Spec.Estimator Spec.Files Spec.BeFiles Spec.Dds Spec.Damage Proofs.BigEndianFacts Proofs.BeDamage
  Props.Cases Props.CasesAuto Props.PDds Props.PDamage.

Theorem C78_be_bc1_damage : forall (d1 d2 : bool) (j1 j2 : byte) (s : settings) (x out1 y z out2 : list byte),
  zlen x mod 8 = 0 -> zlen x <= zlen out1 -> be_transform_bc1 (big_endian_cpu d1 j1) s x out1 = Ok (ROk tt, y) ->
  zlen z = zlen x -> zlen z <= zlen out2 ->
  exists o, be_untransform_bc1 (big_endian_cpu d2 j2) s z out2 = Ok (ROk tt, o) /\
    damaged_blocks 8 x (firstn (List.length x) o) <= damaged_bytes (firstn (List.length x) y) z <= 8 * damaged_blocks 8 x (firstn (List.length x) o).
Proof. exact be_bc1_damage. Qed.
Print Assumptions C78_be_bc1_damage.
Theorem C78_be_bc2_damage : forall (d1 d2 : bool) (j1 j2 : byte) (s : settings) (x out1 y z out2 : list byte),
  zlen x mod 16 = 0 -> zlen x <= zlen out1 -> be_transform_bc2 (big_endian_cpu d1 j1) s x out1 = Ok (ROk tt, y) ->
  zlen z = zlen x -> zlen z <= zlen out2 ->
  exists o, be_untransform_bc2 (big_endian_cpu d2 j2) s z out2 = Ok (ROk tt, o) /\
    damaged_blocks 16 x (firstn (List.length x) o) <= damaged_bytes (firstn (List.length x) y) z <= 16 * damaged_blocks 16 x (firstn (List.length x) o).
Proof. exact be_bc2_damage. Qed.
Print Assumptions C78_be_bc2_damage.
Theorem C78_be_bc3_damage : forall (d1 d2 : bool) (j1 j2 : byte) (s : settings3) (x out1 y z out2 : list byte),
  zlen x mod 16 = 0 -> zlen x <= zlen out1 -> be_transform_bc3 (big_endian_cpu d1 j1) s x out1 = Ok (ROk tt, y) ->
  zlen z = zlen x -> zlen z <= zlen out2 ->
  exists o, be_untransform_bc3 (big_endian_cpu d2 j2) s z out2 = Ok (ROk tt, o) /\
    damaged_blocks 16 x (firstn (List.length x) o) <= damaged_bytes (firstn (List.length x) y) z <= 16 * damaged_blocks 16 x (firstn (List.length x) o).
Proof. exact be_bc3_damage. Qed.
Print Assumptions C78_be_bc3_damage.

(** five blocks; the transformed bytes at 3 and 30 damaged *)
Example C78_be_bc1_damage_met :
  let d1 := true in let d2 := false in let j1 := x5a in let j2 := x00 in let s := Settings V1 true in let x := texture 40 in let out1 := texture 44 in let y := left_in (be_transform_bc1 (big_endian_cpu d1 j1) s x out1) in
  let z := damage (damage (firstn 40 y) 3) 30 in let out2 := texture 40 in
  zlen x mod 8 = 0 /\ zlen x <= zlen out1 /\ be_transform_bc1 (big_endian_cpu d1 j1) s x out1 = Ok (ROk tt, y) /\ zlen z = zlen x /\ zlen z <= zlen out2 /\
  damaged_bytes (firstn 40 y) z = 2 /\ damaged_blocks 8 x (firstn 40 (left_in (be_untransform_bc1 (big_endian_cpu d2 j2) s z out2))) = 2.
Proof. met. Qed.
Example C78_be_bc2_damage_met :
  let d1 := true in let d2 := false in let j1 := x5a in let j2 := x00 in let s := Settings V3 true in let x := texture 48 in let out1 := texture 48 in let y := left_in (be_transform_bc2 (big_endian_cpu d1 j1) s x out1) in
  let z := damage (damage y 3) 4 in let out2 := texture 48 in
  zlen x mod 16 = 0 /\ zlen x <= zlen out1 /\ be_transform_bc2 (big_endian_cpu d1 j1) s x out1 = Ok (ROk tt, y) /\ zlen z = zlen x /\ zlen z <= zlen out2 /\
  damaged_bytes y z = 2 /\ damaged_blocks 16 x (left_in (be_untransform_bc2 (big_endian_cpu d2 j2) s z out2)) = 1.
Proof. met. Qed.
Example C78_be_bc3_damage_met :
  let d1 := true in let d2 := false in let j1 := x5a in let j2 := x00 in let s := Settings3 V2 true true in let x := texture 48 in let out1 := texture 48 in let y := left_in (be_transform_bc3 (big_endian_cpu d1 j1) s x out1) in
  let z := damage (damage y 0) 47 in let out2 := texture 48 in
  zlen x mod 16 = 0 /\ zlen x <= zlen out1 /\ be_transform_bc3 (big_endian_cpu d1 j1) s x out1 = Ok (ROk tt, y) /\ zlen z = zlen x /\ zlen z <= zlen out2 /\
  damaged_bytes y z = 2 /\ damaged_blocks 16 x (left_in (be_untransform_bc3 (big_endian_cpu d2 j2) s z out2)) = 2.
Proof. met. Qed.

(** DDS files: [z] is a transformed file whose headers are intact and whose
    texture and whatever follows it may hold anything and end anywhere behind
    the texture. Headers come back, bytes behind the texture are passed on, and
    damage to the texture stays in the blocks it hit. *)
Theorem C78_be_dds_damage : forall (St Er : Type) (show : Er -> string) (d1 d2 : bool) (j1 j2 : byte) (v1 v2 : env) (t : bundle St Er)
    (x out : list byte) (st st' : St) (y : list byte) (i : dds_info) (z out2 : list byte),
  parse_dds d1 x = Ok (Some i) ->
  (d2 = true -> d1 = false -> levels_fit x) ->
  2 ^ 32 - 1 <= usize_max v1 ->
  be_dds_transform_bundle show (big_endian_cpu d1 j1) v1 t x out st = Ok (ROk tt, y, st') ->
  let off := i_data_offset i in let n := i_data_length i in let size := match i_format i with DBC1 => 8 | _ => 16 end in
  slice z 0 off = slice y 0 off -> off + n <= zlen z -> zlen z <= usize_max v2 -> zlen out2 = zlen z ->
  exists o, be_dds_untransform (big_endian_cpu d2 j2) v2 z out2 = Ok (ROk tt, o) /\ zlen o = zlen z /\ slice o 0 off = slice x 0 off /\
    slice o (off + n) (zlen z - (off + n)) = slice z (off + n) (zlen z - (off + n)) /\
    damaged_blocks (Z.to_nat size) (slice x off n) (slice o off n) <= damaged_bytes (slice y off n) (slice z off n) <=
    size * damaged_blocks (Z.to_nat size) (slice x off n) (slice o off n).
Proof.
  intros St Er show d1 d2 j1 j2 v1 v2 t x out st st' y i z out2.
  exact (be_dds_damage St Er show (big_endian_cpu d1 j1) (big_endian_cpu d2 j2) v1 v2 t x out st st' y i z out2 (big_endian_ok d1 j1) (big_endian_ok d2 j2)).
Qed.
Print Assumptions C78_be_dds_damage.
Definition a_be_bundle_run := left_by (be_dds_transform_bundle (fun _ : unit => EmptyString) (big_endian_cpu true x5a) env64 (manual CBc1) file1 file1 tt).
(** bytes 130 (of the texture) and 161 (behind it) damaged, and two bytes appended *)
Example C78_be_dds_damage_met :
  let St := unit in let Er := unit in let show := (fun _ : unit => EmptyString) in let d1 := true in let d2 := false in let j1 := x5a in let j2 := x00 in let v1 := env64 in let v2 :=
  env32 in let t := manual CBc1 in let x := file1 in let out := file1 in let st := tt in let st' := tt in let y := a_be_bundle_run in let i := info_of x in
  let z := damage (damage y 130) 161 ++ [x01; x02] in let out2 := numbers 165 in
  let off := i_data_offset i in let n := i_data_length i in
  parse_dds d1 x = Ok (Some i) /\ (d2 = true ->
  d1 = false -> levels_fit x) /\ 2 ^ 32 - 1 <= usize_max v1 /\ be_dds_transform_bundle show (big_endian_cpu d1 j1) v1 t x out st = Ok (ROk tt, y, st') /\
  slice z 0 off = slice y 0 off /\ off + n <= zlen z /\ zlen z <= usize_max v2 /\ zlen out2 = zlen z /\ damaged_bytes (slice y off n) (slice z off n) = 1.
Proof. met_dds. Qed.

(** So only the undamaged file is restored to the original. *)
Theorem C78_be_noticed : forall (St Er : Type) (show : Er -> string) (d1 d2 : bool) (j1 j2 : byte) (v1 v2 : env) (t : bundle St Er)
    (x out : list byte) (st st' : St) (y : list byte) (i : dds_info) (z out2 : list byte),
  parse_dds d1 x = Ok (Some i) ->
  (d2 = true -> d1 = false -> levels_fit x) ->
  2 ^ 32 - 1 <= usize_max v1 ->
  be_dds_transform_bundle show (big_endian_cpu d1 j1) v1 t x out st = Ok (ROk tt, y, st') ->
  slice z 0 (i_data_offset i) = slice y 0 (i_data_offset i) -> zlen z = zlen x -> zlen z <= usize_max v2 -> zlen out2 = zlen z ->
  be_dds_untransform (big_endian_cpu d2 j2) v2 z out2 = Ok (ROk tt, x) -> z = firstn (List.length x) y.
Proof.
  intros St Er show d1 d2 j1 j2 v1 v2 t x out st st' y i z out2.
  exact (be_dds_damage_noticed St Er show (big_endian_cpu d1 j1) (big_endian_cpu d2 j2) v1 v2 t x out st st' y i z out2 (big_endian_ok d1 j1) (big_endian_ok d2 j2)).
Qed.
Print Assumptions C78_be_noticed.
Example C78_be_noticed_met :
  let St := unit in let Er := unit in let show := (fun _ : unit => EmptyString) in let d1 := true in let d2 := false in let j1 := x5a in let j2 := x00 in let v1 := env64 in let v2 :=
  env32 in let t := manual CBc1 in let x := file1 in let out := file1 in let st := tt in let st' := tt in let y := a_be_bundle_run in let i := info_of x in
  let z := y in let out2 := numbers 163 in
  parse_dds d1 x = Ok (Some i) /\ (d2 = true ->
  d1 = false -> levels_fit x) /\ 2 ^ 32 - 1 <= usize_max v1 /\ be_dds_transform_bundle show (big_endian_cpu d1 j1) v1 t x out st = Ok (ROk tt, y, st') /\
  slice z 0 (i_data_offset i) = slice y 0 (i_data_offset i) /\ zlen z = zlen x /\ zlen z <= usize_max v2 /\ zlen out2 = zlen z /\
  be_dds_untransform (big_endian_cpu d2 j2) v2 z out2 = Ok (ROk tt, x).
Proof. met_dds. Qed.

(** A transformed file that lost its end: cut before the end of the texture it
    is refused and nothing is written; cut behind it, restoring gives the
    original cut at the same place. *)
Theorem C78_be_cut : forall (St Er : Type) (show : Er -> string) (d1 d2 : bool) (j1 j2 : byte) (v1 v2 : env) (t : bundle St Er)
    (x out : list byte) (st st' : St) (y : list byte) (i : dds_info) (m : nat) (out2 : list byte),
  parse_dds d1 x = Ok (Some i) ->
  (d2 = true -> d1 = false -> levels_fit x) ->
  2 ^ 32 - 1 <= usize_max v1 -> zlen x <= usize_max v2 ->
  be_dds_transform_bundle show (big_endian_cpu d1 j1) v1 t x out st = Ok (ROk tt, y, st') ->
  Z.of_nat m < i_data_offset i + i_data_length i ->
  exists e, be_dds_untransform (big_endian_cpu d2 j2) v2 (firstn m y) out2 = Ok (RErr e, out2).
Proof.
  intros St Er show d1 d2 j1 j2 v1 v2 t x out st st' y i m out2.
  exact (be_dds_cut St Er show (big_endian_cpu d1 j1) (big_endian_cpu d2 j2) v1 v2 t x out st st' y i m out2 (big_endian_ok d1 j1)).
Qed.
Print Assumptions C78_be_cut.
Theorem C78_be_cut_behind : forall (St Er : Type) (show : Er -> string) (d1 d2 : bool) (j1 j2 : byte) (v1 v2 : env) (t : bundle St Er)
    (x out : list byte) (st st' : St) (y : list byte) (i : dds_info) (m : nat) (out2 : list byte),
  parse_dds d1 x = Ok (Some i) ->
  (d2 = true -> d1 = false -> levels_fit x) ->
  2 ^ 32 - 1 <= usize_max v1 -> zlen x <= usize_max v2 ->
  be_dds_transform_bundle show (big_endian_cpu d1 j1) v1 t x out st = Ok (ROk tt, y, st') ->
  i_data_offset i + i_data_length i <= Z.of_nat m <= zlen x -> zlen out2 = Z.of_nat m ->
  be_dds_untransform (big_endian_cpu d2 j2) v2 (firstn m y) out2 = Ok (ROk tt, firstn m x).
Proof.
  intros St Er show d1 d2 j1 j2 v1 v2 t x out st st' y i m out2.
  exact (be_dds_cut_behind St Er show (big_endian_cpu d1 j1) (big_endian_cpu d2 j2) v1 v2 t x out st st' y i m out2 (big_endian_ok d1 j1) (big_endian_ok d2 j2)).
Qed.
Print Assumptions C78_be_cut_behind.
(** cut inside the headers, inside the texture, and behind it *)
Example C78_be_cut_met :
  let St := unit in let Er := unit in let show := (fun _ : unit => EmptyString) in let d1 := true in let d2 := false in let j1 := x5a in let j2 := x00 in let v1 := env64 in let v2 :=
  env32 in let t := manual CBc1 in let x := file1 in let out := file1 in let st := tt in let st' := tt in let y := a_be_bundle_run in let i := info_of x in
  parse_dds d1 x = Ok (Some i) /\ (d2 = true ->
  d1 = false -> levels_fit x) /\ 2 ^ 32 - 1 <= usize_max v1 /\ zlen x <= usize_max v2 /\ be_dds_transform_bundle show (big_endian_cpu d1 j1) v1 t x out st = Ok (ROk tt, y, st') /\
  Z.of_nat 100 < i_data_offset i + i_data_length i /\ Z.of_nat 140 < i_data_offset i + i_data_length i /\
  i_data_offset i + i_data_length i <= Z.of_nat 161 /\ Z.of_nat 161 <= zlen x /\ zlen (numbers 161) = Z.of_nat 161.
Proof. met_dds. Qed.
