(** C78: what restoring makes of a damaged transformed texture or file. *)
From Verif Require Import Base.Bytes Base.Res Model.Color565 Model.Ycc Model.Kernel Model.Transform Model.Auto Model.Builders Model.Embed Model.Bundle Model.Dds.
From Verif Require Import Spec.Layout Spec.Estimator Spec.Files Spec.Dds Spec.Damage Proofs.DamageDds Props.Cases Props.CasesAuto Props.PDds.

(** C78: [z] is a transformed texture [y] after any damage to its bytes. It is
    still restored, and the number of blocks that come out wrong is at most the
    number of damaged bytes and at least an eighth (a sixteenth) of it: one
    wrong byte spoils one block, and no damage goes unnoticed. *)
Theorem C78_bc1_damage : forall (c1 c2 : cfg) (s : settings) (x out1 y z out2 : list byte),
  cpu_ok c1 -> cpu_ok c2 -> (c_debug c1 = true \/ c_debug c2 = true -> split_colour_endpoints s = true -> x <> []) ->
  zlen x mod 8 = 0 -> zlen x <= zlen out1 -> transform_bc1 c1 s x out1 = Ok (ROk tt, y) ->
  zlen z = zlen x -> zlen z <= zlen out2 ->
  exists o, untransform_bc1 c2 s z out2 = Ok (ROk tt, o) /\
    damaged_blocks 8 x (firstn (List.length x) o) <= damaged_bytes (firstn (List.length x) y) z <= 8 * damaged_blocks 8 x (firstn (List.length x) o).
Proof. exact bc1_damage. Qed.
Print Assumptions C78_bc1_damage.
Theorem C78_bc2_damage : forall (c1 c2 : cfg) (s : settings) (x out1 y z out2 : list byte),
  cpu_ok c1 -> cpu_ok c2 -> (c_avx512bw c1 = true -> c_avx512vl c1 = true) ->
  zlen x mod 16 = 0 -> zlen x <= zlen out1 -> transform_bc2 c1 s x out1 = Ok (ROk tt, y) ->
  zlen z = zlen x -> zlen z <= zlen out2 ->
  exists o, untransform_bc2 c2 s z out2 = Ok (ROk tt, o) /\
    damaged_blocks 16 x (firstn (List.length x) o) <= damaged_bytes (firstn (List.length x) y) z <= 16 * damaged_blocks 16 x (firstn (List.length x) o).
Proof. exact bc2_damage. Qed.
Print Assumptions C78_bc2_damage.
Theorem C78_bc3_damage : forall (c1 c2 : cfg) (s : settings3) (x out1 y z out2 : list byte),
  cpu_ok c1 -> cpu_ok c2 -> (c_debug c1 = true \/ c_debug c2 = true -> split_alpha_endpoints s = true -> x <> []) ->
  zlen x mod 16 = 0 -> zlen x <= zlen out1 -> transform_bc3 c1 s x out1 = Ok (ROk tt, y) ->
  zlen z = zlen x -> zlen z <= zlen out2 ->
  exists o, untransform_bc3 c2 s z out2 = Ok (ROk tt, o) /\
    damaged_blocks 16 x (firstn (List.length x) o) <= damaged_bytes (firstn (List.length x) y) z <= 16 * damaged_blocks 16 x (firstn (List.length x) o).
Proof. exact bc3_damage. Qed.
Print Assumptions C78_bc3_damage.

(** five blocks; the transformed bytes at 3 and 30 damaged *)
Definition damage (l : list byte) (i : nat) : list byte := firstn i l ++ x5e :: skipn (S i) l.
Example C78_bc1_damage_met :
  let c1 := debug_cpu in let c2 := slow_cpu in let s := Settings V1 true in let x := texture 40 in let out1 := texture 44 in let y := left_in (transform_bc1 c1 s x out1) in
  let z := damage (damage (firstn 40 y) 3) 30 in let out2 := texture 40 in
  cpu_ok c1 /\ cpu_ok c2 /\ (c_debug c1 = true \/ c_debug c2 = true -> split_colour_endpoints s = true -> x <> []) /\
  zlen x mod 8 = 0 /\ zlen x <= zlen out1 /\ transform_bc1 c1 s x out1 = Ok (ROk tt, y) /\ zlen z = zlen x /\ zlen z <= zlen out2 /\
  damaged_bytes (firstn 40 y) z = 2 /\ damaged_blocks 8 x (firstn 40 (left_in (untransform_bc1 c2 s z out2))) = 2.
Proof. met. Qed.
Example C78_bc2_damage_met :
  let c1 := debug_cpu in let c2 := slow_cpu in let s := Settings V3 true in let x := texture 48 in let out1 := texture 48 in let y := left_in (transform_bc2 c1 s x out1) in
  let z := damage (damage y 3) 4 in let out2 := texture 48 in
  cpu_ok c1 /\ cpu_ok c2 /\ (c_avx512bw c1 = true -> c_avx512vl c1 = true) /\
  zlen x mod 16 = 0 /\ zlen x <= zlen out1 /\ transform_bc2 c1 s x out1 = Ok (ROk tt, y) /\ zlen z = zlen x /\ zlen z <= zlen out2 /\
  damaged_bytes y z = 2 /\ damaged_blocks 16 x (left_in (untransform_bc2 c2 s z out2)) = 1.
Proof. met. Qed.
Example C78_bc3_damage_met :
  let c1 := debug_cpu in let c2 := slow_cpu in let s := Settings3 V2 true true in let x := texture 48 in let out1 := texture 48 in let y := left_in (transform_bc3 c1 s x out1) in
  let z := damage (damage y 0) 47 in let out2 := texture 48 in
  cpu_ok c1 /\ cpu_ok c2 /\ (c_debug c1 = true \/ c_debug c2 = true -> split_alpha_endpoints s = true -> x <> []) /\
  zlen x mod 16 = 0 /\ zlen x <= zlen out1 /\ transform_bc3 c1 s x out1 = Ok (ROk tt, y) /\ zlen z = zlen x /\ zlen z <= zlen out2 /\
  damaged_bytes y z = 2 /\ damaged_blocks 16 x (left_in (untransform_bc3 c2 s z out2)) = 2.
Proof. met. Qed.

(** DDS files: [z] is a transformed file whose headers are intact and whose
    texture and whatever follows it may hold anything and end anywhere behind
    the texture. Headers come back, bytes behind the texture are passed on, and
    damage to the texture stays in the blocks it hit. *)
Theorem C78_dds_damage : forall (St Er : Type) (show : Er -> string) (c1 c2 : cfg) (v1 v2 : env) (t : bundle St Er)
    (x out : list byte) (st st' : St) (y : list byte) (i : dds_info) (z out2 : list byte),
  supported c1 -> supported c2 -> parse_dds (c_debug c1) x = Ok (Some i) ->
  (c_debug c1 = true \/ c_debug c2 = true -> 0 < i_data_length i) -> (c_debug c2 = true -> c_debug c1 = false -> levels_fit x) ->
  2 ^ 32 - 1 <= usize_max v1 ->
  dds_transform_bundle show c1 v1 t x out st = Ok (ROk tt, y, st') ->
  let off := i_data_offset i in let n := i_data_length i in let size := match i_format i with DBC1 => 8 | _ => 16 end in
  slice z 0 off = slice y 0 off -> off + n <= zlen z -> zlen z <= usize_max v2 -> zlen out2 = zlen z ->
  exists o, dds_untransform c2 v2 z out2 = Ok (ROk tt, o) /\ zlen o = zlen z /\ slice o 0 off = slice x 0 off /\
    slice o (off + n) (zlen z - (off + n)) = slice z (off + n) (zlen z - (off + n)) /\
    damaged_blocks (Z.to_nat size) (slice x off n) (slice o off n) <= damaged_bytes (slice y off n) (slice z off n) <=
    size * damaged_blocks (Z.to_nat size) (slice x off n) (slice o off n).
Proof. exact dds_damage. Qed.
Print Assumptions C78_dds_damage.
Definition a_bundle_run := left_by (dds_transform_bundle (fun _ : unit => EmptyString) debug_cpu env64 (manual CBc1) file1 file1 tt).
(** bytes 130 (of the texture) and 161 (behind it) damaged, and two bytes appended *)
Example C78_dds_damage_met :
  let St := unit in let Er := unit in let show := (fun _ : unit => EmptyString) in let c1 := debug_cpu in let c2 := slow_cpu in let v1 := env64 in let v2 :=
  env32 in let t := manual CBc1 in let x := file1 in let out := file1 in let st := tt in let st' := tt in let y := a_bundle_run in let i := info_of x in
  let z := damage (damage y 130) 161 ++ [x01; x02] in let out2 := numbers 165 in
  let off := i_data_offset i in let n := i_data_length i in
  supported c1 /\ supported c2 /\ parse_dds (c_debug c1) x = Ok (Some i) /\ (c_debug c1 = true \/ c_debug c2 = true -> 0 < i_data_length i) /\ (c_debug c2 = true ->
  c_debug c1 = false -> levels_fit x) /\ 2 ^ 32 - 1 <= usize_max v1 /\ dds_transform_bundle show c1 v1 t x out st = Ok (ROk tt, y, st') /\
  slice z 0 off = slice y 0 off /\ off + n <= zlen z /\ zlen z <= usize_max v2 /\ zlen out2 = zlen z /\ damaged_bytes (slice y off n) (slice z off n) = 1.
Proof. met_dds. Qed.

(** So only the undamaged file is restored to the original. *)
Theorem C78_noticed : forall (St Er : Type) (show : Er -> string) (c1 c2 : cfg) (v1 v2 : env) (t : bundle St Er)
    (x out : list byte) (st st' : St) (y : list byte) (i : dds_info) (z out2 : list byte),
  supported c1 -> supported c2 -> parse_dds (c_debug c1) x = Ok (Some i) ->
  (c_debug c1 = true \/ c_debug c2 = true -> 0 < i_data_length i) -> (c_debug c2 = true -> c_debug c1 = false -> levels_fit x) ->
  2 ^ 32 - 1 <= usize_max v1 ->
  dds_transform_bundle show c1 v1 t x out st = Ok (ROk tt, y, st') ->
  slice z 0 (i_data_offset i) = slice y 0 (i_data_offset i) -> zlen z = zlen x -> zlen z <= usize_max v2 -> zlen out2 = zlen z ->
  dds_untransform c2 v2 z out2 = Ok (ROk tt, x) -> z = firstn (List.length x) y.
Proof. exact dds_damage_noticed. Qed.
Print Assumptions C78_noticed.
Example C78_noticed_met :
  let St := unit in let Er := unit in let show := (fun _ : unit => EmptyString) in let c1 := debug_cpu in let c2 := slow_cpu in let v1 := env64 in let v2 :=
  env32 in let t := manual CBc1 in let x := file1 in let out := file1 in let st := tt in let st' := tt in let y := a_bundle_run in let i := info_of x in
  let z := y in let out2 := numbers 163 in
  supported c1 /\ supported c2 /\ parse_dds (c_debug c1) x = Ok (Some i) /\ (c_debug c1 = true \/ c_debug c2 = true -> 0 < i_data_length i) /\ (c_debug c2 = true ->
  c_debug c1 = false -> levels_fit x) /\ 2 ^ 32 - 1 <= usize_max v1 /\ dds_transform_bundle show c1 v1 t x out st = Ok (ROk tt, y, st') /\
  slice z 0 (i_data_offset i) = slice y 0 (i_data_offset i) /\ zlen z = zlen x /\ zlen z <= usize_max v2 /\ zlen out2 = zlen z /\
  dds_untransform c2 v2 z out2 = Ok (ROk tt, x).
Proof. met_dds. Qed.

(** A transformed file that lost its end: cut before the end of the texture it
    is refused and nothing is written; cut behind it, restoring gives the
    original cut at the same place. *)
Theorem C78_cut : forall (St Er : Type) (show : Er -> string) (c1 c2 : cfg) (v1 v2 : env) (t : bundle St Er)
    (x out : list byte) (st st' : St) (y : list byte) (i : dds_info) (m : nat) (out2 : list byte),
  supported c1 -> parse_dds (c_debug c1) x = Ok (Some i) ->
  (c_debug c1 = true -> 0 < i_data_length i) -> (c_debug c2 = true -> c_debug c1 = false -> levels_fit x) ->
  2 ^ 32 - 1 <= usize_max v1 -> zlen x <= usize_max v2 ->
  dds_transform_bundle show c1 v1 t x out st = Ok (ROk tt, y, st') ->
  Z.of_nat m < i_data_offset i + i_data_length i ->
  exists e, dds_untransform c2 v2 (firstn m y) out2 = Ok (RErr e, out2).
Proof. exact dds_cut. Qed.
Print Assumptions C78_cut.
Theorem C78_cut_behind : forall (St Er : Type) (show : Er -> string) (c1 c2 : cfg) (v1 v2 : env) (t : bundle St Er)
    (x out : list byte) (st st' : St) (y : list byte) (i : dds_info) (m : nat) (out2 : list byte),
  supported c1 -> supported c2 -> parse_dds (c_debug c1) x = Ok (Some i) ->
  (c_debug c1 = true \/ c_debug c2 = true -> 0 < i_data_length i) -> (c_debug c2 = true -> c_debug c1 = false -> levels_fit x) ->
  2 ^ 32 - 1 <= usize_max v1 -> zlen x <= usize_max v2 ->
  dds_transform_bundle show c1 v1 t x out st = Ok (ROk tt, y, st') ->
  i_data_offset i + i_data_length i <= Z.of_nat m <= zlen x -> zlen out2 = Z.of_nat m ->
  dds_untransform c2 v2 (firstn m y) out2 = Ok (ROk tt, firstn m x).
Proof. exact dds_cut_behind. Qed.
Print Assumptions C78_cut_behind.
(** cut inside the headers, inside the texture, and behind it *)
Example C78_cut_met :
  let St := unit in let Er := unit in let show := (fun _ : unit => EmptyString) in let c1 := debug_cpu in let c2 := slow_cpu in let v1 := env64 in let v2 :=
  env32 in let t := manual CBc1 in let x := file1 in let out := file1 in let st := tt in let st' := tt in let y := a_bundle_run in let i := info_of x in
  supported c1 /\ supported c2 /\ parse_dds (c_debug c1) x = Ok (Some i) /\ (c_debug c1 = true \/ c_debug c2 = true -> 0 < i_data_length i) /\ (c_debug c2 = true ->
  c_debug c1 = false -> levels_fit x) /\ 2 ^ 32 - 1 <= usize_max v1 /\ zlen x <= usize_max v2 /\ dds_transform_bundle show c1 v1 t x out st = Ok (ROk tt, y, st') /\
  Z.of_nat 100 < i_data_offset i + i_data_length i /\ Z.of_nat 140 < i_data_offset i + i_data_length i /\
  i_data_offset i + i_data_length i <= Z.of_nat 161 /\ Z.of_nat 161 <= zlen x /\ zlen (numbers 161) = Z.of_nat 161.
Proof. met_dds. Qed.
