(** C35: the settings in the header of a DDS file transformed with an automatic
    builder. *)
From Verif Require Import Base.Bytes Base.Res Model.Color565 Model.Kernel Model.Transform Model.Auto Model.Builders Model.Embed Model.Bundle Model.Dds
  Spec.Layout Spec.Estimator Spec.Files Spec.Dds Spec.ZstdSizes Spec.CChoice Proofs.DdsChoice Props.PDds.
Open Scope list_scope.
Open Scope Z_scope.

(** With an automatic builder as the last one installed for the file's format,
    and an estimator whose answers depend on the data alone ([told]), the four
    header bytes name settings that no candidate beats, and the texture is stored
    with those. *)
Theorem C35_dds_choice : forall (St Er : Type) (show : Er -> string) (c : cfg) (v : env) (before after : list (install St Er)) (k : codec) (b : auto_builder St Er)
    (told : list byte -> Z) (x out : list byte) (st : St) (y : list byte) (st' : St) (i : dds_info),
  supported c -> parse_dds (c_debug c) x = Ok (Some i) -> (c_debug c = true -> 0 < i_data_length i) -> 2 ^ 32 - 1 <= usize_max v ->
  i_format i = (match k with CBc1 => DBC1 | CBc2 => DBC2 end) -> Forall (fun j => install_codec j <> k) after ->
  (forall st d n z st', estimate_compressed_size (ab_estimator b) st d n = (ROk z, st') -> z = told d) -> (forall d, told d < usize_max v) ->
  dds_transform_bundle show c v (installed (before ++ WithAuto k b :: after)) x out st = Ok (ROk tt, y, st') ->
  let texture := slice x (i_data_offset i) (i_data_length i) in
  exists s, firstn 4 y = u32_bytes (codec_header k s) /\ slice y (i_data_offset i) (i_data_length i) = texture_layout k s texture /\
    candidate (ab_use_all b) (decorrelation_mode s) /\
    forall s', candidate (ab_use_all b) (decorrelation_mode s') ->
      compressed_sum told (codec_shown k texture s) <= compressed_sum told (codec_shown k texture s').
Proof. exact dds_choice. Qed.
Print Assumptions C35_dds_choice.

(** An estimator that answers with the last byte and counts its calls; other
    builders are installed before and after. *)
Definition last_byte (d : list byte) : Z := match rev d with b :: _ => b2z b | [] => 0 end.
Definition by_last_byte : estimator Z unit := Estimator (fun st n => (ROk n, st + 1)) (fun st d _ => (ROk (last_byte d), st + 1)).
Lemma last_byte_fits : forall d, last_byte d < usize_max env64.
Proof. intros d. unfold last_byte. destruct (rev d) as [|b l]; [reflexivity|]. pose proof (b2z_bound b). cbn [usize_max env64]. lia. Qed.
Definition a_bundle : bundle Z unit :=
  installed ([WithManual CBc1 manual_new] ++ WithAuto CBc1 (AutoBuilder by_last_byte true) :: [WithManual CBc2 (ManualBuilder (Settings V3 true))]).
Example C35_dds_choice_met : let i := DdsInfo DBC1 128 32 in
  supported cpu /\ parse_dds (c_debug cpu) file1 = Ok (Some i) /\ (c_debug cpu = true -> 0 < i_data_length i) /\ 2 ^ 32 - 1 <= usize_max env64 /\
  i_format i = DBC1 /\ Forall (fun j : install Z unit => install_codec j <> CBc1) [WithManual CBc2 (ManualBuilder (Settings V3 true))] /\
  (forall st d n z st', estimate_compressed_size by_last_byte st d n = (ROk z, st') -> z = last_byte d) /\ (forall d, last_byte d < usize_max env64) /\
  (match dds_transform_bundle (fun _ => EmptyString) cpu env64 a_bundle file1 (repeat x00 (List.length file1)) 0 with
   | Ok (ROk _, y, st) => firstn 4 y <> u32_bytes (codec_header CBc1 default_settings) /\ st = 9
   | _ => False end).
Proof.
  cbv zeta. split; [exact cpu_supported|]. split; [vm_compute; reflexivity|]. split; [discriminate|]. split; [discriminate|]. split; [reflexivity|].
  split; [constructor; [discriminate|constructor]|]. split; [intros st d n z st' E; injection E as <- _; reflexivity|]. split; [exact last_byte_fits|].
  vm_compute. split; [discriminate|reflexivity].
Qed.
