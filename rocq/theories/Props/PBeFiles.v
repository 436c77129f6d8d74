(** C73: files on big-endian machines, and moving them between byte orders.
    [be_dds_transform_bundle] and [be_dds_untransform] are the DDS handler
    compiled for a big-endian machine (Model/BeFiles.v). *)
From Verif Require Import Base.Bytes Base.Res Model.Color565 Model.Ycc Model.Kernel Model.Transform Model.Auto Model.Builders Model.Embed Model.Bundle Model.Dds
  Model.BigEndian Model.BeTransform Model.BeFiles Spec.Layout Spec.BigEndian Spec.Estimator Spec.Files Spec.BeFiles Spec.Dds
  Proofs.DdsFacts Proofs.DdsHandler Proofs.DdsMore Proofs.BigEndianFacts Proofs.BeDdsHandler Proofs.BeFilesFacts.
From Verif Require Import Props.PDds Props.Cases Props.CasesAuto.
Open Scope Z_scope.

Definition be (debug : bool) : cfg := big_endian_cpu debug x00.

(** ** Among big-endian machines *)

(** C73: whatever bundle and estimator transformed a DDS file on a big-endian
    machine, the file comes back byte for byte on any big-endian machine. *)
Theorem C73_be_round_trip : forall (St Er : Type) (show : Er -> string) (d1 d2 : bool) (j1 j2 : byte) (v1 v2 : env) (t : bundle St Er)
    (x out out2 : list byte) (st st' : St) (y : list byte) (i : dds_info),
  parse_dds d1 x = Ok (Some i) -> (d2 = true -> d1 = false -> levels_fit x) ->
  2 ^ 32 - 1 <= usize_max v1 -> zlen x <= usize_max v2 ->
  be_dds_transform_bundle show (big_endian_cpu d1 j1) v1 t x out st = Ok (ROk tt, y, st') ->
  zlen x <= zlen out2 -> (i_data_offset i + i_data_length i < zlen x -> zlen out2 = zlen x) ->
  be_dds_untransform (big_endian_cpu d2 j2) v2 (firstn (List.length x) y) out2 = Ok (ROk tt, x ++ skipn (List.length x) out2).
Proof.
  intros St Er show d1 d2 j1 j2 v1 v2 t x out out2 st st' y i.
  exact (be_dds_round_trip St Er show (big_endian_cpu d1 j1) (big_endian_cpu d2 j2) v1 v2 t x out out2 st st' y i (big_endian_ok d1 j1) (big_endian_ok d2 j2)).
Qed.
Print Assumptions C73_be_round_trip.
(** a BC1 file with bytes behind the texture *)
Example C73_be_round_trip_met :
  let St := unit in let Er := unit in let show := (fun _ : unit => EmptyString) in let d1 := true in let d2 := false in let j1 := x01 in let j2 := x02 in let v1
  := env64 in let v2 := env32 in let t := manual CBc1 in let x := file1 in let out := file1 in let out2 := numbers 163 in let st := tt in let st' := tt in let y :=
  left_by (be_dds_transform_bundle show (big_endian_cpu d1 j1) v1 t x out st) in let i := info_of x in
  parse_dds d1 x = Ok (Some i) /\ (d2 = true -> d1 = false -> levels_fit x) /\ 2 ^ 32 - 1 <= usize_max v1 /\ zlen x <= usize_max v2 /\ be_dds_transform_bundle show
  (big_endian_cpu d1 j1) v1 t x out st = Ok (ROk tt, y, st') /\ zlen x <= zlen out2 /\ (i_data_offset i + i_data_length i < zlen x -> zlen out2 = zlen x) /\ y <> x.
Proof. met_dds. Qed.

Example C73_be_round_trip_case : exists i y, parse_dds true file1 = Ok (Some i) /\ i_data_offset i + i_data_length i < zlen file1 /\
  be_dds_transform_bundle (fun _ => EmptyString) (be true) env64 (manual CBc1) file1 file1 tt = Ok (ROk tt, y, tt) /\ y <> file1 /\
  be_dds_untransform (be false) env32 y y = Ok (ROk tt, file1).
Proof. do 2 eexists. repeat apply conj; try (vm_compute; reflexivity). discriminate. Qed.

(** C73: what a successful transform writes there. *)
Theorem C73_be_transform_output : forall (St Er : Type) (show : Er -> string) (d : bool) (j : byte) (v : env) (t : bundle St Er)
    (x out : list byte) (st : St) (y : list byte) (st' : St) (i : dds_info),
  parse_dds d x = Ok (Some i) -> 2 ^ 32 - 1 <= usize_max v ->
  be_dds_transform_bundle show (big_endian_cpu d j) v t x out st = Ok (ROk tt, y, st') ->
  let off := i_data_offset i in let n := i_data_length i in
  exists k s, i_format i = match k with CBc1 => DBC1 | CBc2 => DBC2 end /\
    n mod codec_block k = 0 /\ off + n <= zlen x /\ zlen x <= zlen out /\
    y = u32_bytes (codec_header k s) ++ slice x 4 (off - 4) ++ be_texture_layout k s (slice x off n) ++ slice x (off + n) (zlen x - (off + n)) ++ skipn (List.length x) out.
Proof.
  intros St Er show d j v t x out st y st' i P HU E.
  destruct (be_transform_success show (big_endian_cpu d j) v t x out st y st' i (big_endian_ok d j) P HU E) as (k & s & F & _ & M & L & O & _ & Y).
  exists k, s. split; [destruct k; exact F|]. split; [exact M|]. split; [exact L|]. split; [exact O|exact Y].
Qed.
Print Assumptions C73_be_transform_output.
(** a BC1 file with bytes behind the texture *)
Example C73_be_transform_output_met :
  let St := unit in let Er := unit in let show := (fun _ : unit => EmptyString) in let d := true in let j := x5a in let v := env64 in let t := manual CBc1 in
  let x := file1 in let out := file1 in let st := tt in let y := left_by (be_dds_transform_bundle show (big_endian_cpu d j) v t x out st) in let st' := tt in let i :=
  info_of x in
  parse_dds d x = Ok (Some i) /\ 2 ^ 32 - 1 <= usize_max v /\ be_dds_transform_bundle show (big_endian_cpu d j) v t x out st = Ok (ROk tt, y, st').
Proof. met_dds. Qed.

(** C73: both directions answer on a 64-bit big-endian machine, whatever the
    bytes (buffers as in C30 and C48), and never do anything undefined. *)
Theorem C73_be_transform_total : forall (St Er : Type) (show : Er -> string) (d : bool) (j : byte) (v : env) (t : bundle St Er) (x out : list byte) (st : St),
  2 ^ 32 + 147 <= usize_max v -> (d = true -> levels_fit x) -> zlen x <= zlen out ->
  (forall i, parse_dds d x = Ok (Some i) -> i_data_offset i + i_data_length i < zlen x -> zlen out = zlen x) ->
  exists r y st', be_dds_transform_bundle show (big_endian_cpu d j) v t x out st = Ok (r, y, st') /\ forall a b, r <> RErr (EFormatHandler (FhOutputBufferTooSmall a b)).
Proof. intros St Er show d j v t x out st. exact (be_transform_total St Er show (big_endian_cpu d j) v t x out st (big_endian_ok d j)). Qed.
Print Assumptions C73_be_transform_total.
(** a BC1 file with bytes behind the texture *)
Example C73_be_transform_total_met :
  let St := unit in let Er := unit in let show := (fun _ : unit => EmptyString) in let d := true in let j := x5a in let v := env64 in let t := manual CBc1 in
  let x := file1 in let out := file1 in let st := tt in
  2 ^ 32 + 147 <= usize_max v /\ (d = true -> levels_fit x) /\ zlen x <= zlen out /\ (forall i, parse_dds d x = Ok (Some i) -> i_data_offset i + i_data_length i < zlen x
  -> zlen out = zlen x).
Proof. met_dds. Qed.
Theorem C73_be_untransform_total : forall (d : bool) (j : byte) (v : env) (x out : list byte),
  2 ^ 32 + 147 <= usize_max v -> (d = true -> levels_fit x) ->
  (forall i, parse_dds_ignore_magic d x = Ok (Some i) -> i_data_offset i + i_data_length i < zlen x -> zlen out <= zlen x) ->
  exists r o, be_dds_untransform (big_endian_cpu d j) v x out = Ok (r, o) /\ zlen o = zlen out.
Proof. intros d j v x out. exact (be_untransform_total (big_endian_cpu d j) v x out (big_endian_ok d j)). Qed.
Print Assumptions C73_be_untransform_total.
(** a file that has not been transformed *)
Example C73_be_untransform_total_met :
  let d := true in let j := x5a in let v := env64 in let x := file1 in let out := file1 in
  2 ^ 32 + 147 <= usize_max v /\ (d = true -> levels_fit x) /\ (forall i, parse_dds_ignore_magic d x = Ok (Some i) -> i_data_offset i + i_data_length i < zlen x -> zlen
  out <= zlen x).
Proof. met_dds. Qed.
Theorem C73_be_safe : forall (St Er : Type) (show : Er -> string) (d : bool) (j : byte) (v : env) (t : bundle St Er) (x out : list byte) (st : St) why,
  2 ^ 32 - 1 <= usize_max v ->
  be_dds_transform_bundle show (big_endian_cpu d j) v t x out st <> Ub why /\ be_dds_untransform (big_endian_cpu d j) v x out <> Ub why.
Proof.
  intros St Er show d j v t x out st why HU. split.
  - exact (be_transform_safe St Er show (big_endian_cpu d j) v t x out st (big_endian_ok d j) HU why).
  - exact (be_untransform_safe (big_endian_cpu d j) v x out (big_endian_ok d j) HU why).
Qed.
Print Assumptions C73_be_safe.
(** no room for output *)
Example C73_be_safe_met :
  let St := unit in let Er := unit in let show := (fun _ : unit => EmptyString) in let d := true in let j := x5a in let v := env32 in let t := manual CBc1 in
  let x := file1 in let out := @nil byte in let st := tt in let why := EmptyString in
  2 ^ 32 - 1 <= usize_max v.
Proof. met_dds. Qed.
(** A plain DDS file is never untransformed. *)
Theorem C73_be_plain_not_untransformed : forall (d : bool) (j : byte) (v : env) (x out o : list byte), has_magic x = true ->
  be_dds_untransform (big_endian_cpu d j) v x out <> Ok (ROk tt, o).
Proof. intros d j. exact (be_plain_not_untransformed (big_endian_cpu d j)). Qed.
Print Assumptions C73_be_plain_not_untransformed.

Example C73_be_total_case : be_dds_untransform (be true) env64 (numbers 127) file1 = Ok (RErr (EFormatHandler InvalidRestoredFileHeader), file1) /\
  be_dds_transform_bundle (fun _ : unit => EmptyString) (be true) env64 (manual CBc1) file3 file3 tt = Ok (RErr (EFormatHandler (FormatNotImplemented FBc3)), file3, tt).
Proof. split; vm_compute; reflexivity. Qed.

(** ** Between byte orders *)

(** C73, without decorrelation: a bundle without automatic builders whose
    manual builders do not decorrelate writes the same bytes, and reports the
    same errors, on machines of either byte order. *)
Theorem C73_same_transform_partial : forall (St Er : Type) (show : Er -> string) (c : cfg) (j : byte) (v : env) (t : bundle St Er) (x out : list byte) (st : St),
  supported c -> 2 ^ 32 - 1 <= usize_max v -> plain_bundle t ->
  (c_debug c = true -> forall i, parse_dds true x = Ok (Some i) -> 0 < i_data_length i) ->
  be_dds_transform_bundle show (big_endian_cpu (c_debug c) j) v t x out st = dds_transform_bundle show c v t x out st.
Proof. intros St Er show c j v t x out st K HU. exact (transform_same show c j v K HU t x out st). Qed.
Print Assumptions C73_same_transform_partial.
(** And they read a file the same way, if its header does not name a
    decorrelation mode. *)
Theorem C73_same_untransform_partial : forall (c : cfg) (j : byte) (v : env) (x out : list byte),
  supported c -> 2 ^ 32 - 1 <= usize_max v -> ~ names_decorrelation (word x 0) ->
  (c_debug c = true -> forall i, parse_dds_ignore_magic true x = Ok (Some i) -> 0 < i_data_length i) ->
  be_dds_untransform (big_endian_cpu (c_debug c) j) v x out = dds_untransform c v x out.
Proof. intros c j v x out K HU. exact (untransform_same c j v K HU x out). Qed.
Print Assumptions C73_same_untransform_partial.

(** C73, without decorrelation: files can be moved between the byte orders, in
    any combination of builds. *)
Theorem C73_plain_to_be_partial : forall (St Er : Type) (show : Er -> string) (c : cfg) (d : bool) (j : byte) (v1 v2 : env) (t : bundle St Er)
    (x out out2 : list byte) (st st' : St) (y : list byte) (i : dds_info),
  supported c -> parse_dds (c_debug c) x = Ok (Some i) -> (c_debug c = true -> 0 < i_data_length i) ->
  (d = true -> c_debug c = false -> levels_fit x) ->
  2 ^ 32 - 1 <= usize_max v1 -> zlen x <= usize_max v2 -> plain_bundle t ->
  dds_transform_bundle show c v1 t x out st = Ok (ROk tt, y, st') ->
  zlen x <= zlen out2 -> (i_data_offset i + i_data_length i < zlen x -> zlen out2 = zlen x) ->
  exists z, be_dds_untransform (big_endian_cpu d j) v2 (firstn (List.length x) y) out2 = Ok (ROk tt, z) /\ firstn (List.length x) z = x.
Proof. exact plain_moved_to_be. Qed.
Print Assumptions C73_plain_to_be_partial.
Theorem C73_plain_to_le_partial : forall (St Er : Type) (show : Er -> string) (c : cfg) (d : bool) (j : byte) (v1 v2 : env) (t : bundle St Er)
    (x out out2 : list byte) (st st' : St) (y : list byte) (i : dds_info),
  supported c -> parse_dds d x = Ok (Some i) -> (c_debug c = true -> 0 < i_data_length i) ->
  (c_debug c = true -> d = false -> levels_fit x) ->
  2 ^ 32 - 1 <= usize_max v1 -> zlen x <= usize_max v2 -> plain_bundle t ->
  be_dds_transform_bundle show (big_endian_cpu d j) v1 t x out st = Ok (ROk tt, y, st') ->
  zlen x <= zlen out2 -> (i_data_offset i + i_data_length i < zlen x -> zlen out2 = zlen x) ->
  exists z, dds_untransform c v2 (firstn (List.length x) y) out2 = Ok (ROk tt, z) /\ firstn (List.length x) z = x.
Proof. exact plain_moved_to_le. Qed.
Print Assumptions C73_plain_to_le_partial.

(** a bundle without decorrelation, and a file it transforms *)
Definition plain (k : codec) : bundle unit unit := installed [WithManual k (ManualBuilder (Settings VNone true))].
Example C73_plain_case : plain_bundle (plain CBc1) /\ supported cpu /\ exists y,
  dds_transform_bundle (fun _ => EmptyString) cpu env64 (plain CBc1) file1 file1 tt = Ok (ROk tt, y, tt) /\ y <> file1 /\
  ~ names_decorrelation (word y 0) /\ be_dds_untransform (be true) env64 y y = Ok (ROk tt, file1).
Proof.
  split; [split; vm_compute; auto|]. split; [exact cpu_supported|]. eexists. split; [vm_compute; reflexivity|]. split; [discriminate|].
  split; [|vm_compute; reflexivity]. intros [(F & s & D & N)|(F & s & D & N)]; vm_compute in F; try discriminate F. vm_compute in D. injection D as <-. apply N. reflexivity.
Qed.
Lemma plain_is_plain : plain_bundle (plain CBc1).
Proof. exact (proj1 C73_plain_case). Qed.
Lemma plain_names_none : ~ names_decorrelation (word (left_by (dds_transform_bundle (fun _ : unit => EmptyString) cpu env64 (plain CBc1) file1 file1 tt)) 0).
Proof. intros [(F & s & D & N)|(F & s & D & N)]; vm_compute in F; try discriminate F. vm_compute in D. injection D as <-. apply N. reflexivity. Qed.

(** C73: exactly which files survive the move, whatever settings were used: the
    restore reports success, and the bytes are the original ones just if the two
    byte orders lay the texture out in the same way. *)
Theorem C73_to_be_iff_partial : forall (St Er : Type) (show : Er -> string) (c : cfg) (d : bool) (j : byte) (v1 v2 : env) (t : bundle St Er)
    (x out out2 : list byte) (st st' : St) (y : list byte) (i : dds_info),
  supported c -> parse_dds (c_debug c) x = Ok (Some i) -> (c_debug c = true -> 0 < i_data_length i) ->
  (d = true -> c_debug c = false -> levels_fit x) ->
  2 ^ 32 - 1 <= usize_max v1 -> zlen x <= usize_max v2 ->
  dds_transform_bundle show c v1 t x out st = Ok (ROk tt, y, st') ->
  zlen x <= zlen out2 -> (i_data_offset i + i_data_length i < zlen x -> zlen out2 = zlen x) ->
  let T := slice x (i_data_offset i) (i_data_length i) in
  exists k s z, word y 0 = codec_header k s /\
    be_dds_untransform (big_endian_cpu d j) v2 (firstn (List.length x) y) out2 = Ok (ROk tt, z) /\
    (firstn (List.length x) z = x <-> be_texture_layout k s T = texture_layout k s T).
Proof. exact moved_to_be. Qed.
Print Assumptions C73_to_be_iff_partial.
(** a BC1 file with bytes behind the texture, settings that decorrelate *)
Example C73_to_be_iff_partial_met :
  let St := unit in let Er := unit in let show := (fun _ : unit => EmptyString) in let c := debug_cpu in let d := true in let j := x5a in let v1 := env64 in let
  v2 := env32 in let t := manual CBc1 in let x := file1 in let out := file1 in let out2 := numbers 163 in let st := tt in let st' := tt in let y := left_by
  (dds_transform_bundle show c v1 t x out st) in let i := info_of x in
  supported c /\ parse_dds (c_debug c) x = Ok (Some i) /\ (c_debug c = true -> 0 < i_data_length i) /\ (d = true -> c_debug c = false -> levels_fit x) /\ 2 ^ 32 - 1 <=
  usize_max v1 /\ zlen x <= usize_max v2 /\ dds_transform_bundle show c v1 t x out st = Ok (ROk tt, y, st') /\ zlen x <= zlen out2 /\ (i_data_offset i + i_data_length i <
  zlen x -> zlen out2 = zlen x) /\ y <> x.
Proof. met_dds. Qed.
Theorem C73_to_le_iff_partial : forall (St Er : Type) (show : Er -> string) (c : cfg) (d : bool) (j : byte) (v1 v2 : env) (t : bundle St Er)
    (x out out2 : list byte) (st st' : St) (y : list byte) (i : dds_info),
  supported c -> parse_dds d x = Ok (Some i) -> (c_debug c = true -> 0 < i_data_length i) ->
  (c_debug c = true -> d = false -> levels_fit x) ->
  2 ^ 32 - 1 <= usize_max v1 -> zlen x <= usize_max v2 ->
  be_dds_transform_bundle show (big_endian_cpu d j) v1 t x out st = Ok (ROk tt, y, st') ->
  zlen x <= zlen out2 -> (i_data_offset i + i_data_length i < zlen x -> zlen out2 = zlen x) ->
  let T := slice x (i_data_offset i) (i_data_length i) in
  exists k s z, word y 0 = codec_header k s /\
    dds_untransform c v2 (firstn (List.length x) y) out2 = Ok (ROk tt, z) /\
    (firstn (List.length x) z = x <-> be_texture_layout k s T = texture_layout k s T).
Proof. exact moved_to_le. Qed.
Print Assumptions C73_to_le_iff_partial.
(** a BC1 file with bytes behind the texture, settings that decorrelate *)
Example C73_to_le_iff_partial_met :
  let St := unit in let Er := unit in let show := (fun _ : unit => EmptyString) in let c := debug_cpu in let d := true in let j := x5a in let v1 := env64 in let
  v2 := env32 in let t := manual CBc1 in let x := file1 in let out := file1 in let out2 := numbers 163 in let st := tt in let st' := tt in let y := left_by
  (be_dds_transform_bundle show (big_endian_cpu d j) v1 t x out st) in let i := info_of x in
  supported c /\ parse_dds d x = Ok (Some i) /\ (c_debug c = true -> 0 < i_data_length i) /\ (c_debug c = true -> d = false -> levels_fit x) /\ 2 ^ 32 - 1 <= usize_max v1
  /\ zlen x <= usize_max v2 /\ be_dds_transform_bundle show (big_endian_cpu d j) v1 t x out st = Ok (ROk tt, y, st') /\ zlen x <= zlen out2 /\ (i_data_offset i +
  i_data_length i < zlen x -> zlen out2 = zlen x) /\ y <> x.
Proof. met_dds. Qed.

(** C73, refuted with decorrelation: for either format and all settings that
    decorrelate (the default ones among them) there is a DDS file that one
    machine transforms and a machine of the other byte order restores, with
    success, as another file. *)
Theorem C73_decorrelated_refuted : forall (k : codec) (s : settings), decorrelation_mode s <> VNone ->
  let t := installed [WithManual k (ManualBuilder s)] : bundle unit unit in
  exists x y z y' z',
    dds_transform_bundle (fun _ => EmptyString) cpu env64 t x x tt = Ok (ROk tt, y, tt) /\
    be_dds_untransform (be false) env64 y y = Ok (ROk tt, z) /\ z <> x /\
    be_dds_transform_bundle (fun _ => EmptyString) (be false) env64 t x x tt = Ok (ROk tt, y', tt) /\
    dds_untransform cpu env64 y' y' = Ok (ROk tt, z') /\ z' <> x.
Proof.
  intros k [v sp] HV. cbn [decorrelation_mode] in HV. cbv zeta.
  exists (match k with CBc1 => sample_header (four "DXT1") 4 4 1 ++ numbers 8 | CBc2 => file2 end).
  destruct k, v; try congruence; destruct sp; do 4 eexists;
    (split; [vm_compute; reflexivity|]); (split; [vm_compute; reflexivity|]); (split; [intros Q; vm_compute in Q; discriminate Q|]);
    (split; [vm_compute; reflexivity|]); (split; [vm_compute; reflexivity|]); intros Q; vm_compute in Q; discriminate Q.
Qed.
Print Assumptions C73_decorrelated_refuted.
Example C73_default_case : mb_settings manual_new = default_settings /\ decorrelation_mode default_settings <> VNone.
Proof. split; [reflexivity|discriminate]. Qed.

(** a BC1 file, a debug build, settings without decorrelation *)
Example C73_same_transform_partial_met :
  let St := unit in let Er := unit in let show := (fun _ : unit => EmptyString) in let c := debug_cpu in let j := x5a in let v := env32 in let t := plain CBc1
  in let x := file1 in let out := file1 in let st := tt in
  supported c /\ 2 ^ 32 - 1 <= usize_max v /\ plain_bundle t /\ (c_debug c = true -> forall i, parse_dds true x = Ok (Some i) -> 0 < i_data_length i).
Proof. cbv zeta; repeat lazymatch goal with |- _ /\ _ => split end; first [exact plain_is_plain | met_dds1]. Qed.

(** a BC1 file transformed without decorrelation *)
Example C73_same_untransform_partial_met :
  let c := debug_cpu in let j := x5a in let v := env32 in let x := left_by (dds_transform_bundle (fun _ : unit => EmptyString) cpu env64 (plain CBc1) file1 file1 tt) in
  let out := file1 in
  supported c /\ 2 ^ 32 - 1 <= usize_max v /\ ~ names_decorrelation (word x 0) /\ (c_debug c = true -> forall i, parse_dds_ignore_magic true x = Ok (Some i) -> 0 <
  i_data_length i) /\ dds_untransform c v x out = Ok (ROk tt, file1).
Proof. cbv zeta; repeat lazymatch goal with |- _ /\ _ => split end; first [exact plain_names_none | met_dds1]. Qed.

(** a BC1 file with bytes behind the texture, settings without decorrelation *)
Example C73_plain_to_be_partial_met :
  let St := unit in let Er := unit in let show := (fun _ : unit => EmptyString) in let c := debug_cpu in let d := true in let j := x5a in let v1 := env64 in let
  v2 := env32 in let t := plain CBc1 in let x := file1 in let out := file1 in let out2 := numbers 163 in let st := tt in let st' := tt in let y := left_by
  (dds_transform_bundle show c v1 t x out st) in let i := info_of x in
  supported c /\ parse_dds (c_debug c) x = Ok (Some i) /\ (c_debug c = true -> 0 < i_data_length i) /\ (d = true -> c_debug c = false -> levels_fit x) /\ 2 ^ 32 - 1 <=
  usize_max v1 /\ zlen x <= usize_max v2 /\ plain_bundle t /\ dds_transform_bundle show c v1 t x out st = Ok (ROk tt, y, st') /\ zlen x <= zlen out2 /\ (i_data_offset i +
  i_data_length i < zlen x -> zlen out2 = zlen x) /\ y <> x.
Proof. cbv zeta; repeat lazymatch goal with |- _ /\ _ => split end; first [exact plain_is_plain | met_dds1]. Qed.

(** a BC1 file with bytes behind the texture, settings without decorrelation *)
Example C73_plain_to_le_partial_met :
  let St := unit in let Er := unit in let show := (fun _ : unit => EmptyString) in let c := debug_cpu in let d := true in let j := x5a in let v1 := env64 in let
  v2 := env32 in let t := plain CBc1 in let x := file1 in let out := file1 in let out2 := numbers 163 in let st := tt in let st' := tt in let y := left_by
  (be_dds_transform_bundle show (big_endian_cpu d j) v1 t x out st) in let i := info_of x in
  supported c /\ parse_dds d x = Ok (Some i) /\ (c_debug c = true -> 0 < i_data_length i) /\ (c_debug c = true -> d = false -> levels_fit x) /\ 2 ^ 32 - 1 <= usize_max v1
  /\ zlen x <= usize_max v2 /\ plain_bundle t /\ be_dds_transform_bundle show (big_endian_cpu d j) v1 t x out st = Ok (ROk tt, y, st') /\ zlen x <= zlen out2 /\
  (i_data_offset i + i_data_length i < zlen x -> zlen out2 = zlen x) /\ y <> x.
Proof. cbv zeta; repeat lazymatch goal with |- _ /\ _ => split end; first [exact plain_is_plain | met_dds1]. Qed.
