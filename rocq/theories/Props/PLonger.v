(** C30, C48 and C73, exactly: what an output buffer longer than the file does,
    and what short addresses do. Together with C30_dds_transform_partial and
    C48_dds_untransform_total_partial (output of the file's size, 64 bits) this
    says for which calls a release build panics. *)
From Verif Require Import Base.Bytes Base.Res Model.Color565 Model.Ycc Model.Kernel Model.Transform Model.Auto Model.Builders Model.Embed Model.Bundle Model.Dds
  Model.BigEndian Model.BeTransform Model.BeFiles
  Spec.Layout Spec.Estimator Spec.Files Spec.Dds Proofs.DdsFacts Proofs.DdsHandler Proofs.BigEndianFacts Proofs.LargerOutput Proofs.BeLargerOutput.
From Verif Require Import Props.PDds Props.Cases Props.CasesAuto.
From Coq Require Import String.
Open Scope string_scope.
Open Scope list_scope.
Open Scope Z_scope.

(** C30: [extra] bytes behind an output of the file's size are kept; but if bytes
    follow the texture, a call that would succeed panics. *)
Theorem C30_longer_output_exactly_partial : forall (St Er : Type) (show : Er -> string) (c : cfg) (v : env) (t : bundle St Er) (x out extra : list byte) (st : St),
  supported c -> 2 ^ 32 + 147 <= usize_max v -> zlen out = zlen x ->
  let bytes_follow := match parse_dds (c_debug c) x with Ok (Some i) => i_data_offset i + i_data_length i <? zlen x | _ => false end in
  dds_transform_bundle show c v t x (out ++ extra) st =
  match dds_transform_bundle show c v t x out st with
  | Ok (ROk u, y, st1) =>
      if bytes_follow && (0 <? zlen extra) then Panic "source slice length does not match destination slice length" else Ok (ROk u, y ++ extra, st1)
  | Ok (RErr e, y, st1) => Ok (RErr e, y ++ extra, st1)
  | r => r
  end.
Proof. exact transform_longer. Qed.
Print Assumptions C30_longer_output_exactly_partial.
(** a file with bytes behind the texture and one without *)
Example C30_longer_output_exactly_partial_met : let f := fun _ : unit => EmptyString in
  supported debug_cpu /\ 2 ^ 32 + 147 <= usize_max env64 /\ zlen (numbers 163) = zlen file1 /\
  (exists why, dds_transform_bundle f debug_cpu env64 (manual CBc1) file1 (numbers 163 ++ [x07]) tt = Panic why) /\
  (exists y, dds_transform_bundle f debug_cpu env64 (manual CBc2) file2 (numbers 144 ++ [x07]) tt = Ok (ROk tt, y ++ [x07], tt) /\ zlen y = zlen file2).
Proof.
  cbv zeta. split; [exact debug_supported|]. split; [vm_compute; discriminate|]. split; [reflexivity|]. split; [eexists; vm_compute; reflexivity|].
  set (r := dds_transform_bundle (fun _ : unit => EmptyString) debug_cpu env64 (manual CBc2) file2 (numbers 144 ++ [x07]) tt). exists (firstn 144 (left_by r)).
  split; vm_compute; reflexivity.
Qed.

(** C48: the same for restoring. *)
Theorem C48_longer_output_exactly_partial : forall (c : cfg) (v : env) (x out extra : list byte),
  supported c -> 2 ^ 32 + 147 <= usize_max v -> zlen out = zlen x ->
  let bytes_follow := match parse_dds_ignore_magic (c_debug c) x with Ok (Some i) => i_data_offset i + i_data_length i <? zlen x | _ => false end in
  dds_untransform c v x (out ++ extra) =
  match dds_untransform c v x out with
  | Ok (ROk u, y) =>
      if bytes_follow && (0 <? zlen extra) then Panic "source slice length does not match destination slice length" else Ok (ROk u, y ++ extra)
  | Ok (RErr e, y) => Ok (RErr e, y ++ extra)
  | r => r
  end.
Proof. exact untransform_longer. Qed.
Print Assumptions C48_longer_output_exactly_partial.
(** the transformed files *)
Definition moved (k : codec) (x : list byte) : list byte := left_by (dds_transform_bundle (fun _ : unit => EmptyString) cpu env64 (manual k) x x tt).
Example C48_longer_output_exactly_partial_met :
  supported debug_cpu /\ 2 ^ 32 + 147 <= usize_max env64 /\ zlen (numbers 163) = zlen (moved CBc1 file1) /\
  (exists why, dds_untransform debug_cpu env64 (moved CBc1 file1) (numbers 163 ++ [x07]) = Panic why) /\
  dds_untransform debug_cpu env64 (moved CBc2 file2) (numbers 144 ++ [x07]) = Ok (ROk tt, file2 ++ [x07]).
Proof. split; [exact debug_supported|]. split; [vm_compute; discriminate|]. split; [reflexivity|]. split; [eexists; vm_compute; reflexivity|vm_compute; reflexivity]. Qed.

(** C48: addresses of fewer bits (at least 32) make no difference unless the
    header states a texture whose end has no address; then restoring panics. *)
Theorem C48_short_addresses_exactly_partial : forall (c : cfg) (v wide : env) (x out : list byte) (i : dds_info),
  2 ^ 32 - 1 <= usize_max v -> 2 ^ 32 + 147 <= usize_max wide -> zlen x <= zlen out -> parse_dds_ignore_magic (c_debug c) x = Ok (Some i) ->
  if i_data_offset i + i_data_length i <=? usize_max v then dds_untransform c v x out = dds_untransform c wide x out
  else exists why, dds_untransform c v x out = Panic why.
Proof.
  intros c v wide x out i U W L P. destruct (Z.leb_spec (i_data_offset i + i_data_length i) (usize_max v)) as [Le|Gt].
  - apply untransform_wide. intros j Pj. rewrite P in Pj. assert (j = i) by congruence. subst j.
    destruct (parse_facts _ _ _ P) as (_ & _ & _ & _ & Hn & Ho & _). lia.
  - exact (untransform_narrow c v x out i U L P Gt).
Qed.
Print Assumptions C48_short_addresses_exactly_partial.
(** the header of C48_dds_32bit_refuted, and an ordinary file *)
Example C48_short_addresses_exactly_partial_met :
  let crafted := u32_bytes 1 ++ skipn 4 (sample_header (four "DXT1") (2 ^ 17) (2 ^ 16 - 4) 2) in
  2 ^ 32 - 1 <= usize_max env32 /\ 2 ^ 32 + 147 <= usize_max env64 /\
  (exists i, parse_dds_ignore_magic false crafted = Ok (Some i) /\ (i_data_offset i + i_data_length i <=? usize_max env32) = false) /\
  (exists i, parse_dds_ignore_magic false (moved CBc1 file1) = Ok (Some i) /\ (i_data_offset i + i_data_length i <=? usize_max env32) = true).
Proof.
  cbv zeta. split; [vm_compute; discriminate|]. split; [vm_compute; discriminate|].
  split; eexists; (split; [vm_compute; reflexivity|reflexivity]).
Qed.

(** C30: transforming such a file panics too, unless (in a release build) its
    format has no transform. *)
Theorem C30_short_addresses_exactly_partial : forall (St Er : Type) (show : Er -> string) (c : cfg) (v : env) (t : bundle St Er) (x out : list byte) (st : St) (i : dds_info),
  2 ^ 32 - 1 <= usize_max v -> zlen x <= zlen out -> parse_dds (c_debug c) x = Ok (Some i) -> usize_max v < i_data_offset i + i_data_length i ->
  match dds_format_to_transform_format (i_format i) false with
  | ROk _ => exists why, dds_transform_bundle show c v t x out st = Panic why
  | RErr e =>
      if c_debug c then exists why, dds_transform_bundle show c v t x out st = Panic why
      else dds_transform_bundle show c v t x out st = Ok (RErr e, firstn (Z.to_nat (i_data_offset i)) x ++ skipn (Z.to_nat (i_data_offset i)) out, st)
  end.
Proof. exact transform_narrow. Qed.
Print Assumptions C30_short_addresses_exactly_partial.
Example C30_short_addresses_exactly_partial_met :
  let x := sample_header (four "DXT1") (2 ^ 17) (2 ^ 16 - 4) 2 in
  2 ^ 32 - 1 <= usize_max env32 /\ exists i, parse_dds false x = Ok (Some i) /\ usize_max env32 < i_data_offset i + i_data_length i /\
  exists f, dds_format_to_transform_format (i_format i) false = ROk f.
Proof. cbv zeta. split; [vm_compute; discriminate|]. eexists. split; [vm_compute; reflexivity|]. split; [reflexivity|]. eexists. reflexivity. Qed.

(** ** Big-endian machines *)

(** C73: the same there. *)
Theorem C73_be_longer_output_exactly_partial : forall (St Er : Type) (show : Er -> string) (c : cfg) (v : env) (t : bundle St Er) (x out extra : list byte) (st : St),
  cpu_ok c -> 2 ^ 32 + 147 <= usize_max v -> zlen out = zlen x ->
  let bytes_follow p := match p with Ok (Some i) => i_data_offset i + i_data_length i <? zlen x | _ => false end in
  be_dds_transform_bundle show c v t x (out ++ extra) st =
  match be_dds_transform_bundle show c v t x out st with
  | Ok (ROk u, y, st1) =>
      if bytes_follow (parse_dds (c_debug c) x) && (0 <? zlen extra)
      then Panic "source slice length does not match destination slice length" else Ok (ROk u, y ++ extra, st1)
  | Ok (RErr e, y, st1) => Ok (RErr e, y ++ extra, st1)
  | r => r
  end /\
  be_dds_untransform c v x (out ++ extra) =
  match be_dds_untransform c v x out with
  | Ok (ROk u, y) =>
      if bytes_follow (parse_dds_ignore_magic (c_debug c) x) && (0 <? zlen extra)
      then Panic "source slice length does not match destination slice length" else Ok (ROk u, y ++ extra)
  | Ok (RErr e, y) => Ok (RErr e, y ++ extra)
  | r => r
  end.
Proof.
  intros St Er show c v t x out extra st K U L bf. split; [exact (be_transform_longer St Er show c v t x out extra st K U L)|exact (be_untransform_longer c v x out extra K U L)].
Qed.
Print Assumptions C73_be_longer_output_exactly_partial.
Example C73_be_longer_output_exactly_partial_met : let c := big_endian_cpu true x5a in let f := fun _ : unit => EmptyString in
  cpu_ok c /\ 2 ^ 32 + 147 <= usize_max env64 /\ zlen (numbers 163) = zlen file1 /\
  exists why, be_dds_transform_bundle f c env64 (manual CBc1) file1 (numbers 163 ++ [x07]) tt = Panic why.
Proof. cbv zeta. split; [exact (big_endian_ok true x5a)|]. split; [vm_compute; discriminate|]. split; [reflexivity|]. eexists; vm_compute; reflexivity. Qed.

Theorem C73_be_short_addresses_exactly_partial : forall (c : cfg) (v wide : env) (x out : list byte) (i : dds_info),
  2 ^ 32 - 1 <= usize_max v -> 2 ^ 32 + 147 <= usize_max wide -> zlen x <= zlen out -> parse_dds_ignore_magic (c_debug c) x = Ok (Some i) ->
  if i_data_offset i + i_data_length i <=? usize_max v then be_dds_untransform c v x out = be_dds_untransform c wide x out
  else exists why, be_dds_untransform c v x out = Panic why.
Proof.
  intros c v wide x out i U W L P. destruct (Z.leb_spec (i_data_offset i + i_data_length i) (usize_max v)) as [Le|Gt].
  - apply be_untransform_wide. intros j Pj. rewrite P in Pj. assert (j = i) by congruence. subst j.
    destruct (parse_facts _ _ _ P) as (_ & _ & _ & _ & Hn & Ho & _). lia.
  - exact (be_untransform_narrow c v x out i U L P Gt).
Qed.
Print Assumptions C73_be_short_addresses_exactly_partial.
Example C73_be_short_addresses_exactly_partial_met :
  let crafted := u32_bytes 1 ++ skipn 4 (sample_header (four "DXT1") (2 ^ 17) (2 ^ 16 - 4) 2) in
  2 ^ 32 - 1 <= usize_max env32 /\ 2 ^ 32 + 147 <= usize_max env64 /\
  exists i, parse_dds_ignore_magic false crafted = Ok (Some i) /\ (i_data_offset i + i_data_length i <=? usize_max env32) = false.
Proof. cbv zeta. split; [vm_compute; discriminate|]. split; [vm_compute; discriminate|]. eexists; (split; [vm_compute; reflexivity|reflexivity]). Qed.
