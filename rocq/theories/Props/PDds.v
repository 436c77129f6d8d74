(** C26-C31, C48, C49: DDS files. *)
From Verif Require Import Base.Bytes Base.Res Model.Color565 Model.Ycc Model.Kernel Model.Transform Model.Auto Model.Builders Model.Embed Model.Bundle Model.Dds.
From Verif Require Import Spec.Layout Spec.Estimator Spec.Files Spec.Dds Proofs.DdsFacts Proofs.DdsHandler Proofs.DdsMore Props.Cases Props.CasesAuto.
From Verif Require Proofs.DdsExact Proofs.ReleaseFacts.

(** A 64-bit machine, and a 32-bit one. *)
Definition env64 : env := Env (2 ^ 64 - 1) (fun _ => true).
Definition env32 : env := Env (2 ^ 32 - 1) (fun _ => true).
Definition cpu : cfg := Cfg false X86_64 false true true true true true true true x00.
Definition manual (k : codec) : bundle unit unit := installed [WithManual k (ManualBuilder (Settings V2 true))].
Definition numbers (n : nat) : list byte := map (fun i => lo8 (i * 37 + 11)) (zseq 0 n).
(** 8 x 8 pixels of BC1 and three bytes after them; 4 x 4 pixels of BC2 *)
Definition file1 : list byte := sample_header (four "DXT1") 8 8 1 ++ numbers 32 ++ [x01; x02; x03].
Definition file2 : list byte := sample_header (four "DXT3") 4 4 1 ++ numbers 16.
Example env32_small : 2 ^ 32 - 1 <= usize_max env32 /\ 2 ^ 32 + 147 <= usize_max env64.
Proof. split; cbn; lia. Qed.
Example cpu_supported : supported cpu.
Proof. split; [split; cbn; auto|cbn; auto]. Qed.
Lemma file1_fits : levels_fit file1.
Proof.
  intros i n Hi L. assert (E : mip_count file1 = 1) by (vm_compute; reflexivity). rewrite E in Hi.
  assert (i = 0) by lia. subst i. vm_compute in L. injection L as <-. reflexivity.
Qed.
(** what the headers of a file say *)
Definition info_of (x : list byte) : dds_info := match parse_dds false x with Ok (Some i) => i | _ => DdsInfo NotADds 0 0 end.
(** Checks the hypotheses of an example. *)
Ltac met_info := let i := fresh in let H := fresh in intros i H; vm_compute in H; injection H as <-; vm_compute; (reflexivity || (intros; (reflexivity || discriminate))).
Ltac met_dds1 := first
  [ exact cpu_supported | exact file1_fits | solve [intros; exact file1_fits] | solve [met_info] | solve [intros _; met_info] | solve [intros _; split; [exact file1_fits|met_info]] | met1 ].
Ltac met_dds := cbv zeta; repeat lazymatch goal with |- _ /\ _ => split end; met_dds1.

(** C28: what parsing says about any byte string. It panics at most in debug
    builds (C28_debug_panic_refuted) and never reads outside the bytes. *)
Theorem C28_parse_dds : forall (debug : bool) (data : list byte),
  match parse_dds debug data with
  | Ok None => has_magic data = false \/ complete_headers data = false
  | Ok (Some i) => has_magic data = true /\ complete_headers data = true /\
      i_format i = stated_format data /\ i_data_offset i = header_bytes data /\ 0 <= i_data_length i < 2 ^ 32
  | Panic _ => debug = true /\ ~ levels_fit data
  | Ub _ => False
  end.
Proof. exact parse_dds_spec. Qed.
Print Assumptions C28_parse_dds.

Example C28_nontrivial : parse_dds true file1 = Ok (Some (DdsInfo DBC1 128 32)) /\ parse_dds true (firstn 100 file1) = Ok None.
Proof. split; vm_compute; reflexivity. Qed.

(** C28 fails in debug builds: a header with large dimensions makes parsing
    panic, exactly when a level of the chain does not fit into 32 bits. *)
Theorem C28_debug_exactly_partial : forall data : list byte, has_magic data = true -> complete_headers data = true ->
  ((exists why, parse_dds true data = Panic why) <-> ~ levels_fit data).
Proof. exact DdsExact.debug_exactly. Qed.
Print Assumptions C28_debug_exactly_partial.
(** one file whose levels fit, and one whose first level does not *)
Example C28_debug_exactly_partial_met : has_magic file1 = true /\ complete_headers file1 = true /\ parse_dds true file1 = Ok (Some (DdsInfo DBC1 128 32)) /\
  let big := sample_header (four "DXT1") (2 ^ 18) (2 ^ 18) 2 in has_magic big = true /\ complete_headers big = true /\ exists why, parse_dds true big = Panic why.
Proof. cbv zeta. repeat lazymatch goal with |- _ /\ _ => split end; try (vm_compute; reflexivity). eexists. vm_compute. reflexivity. Qed.

Theorem C28_debug_panic_refuted : exists (data : list byte) why, has_magic data = true /\ complete_headers data = true /\ parse_dds true data = Panic why.
Proof. exists (sample_header (four "DXT1") (2 ^ 18) (2 ^ 18) 1). eexists. repeat apply conj; vm_compute; reflexivity. Qed.
Print Assumptions C28_debug_panic_refuted.

(** The C functions, given [len] readable bytes: they say what the Rust
    functions say about the first [len] bytes; null means no file. *)
Theorem C28_parse_dds_c : forall (debug : bool) (l : list byte) (len : Z), 0 <= len <= zlen l ->
  parse_dds_c debug None len = Ok (DdsInfo NotADds 0 0) /\ is_dds_c None len = Ok false /\
  is_dds_c (Some l) len = Ok ((128 <=? len) && has_magic (firstn (Z.to_nat len) l)) /\
  match parse_dds debug (firstn (Z.to_nat len) l) with
  | Ok (Some i) => parse_dds_c debug (Some l) len = Ok i
  | Ok None => parse_dds_c debug (Some l) len = Ok (DdsInfo NotADds 0 0)
  | Panic why => parse_dds_c debug (Some l) len = Panic why
  | Ub _ => False
  end.
Proof. exact parse_c_spec. Qed.
Print Assumptions C28_parse_dds_c.
(** the first 150 bytes of a file *)
Example C28_parse_dds_c_met :
  let debug := true in let l := file1 in let len := 150 in
  0 <= len <= zlen l.
Proof. met_dds. Qed.

(** C29: the length is the size of the mip chain, if every level fits into 32
    bits. *)
Theorem C29_mip_chain : forall (debug : bool) (data : list byte),
  has_magic data = true -> complete_headers data = true -> levels_fit data ->
  exists i, parse_dds debug data = Ok (Some i) /\ i_data_length i = Z.min (chain_bytes data) (2 ^ 32 - 1).
Proof. exact parse_chain. Qed.
Print Assumptions C29_mip_chain.

(** 10 x 5 pixels of BC3 with four levels: 6 + 2 + 1 + 1 blocks *)
Example C29_nontrivial : let f := sample_header (four "DXT5") 10 5 4 in levels_fit f /\ chain_bytes f = 160 /\ parse_dds true f = Ok (Some (DdsInfo DBC3 128 160)).
Proof.
  cbv zeta. split; [|split; vm_compute; reflexivity]. intros i n Hi H.
  assert (i = 0 \/ i = 1 \/ i = 2 \/ i = 3) as Q by (change (mip_count _) with 4 in Hi; lia).
  destruct Q as [->|[->|[->| ->]]]; vm_compute in H; injection H as <-; lia.
Qed.

(** C29 fails for a level of more than 32 bits: the release build reports a
    wrong length. *)
Theorem C29_overflow_refuted : exists (data : list byte) (i : dds_info),
  parse_dds false data = Ok (Some i) /\ i_data_length i = 0 /\ chain_bytes data = 8 * (65536 * 65536).
Proof. exists (sample_header (four "DXT1") (2 ^ 18) (2 ^ 18) 1). eexists. repeat apply conj; vm_compute; reflexivity. Qed.
Print Assumptions C29_overflow_refuted.

(** C26: whatever bundle, estimator and machine transformed a DDS file, the
    file comes back byte for byte on any machine. The output buffer may be
    larger than the file unless there are bytes after the texture (see C30). *)
Theorem C26_dds_round_trip : forall (St Er : Type) (show : Er -> string) (c1 c2 : cfg) (v1 v2 : env) (t : bundle St Er)
    (x out out2 : list byte) (st st' : St) (y : list byte) (i : dds_info),
  supported c1 -> supported c2 -> parse_dds (c_debug c1) x = Ok (Some i) ->
  (c_debug c1 = true \/ c_debug c2 = true -> 0 < i_data_length i) -> (c_debug c2 = true -> c_debug c1 = false -> levels_fit x) ->
  2 ^ 32 - 1 <= usize_max v1 -> zlen x <= usize_max v2 ->
  dds_transform_bundle show c1 v1 t x out st = Ok (ROk tt, y, st') ->
  zlen x <= zlen out2 -> (i_data_offset i + i_data_length i < zlen x -> zlen out2 = zlen x) ->
  dds_untransform c2 v2 (firstn (List.length x) y) out2 = Ok (ROk tt, x ++ skipn (List.length x) out2).
Proof. exact dds_round_trip. Qed.
Print Assumptions C26_dds_round_trip.
(** a BC1 file with bytes behind the texture, two machines, debug builds *)
Example C26_dds_round_trip_met :
  let St := unit in let Er := unit in let show := (fun _ : unit => EmptyString) in let c1 := debug_cpu in let c2 := slow_cpu in let v1 := env64 in let v2 :=
  env32 in let t := manual CBc1 in let x := file1 in let out := file1 in let out2 := numbers 163 in let st := tt in let st' := tt in let y := left_by
  (dds_transform_bundle show c1 v1 t x out st) in let i := info_of x in
  supported c1 /\ supported c2 /\ parse_dds (c_debug c1) x = Ok (Some i) /\ (c_debug c1 = true \/ c_debug c2 = true -> 0 < i_data_length i) /\ (c_debug c2 = true ->
  c_debug c1 = false -> levels_fit x) /\ 2 ^ 32 - 1 <= usize_max v1 /\ zlen x <= usize_max v2 /\ dds_transform_bundle show c1 v1 t x out st = Ok (ROk tt, y, st') /\ zlen
  x <= zlen out2 /\ (i_data_offset i + i_data_length i < zlen x -> zlen out2 = zlen x) /\ y <> x /\ i_data_offset i + i_data_length i < zlen x.
Proof. met_dds. Qed.

Example C26_nontrivial : exists i y, parse_dds (c_debug cpu) file1 = Ok (Some i) /\ i_data_offset i + i_data_length i < zlen file1 /\
  dds_transform_bundle (fun _ => EmptyString) cpu env64 (manual CBc1) file1 file1 tt = Ok (ROk tt, y, tt) /\ y <> file1 /\
  dds_untransform cpu env32 y y = Ok (ROk tt, file1).
Proof. do 2 eexists. repeat apply conj; try (vm_compute; reflexivity). discriminate. Qed.

(** C27: what a successful transform writes: the transform header, the rest of
    the file's headers, the transformed texture, the bytes after it, and what
    the buffer held before. *)
Theorem C27_dds_transform_output : forall (St Er : Type) (show : Er -> string) (c : cfg) (v : env) (t : bundle St Er)
    (x out : list byte) (st : St) (y : list byte) (st' : St) (i : dds_info),
  supported c -> parse_dds (c_debug c) x = Ok (Some i) -> (c_debug c = true -> 0 < i_data_length i) -> 2 ^ 32 - 1 <= usize_max v ->
  dds_transform_bundle show c v t x out st = Ok (ROk tt, y, st') ->
  let off := i_data_offset i in let n := i_data_length i in
  exists k s, i_format i = match k with CBc1 => DBC1 | CBc2 => DBC2 end /\
    dispatch_transform show c v t (codec_format k) (slice x off n) (slice out off n) st = Ok (ROk (codec_header k s), texture_layout k s (slice x off n), st') /\
    n mod codec_block k = 0 /\ off + n <= zlen x /\ zlen x <= zlen out /\
    (off + n < zlen x -> zlen out = zlen x) /\
    y = u32_bytes (codec_header k s) ++ slice x 4 (off - 4) ++ texture_layout k s (slice x off n) ++ slice x (off + n) (zlen x - (off + n)) ++ skipn (List.length x) out.
Proof. exact (@transform_success). Qed.
Print Assumptions C27_dds_transform_output.
(** a BC1 file with bytes behind the texture, a debug build *)
Example C27_dds_transform_output_met :
  let St := unit in let Er := unit in let show := (fun _ : unit => EmptyString) in let c := debug_cpu in let v := env64 in let t := manual CBc1 in let x :=
  file1 in let out := file1 in let st := tt in let y := left_by (dds_transform_bundle show c v t x out st) in let st' := tt in let i := info_of x in
  supported c /\ parse_dds (c_debug c) x = Ok (Some i) /\ (c_debug c = true -> 0 < i_data_length i) /\ 2 ^ 32 - 1 <= usize_max v /\ dds_transform_bundle show c v t x out
  st = Ok (ROk tt, y, st') /\ i_data_offset i + i_data_length i < zlen x.
Proof. met_dds. Qed.

(** C30: with an output buffer of at least the file's size the transform never
    complains about the buffer and returns a result, provided the buffer has
    exactly the file's size when bytes follow the texture. *)
Theorem C30_dds_transform_partial : forall (St Er : Type) (show : Er -> string) (c : cfg) (v : env) (t : bundle St Er) (x out : list byte) (st : St),
  supported c -> 2 ^ 32 + 147 <= usize_max v ->
  (c_debug c = true -> levels_fit x /\ forall i, parse_dds true x = Ok (Some i) -> 0 < i_data_length i) ->
  zlen x <= zlen out ->
  (forall i, parse_dds (c_debug c) x = Ok (Some i) -> i_data_offset i + i_data_length i < zlen x -> zlen out = zlen x) ->
  exists r y st', dds_transform_bundle show c v t x out st = Ok (r, y, st') /\ forall a b, r <> RErr (EFormatHandler (FhOutputBufferTooSmall a b)).
Proof. exact transform_total. Qed.
Print Assumptions C30_dds_transform_partial.
(** a BC1 file with bytes behind the texture, a debug build *)
Example C30_dds_transform_partial_met :
  let St := unit in let Er := unit in let show := (fun _ : unit => EmptyString) in let c := debug_cpu in let v := env64 in let t := manual CBc1 in let x :=
  file1 in let out := file1 in let st := tt in
  supported c /\ 2 ^ 32 + 147 <= usize_max v /\ (c_debug c = true -> levels_fit x /\ forall i, parse_dds true x = Ok (Some i) -> 0 < i_data_length i) /\ zlen x <= zlen
  out /\ (forall i, parse_dds (c_debug c) x = Ok (Some i) -> i_data_offset i + i_data_length i < zlen x -> zlen out = zlen x).
Proof. met_dds. Qed.

Example C30_nontrivial : exists y, dds_transform_bundle (fun _ => EmptyString) cpu env64 (manual CBc2) file2 (file2 ++ file2) tt = Ok (ROk tt, y, tt).
Proof. eexists. vm_compute. reflexivity. Qed.

(** C30 fails when bytes follow the texture: a larger buffer makes both
    directions panic. *)
Theorem C30_dds_larger_output_refuted : exists (x y : list byte) w1 w2,
  dds_transform_bundle (fun _ : unit => EmptyString) cpu env64 (manual CBc1) x x tt = Ok (ROk tt, y, tt) /\
  dds_transform_bundle (fun _ : unit => EmptyString) cpu env64 (manual CBc1) x (x ++ [x00]) tt = Panic w1 /\
  dds_untransform cpu env64 y x = Ok (ROk tt, x) /\ dds_untransform cpu env64 y (x ++ [x00]) = Panic w2.
Proof.
  exists file1. do 3 eexists. split; [vm_compute; reflexivity|]. split; [vm_compute; reflexivity|]. split; vm_compute; reflexivity.
Qed.
Print Assumptions C30_dds_larger_output_refuted.

(** C31: the result of a transform is never taken for a plain DDS file, and a
    plain DDS file is never untransformed. *)
Theorem C31_transformed_not_plain : forall (St Er : Type) (show : Er -> string) (c : cfg) (v : env) (t : bundle St Er)
    (x out : list byte) (st st' : St) (y : list byte) (i : dds_info),
  supported c -> parse_dds (c_debug c) x = Ok (Some i) -> (c_debug c = true -> 0 < i_data_length i) -> 2 ^ 32 - 1 <= usize_max v ->
  dds_transform_bundle show c v t x out st = Ok (ROk tt, y, st') ->
  forall (debug : bool) (ext : option string), dds_can_handle debug y ext = Ok false.
Proof. exact not_handled. Qed.
Print Assumptions C31_transformed_not_plain.
(** a BC1 file, a debug build *)
Example C31_transformed_not_plain_met :
  let St := unit in let Er := unit in let show := (fun _ : unit => EmptyString) in let c := debug_cpu in let v := env64 in let t := manual CBc1 in let x :=
  file1 in let out := file1 in let st := tt in let y := left_by (dds_transform_bundle show c v t x out st) in let st' := tt in let i := info_of x in
  supported c /\ parse_dds (c_debug c) x = Ok (Some i) /\ (c_debug c = true -> 0 < i_data_length i) /\ 2 ^ 32 - 1 <= usize_max v /\ dds_transform_bundle show c v t x out
  st = Ok (ROk tt, y, st').
Proof. met_dds. Qed.
Theorem C31_plain_not_untransformed : forall (c : cfg) (v : env) (x out o : list byte), has_magic x = true -> dds_untransform c v x out <> Ok (ROk tt, o).
Proof. exact plain_not_untransformed. Qed.
Print Assumptions C31_plain_not_untransformed.

(** Detection is weaker: a plain file is offered to the untransform, which then
    refuses it. *)
Example C31_nontrivial : dds_can_handle true file1 (Some "dds"%string) = Ok true /\ dds_can_handle_untransform true file1 None = Ok true /\
  has_magic file1 = true /\ exists o, dds_untransform cpu env64 file1 file1 = Ok (RErr UnknownTransformFormat, o).
Proof. repeat apply conj; try (vm_compute; reflexivity). eexists. vm_compute. reflexivity. Qed.

(** Exactly which files the handler offers to transform and to untransform. *)
Theorem C31_can_handle : forall (debug : bool) (data : list byte) (ext : option string),
  match dds_can_handle debug data ext with
  | Ok a => a = dds_named ext && has_magic data && complete_headers data
  | Panic _ => debug = true /\ ~ levels_fit data /\ dds_named ext && has_magic data && complete_headers data = true
  | Ub _ => False
  end.
Proof. exact can_handle_spec. Qed.
Print Assumptions C31_can_handle.
Theorem C31_can_handle_untransform : forall (debug : bool) (data : list byte) (ext : option string),
  match dds_can_handle_untransform debug data ext with
  | Ok a => a = dds_named ext && complete_headers data
  | Panic _ => debug = true /\ ~ levels_fit data /\ dds_named ext && complete_headers data = true
  | Ub _ => False
  end.
Proof. exact can_handle_untransform_spec. Qed.
Print Assumptions C31_can_handle_untransform.

(** The errors found before a texture is looked at, and what is written when
    they are reported: nothing, or just the headers. An error of the texture's
    transform is passed on, with what it left in its part of the output. *)
Theorem C30_dds_transform_errors : forall (St Er : Type) (show : Er -> string) (c : cfg) (v : env) (t : bundle St Er) (x out : list byte) (st : St),
  2 ^ 32 + 147 <= usize_max v ->
  let need i := header_bytes x + i_data_length i in
  (zlen out < zlen x ->
     dds_transform_bundle show c v t x out st = Ok (RErr (EFormatHandler (FhOutputBufferTooSmall (zlen x) (zlen out))), out, st)) /\
  (zlen x <= zlen out -> has_magic x && complete_headers x = false ->
     dds_transform_bundle show c v t x out st = Ok (RErr (EFormatHandler InvalidInputFileHeader), out, st)) /\
  (forall i, zlen x <= zlen out -> parse_dds (c_debug c) x = Ok (Some i) -> zlen x < need i ->
     dds_transform_bundle show c v t x out st = Ok (RErr (EFormatHandler (InputTooShortForStatedTextureSize (need i) (zlen x))), out, st)) /\
  (forall i e, zlen x <= zlen out -> parse_dds (c_debug c) x = Ok (Some i) -> need i <= zlen x -> refused (stated_format x) = Some e ->
     dds_transform_bundle show c v t x out st =
       Ok (RErr e, firstn (Z.to_nat (header_bytes x)) x ++ skipn (Z.to_nat (header_bytes x)) out, st)) /\
  (forall i f e y st', zlen x <= zlen out -> parse_dds (c_debug c) x = Ok (Some i) -> need i <= zlen x ->
     refused (stated_format x) = None -> block_format (stated_format x) = Some f ->
     dispatch_transform show c v t f (slice x (header_bytes x) (i_data_length i)) (slice out (header_bytes x) (i_data_length i)) st = Ok (RErr e, y, st') ->
     zlen y = i_data_length i ->
     dds_transform_bundle show c v t x out st =
       Ok (RErr e, firstn (Z.to_nat (header_bytes x)) x ++ y ++ skipn (Z.to_nat (need i)) out, st')).
Proof. exact (@transform_error_cases'). Qed.
Print Assumptions C30_dds_transform_errors.
Theorem C48_dds_untransform_errors : forall (c : cfg) (v : env) (x out : list byte),
  2 ^ 32 + 147 <= usize_max v ->
  let need i := header_bytes x + i_data_length i in
  (zlen x < 4 -> dds_untransform c v x out = Ok (RErr (EFormatHandler (InputTooShort 4 (zlen x))), out)) /\
  (4 <= zlen x -> zlen out < zlen x ->
     dds_untransform c v x out = Ok (RErr (EFormatHandler (FhOutputBufferTooSmall (zlen x) (zlen out))), out)) /\
  (4 <= zlen x <= zlen out -> complete_headers x = false -> dds_untransform c v x out = Ok (RErr (EFormatHandler InvalidRestoredFileHeader), out)) /\
  (forall i, zlen x <= zlen out -> parse_dds_ignore_magic (c_debug c) x = Ok (Some i) -> zlen x < need i ->
     dds_untransform c v x out = Ok (RErr (EFormatHandler (InputTooShortForStatedTextureSize (need i) (zlen x))), out)).
Proof. exact untransform_error_cases. Qed.
Print Assumptions C48_dds_untransform_errors.

(** a truncated file, a file of a format without a transform, a truncated
    transformed file and one of a few bytes *)
Definition file3 : list byte := sample_header (four "DXT5") 4 4 1 ++ numbers 16.
Example C30_errors_nontrivial : let t := manual CBc1 in let f := fun _ : unit => EmptyString in
  parse_dds true (firstn 150 file1) = Ok (Some (DdsInfo DBC1 128 32)) /\
  dds_transform_bundle f cpu env64 t (firstn 150 file1) file1 tt = Ok (RErr (EFormatHandler (InputTooShortForStatedTextureSize 160 150)), file1, tt) /\
  refused (stated_format file3) = Some (EFormatHandler (FormatNotImplemented FBc3)) /\
  dds_transform_bundle f cpu env64 t file3 file3 tt = Ok (RErr (EFormatHandler (FormatNotImplemented FBc3)), file3, tt) /\
  complete_headers (numbers 127) = false /\
  dds_untransform cpu env64 (numbers 127) file1 = Ok (RErr (EFormatHandler InvalidRestoredFileHeader), file1) /\
  dds_can_handle true file1 (Some "png"%string) = Ok false /\ dds_can_handle_untransform true file1 (Some "png"%string) = Ok false.
Proof. cbv zeta. repeat apply conj; vm_compute; reflexivity. Qed.

(** C48: untransforming any bytes whatsoever returns a result on a 64-bit
    machine (in debug builds, if the sizes in the header do not overflow), *)
Theorem C48_dds_untransform_total_partial : forall (c : cfg) (v : env) (x out : list byte),
  supported c -> 2 ^ 32 + 147 <= usize_max v ->
  (c_debug c = true -> levels_fit x /\ forall i, parse_dds_ignore_magic true x = Ok (Some i) -> 0 < i_data_length i) ->
  (forall i, parse_dds_ignore_magic (c_debug c) x = Ok (Some i) -> i_data_offset i + i_data_length i < zlen x -> zlen out <= zlen x) ->
  exists r o, dds_untransform c v x out = Ok (r, o) /\ zlen o = zlen out.
Proof. exact untransform_total. Qed.
Print Assumptions C48_dds_untransform_total_partial.
(** a debug build, a file that has not been transformed *)
Example C48_dds_untransform_total_partial_met :
  let c := debug_cpu in let v := env64 in let x := file1 in let out := file1 in
  supported c /\ 2 ^ 32 + 147 <= usize_max v /\ (c_debug c = true -> levels_fit x /\ forall i, parse_dds_ignore_magic true x = Ok (Some i) -> 0 < i_data_length i) /\
  (forall i, parse_dds_ignore_magic (c_debug c) x = Ok (Some i) -> i_data_offset i + i_data_length i < zlen x -> zlen out <= zlen x).
Proof. met_dds. Qed.

(** and on any machine neither direction does anything undefined. *)
Theorem C48_dds_untransform_safe : forall (c : cfg) (v : env) (x out : list byte), supported c -> 2 ^ 32 - 1 <= usize_max v ->
  forall why, dds_untransform c v x out <> Ub why.
Proof. exact ReleaseFacts.undds_safe. Qed.
Print Assumptions C48_dds_untransform_safe.
(** a debug build for a 32-bit machine, no room for output *)
Example C48_dds_untransform_safe_met :
  let c := debug_cpu in let v := env32 in let x := file1 in let out := @nil byte in
  supported c /\ 2 ^ 32 - 1 <= usize_max v.
Proof. met_dds. Qed.
Theorem C48_dds_transform_safe : forall (St Er : Type) (show : Er -> string) (c : cfg) (v : env) (t : bundle St Er) (x out : list byte) (st : St),
  supported c -> 2 ^ 32 - 1 <= usize_max v ->
  forall why, dds_transform_bundle show c v t x out st <> Ub why.
Proof. exact ReleaseFacts.dds_safe. Qed.
Print Assumptions C48_dds_transform_safe.
(** a debug build for a 32-bit machine, no room for output *)
Example C48_dds_transform_safe_met :
  let St := unit in let Er := unit in let show := (fun _ : unit => EmptyString) in let c := debug_cpu in let v := env32 in let t := manual CBc1 in let x :=
  file1 in let out := @nil byte in let st := tt in
  supported c /\ 2 ^ 32 - 1 <= usize_max v.
Proof. met_dds. Qed.

(** On a 32-bit machine a crafted header makes the untransform panic. *)
Theorem C48_dds_32bit_refuted : exists (x : list byte) why, dds_untransform cpu env32 x x = Panic why.
Proof. exists (u32_bytes 1 ++ skipn 4 (sample_header (four "DXT1") (2 ^ 17) (2 ^ 16 - 4) 2)). eexists. vm_compute. reflexivity. Qed.
Print Assumptions C48_dds_32bit_refuted.

(** a BC1 transform header with undefined settings; a texture of odd length *)
Example C48_nontrivial : exists e1 o1, dds_untransform cpu env64 (u32_bytes 0xFFFFFFF0 ++ skipn 4 file2) file2 = Ok (RErr e1, o1).
Proof. do 2 eexists. vm_compute. reflexivity. Qed.

(** C49: the blocks are the texture region of the file, or the stated error. *)
Theorem C49_extract_blocks : forall (debug : bool) (v : env) (data : list byte) (fl : format_filter) (p : option dds_info),
  2 ^ 32 + 147 <= usize_max v -> parse_dds debug data = Ok p ->
  dds_extract_blocks debug v data fl = Ok
  match p with
  | None => RErr (EFormatHandler UnknownFileFormat)
  | Some i =>
      match block_format (i_format i) with
      | None => RErr (EFormatHandler UnknownFileFormat)
      | Some f =>
          if filter_accepts fl f
          then if i_data_offset i + i_data_length i <=? zlen data
               then ROk (Some (slice data (i_data_offset i) (i_data_length i), f))
               else RErr (EFormatHandler (InputTooShortForStatedTextureSize (i_data_offset i + i_data_length i) (zlen data)))
          else ROk None
      end
  end.
Proof. exact extract_eq'. Qed.
Print Assumptions C49_extract_blocks.
(** a BC1 file, asked for BC1 *)
Example C49_extract_blocks_met :
  let debug := true in let v := env64 in let data := file1 in let fl := OnlyFormat FBc1 in let p := Some (info_of data) in
  2 ^ 32 + 147 <= usize_max v /\ parse_dds debug data = Ok p.
Proof. met_dds. Qed.
Theorem C49_extract_inside : forall (debug : bool) (v : env) (data : list byte) (fl : format_filter) (b : list byte) (f : transform_format),
  2 ^ 32 - 1 <= usize_max v -> dds_extract_blocks debug v data fl = Ok (ROk (Some (b, f))) ->
  exists i, parse_dds debug data = Ok (Some i) /\ block_format (i_format i) = Some f /\ filter_accepts fl f = true /\
    i_data_offset i + i_data_length i <= zlen data /\ b = slice data (i_data_offset i) (i_data_length i).
Proof. exact extract_inside'. Qed.
Print Assumptions C49_extract_inside.

Example C49_nontrivial : dds_extract_blocks true env64 file1 (OnlyFormat FBc1) = Ok (ROk (Some (numbers 32, FBc1))) /\
  dds_extract_blocks true env64 file1 (OnlyFormat FBc2) = Ok (ROk None) /\
  dds_extract_blocks true env64 (firstn 150 file1) AllFormats = Ok (RErr (EFormatHandler (InputTooShortForStatedTextureSize 160 150))).
Proof. repeat apply conj; vm_compute; reflexivity. Qed.

(** The format reported for a file is the one its header states, whether or not
    it has a transform, if the filter admits it; the blocks of the file are
    reported to have that format. *)
Theorem C49_transform_format : forall (debug : bool) (data : list byte) (fl : format_filter) (p : option dds_info),
  parse_dds debug data = Ok p ->
  dds_get_transform_format debug data fl = Ok
  match p with
  | None => RErr (EFormatHandler UnknownFileFormat)
  | Some _ =>
      match block_format (stated_format data) with
      | None => RErr (EFormatHandler UnknownFileFormat)
      | Some f => ROk (if filter_accepts fl f then Some f else None)
      end
  end.
Proof. exact get_format_eq. Qed.
Print Assumptions C49_transform_format.
(** a BC1 file, asked for BC1 *)
Example C49_transform_format_met :
  let debug := true in let data := file1 in let fl := OnlyFormat FBc1 in let p := Some (info_of data) in
  parse_dds debug data = Ok p.
Proof. met_dds. Qed.
Theorem C49_format_of_blocks : forall (debug : bool) (v : env) (data : list byte) (fl : format_filter) (b : list byte) (f : transform_format),
  2 ^ 32 - 1 <= usize_max v -> dds_extract_blocks debug v data fl = Ok (ROk (Some (b, f))) ->
  dds_get_transform_format debug data fl = Ok (ROk (Some f)).
Proof. exact get_format_extract. Qed.
Print Assumptions C49_format_of_blocks.

Example C49_format_nontrivial : dds_get_transform_format true file3 AllFormats = Ok (ROk (Some FBc3)) /\
  dds_get_transform_format true file3 (OnlyFormat FBc1) = Ok (ROk None) /\
  dds_extract_blocks true env64 file3 AllFormats = Ok (ROk (Some (numbers 16, FBc3))) /\
  dds_get_transform_format true (numbers 200) AllFormats = Ok (RErr (EFormatHandler UnknownFileFormat)).
Proof. repeat apply conj; vm_compute; reflexivity. Qed.
