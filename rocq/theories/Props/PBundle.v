(** C25, C35: bundles and dispatch on the texture format. *)
From Verif Require Import Base.Bytes Base.Res Model.Color565 Model.Ycc Model.Kernel Model.Transform Model.Auto Model.Builders Model.Embed Model.Bundle.
From Verif Require Import Spec.Layout Spec.Estimator Spec.Files Proofs.BundleFacts Props.Cases.

(** C25: whatever bundle and estimator produced a transformed texture and its
    header, [dispatch_untransform] with that header restores the texture, on any
    machine, and leaves the rest of its output buffer alone. *)
Theorem C25_dispatch_round_trip : forall (St Er : Type) (show : Er -> string) (c1 c2 : cfg) (v : env) (t : bundle St Er) (f : transform_format)
    (x out out2 : list byte) (st st' : St) (h : header) (y : list byte),
  supported c1 -> supported c2 -> (c_debug c1 = true \/ c_debug c2 = true -> x <> []) ->
  dispatch_transform show c1 v t f x out st = Ok (ROk h, y, st') -> zlen x <= zlen out2 ->
  dispatch_untransform c2 h (firstn (List.length x) y) out2 = Ok (ROk tt, x ++ skipn (List.length x) out2).
Proof. exact dispatch_round_trip. Qed.
Print Assumptions C25_dispatch_round_trip.

(** a BC2 block under a search with all modes *)
Example C25_nontrivial : let c := Cfg true X86_64 false true true true true true true true x00 in
  let x := map (fun i => lo8 (i * 37 + 11)) (zseq 0 16) in
  let e := pure (fun _ => ROk 0) (fun d _ => ROk (fold_right Z.add 0 (map b2z d)) : result Z unit) in
  exists h y, dispatch_transform (fun _ => EmptyString) c (Env (2 ^ 64 - 1) (fun _ => true)) (installed [WithAuto CBc2 (auto_new_ultra e)])
    FBc2 x x tt = Ok (ROk h, y, tt) /\ h <> 1.
Proof. do 2 eexists. split; [vm_compute; reflexivity|discriminate]. Qed.

(** C35: of all the [with_*] calls on a bundle, only the last one for the
    format counts. *)
Theorem C35_last_builder_wins : forall (St Er : Type) (show : Er -> string) (c : cfg) (v : env) (before after : list (install St Er)) (i : install St Er)
    (x out : list byte) (st : St),
  Forall (fun j => install_codec j <> install_codec i) after ->
  dispatch_transform show c v (installed (before ++ i :: after)) (codec_format (install_codec i)) x out st =
  dispatch_transform show c v (installed [i]) (codec_format (install_codec i)) x out st.
Proof. exact last_installed. Qed.
Print Assumptions C35_last_builder_wins.
(** a builder for another format is installed later *)
Example C35_last_builder_wins_met :
  let St := unit in let Er := unit in let show := (fun _ : unit => EmptyString) in let i := WithManual (St := unit) (Er := unit) CBc1 manual_new in let after :=
  [WithManual (St := unit) (Er := unit) CBc2 manual_new] in let x := texture 16 in let out := x in
  Forall (fun j => install_codec j <> install_codec i) after.
Proof. met. Qed.

(** A manual builder transforms with its settings and reports them in the
    header; *)
Theorem C35_manual_builder : forall (St Er : Type) (show : Er -> string) (c : cfg) (v : env) (k : codec) (b : manual_builder)
    (x out : list byte) (st : St),
  zlen x <= zlen out ->
  dispatch_transform show c v (installed [WithManual (St := St) (Er := Er) k b]) (codec_format k) x out st =
  (do r <- core_transform k c (mb_settings b) x out ;;
   Ok (match fst r with
       | ROk _ => ROk (codec_header k (mb_settings b))
       | RErr e => RErr ((match k with CBc1 => EBc1 | CBc2 => EBc2 end)
           (match e with InvalidLength len => BcInvalidLength len | OutputBufferTooSmall needed actual => BcOutputBufferTooSmall needed actual end))
       end, snd r, st)).
Proof. exact dispatch_manual. Qed.
Print Assumptions C35_manual_builder.

(** an automatic builder runs the search with its estimator and mode, and
    reports the settings it chose. *)
Theorem C35_auto_builder : forall (St Er : Type) (show : Er -> string) (c : cfg) (v : env) (k : codec) (b : auto_builder St Er)
    (x out : list byte) (st : St),
  zlen x <= zlen out ->
  dispatch_transform show c v (installed [WithAuto k b]) (codec_format k) x out st =
  (do r <- core_auto k c v (ab_estimator b) (ab_use_all b) x out st ;;
   match r with
   | (ROk s, y, st') => Ok (ROk (codec_header k s), y, st')
   | (RErr e, y, st') => Ok (RErr ((match k with CBc1 => EBc1 | CBc2 => EBc2 end)
       (match e with
        | AutoInvalidLength len => BcInvalidLength len
        | AutoOutputBufferTooSmall needed actual => BcOutputBufferTooSmall needed actual
        | DetermineBestTransform AllocateError => BcAllocationFailed
        | DetermineBestTransform (SizeEstimationError e) => BcSizeEstimationFailed (show e)
        end)), y, st')
   end).
Proof. exact dispatch_auto_errors. Qed.
Print Assumptions C35_auto_builder.

(** The bundle of defaults is one with a new manual builder for BC1 and one for
    BC2. *)
Theorem C35_default_all : forall (St Er : Type) (show : Er -> string) (c : cfg) (v : env) (k : codec) (x out : list byte) (st : St),
  dispatch_transform show c v default_all (codec_format k) x out st =
  dispatch_transform show c v (installed [WithManual k (ManualBuilder default_settings)]) (codec_format k) x out st.
Proof. intros St Er show c v [|]; reflexivity. Qed.
Print Assumptions C35_default_all.

(** A builder used directly makes the same errors, with the estimator's own
    error, and an automatic one gives back a manual builder with the settings
    chosen. *)
Theorem C35_builders_alone : forall (St Er : Type) (c : cfg) (v : env) (k : codec) (m : manual_builder) (b : auto_builder St Er) (x out : list byte) (st : St),
  manual_transform k c m x out =
  (do r <- core_transform k c (mb_settings m) x out ;;
   Ok (match fst r with
       | ROk u => ROk u
       | RErr (InvalidLength len) => RErr (BcInvalidLength len)
       | RErr (OutputBufferTooSmall needed actual) => RErr (BcOutputBufferTooSmall needed actual)
       end, snd r)) /\
  manual_untransform k c m x out =
  (do r <- core_untransform k c (mb_settings m) x out ;;
   Ok (match fst r with
       | ROk u => ROk u
       | RErr (InvalidLength len) => RErr (BcInvalidLength len)
       | RErr (OutputBufferTooSmall needed actual) => RErr (BcOutputBufferTooSmall needed actual)
       end, snd r)) /\
  auto_transform k c v b x out st =
  (do r <- core_auto k c v (ab_estimator b) (ab_use_all b) x out st ;;
   match r with
   | (ROk s, y, st') => Ok (ROk (ManualBuilder s), y, st')
   | (RErr e, y, st') => Ok (RErr (match e with
        | AutoInvalidLength len => BcInvalidLength len
        | AutoOutputBufferTooSmall needed actual => BcOutputBufferTooSmall needed actual
        | DetermineBestTransform AllocateError => BcAllocationFailed
        | DetermineBestTransform (SizeEstimationError e) => BcSizeEstimationFailed e
        end), y, st')
   end).
Proof. exact builders_alone. Qed.
Print Assumptions C35_builders_alone.

(** Without a builder for the format, *)
Theorem C35_no_builder : forall (St Er : Type) (show : Er -> string) (c : cfg) (v : env) (l : list (install St Er)) (k : codec)
    (x out : list byte) (st : St),
  Forall (fun j => install_codec j <> k) l -> zlen x <= zlen out ->
  dispatch_transform show c v (installed l) (codec_format k) x out st = Ok (RErr (EFormatHandler (NoBuilderForFormat (codec_format k))), out, st).
Proof. exact none_installed. Qed.
Print Assumptions C35_no_builder.
(** only the other format has a builder *)
Example C35_no_builder_met :
  let k := CBc1 in let l := [WithManual (St := unit) (Er := unit) CBc2 manual_new] in let x := texture 16 in let out := x in
  Forall (fun j => install_codec j <> k) l /\ zlen x <= zlen out.
Proof. met. Qed.

(** for a format nothing supports, *)
Theorem C35_unsupported : forall (St Er : Type) (show : Er -> string) (c : cfg) (v : env) (t : bundle St Er) (f : transform_format)
    (x out : list byte) (st : St),
  f <> FBc1 -> f <> FBc2 -> zlen x <= zlen out ->
  dispatch_transform show c v t f x out st = Ok (RErr UnknownTransformFormat, out, st).
Proof. exact unsupported_format. Qed.
Print Assumptions C35_unsupported.

(** or with too small a buffer, nothing is written and no estimator is asked. *)
Theorem C35_small_output : forall (St Er : Type) (show : Er -> string) (c : cfg) (v : env) (t : bundle St Er) (f : transform_format)
    (x out : list byte) (st : St),
  zlen out < zlen x ->
  dispatch_transform show c v t f x out st = Ok (RErr (EFormatHandler (FhOutputBufferTooSmall (zlen x) (zlen out))), out, st).
Proof. exact dispatch_small. Qed.
Print Assumptions C35_small_output.

Example C35_nontrivial : let c := Cfg false X86_64 false true true true false false false false x00 in
  let x := map (fun i => lo8 (i * 37 + 11)) (zseq 0 16) in
  let m v s := ManualBuilder (Settings v s) in
  let t := installed (St := unit) (Er := unit) [WithManual CBc1 (m V2 true); WithAuto CBc1 (auto_new no_estimation); WithManual CBc1 (m V3 false)] in
  (exists y, dispatch_transform (fun _ => EmptyString) c (Env (2 ^ 64 - 1) (fun _ => true)) t FBc1 x x tt =
    Ok (ROk (codec_header CBc1 (Settings V3 false)), y, tt) /\ y <> x) /\
  dispatch_transform (fun _ => EmptyString) c (Env (2 ^ 64 - 1) (fun _ => true)) t FBc2 x x tt = Ok (RErr (EFormatHandler (NoBuilderForFormat FBc2)), x, tt).
Proof. split; [eexists; split; [vm_compute; reflexivity|vm_compute; discriminate]|vm_compute; reflexivity]. Qed.
