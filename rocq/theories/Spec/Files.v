(** Plain descriptions used by the bundle, DDS and file properties. *)
From Verif Require Import Base.Bytes Base.Res Model.Color565 Model.Kernel Model.Transform Model.Auto Model.Builders Model.Embed Model.Bundle.
From Verif Require Import Spec.Layout.

(** A machine every kernel runs on: a CPU whose features are consistent, with
    AVX512VL whenever it has AVX512BW (C10_bc2_avx512vl_refuted). *)
Definition supported (c : cfg) : Prop := cpu_ok c /\ (c_avx512bw c = true -> c_avx512vl c = true).

(** What transforming a texture with given settings produces. *)
Definition texture_layout (k : codec) (s : settings) (x : list byte) : list byte :=
  match k with
  | CBc1 => bc1_layout (decorrelation_mode s) (split_colour_endpoints s) x
  | CBc2 => bc2_layout (decorrelation_mode s) (split_colour_endpoints s) x
  end.
(** The header word naming a codec and its settings. *)
Definition codec_header (k : codec) (s : settings) : header :=
  match k with CBc1 => to_header bc1_details s | CBc2 => to_header bc2_details s end.
Definition codec_format (k : codec) : transform_format := match k with CBc1 => FBc1 | CBc2 => FBc2 end.

(** Installing builders into a bundle, one call after another. *)
Inductive install (St Er : Type) := WithManual (k : codec) (b : manual_builder) | WithAuto (k : codec) (b : auto_builder St Er).
Arguments WithManual {St Er}. Arguments WithAuto {St Er}.
Definition installs {St Er} (t : bundle St Er) (i : install St Er) : bundle St Er :=
  match i with
  | WithManual CBc1 b => with_bc1_manual t b
  | WithManual CBc2 b => with_bc2_manual t b
  | WithAuto CBc1 b => with_bc1_auto t b
  | WithAuto CBc2 b => with_bc2_auto t b
  end.
Definition installed {St Er} (l : list (install St Er)) : bundle St Er := fold_left installs l bundle_new.
Definition install_codec {St Er} (i : install St Er) : codec := match i with WithManual k _ | WithAuto k _ => k end.
