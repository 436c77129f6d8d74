(** Spec/Files.v and Spec/Estimator.v for a big-endian machine. *)
From Verif Require Import Base.Bytes Base.Res Model.Color565 Model.Kernel Model.Transform Model.Auto Model.Builders Model.Embed Model.Bundle
  Spec.YCoCg Spec.Layout Spec.BigEndian.

(** What transforming a texture with given settings produces on a big-endian
    machine. *)
Definition be_texture_layout (k : codec) (s : settings) (x : list byte) : list byte :=
  match k with
  | CBc1 => be_bc1_layout (decorrelation_mode s) (split_colour_endpoints s) x
  | CBc2 => be_bc2_layout (decorrelation_mode s) (split_colour_endpoints s) x
  end.

(** What an estimator is shown for a candidate on a big-endian machine. *)
Definition be_bc1_shown (x : list byte) (s : settings) : list (list byte) :=
  [lay (be_colour_fields (decorrelation_mode s) (split_colour_endpoints s) 0) (blocks 8 x)].
Definition be_bc2_shown (x : list byte) (s : settings) : list (list byte) :=
  [lay (be_colour_fields (decorrelation_mode s) (split_colour_endpoints s) 8) (blocks 16 x)].
Definition be_bc3_shown (x : list byte) (s : settings3) : list (list byte) :=
  [lay (if split_alpha_endpoints s then [raw 0 1; raw 1 1] else [raw 0 2]) (blocks 16 x);
   lay (be_colour_fields (decorrelation_mode3 s) (split_colour_endpoints3 s) 8) (blocks 16 x)].

(** A bundle that holds no automatic builder and whose manual builders do not
    decorrelate. *)
Definition plain_builder {St Er} (b : option (builder St Er)) : Prop :=
  match b with
  | None => True
  | Some (Manual b) => decorrelation_mode (mb_settings b) = VNone
  | Some (Auto _) => False
  end.
Definition plain_bundle {St Er} (t : bundle St Er) : Prop := plain_builder (b_bc1 t) /\ plain_builder (b_bc2 t).

(** A header word that names a decorrelation mode. *)
Definition names_decorrelation (h : header) : Prop :=
  (header_format h = Some FBc1 /\ exists s, from_header bc1_details h = ROk s /\ decorrelation_mode s <> VNone) \/
  (header_format h = Some FBc2 /\ exists s, from_header bc2_details h = ROk s /\ decorrelation_mode s <> VNone).
