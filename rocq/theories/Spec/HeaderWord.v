(** The header word of a transformed file as a number (see Spec/Header.v for its
    bits). *)
From Verif Require Import Base.Bytes Base.Res Model.Color565 Model.Transform Model.Embed Spec.Header.

(** The header word as a number: every bit not named above is 0. *)
Definition code_of_variant (v : variant) : Z := match v with V1 => 0 | V2 => 1 | V3 => 2 | VNone => 3 end.
Definition flag (b : bool) : Z := if b then 1 else 0.
Definition header_word (d : details) : Z :=
  match d with
  | DBc1 s => 0 + 64 * flag (split_colour_endpoints s) + 128 * code_of_variant (decorrelation_mode s)
  | DBc2 s => 1 + 64 * flag (split_colour_endpoints s) + 128 * code_of_variant (decorrelation_mode s)
  | DBc3 => 2
  | DBc7 => 3
  | DRgba8888 b => 5 + 64 * flag b
  | DBgra8888 b => 6 + 64 * flag b
  | DBgr888 b => 7 + 64 * flag b
  | DBc4 b => 8 + 64 * flag b
  | DBc5 b => 9 + 64 * flag b
  end.
