(** Which YCoCg-R implementation a kernel calls. *)
From Verif Require Import Base.Bytes Model.Color565 Model.Lanes Model.LanesGen.

(** [Scalar]: Color565::{de,re}correlate_ycocg_r_varN; the others: the register
    functions of common/intrinsics/color_565.
    src/core/dxt-lossless-transform-common/src/intrinsics/color_565/decorrelate/sse2.rs:23-189 *)
Inductive isa := Scalar | Sse2 | Avx2 | Avx512bw.
Definition all_isas : list isa := [Scalar; Sse2; Avx2; Avx512bw].

(** Direction: [Dec] for decorrelate (transform), [Rec] for recorrelate.
    src/core/dxt-lossless-transform-common/src/intrinsics/color_565/decorrelate, src/core/dxt-lossless-transform-common/src/intrinsics/color_565/recorrelate/sse2.rs:23-136 *)
Inductive dir := Dec | Rec.
Definition all_dirs : list dir := [Dec; Rec].

(** One 16-bit colour through the given implementation. The kernels are compiled
    once per variant V1, V2, V3 (const generic VARIANT); VNone is the identity.
    src/core/dxt-lossless-transform-bc1/src/transform/with_split_colour_and_recorr/transform/avx512bw.rs:138-149 *)
Definition ycc (i : isa) (d : dir) (v : variant) (odd : bool) (x : Z) : Z :=
  match d, v, i with
  | _, VNone, _ => x
  | Dec, V1, Scalar => decorrelate_var1 x
  | Dec, V2, Scalar => decorrelate_var2 x
  | Dec, V3, Scalar => decorrelate_var3 x
  | Rec, V1, Scalar => recorrelate_var1 x
  | Rec, V2, Scalar => recorrelate_var2 x
  | Rec, V3, Scalar => recorrelate_var3 x
  | Dec, V1, Sse2 => decorrelate_ycocg_r_var1_sse2 odd x
  | Dec, V2, Sse2 => decorrelate_ycocg_r_var2_sse2 odd x
  | Dec, V3, Sse2 => decorrelate_ycocg_r_var3_sse2 odd x
  | Rec, V1, Sse2 => recorrelate_ycocg_r_var1_sse2 odd x
  | Rec, V2, Sse2 => recorrelate_ycocg_r_var2_sse2 odd x
  | Rec, V3, Sse2 => recorrelate_ycocg_r_var3_sse2 odd x
  | Dec, V1, Avx2 => decorrelate_ycocg_r_var1_avx2 odd x
  | Dec, V2, Avx2 => decorrelate_ycocg_r_var2_avx2 odd x
  | Dec, V3, Avx2 => decorrelate_ycocg_r_var3_avx2 odd x
  | Rec, V1, Avx2 => recorrelate_ycocg_r_var1_avx2 odd x
  | Rec, V2, Avx2 => recorrelate_ycocg_r_var2_avx2 odd x
  | Rec, V3, Avx2 => recorrelate_ycocg_r_var3_avx2 odd x
  | Dec, V1, Avx512bw => decorrelate_ycocg_r_var1_avx512bw odd x
  | Dec, V2, Avx512bw => decorrelate_ycocg_r_var2_avx512bw odd x
  | Dec, V3, Avx512bw => decorrelate_ycocg_r_var3_avx512bw odd x
  | Rec, V1, Avx512bw => recorrelate_ycocg_r_var1_avx512bw odd x
  | Rec, V2, Avx512bw => recorrelate_ycocg_r_var2_avx512bw odd x
  | Rec, V3, Avx512bw => recorrelate_ycocg_r_var3_avx512bw odd x
  end.

(** The scalar meaning of a direction.
    src/core/dxt-lossless-transform-common/src/color_565/mod.rs:110-120 *)
Definition ycc_scalar (d : dir) (v : variant) (x : Z) : Z :=
  match d with Dec => decorrelate v x | Rec => recorrelate v x end.
