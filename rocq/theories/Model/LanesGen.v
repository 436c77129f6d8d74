(** GENERATED by /verif/tools/gen_lanes.py - do not edit.
    The SSE2 / AVX2 / AVX512BW YCoCg-R register functions of
    src/core/dxt-lossless-transform-common/src/intrinsics/color_565/, statement by
    statement, as functions of one 16-bit lane. [odd] is the lane's parity: it only
    matters for set1_epi32, whose 32-bit constant covers an even and an odd lane. *)
From Verif Require Import Base.Bytes Model.Lanes.

(** src/core/dxt-lossless-transform-common/src/intrinsics/color_565/decorrelate/sse2.rs:23-60 *)
Definition decorrelate_ycocg_r_var1_sse2 (odd : bool) (colors_raw : Z) : Z :=
  let mask_32 := (w_set1_16 (32)) in
  let mask_31 := (w_set1_16 (31)) in
  let xmm1 := colors_raw in
  let xmm2 := (w_and xmm1 mask_32) in
  let xmm0 := (w_srli xmm1 (11)) in
  let xmm0 := (w_sub xmm0 xmm1) in
  let xmm0 := (w_and xmm0 mask_31) in
  let xmm4 := (w_srli xmm0 (1)) in
  let xmm4 := (w_add xmm4 xmm1) in
  let xmm1 := (w_srli xmm1 (6)) in
  let xmm1 := (w_sub xmm1 xmm4) in
  let xmm1 := (w_and xmm1 mask_31) in
  let xmm0 := (w_slli xmm0 (6)) in
  let xmm0 := (w_or xmm0 xmm2) in
  let xmm0 := (w_or xmm0 xmm1) in
  let xmm1 := (w_srli xmm1 (1)) in
  let xmm1 := (w_add xmm1 xmm4) in
  let xmm1 := (w_slli xmm1 (11)) in
  (w_or xmm0 xmm1).

(** src/core/dxt-lossless-transform-common/src/intrinsics/color_565/decorrelate/sse2.rs:76-133 *)
Definition decorrelate_ycocg_r_var2_sse2 (odd : bool) (colors_raw : Z) : Z :=
  let mask_31 := (w_set1_16 (31)) in
  let mask_g_low := (w_set1_16 (-32768)) in
  let input := colors_raw in
  let red := (w_srli input (11)) in
  let green := (w_srli input (6)) in
  let co := (w_sub red input) in
  let co := (w_and co mask_31) in
  let co_half := (w_srli co (1)) in
  let t := (w_add input co_half) in
  let cg := (w_sub green t) in
  let cg := (w_and cg mask_31) in
  let cg_half := (w_srli cg (1)) in
  let y := (w_add t cg_half) in
  let y := (w_and y mask_31) in
  let g_low_preserved := (w_slli input (10)) in
  let g_low_preserved := (w_and g_low_preserved mask_g_low) in
  let y_shifted := (w_slli y (10)) in
  let mask_y := (w_set1_16 (31744)) in
  let y_shifted := (w_and y_shifted mask_y) in
  let co_shifted := (w_slli co (5)) in
  let result := (w_or g_low_preserved y_shifted) in
  let result := (w_or result co_shifted) in
  let result := (w_or result cg) in
  result.

(** src/core/dxt-lossless-transform-common/src/intrinsics/color_565/decorrelate/sse2.rs:149-189 *)
Definition decorrelate_ycocg_r_var3_sse2 (odd : bool) (colors_raw : Z) : Z :=
  let mask_31 := (w_set1_16 (31)) in
  let mask_1 := (w_set1_16 (1)) in
  let input := colors_raw in
  let r := (w_srli input (11)) in
  let g := (w_srli input (6)) in
  let g_low := (w_and (w_srli input (5)) mask_1) in
  let b := (w_and input mask_31) in
  let co := (w_and (w_sub r b) mask_31) in
  let t := (w_add b (w_srli co (1))) in
  let cg := (w_and (w_sub (w_and g mask_31) t) mask_31) in
  let y := (w_add t (w_srli cg (1))) in
  let y_shifted := (w_slli y (11)) in
  let co_shifted := (w_slli co (6)) in
  let cg_shifted := (w_slli cg (1)) in
  let result := (w_or y_shifted co_shifted) in
  let result := (w_or result cg_shifted) in
  (w_or result g_low).

(** src/core/dxt-lossless-transform-common/src/intrinsics/color_565/decorrelate/avx2.rs:41-74 *)
Definition decorrelate_ycocg_r_var1_avx2 (odd : bool) (colors_raw : Z) : Z :=
  let mask_5bit := (w_set1_16 (31)) in
  let mask_1bit := (w_set1_16 (1)) in
  let r := (w_srli colors_raw (11)) in
  let g := (w_srli colors_raw (6)) in
  let g_low := (w_and (w_srli colors_raw (5)) mask_1bit) in
  let b := (w_and colors_raw mask_5bit) in
  let co := (w_and (w_sub r b) mask_5bit) in
  let t := (w_and (w_add b (w_srli co (1))) mask_5bit) in
  let cg := (w_and (w_sub g t) mask_5bit) in
  let y := (w_and (w_add t (w_srli cg (1))) mask_5bit) in
  let y_shifted := (w_slli y (11)) in
  let co_shifted := (w_slli co (6)) in
  let g_low_shifted := (w_slli g_low (5)) in
  (w_or (w_or y_shifted co_shifted) (w_or g_low_shifted cg)).

(** src/core/dxt-lossless-transform-common/src/intrinsics/color_565/decorrelate/avx2.rs:96-129 *)
Definition decorrelate_ycocg_r_var2_avx2 (odd : bool) (colors_raw : Z) : Z :=
  let mask_5bit := (w_set1_16 (31)) in
  let mask_1bit := (w_set1_16 (1)) in
  let r := (w_srli colors_raw (11)) in
  let g := (w_srli colors_raw (6)) in
  let g_low := (w_and (w_srli colors_raw (5)) mask_1bit) in
  let b := (w_and colors_raw mask_5bit) in
  let co := (w_and (w_sub r b) mask_5bit) in
  let t := (w_and (w_add b (w_srli co (1))) mask_5bit) in
  let cg := (w_and (w_sub g t) mask_5bit) in
  let y := (w_and (w_add t (w_srli cg (1))) mask_5bit) in
  let g_low_shifted := (w_slli g_low (15)) in
  let y_shifted := (w_slli y (10)) in
  let co_shifted := (w_slli co (5)) in
  (w_or (w_or g_low_shifted y_shifted) (w_or co_shifted cg)).

(** src/core/dxt-lossless-transform-common/src/intrinsics/color_565/decorrelate/avx2.rs:151-184 *)
Definition decorrelate_ycocg_r_var3_avx2 (odd : bool) (colors_raw : Z) : Z :=
  let mask_5bit := (w_set1_16 (31)) in
  let mask_1bit := (w_set1_16 (1)) in
  let r := (w_srli colors_raw (11)) in
  let g := (w_srli colors_raw (6)) in
  let g_low := (w_and (w_srli colors_raw (5)) mask_1bit) in
  let b := (w_and colors_raw mask_5bit) in
  let co := (w_and (w_sub r b) mask_5bit) in
  let t := (w_and (w_add b (w_srli co (1))) mask_5bit) in
  let cg := (w_and (w_sub g t) mask_5bit) in
  let y := (w_and (w_add t (w_srli cg (1))) mask_5bit) in
  let y_shifted := (w_slli y (11)) in
  let co_shifted := (w_slli co (6)) in
  let cg_shifted := (w_slli cg (1)) in
  (w_or (w_or y_shifted co_shifted) (w_or cg_shifted g_low)).

(** src/core/dxt-lossless-transform-common/src/intrinsics/color_565/decorrelate/avx512bw.rs:42-96 *)
Definition decorrelate_ycocg_r_var1_avx512bw (odd : bool) (colors_raw : Z) : Z :=
  let mask_31 := (w_set1_32 odd (2031647)) in
  let mask_g_low := (w_set1_32 odd (2097184)) in
  let colors := colors_raw in
  let red := (w_srli colors (11)) in
  let green := (w_srli colors (6)) in
  let red := (w_sub red colors) in
  let red := (w_and red mask_31) in
  let co_half := (w_srli red (1)) in
  let co_shifted := (w_slli red (6)) in
  let t := (w_add co_half colors) in
  let g_low := (w_and colors mask_g_low) in
  let green := (w_sub green t) in
  let green := (w_and green mask_31) in
  let cg_half := (w_srli green (1)) in
  let y := (w_add cg_half t) in
  let y_shifted := (w_slli y (11)) in
  let partial_result := (w_or y_shifted co_shifted) in
  (w_tern (254) g_low green partial_result).

(** src/core/dxt-lossless-transform-common/src/intrinsics/color_565/decorrelate/avx512bw.rs:119-177 *)
Definition decorrelate_ycocg_r_var2_avx512bw (odd : bool) (colors_raw : Z) : Z :=
  let mask_31 := (w_set1_32 odd (2031647)) in
  let mask_g_low := (w_set1_32 odd (-2147450880)) in
  let mask_y_field := (w_set1_32 odd (2080406528)) in
  let colors := colors_raw in
  let red := (w_srli colors (11)) in
  let green := (w_srli colors (6)) in
  let red := (w_sub red colors) in
  let red := (w_and red mask_31) in
  let co_half := (w_srli red (1)) in
  let co_shifted := (w_slli red (5)) in
  let t := (w_add co_half colors) in
  let colors_shifted := (w_slli colors (10)) in
  let co_with_g_low := (w_tern (236) colors_shifted co_shifted mask_g_low) in
  let green := (w_sub green t) in
  let green := (w_and green mask_31) in
  let cg_half := (w_srli green (1)) in
  let y := (w_add cg_half t) in
  let y_shifted := (w_slli y (10)) in
  let y_masked := (w_and y_shifted mask_y_field) in
  (w_tern (254) y_masked green co_with_g_low).

(** src/core/dxt-lossless-transform-common/src/intrinsics/color_565/decorrelate/avx512bw.rs:202-262 *)
Definition decorrelate_ycocg_r_var3_avx512bw (odd : bool) (colors_raw : Z) : Z :=
  let mask_31 := (w_set1_16 (31)) in
  let mask_1 := (w_set1_32 odd (65537)) in
  let colors := colors_raw in
  let red := (w_srli colors (11)) in
  let green := (w_srli colors (6)) in
  let g_low := (w_srli colors (5)) in
  let red := (w_sub red colors) in
  let red := (w_and red mask_31) in
  let co_half := (w_srli red (1)) in
  let co_shifted := (w_slli red (6)) in
  let colors := (w_add co_half colors) in
  let green := (w_sub green colors) in
  let green := (w_and green mask_31) in
  let cg_half := (w_srli green (1)) in
  let cg_shifted := (w_add green green) in
  let colors := (w_add cg_half colors) in
  let y_shifted := (w_slli colors (11)) in
  let result := (w_tern (254) cg_shifted y_shifted co_shifted) in
  let result := (w_tern (248) result g_low mask_1) in
  result.

(** src/core/dxt-lossless-transform-common/src/intrinsics/color_565/recorrelate/sse2.rs:23-50 *)
Definition recorrelate_ycocg_r_var1_sse2 (odd : bool) (colors_raw : Z) : Z :=
  let mask_15 := (w_set1_16 (15)) in
  let mask_32 := (w_set1_16 (32)) in
  let mask_31 := (w_set1_16 (31)) in
  let mask_1984 := (w_set1_16 (1984)) in
  let xmm3 := (w_and colors_raw mask_32) in
  let xmm4 := (w_and (w_srli colors_raw (1)) mask_15) in
  let xmm0 := (w_srli colors_raw (11)) in
  let xmm2 := (w_srli colors_raw (6)) in
  let xmm0 := (w_sub xmm0 xmm4) in
  let xmm4 := (w_add xmm0 colors_raw) in
  let xmm1 := (w_and (w_srli colors_raw (7)) mask_15) in
  let xmm0 := (w_sub xmm0 xmm1) in
  let xmm5 := (w_and xmm0 mask_31) in
  let xmm0 := (w_add xmm0 xmm2) in
  let xmm0 := (w_slli xmm0 (11)) in
  let xmm4 := (w_and (w_slli xmm4 (6)) mask_1984) in
  let result := (w_or xmm0 xmm3) in
  let result := (w_or result xmm5) in
  (w_or result xmm4).

(** src/core/dxt-lossless-transform-common/src/intrinsics/color_565/recorrelate/sse2.rs:65-93 *)
Definition recorrelate_ycocg_r_var2_sse2 (odd : bool) (colors_raw : Z) : Z :=
  let mask_15 := (w_set1_16 (15)) in
  let mask_31 := (w_set1_16 (31)) in
  let mask_32 := (w_set1_16 (32)) in
  let mask_1984 := (w_set1_16 (1984)) in
  let xmm3 := (w_and (w_srli colors_raw (1)) mask_15) in
  let xmm0 := (w_srli colors_raw (10)) in
  let xmm2 := (w_srli colors_raw (5)) in
  let xmm5 := xmm0 in
  let xmm0 := (w_and xmm0 mask_32) in
  let xmm5 := (w_sub xmm5 xmm3) in
  let xmm3 := (w_add xmm5 colors_raw) in
  let xmm1 := (w_and (w_srli colors_raw (6)) mask_15) in
  let xmm3 := (w_and (w_slli xmm3 (6)) mask_1984) in
  let xmm5 := (w_sub xmm5 xmm1) in
  let xmm4 := (w_and xmm5 mask_31) in
  let xmm5 := (w_add xmm5 xmm2) in
  let xmm5 := (w_slli xmm5 (11)) in
  let result := (w_or xmm0 xmm5) in
  let result := (w_or result xmm4) in
  (w_or result xmm3).

(** src/core/dxt-lossless-transform-common/src/intrinsics/color_565/recorrelate/sse2.rs:108-136 *)
Definition recorrelate_ycocg_r_var3_sse2 (odd : bool) (colors_raw : Z) : Z :=
  let mask_15 := (w_set1_16 (15)) in
  let mask_31 := (w_set1_16 (31)) in
  let mask_1984 := (w_set1_16 (1984)) in
  let mask_32 := (w_set1_16 (32)) in
  let xmm4 := (w_and (w_srli colors_raw (2)) mask_15) in
  let xmm6 := (w_and (w_srli colors_raw (7)) mask_15) in
  let xmm1 := (w_srli colors_raw (11)) in
  let xmm3 := (w_srli colors_raw (6)) in
  let xmm0 := (w_and (w_slli colors_raw (5)) mask_32) in
  let xmm2 := (w_srli colors_raw (1)) in
  let xmm1 := (w_sub xmm1 xmm4) in
  let xmm2 := (w_add xmm2 xmm1) in
  let xmm1 := (w_sub xmm1 xmm6) in
  let xmm2 := (w_and (w_slli xmm2 (6)) mask_1984) in
  let xmm5 := (w_and xmm1 mask_31) in
  let xmm1 := (w_add xmm1 xmm3) in
  let xmm1 := (w_slli xmm1 (11)) in
  let result := (w_or xmm0 xmm1) in
  let result := (w_or result xmm5) in
  (w_or result xmm2).

(** src/core/dxt-lossless-transform-common/src/intrinsics/color_565/recorrelate/avx2.rs:23-76 *)
Definition recorrelate_ycocg_r_var1_avx2 (odd : bool) (colors_raw : Z) : Z :=
  let const_32 := (w_set1_16 (32)) in
  let const_31 := (w_set1_16 (31)) in
  let const_1984 := (w_set1_16 (1984)) in
  let mask_15 := (w_set1_16 (15)) in
  let colors := colors_raw in
  let ymm3 := (w_and colors const_32) in
  let ymm4 := (w_srli colors (1)) in
  let ymm4 := (w_and ymm4 mask_15) in
  let ymm1 := (w_srli colors (11)) in
  let ymm1 := (w_sub ymm1 ymm4) in
  let ymm2 := (w_srli colors (6)) in
  let ymm4 := (w_add ymm1 colors) in
  let colors := (w_srli colors (7)) in
  let colors := (w_and colors mask_15) in
  let colors := (w_sub ymm1 colors) in
  let ymm1 := (w_and colors const_31) in
  let colors := (w_add colors ymm2) in
  let colors := (w_slli colors (11)) in
  let colors := (w_or colors ymm3) in
  let colors := (w_or colors ymm1) in
  let ymm1 := (w_slli ymm4 (6)) in
  let ymm1 := (w_and ymm1 const_1984) in
  (w_or colors ymm1).

(** src/core/dxt-lossless-transform-common/src/intrinsics/color_565/recorrelate/avx2.rs:91-146 *)
Definition recorrelate_ycocg_r_var2_avx2 (odd : bool) (colors_raw : Z) : Z :=
  let const_31 := (w_set1_16 (31)) in
  let const_1984 := (w_set1_16 (1984)) in
  let const_32 := (w_set1_16 (32)) in
  let mask_15 := (w_set1_16 (15)) in
  let colors := colors_raw in
  let ymm3 := (w_srli colors (1)) in
  let ymm3 := (w_and ymm3 mask_15) in
  let ymm1 := (w_srli colors (10)) in
  let ymm3 := (w_sub ymm1 ymm3) in
  let ymm2 := (w_srli colors (5)) in
  let ymm1 := (w_and ymm1 const_32) in
  let ymm5 := (w_add ymm3 colors) in
  let colors := (w_srli colors (6)) in
  let colors := (w_and colors mask_15) in
  let colors := (w_sub ymm3 colors) in
  let ymm3 := (w_and colors const_31) in
  let colors := (w_add colors ymm2) in
  let ymm2 := (w_slli ymm5 (6)) in
  let ymm2 := (w_and ymm2 const_1984) in
  let colors := (w_slli colors (11)) in
  let colors := (w_or colors ymm1) in
  let colors := (w_or colors ymm3) in
  (w_or colors ymm2).

(** src/core/dxt-lossless-transform-common/src/intrinsics/color_565/recorrelate/avx2.rs:161-220 *)
Definition recorrelate_ycocg_r_var3_avx2 (odd : bool) (colors_raw : Z) : Z :=
  let const_31 := (w_set1_16 (31)) in
  let const_1984 := (w_set1_16 (1984)) in
  let const_32 := (w_set1_16 (32)) in
  let mask_15 := (w_set1_16 (15)) in
  let colors := colors_raw in
  let ymm4 := (w_srli colors (2)) in
  let ymm4 := (w_and ymm4 mask_15) in
  let ymm1 := (w_srli colors (11)) in
  let ymm1 := (w_sub ymm1 ymm4) in
  let ymm2 := (w_srli colors (6)) in
  let ymm3 := (w_srli colors (1)) in
  let ymm4 := (w_srli colors (7)) in
  let colors := (w_slli colors (5)) in
  let colors := (w_and colors const_32) in
  let ymm4 := (w_and ymm4 mask_15) in
  let ymm3 := (w_add ymm1 ymm3) in
  let ymm1 := (w_sub ymm1 ymm4) in
  let ymm4 := (w_and ymm1 const_31) in
  let ymm1 := (w_add ymm1 ymm2) in
  let ymm2 := (w_slli ymm3 (6)) in
  let ymm2 := (w_and ymm2 const_1984) in
  let ymm1 := (w_slli ymm1 (11)) in
  let colors := (w_or ymm1 colors) in
  let colors := (w_or colors ymm4) in
  (w_or colors ymm2).

(** src/core/dxt-lossless-transform-common/src/intrinsics/color_565/recorrelate/avx512bw.rs:24-62 *)
Definition recorrelate_ycocg_r_var1_avx512bw (odd : bool) (colors_raw : Z) : Z :=
  let mask_15 := (w_set1_16 (15)) in
  let const_1984 := (w_set1_32 odd (130025408)) in
  let const_32 := (w_set1_32 odd (2097184)) in
  let const_31 := (w_set1_32 odd (2031647)) in
  let colors := colors_raw in
  let shifted_1 := (w_srli colors (1)) in
  let blue_shifted := (w_srli colors (11)) in
  let shifted_7 := (w_srli colors (7)) in
  let green_shifted := (w_srli colors (6)) in
  let masked_1 := (w_and shifted_1 mask_15) in
  let masked_7 := (w_and shifted_7 mask_15) in
  let blue_shifted := (w_sub blue_shifted masked_1) in
  let intermediate := (w_add blue_shifted colors) in
  let blue_shifted := (w_sub blue_shifted masked_7) in
  let green_shifted := (w_add blue_shifted green_shifted) in
  let shifted_6 := (w_slli intermediate (6)) in
  let shifted_11 := (w_slli green_shifted (11)) in
  let result := (w_tern (236) shifted_6 shifted_11 const_1984) in
  let result := (w_tern (248) result colors const_32) in
  (w_tern (248) result blue_shifted const_31).

(** src/core/dxt-lossless-transform-common/src/intrinsics/color_565/recorrelate/avx512bw.rs:78-124 *)
Definition recorrelate_ycocg_r_var2_avx512bw (odd : bool) (colors_raw : Z) : Z :=
  let mask_15 := (w_set1_16 (15)) in
  let const_1984 := (w_set1_32 odd (130025408)) in
  let const_32 := (w_set1_32 odd (2097184)) in
  let const_31 := (w_set1_32 odd (2031647)) in
  let colors := colors_raw in
  let shifted_1 := (w_srli colors (1)) in
  let shifted_10 := (w_srli colors (10)) in
  let shifted_5 := (w_srli colors (5)) in
  let shifted_1 := (w_and shifted_1 mask_15) in
  let shifted_1 := (w_sub shifted_10 shifted_1) in
  let intermediate := (w_add shifted_1 colors) in
  let colors := (w_srli colors (6)) in
  let colors := (w_and colors mask_15) in
  let colors := (w_sub shifted_1 colors) in
  let shifted_6 := (w_slli intermediate (6)) in
  let shifted_5 := (w_add colors shifted_5) in
  let shifted_11 := (w_slli shifted_5 (11)) in
  let result := (w_tern (236) shifted_6 shifted_11 const_1984) in
  let result := (w_tern (248) result shifted_10 const_32) in
  (w_tern (248) result colors const_31).

(** src/core/dxt-lossless-transform-common/src/intrinsics/color_565/recorrelate/avx512bw.rs:140-190 *)
Definition recorrelate_ycocg_r_var3_avx512bw (odd : bool) (colors_raw : Z) : Z :=
  let mask_15 := (w_set1_16 (15)) in
  let const_1984 := (w_set1_32 odd (130025408)) in
  let const_32 := (w_set1_32 odd (2097184)) in
  let const_31 := (w_set1_32 odd (2031647)) in
  let colors := colors_raw in
  let shifted_2 := (w_srli colors (2)) in
  let blue_shifted := (w_srli colors (11)) in
  let shifted_7 := (w_srli colors (7)) in
  let shifted_1 := (w_srli colors (1)) in
  let green_shifted := (w_srli colors (6)) in
  let colors := (w_slli colors (5)) in
  let shifted_2 := (w_and shifted_2 mask_15) in
  let blue_shifted := (w_sub blue_shifted shifted_2) in
  let shifted_2 := (w_and shifted_7 mask_15) in
  let shifted_1 := (w_add blue_shifted shifted_1) in
  let blue_shifted := (w_sub blue_shifted shifted_2) in
  let green_shifted := (w_add blue_shifted green_shifted) in
  let shifted_6 := (w_slli shifted_1 (6)) in
  let shifted_11 := (w_slli green_shifted (11)) in
  let combined_result := (w_tern (236) shifted_6 shifted_11 const_1984) in
  let colors := (w_tern (236) colors combined_result const_32) in
  (w_tern (248) colors blue_shifted const_31).

