(** Generated by tools/rs2v.py --big from the kernel sources cited below: the same
    sources as Model/Gen*.v, compiled for a big-endian machine that is not an x86.
    Do not edit. Simplifications: usize arithmetic is exact (lengths are below
    isize::MAX), see Model/Kernel.v and Model/BigEndian.v for the machine. *)
From Verif Require Import Base.Bytes Base.Res Model.Color565 Model.Ycc Model.Kernel Model.BigEndian.
Open Scope string_scope.
Open Scope list_scope.
Open Scope Z_scope.

(** Loop at src/core/dxt-lossless-transform-common/src/transforms/split_565_color_endpoints/portable32.rs:55. *)
Definition be_common_transforms_split_565_color_endpoints_portable32_u32_with_separate_endpoints_loop1 : list instr :=
  be_body
  [ILoad "color0" "input" 0 4;
    IAdd "input" 4;
    IOp "t2" (OShr 2) ["color0"];
    IOp "t3" (OBytes 0 2) ["t2"];
    IStore "output0" 0 2 "t3";
    IAdd "output0" 2;
    IOp "t5" (OBytes 0 2) ["color0"];
    IStore "output1" 0 2 "t5";
    IAdd "output1" 2].

(** src/core/dxt-lossless-transform-common/src/transforms/split_565_color_endpoints/portable32.rs:49-64, fn u32_with_separate_endpoints *)
Definition be_common_transforms_split_565_color_endpoints_portable32_u32_with_separate_endpoints (c : cfg) (max_input_ptr : ptr) (input : ptr) (output0 : ptr) (output1 : ptr) (m : mem) : res mem :=
  do s <- while_lt (c_junk c) 0 be_common_transforms_split_565_color_endpoints_portable32_u32_with_separate_endpoints_loop1 "input" max_input_ptr (St [] [("input", input); ("output0", output0); ("output1", output1)] m) ;;
  let m := mm s in
  do input <- getp s "input" ;;
  do output0 <- getp s "output0" ;;
  do output1 <- getp s "output1" ;;
  Ok m.

(** src/core/dxt-lossless-transform-common/src/transforms/split_565_color_endpoints/portable32.rs:18-31, fn u32 *)
Definition be_common_transforms_split_565_color_endpoints_portable32_u32 (c : cfg) (colors : ptr) (colors_out : ptr) (colors_len_bytes : Z) (m : mem) : res mem :=
  do _ <- debug_assert (c_debug c) ((4 <=? colors_len_bytes) && (colors_len_bytes mod 4 =? 0)) "colors_len_bytes >= 4 && colors_len_bytes . is_multiple_of (" ;;
  do max_input_ptr <- ptr_add m colors (colors_len_bytes) ;;
  let input := colors in
  let output0 := colors_out in
  do output1 <- ptr_add m colors_out (colors_len_bytes / 2) ;;
  do m <- be_common_transforms_split_565_color_endpoints_portable32_u32_with_separate_endpoints c max_input_ptr input output0 output1 m ;;
  Ok m.

(** src/core/dxt-lossless-transform-common/src/transforms/split_565_color_endpoints/mod.rs:110-130, fn split_color_endpoints *)
Definition be_common_transforms_split_565_color_endpoints_split_color_endpoints (c : cfg) (colors : ptr) (colors_out : ptr) (colors_len_bytes : Z) (m : mem) : res mem :=
  do _ <- debug_assert (c_debug c) ((4 <=? colors_len_bytes) && (colors_len_bytes mod 4 =? 0)) "colors_len_bytes >= 4 && colors_len_bytes . is_multiple_of (" ;;
  do m <- be_common_transforms_split_565_color_endpoints_portable32_u32 c colors colors_out colors_len_bytes m ;;
  Ok m.

