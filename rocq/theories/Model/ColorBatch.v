(** Batch YCoCg-R conversion through raw pointers.
    src/core/dxt-lossless-transform-common/src/color_565/decorrelate_batch_split_ptr.rs *)
From Verif Require Import Base.Bytes Base.Res Model.Color565 Model.Ycc Model.Kernel.
Open Scope string_scope.
Open Scope list_scope.
Open Scope Z_scope.

(** src/core/dxt-lossless-transform-common/src/color_565/decorrelate_batch_split_ptr.rs:120-132 (var1), 200-212 (var2), 280-292 (var3): the body of
    [for x in 0..num_items / 2]. Simplification: the index [x] is replaced by pointers that
    advance, [src.add(x)] being the pointer after [x] turns; multiversion copies are one function. *)
Definition color_batch_recorr_split_body : list instr :=
  [ILoad "color_0" "src_ptr_0" 0 2;
   ILoad "color_1" "src_ptr_1" 0 2;
   IOp "r0" (OYcc Scalar Rec V1 V2 V3) ["color_0"];
   IStore "dst_ptr" 0 2 "r0";
   IOp "r1" (OYcc Scalar Rec V1 V2 V3) ["color_1"];
   IStore "dst_ptr" 2 2 "r1";
   IAdd "src_ptr_0" 2;
   IAdd "src_ptr_1" 2;
   IAdd "dst_ptr" 4].

(** src/core/dxt-lossless-transform-common/src/color_565/decorrelate_batch_split_ptr.rs:346-356, the same loop for [YCoCgVariant::None]. *)
Definition color_batch_copy_split_body : list instr :=
  [ILoad "color_0" "src_ptr_0" 0 2;
   ILoad "color_1" "src_ptr_1" 0 2;
   IStore "dst_ptr" 0 2 "color_0";
   IStore "dst_ptr" 2 2 "color_1";
   IAdd "src_ptr_0" 2;
   IAdd "src_ptr_1" 2;
   IAdd "dst_ptr" 4].

(** src/core/dxt-lossless-transform-common/src/color_565/decorrelate_batch_split_ptr.rs:324-358, fn recorrelate_ycocg_r_ptr_split *)
Definition color_batch_recorrelate_ptr_split (c : cfg) (src_ptr_0 src_ptr_1 dst_ptr : ptr) (num_items : Z)
  (v : variant) (m : mem) : res mem :=
  do _ <- debug_assert (c_debug c) (num_items mod 2 =? 0) "num_items must be even for split operations" ;;
  do e <- ptr_add m src_ptr_0 (num_items / 2 * 2) ;;
  let body := match v with VNone => color_batch_copy_split_body | _ => color_batch_recorr_split_body end in
  do s <- while_lt (c_junk c) (vnum v) body "src_ptr_0" e
            (St [] [("src_ptr_0", src_ptr_0); ("src_ptr_1", src_ptr_1); ("dst_ptr", dst_ptr)] m) ;;
  Ok (mm s).
