(** C70: the fuzz targets. *)
From Verif Require Import Base.Bytes Base.Res Model.Color565 Model.Decode Model.Normalize Model.Fuzz Spec.Pixels Spec.Normalize Proofs.FuzzFacts.
From Coq Require Import String.
Open Scope list_scope.
Open Scope Z_scope.

(** C70: no BC1 block makes a target for normalisation fail, in either build; *)
Theorem C70_bc1_targets : forall debug (block : list byte), zlen block = 8 ->
  fuzz_bc1_normalize debug block = Ok tt /\ fuzz_bc1_normalize_all_modes debug block = Ok tt /\ fuzz_bc1_normalize_in_place block = Ok tt.
Proof. intros debug block L. split; [exact (fuzz_bc1_normalize_ok debug block L)|]. split; [exact (fuzz_bc1_all_ok debug block L)|exact (fuzz_bc1_in_place_ok block L)]. Qed.
Print Assumptions C70_bc1_targets.
(** no BC2 block, *)
Theorem C70_bc2_targets : forall debug (block : list byte), zlen block = 16 ->
  fuzz_bc2_normalize debug block = Ok tt /\ fuzz_bc2_normalize_all_modes debug block = Ok tt /\ fuzz_bc2_normalize_in_place block = Ok tt /\
  fuzz_bc2_decode_color_only block = Ok tt.
Proof.
  intros debug block L. split; [exact (fuzz_bc2_normalize_ok debug block L)|]. split; [exact (fuzz_bc2_all_ok debug block L)|].
  split; [exact (fuzz_bc2_in_place_ok block L)|exact (color_only_ok block L)].
Qed.
Print Assumptions C70_bc2_targets.
(** and no BC3 block. *)
Theorem C70_bc3_targets : forall debug (block : list byte), zlen block = 16 ->
  fuzz_bc3_normalize debug block = Ok tt /\ fuzz_bc3_normalize_all_modes debug block = Ok tt /\ fuzz_bc3_normalize_in_place block = Ok tt.
Proof. intros debug block L. split; [exact (fuzz_bc3_normalize_ok debug block L)|]. split; [exact (fuzz_bc3_all_ok debug block L)|exact (fuzz_bc3_in_place_ok block L)]. Qed.
Print Assumptions C70_bc3_targets.

(** The targets that compare with other decoders fail exactly on the blocks for
    which those decoders do not give the picture of Spec/Pixels.v (blocks in which
    the first colour is not the greater one are passed over for BC2 and BC3). *)
Theorem C70_bc1_decode : forall (rgbcx_bc1 : list byte -> list color8888) (block : list byte), zlen block = 8 ->
  fuzz_bc1_decode rgbcx_bc1 block = Ok tt <-> rgbcx_bc1 block = picture bc1_pixel block.
Proof. exact decode1_iff. Qed.
Print Assumptions C70_bc1_decode.
Theorem C70_bc2_decode : forall rgbcx_bc1 bcdec_bc2 : list byte -> list color8888,
  (forall b, zlen b = 8 -> rgbcx_bc1 b = picture bc1_pixel b) ->
  forall block : list byte, zlen block = 16 ->
  (fuzz_bc2_decode rgbcx_bc1 bcdec_bc2 block = Ok tt <->
   (skipped block = false -> firstn 16 (map c_a (bcdec_bc2 block)) = map c_a (picture bc2_pixel block))).
Proof. intros rgbcx_bc1 bcdec_bc2. exact (decode2_ok rgbcx_bc1 bcdec_bc2 (fun _ => [])). Qed.
Print Assumptions C70_bc2_decode.
Theorem C70_bc3_decode : forall (rgbcx_bc3 : list byte -> list color8888) (block : list byte), zlen block = 16 ->
  (fuzz_bc3_decode rgbcx_bc3 block = Ok tt <-> (skipped block = false -> rgbcx_bc3 block = picture bc3_pixel block)).
Proof. exact decode3_iff. Qed.
Print Assumptions C70_bc3_decode.
(** What is passed over. *)
Theorem C70_skipped : forall block : list byte, zlen block = 16 ->
  skipped block = true <-> le (slice block 8 2) <= le (slice block 10 2).
Proof. exact skipped_iff. Qed.
Print Assumptions C70_skipped.

(** The targets can fail: here with a decoder in which red and blue are exchanged. *)
Example C70_case : let swapped b := map (fun p => mkC (c_b p) (c_g p) (c_r p) (c_a p)) (picture bc1_pixel b) in
  let b := [x1f; x00; x00; x00; x00; x00; x00; x00] in
  (exists why, fuzz_bc1_decode swapped b = Panic why) /\ fuzz_bc1_decode (picture bc1_pixel) b = Ok tt /\
  skipped (repeat x00 8 ++ b) = false /\ fuzz_bc3_decode (picture bc3_pixel) (repeat x00 8 ++ b) = Ok tt /\
  fuzz_bc3_normalize_all_modes true (repeat x00 8 ++ b) = Ok tt.
Proof. cbv zeta. split; [eexists; vm_compute; reflexivity|]. split; [vm_compute; reflexivity|]. split; [reflexivity|]. split; vm_compute; reflexivity. Qed.
