(** C36: the block decoders. Spec/Pixels.v says which picture a block stands for. *)
From Verif Require Import Base.Bytes Base.Res Model.Color565 Model.Decode Spec.Pixels Proofs.DecodeFacts.

(** C36: a slice that is too short gives None; any other gives the block's 16 pixels. The decoders of unchecked pointers give the same pixels if the block's bytes are there. Nothing panics or overflows. *)
Theorem C36_decoders : forall b : list byte,
  decode_bc1_block_from_slice b = Ok (if zlen b <? 8 then None else Some (picture bc1_pixel b)) /\
  decode_bc2_block_from_slice b = Ok (if zlen b <? 16 then None else Some (picture bc2_pixel b)) /\
  decode_bc3_block_from_slice b = Ok (if zlen b <? 16 then None else Some (picture bc3_pixel b)) /\
  (8 <= zlen b -> decode_bc1_block b = Ok (picture bc1_pixel b)) /\
  (16 <= zlen b -> decode_bc2_block b = Ok (picture bc2_pixel b)) /\
  (16 <= zlen b -> decode_bc3_block b = Ok (picture bc3_pixel b)).
Proof. exact lC36. Qed.
Print Assumptions C36_decoders.

(** C36: what follows the first block does not matter. *)
Theorem C36_first_block_only : forall b t : list byte,
  (zlen b = 8 -> decode_bc1_block_from_slice (b ++ t) = decode_bc1_block_from_slice b) /\
  (zlen b = 16 -> decode_bc2_block_from_slice (b ++ t) = decode_bc2_block_from_slice b) /\
  (zlen b = 16 -> decode_bc3_block_from_slice (b ++ t) = decode_bc3_block_from_slice b).
Proof. exact lC36_first_block_only. Qed.
Print Assumptions C36_first_block_only.

(** Pixels of concrete blocks: a BC1 block with all four indices in both modes, and a BC3 block with interpolated alpha. *)
Example C36_case :
  firstn 4 (picture bc1_pixel [xff; xff; x00; x00; xe4; x00; x00; x00]) =
    [mkC 255 255 255 255; mkC 0 0 0 255; mkC 170 170 170 255; mkC 85 85 85 255] /\
  firstn 4 (picture bc1_pixel [x00; x00; xff; xff; xe4; x00; x00; x00]) =
    [mkC 0 0 0 255; mkC 255 255 255 255; mkC 127 127 127 255; mkC 0 0 0 0] /\
  map c_a (firstn 8 (picture bc3_pixel [xff; x00; x88; xc6; xfa; x00; x00; x00; x00; x00; x00; x00; x00; x00; x00; x00])) =
    [255; 0; 218; 182; 145; 109; 72; 36] /\
  map c_a (firstn 2 (picture bc2_pixel [x3f; x00; x00; x00; x00; x00; x00; x00; x00; x00; x00; x00; x00; x00; x00; x00])) = [255; 51].
Proof. vm_compute. auto 10. Qed.
