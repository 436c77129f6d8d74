(** C94: normalising with buffers that overlap in part. *)
From Verif Require Import Base.Bytes Base.Res Model.Color565 Model.Decode Model.Normalize Spec.Pixels Spec.Normalize Spec.Overlap
  Proofs.Overlap.

(** C94: with debug assertions a call that normalises for one mode succeeds if the output is the input or shares nothing with
    it and the length is whole, and panics otherwise. Only copying for BC1's mode None accepts any length. *)
Theorem C94_one_mode : forall m inp out len, within m inp len -> within m out len ->
  (forall mode (fine := clear_of len inp out /\ (mode = CNone \/ len mod 8 = 0)),
    (fine -> exists m', bc1_normalize_blocks true inp out len mode m = Ok m') /\ (~ fine -> stops (bc1_normalize_blocks true inp out len mode m))) /\
  (forall mode (fine := clear_of len inp out /\ len mod 16 = 0),
    (fine -> exists m', bc2_normalize_blocks true inp out len mode m = Ok m') /\ (~ fine -> stops (bc2_normalize_blocks true inp out len mode m))) /\
  (forall amode cmode (fine := clear_of len inp out /\ len mod 16 = 0),
    (fine -> exists m', bc3_normalize_blocks true inp out len amode cmode m = Ok m') /\ (~ fine -> stops (bc3_normalize_blocks true inp out len amode cmode m))).
Proof.
  intros m inp out len WI WO. split; [|split].
  - intros mode. exact (bc1_one m inp out len mode WI WO).
  - intros mode. exact (bc2_one m inp out len mode WI WO).
  - intros amode cmode. exact (bc3_one m inp out len amode cmode WI WO).
Qed.
Print Assumptions C94_one_mode.

(** C94: normalising for all modes panics as soon as one of the outputs overlaps the input in part; for BC3, also if it is the input. *)
Theorem C94_all_modes : forall m inp len outs o, In o outs ->
  (~ clear_of len inp o \/ len mod 8 <> 0 -> stops (bc1_normalize_blocks_all_modes true inp outs len m)) /\
  (~ clear_of len inp o \/ len mod 16 <> 0 -> stops (bc2_normalize_blocks_all_modes true inp outs len m)) /\
  (~ apart len inp o \/ len mod 16 <> 0 -> stops (bc3_normalize_blocks_all_modes true inp outs len m)).
Proof. exact all_modes_stop. Qed.
Print Assumptions C94_all_modes.

(** C94: without debug assertions nothing guards against it: such a call returns and a block has another picture. *)
Theorem C94_release_refuted : forall mode, mode <> CNone -> exists m m', within m 0 16 /\ within m 8 16 /\ bc1_normalize_blocks false 0 8 16 mode m = Ok m' /\
  picture bc1_pixel (slice m' 16 8) <> picture bc1_pixel (slice m 8 8).
Proof. exact unchecked_overlap. Qed.
Print Assumptions C94_release_refuted.

(** Two blocks into buffers at distance 8, 15 and 16 on either side, and at the input itself. *)
Example C94_case : (forall o, In o [8; 24; 1; 31] -> ~ clear_of 16 16 o /\ within (repeat x00 48) o 16) /\
  (forall o, In o [0; 16; 32] -> clear_of 16 16 o /\ within (repeat x00 48) o 16 /\ exists m', bc1_normalize_blocks true 16 o 16 Color0Only (repeat x00 48) = Ok m') /\
  (exists m', bc1_normalize_blocks true 0 3 3 CNone (repeat x01 6) = Ok m') /\ stops (bc1_normalize_blocks true 0 3 3 Color0Only (repeat x01 6)).
Proof.
  unfold clear_of, apart, within. change (zlen (repeat x00 48)) with 48. split; [|split; [|split]].
  - intros o I. cbn [In] in I. lia.
  - intros o I. split; [cbn [In] in I; lia|]. split; [cbn [In] in I; lia|].
    destruct I as [<-|[<-|[<-|[]]]]; eexists; vm_compute; reflexivity.
  - eexists. vm_compute. reflexivity.
  - eexists. vm_compute. reflexivity.
Qed.
