(** C32: choosing a handler. *)
From Verif Require Import Base.Bytes Base.Res Model.Kernel Model.Transform Model.Builders Model.Bundle Model.Dds Model.Handlers.
From Verif Require Import Spec.Files Spec.Dds Spec.Handlers Proofs.HandlersFacts Props.PDds Props.Cases.

(** The handlers may be anything: [W] is any state they look at and change. The
    first one that accepts does the work, and is returned if it succeeds. *)
Theorem C32_first_handler : forall (B W : Type) (pre : list (handler B W)) (h : handler B W) (post : list (handler B W)) (input output : list byte) (b : B) (w w1 w2 : W),
  zlen input <= zlen output ->
  (all_decline (fun g => h_can_handle g input None) pre w w1 -> h_can_handle h input None w1 = Ok (true, w2) ->
   transform_slice_with_multiple_handlers (pre ++ h :: post) input output b w =
   match h_transform h b input output w2 with
   | Ok (ROk _, o, w3) => Ok (ROk h, o, w3)
   | Ok (RErr e, o, w3) => Ok (RErr e, o, w3)
   | Panic y => Panic y
   | Ub y => Ub y
   end) /\
  (all_decline (fun g => h_can_handle_untransform g input None) pre w w1 -> h_can_handle_untransform h input None w1 = Ok (true, w2) ->
   untransform_slice_with_multiple_handlers (pre ++ h :: post) input output w =
   match h_untransform h input output w2 with
   | Ok (ROk _, o, w3) => Ok (ROk h, o, w3)
   | Ok (RErr e, o, w3) => Ok (RErr e, o, w3)
   | Panic y => Panic y
   | Ub y => Ub y
   end).
Proof. exact multi_first. Qed.
Print Assumptions C32_first_handler.

(** None accepts: the error, and the output as it was. *)
Theorem C32_no_handler : forall (B W : Type) (hs : list (handler B W)) (input output : list byte) (b : B) (w w1 : W), zlen input <= zlen output ->
  (all_decline (fun g => h_can_handle g input None) hs w w1 ->
   transform_slice_with_multiple_handlers hs input output b w = Ok (RErr NoSupportedHandler, output, w1)) /\
  (all_decline (fun g => h_can_handle_untransform g input None) hs w w1 ->
   untransform_slice_with_multiple_handlers hs input output w = Ok (RErr NoSupportedHandler, output, w1)).
Proof. exact multi_none. Qed.
Print Assumptions C32_no_handler.

(** A short output is an error before any handler is asked anything. *)
Theorem C32_short_output : forall (B W : Type) (hs : list (handler B W)) (h : handler B W) (input output : list byte) (b : B) (w : W), zlen output < zlen input ->
  let e := EFormatHandler (FhOutputBufferTooSmall (zlen input) (zlen output)) in
  transform_slice_with_multiple_handlers hs input output b w = Ok (RErr e, output, w) /\
  untransform_slice_with_multiple_handlers hs input output w = Ok (RErr e, output, w) /\
  transform_slice_with_bundle h input output b w = Ok (RErr e, output, w) /\
  untransform_slice h input output w = Ok (RErr e, output, w).
Proof. exact multi_short. Qed.
Print Assumptions C32_short_output.

(** The handlers number themselves 0, 1, 2, ... and note their number when asked
    to do work. Whenever the call returns, the note names nobody, or just the
    first handler that accepts. *)
Theorem C32_others_not_called : forall (B W : Type) (hs : list (handler B W)) (input output : list byte) (b : B) (w : W) r o w' (log : list nat),
  transform_slice_with_multiple_handlers (watched_from 0 hs) input output b (w, []) = Ok (r, o, (w', log)) ->
  (log = [] /\ exists e, r = RErr e /\ o = output) \/
  exists pre h post w1 w2 r', hs = pre ++ h :: post /\ all_decline (fun g => h_can_handle g input None) pre w w1 /\
    h_can_handle h input None w1 = Ok (true, w2) /\ h_transform h b input output w2 = Ok (r', o, w') /\ log = [List.length pre].
Proof. exact multi_watched. Qed.
Print Assumptions C32_others_not_called.
Theorem C32_others_not_called_back : forall (B W : Type) (hs : list (handler B W)) (input output : list byte) (w : W) r o w' (log : list nat),
  untransform_slice_with_multiple_handlers (watched_from 0 hs) input output (w, []) = Ok (r, o, (w', log)) ->
  (log = [] /\ exists e, r = RErr e /\ o = output) \/
  exists pre h post w1 w2 r', hs = pre ++ h :: post /\ all_decline (fun g => h_can_handle_untransform g input None) pre w w1 /\
    h_can_handle_untransform h input None w1 = Ok (true, w2) /\ h_untransform h input output w2 = Ok (r', o, w') /\ log = [List.length pre].
Proof. exact multi_watched_back. Qed.
Print Assumptions C32_others_not_called_back.

(** A handler that refuses everything, the DDS handler, and one that accepts
    everything; the second does the work. *)
Definition refuses : handler (bundle unit unit) unit :=
  Handler (fun _ _ _ _ => Panic "not me") (fun _ _ _ => Panic "not me") (fun _ _ w => Ok (false, w)) (fun _ _ w => Ok (false, w)).
Definition accepts_all : handler (bundle unit unit) unit :=
  Handler (fun _ _ _ _ => Panic "not me") (fun _ _ _ => Panic "not me") (fun _ _ w => Ok (true, w)) (fun _ _ w => Ok (true, w)).
Definition dds : handler (bundle unit unit) unit := dds_handler (fun _ => EmptyString) cpu env64.
Example C32_nontrivial :
  all_decline (fun g => h_can_handle g file1 None) [refuses; refuses] tt tt /\ h_can_handle dds file1 None tt = Ok (true, tt) /\
  (exists y, transform_slice_with_multiple_handlers (watched_from 0 [refuses; refuses; dds; accepts_all]) file1 file1 (manual CBc1) (tt, []) =
             Ok (ROk (watched 2 dds), y, (tt, [2%nat]))) /\
  transform_slice_with_multiple_handlers [refuses; dds] (numbers 200) file1 (manual CBc1) tt = Ok (RErr (EFormatHandler (FhOutputBufferTooSmall 200 163)), file1, tt) /\
  transform_slice_with_multiple_handlers [refuses; dds] (numbers 160) file1 (manual CBc1) tt = Ok (RErr NoSupportedHandler, file1, tt).
Proof.
  split; [exists tt; split; [reflexivity|exists tt; split; reflexivity]|].
  split; [vm_compute; reflexivity|]. split.
  - assert (E : exists y, h_transform dds (manual CBc1) file1 file1 tt = Ok (ROk tt, y, tt)) by (eexists; vm_compute; reflexivity).
    destruct E as (y & E). exists y. unfold transform_slice_with_multiple_handlers. replace (zlen file1 <? zlen file1) with false by (vm_compute; reflexivity).
    cbn [watched_from try_handlers watched h_can_handle h_transform refuses bind fst snd].
    assert (A : h_can_handle dds file1 None tt = Ok (true, tt)) by (vm_compute; reflexivity).
    rewrite A. cbn [bind h_transform watched fst snd]. rewrite E. reflexivity.
  - split; vm_compute; reflexivity.
Qed.

(** two handlers that refuse, then the DDS handler, then one that accepts everything *)
Example C32_first_handler_met :
  let B := bundle unit unit in let W := unit in let pre := [refuses; refuses] in let h := dds in let post := [accepts_all] in let input := file1 in let output := file1 in
  let b := manual CBc1 in let w := tt in let w1 := tt in let w2 := tt in
  zlen input <= zlen output /\ all_decline (fun g => h_can_handle g input None) pre w w1 /\ h_can_handle h input None w1 = Ok (true, w2).
Proof. met. Qed.

(** bytes that are no DDS file *)
Example C32_no_handler_met :
  let B := bundle unit unit in let W := unit in let hs := [refuses; dds] in let input := numbers 100 in let output := file1 in let b := manual CBc1 in let w := tt in let
  w1 := tt in
  zlen input <= zlen output /\ all_decline (fun g => h_can_handle g input None) hs w w1 /\ all_decline (fun g => h_can_handle_untransform g input None) hs w w1.
Proof. met. Qed.

(** a shorter file as output *)
Example C32_short_output_met :
  let B := bundle unit unit in let W := unit in let hs := [accepts_all; dds] in let h := dds in let input := file1 in let output := file2 in let b := manual CBc1 in let w
  := tt in
  zlen output < zlen input.
Proof. met. Qed.
