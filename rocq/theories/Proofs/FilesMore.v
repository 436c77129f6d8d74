(** The file functions that read from or write to memory. *)
From Verif Require Import Base.Bytes Base.Res Model.Kernel Model.Transform Model.Auto Model.Builders Model.Embed Model.Bundle Model.Dds Model.Handlers.
From Verif Require Import Spec.Files Spec.Dds Spec.Handlers Proofs.HandlersFacts.
From Coq Require Import ZifyBool ZifyNat.
Open Scope list_scope.
Open Scope Z_scope.

Lemma unreadable : forall (o : io) (fs : files) (p : path), cannot_read o fs p -> map_input o fs p = RErr FIo.
Proof.
  intros o fs p C. unfold map_input. destruct (fs p) eqn:F; [|reflexivity].
  destruct (open_ok o p) eqn:O, (map_ok o p) eqn:M; cbn [andb]; try reflexivity. destruct C as [C|[C|C]]; congruence.
Qed.
Lemma readable : forall (o : io) (fs : files) (p : path) (x : list byte), can_read o fs p x -> map_input o fs p = ROk x.
Proof. intros o fs p x (F & O & M). unfold map_input. rewrite F, O, M. reflexivity. Qed.

Section FromMemory.
Context {B W : Type}.
Notation H := (handler B W).

Lemma into_new_none : forall o (run : list byte -> W -> res (result unit transform_error * list byte * W)) p n op fs w, p <> op ->
  into_new_file o run (Some p) n op fs w = into_new_file o run None n op fs w.
Proof.
  intros o run p n op fs w N. unfold into_new_file. destruct (create_preallocated o fs op n); [|reflexivity]. destruct (negb (map_ok o op)); [reflexivity|].
  replace (String.eqb p op) with false; [reflexivity|]. symmetry. apply String.eqb_neq. exact N.
Qed.
Lemma tryf_ext : forall {O} (acc : H -> W -> res (bool * W)) run run', (forall h (out : O) w, run h out w = run' h out w) ->
  forall hs out w, try_file_handlers acc run hs out w = try_file_handlers acc run' hs out w.
Proof.
  intros O acc run run' R hs out. induction hs as [|h hs IH]; intros w; [reflexivity|]. cbn [try_file_handlers].
  destruct (acc h w) as [[[] w1]| |]; cbn [bind]; [|apply IH|reflexivity|reflexivity]. rewrite R. reflexivity.
Qed.

Lemma from_memory : forall ext o (h : H) hs p p2 b fs w x, can_read o fs p x -> p <> p2 ->
  transform_slice_to_file_with_handler o h x p2 b fs w = transform_file_with_handler o h p p2 b fs w /\
  untransform_slice_to_file_with_handler o h x p2 fs w = untransform_file_with_handler o h p p2 fs w /\
  transform_slice_to_file_with_multiple_handlers o hs x p2 b (ext p) fs w = transform_file_with_multiple_handlers ext o hs p p2 b fs w /\
  untransform_slice_to_file_with_multiple_handlers o hs x p2 (ext p) fs w = untransform_file_with_multiple_handlers ext o hs p p2 fs w.
Proof.
  intros ext o h hs p p2 b fs w x M N. apply readable in M.
  unfold transform_slice_to_file_with_handler, untransform_slice_to_file_with_handler, transform_slice_to_file_with_multiple_handlers, untransform_slice_to_file_with_multiple_handlers,
    transform_file_with_handler, untransform_file_with_handler, transform_file_with_multiple_handlers, untransform_file_with_multiple_handlers.
  rewrite M. rewrite !into_new_none by exact N. split; [reflexivity|]. split; [reflexivity|].
  split; apply tryf_ext; intros g out w'; rewrite into_new_none by exact N; reflexivity.
Qed.

Lemma to_memory_first : forall ext o pre (h : H) post p b fs (out : list byte) w w1 w2 x, can_read o fs p x -> zlen x <= zlen out ->
  (all_decline (fun g => h_can_handle g x (ext p)) pre w w1 -> h_can_handle h x (ext p) w1 = Ok (true, w2) ->
   transform_file_to_slice_with_multiple_handlers ext o (pre ++ h :: post) p out b fs w =
   chosen h (transform_file_to_slice_with_handler o h p out b fs w2)) /\
  (all_decline (fun g => h_can_handle_untransform g x (ext p)) pre w w1 -> h_can_handle_untransform h x (ext p) w1 = Ok (true, w2) ->
   untransform_file_to_slice_with_multiple_handlers ext o (pre ++ h :: post) p out fs w =
   chosen h (untransform_file_to_slice_with_handler o h p out fs w2)).
Proof.
  intros ext o pre h post p b fs out w w1 w2 x M L. apply readable in M.
  unfold transform_file_to_slice_with_multiple_handlers, untransform_file_to_slice_with_multiple_handlers, transform_file_to_slice_with_handler, untransform_file_to_slice_with_handler.
  rewrite M. replace (zlen out <? zlen x) with false by lia. split; intros D A; exact (tryf_first _ _ _ _ _ _ _ _ _ D A).
Qed.
Lemma to_memory_none : forall ext o (hs : list H) p b fs (out : list byte) w w1 x, can_read o fs p x -> zlen x <= zlen out ->
  (all_decline (fun g => h_can_handle g x (ext p)) hs w w1 ->
   transform_file_to_slice_with_multiple_handlers ext o hs p out b fs w = Ok (RErr (FTransform NoSupportedHandler), out, w1)) /\
  (all_decline (fun g => h_can_handle_untransform g x (ext p)) hs w w1 ->
   untransform_file_to_slice_with_multiple_handlers ext o hs p out fs w = Ok (RErr (FTransform NoSupportedHandler), out, w1)).
Proof.
  intros ext o hs p b fs out w w1 x M L. apply readable in M. unfold transform_file_to_slice_with_multiple_handlers, untransform_file_to_slice_with_multiple_handlers.
  rewrite M. replace (zlen out <? zlen x) with false by lia. split; intros D; exact (tryf_none _ _ _ _ _ _ D).
Qed.
Lemma to_memory_short : forall ext o (h : H) hs p b fs (out : list byte) w x, can_read o fs p x -> zlen out < zlen x ->
  let e := FTransform (EFormatHandler (FhOutputBufferTooSmall (zlen x) (zlen out))) in
  transform_file_to_slice_with_handler o h p out b fs w = Ok (RErr e, out, w) /\
  untransform_file_to_slice_with_handler o h p out fs w = Ok (RErr e, out, w) /\
  transform_file_to_slice_with_multiple_handlers ext o hs p out b fs w = Ok (RErr e, out, w) /\
  untransform_file_to_slice_with_multiple_handlers ext o hs p out fs w = Ok (RErr e, out, w).
Proof.
  intros ext o h hs p b fs out w x M L e. apply readable in M.
  unfold transform_file_to_slice_with_multiple_handlers, untransform_file_to_slice_with_multiple_handlers, transform_file_to_slice_with_handler, untransform_file_to_slice_with_handler, into_prefix.
  rewrite M. replace (zlen out <? zlen x) with true by lia. repeat split.
Qed.
Lemma no_input : forall ext o (h : H) hs p p2 b fs (out : list byte) w, cannot_read o fs p ->
  transform_file_with_handler o h p p2 b fs w = Ok (RErr FIo, fs, w) /\
  untransform_file_with_handler o h p p2 fs w = Ok (RErr FIo, fs, w) /\
  transform_file_with_multiple_handlers ext o hs p p2 b fs w = Ok (RErr FIo, fs, w) /\
  untransform_file_with_multiple_handlers ext o hs p p2 fs w = Ok (RErr FIo, fs, w) /\
  transform_file_to_slice_with_handler o h p out b fs w = Ok (RErr FIo, out, w) /\
  untransform_file_to_slice_with_handler o h p out fs w = Ok (RErr FIo, out, w) /\
  transform_file_to_slice_with_multiple_handlers ext o hs p out b fs w = Ok (RErr FIo, out, w) /\
  untransform_file_to_slice_with_multiple_handlers ext o hs p out fs w = Ok (RErr FIo, out, w).
Proof.
  intros ext o h hs p p2 b fs out w M. apply unreadable in M.
  unfold transform_file_with_handler, untransform_file_with_handler, transform_file_with_multiple_handlers, untransform_file_with_multiple_handlers,
    transform_file_to_slice_with_multiple_handlers, untransform_file_to_slice_with_multiple_handlers, transform_file_to_slice_with_handler, untransform_file_to_slice_with_handler.
  rewrite M. repeat split.
Qed.
End FromMemory.
